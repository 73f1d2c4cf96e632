SenderReady
MessageRead
Lookup
Builders
Records
Outcome
Load
