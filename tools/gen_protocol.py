"""Translates codec/src/protocol/definitions.rs into Protocol.v, SpecProtocol.v
and the per-type part of the proofs (ProtocolGood.v).

The translation is syntactic: for every `decode_*_inner` with a list header it
reads the field declarations, and checks that the struct, FIELD_COUNT, the size
function and the encoder list the same fields in the same order."""
import re, sys
SRC = '/repo/codec/src/protocol/definitions.rs'
OUT = sys.argv[1] if len(sys.argv) > 1 else '/verif/rocq/theories'
lines = open(SRC).read().split('\n')
text = '\n'.join(lines)

def line_of(pos): return text.count('\n', 0, pos) + 1
def block(start):
    """position after the matching close brace of the first { at or after start"""
    i = text.index('{', start); d = 0
    while True:
        if text[i] == '{': d += 1
        if text[i] == '}':
            d -= 1
            if d == 0: return i + 1
        i += 1
def fn(name):
    m = re.search(r'^fn %s\(' % name, text, re.M)
    e = block(m.start())
    return text[m.start():e], line_of(m.start()), line_of(e)

# Rust type -> (Coq type, codec, legality)
TY = {
 'bool': ('bool', 'bool_c', None),
 'u8': ('N', 'u8_c', 'unsigned 8'),
 'u16': ('N', 'u16_c', 'unsigned 16'),
 'u32': ('N', 'u32_c', 'unsigned 32'),
 'u64': ('N', 'u64_c', 'unsigned 64'),
 'Bytes': ('bytes', 'binary_c', None),
 'ByteString': ('bytes', 'string_c', 'text'),
 'Symbol': ('bytes', 'symbol_c', 'text'),
 'Symbols': ('(list bytes)', 'symbols_c', 'legal_symbols'),
 'Timestamp': ('datetime', 'timestamp_c', 'legal_timestamp'),
 'Fields': ('(list (bytes * variant))', 'fields_c', 'legal_fields'),
 'FieldsVec': ('(list (bytes * variant))', 'symbol_map_c', 'legal_pairs'),
 'Map': ('(list (variant * variant))', 'map_c', 'legal_map'),
 'FilterSet': ('(list (bytes * option bytes))', 'filter_c', 'legal_filter'),
 'MessageId': ('message_id', 'message_id_c', 'legal_message_id'),
 'ErrorCondition': ('error_condition', 'error_condition_c', 'legal_condition'),
 'DistributionMode': ('distribution_mode', 'distribution_mode_c', 'legal_distribution'),
 'DeliveryState': ('delivery_state', 'delivery_state_c', 'legal_delivery_state'),
 'Outcome': ('outcome', 'outcome_c', 'legal_outcome'),
 'Role': ('role', 'role_c', None),
 'SenderSettleMode': ('sender_settle_mode', 'sender_settle_mode_c', None),
 'ReceiverSettleMode': ('receiver_settle_mode', 'receiver_settle_mode_c', None),
 'TerminusDurability': ('terminus_durability', 'terminus_durability_c', None),
 'TerminusExpiryPolicy': ('terminus_expiry_policy', 'terminus_expiry_policy_c', None),
 'SaslCode': ('sasl_code', 'sasl_code_c', None),
}
ALIAS = {'Address': 'ByteString', 'Handle': 'u32', 'Seconds': 'u32', 'Milliseconds': 'u32', 'DeliveryTag': 'Bytes',
 'SequenceNo': 'u32', 'DeliveryNumber': 'u32', 'TransferNumber': 'u32', 'MessageFormat': 'u32',
 'IetfLanguageTag': 'Symbol', 'IetfLanguageTags': 'Symbols', 'NodeProperties': 'Fields'}
def snake(s): return re.sub(r'(?<!^)(?=[A-Z])', '_', s).lower()
SPECIAL = {'TerminusDurability::None': 'TerminusDurabilityNone', 'SenderSettleMode::Mixed': 'SenderMixed',
           'ReceiverSettleMode::First': 'ReceiverFirst', 'TerminusExpiryPolicy::SessionEnd': 'ExpirySessionEnd'}
def default(d):
    return SPECIAL.get(d, d)

# the defaults of AMQP 1.0 part 2.7, 2.6, 3.2, 3.5, by field
SPEC = {('open', 'max_frame_size'): '4294967295', ('open', 'channel_max'): '65535', ('begin', 'handle_max'): '4294967295',
 ('attach', 'snd_settle_mode'): 'SenderMixed', ('attach', 'rcv_settle_mode'): 'ReceiverFirst',
 ('source', 'durable'): 'TerminusDurabilityNone', ('target', 'durable'): 'TerminusDurabilityNone',
 ('source', 'expiry_policy'): 'ExpirySessionEnd', ('target', 'expiry_policy'): 'ExpirySessionEnd',
 ('source', 'timeout'): '0', ('target', 'timeout'): '0', ('header', 'priority'): '4', ('header', 'delivery_count'): '0'}
SPECFALSE = [('attach', 'incomplete_unsettled'), ('flow', 'drain'), ('flow', 'echo'), ('transfer', 'more'), ('transfer', 'resume'),
 ('transfer', 'aborted'), ('transfer', 'batchable'), ('disposition', 'settled'), ('disposition', 'batchable'), ('detach', 'closed'),
 ('source', 'dynamic'), ('target', 'dynamic'), ('header', 'durable'), ('header', 'first_acquirer')]
SPEC.update({k: 'false' for k in SPECFALSE})
comps = {}
for m in re.finditer(r'^fn decode_(\w+)_inner\(input', text, re.M):
    nm = m.group(1)
    body, l0, l1 = fn('decode_%s_inner' % nm)
    if 'ListHeader' not in body: continue
    rust = re.search(r'Result<(\w+), Amqp', body).group(1)
    fields = []
    for f in re.finditer(r'let (\w+): ([\w<>]+);\n    if count > 0 \{\n(.*?)\n    \} else \{\n(.*?)\n    \}\n', body, re.S):
        name, ty, yes, no = f.groups()
        yes = ' '.join(yes.split()); no = ' '.join(no.split())
        if ty.startswith('Option<'):
            inner = ty[7:-1]
            assert yes == '%s = Option::<%s>::decode(&mut data)?; count -= 1;' % (name, inner), (nm, name, yes)
            assert no == '%s = None;' % name
            fields.append((name, 'opt', inner, None))
        elif 'RequiredFieldOmitted' in no:
            assert yes == 'let decoded = %s::decode(&mut data)?; %s = decoded; count -= 1;' % (ty, name), (nm, name, yes)
            assert re.fullmatch(r"return Err\(AmqpParseError::RequiredFieldOmitted\( ?\"\w+\",? ?\)\);", no), no
            fields.append((name, 'req', ty, None))
        else:
            d = re.fullmatch(r'%s = (.*);' % name, no).group(1)
            assert yes == 'let decoded = Option::<%s>::decode(&mut data)?; %s = decoded.unwrap_or(%s); count -= 1;' % (ty, name, d), (nm, name, yes)
            fields.append((name, 'def', ty, d))
    assert body.count('if count > 0') == len(fields), nm
    sz, s0, s1 = fn('encoded_size_%s_inner' % nm)
    en, e0, e1 = fn('encode_%s_inner' % nm)
    names = [f[0] for f in fields]
    assert re.findall(r'list\.(?:0\.)?(\w+)\.encoded_size\(\)', sz) == names, nm
    assert re.findall(r'list\.(?:0\.)?(\w+)\.encode\(buf\)', en) == names, nm
    assert re.findall(r'list\.(?:0\.)?(\w+)\.encoded_size\(\)', en) == names, nm
    code = int(re.search(r'Descriptor::Ulong\((\d+)\)', en).group(1))
    impl = re.search(r'^impl DecodeFormatted for %s \{' % rust, text, re.M)
    ib = text[impl.start():block(impl.start())]
    assert 'val == %d' % code in ib
    sym = re.search(r'b"([^"]+)"', ib).group(1)
    fc = re.search(r'^impl %s \{.*?const FIELD_COUNT: usize = ([0-9+ ]+);' % rust, text, re.M | re.S).group(1)
    assert eval(fc) == len(fields), nm
    st = re.search(r'^pub struct %s(Inner)? \{(.*?)^\}|^pub struct %s \{\}' % (rust, rust), text, re.M | re.S)
    comps[nm] = dict(rust=rust, fields=fields, code=code, sym=sym, lines=(l0, l1, s0, s1, e0, e1, line_of(impl.start()), line_of(block(impl.start()))), stl=line_of(st.start()), ste=line_of(st.end()))

# symbols used by unions must agree
enums = {}
for m in re.finditer(r'^impl (\w+) \{\n    pub fn try_from\(v: (&?\w+)\)', text, re.M):
    nm, base = m.group(1), m.group(2)
    tb = text[m.start():block(m.start())]
    items = re.findall(r'("[^"]+"|\w+) => Ok\(%s::(\w+)\)' % nm, tb)
    s = text.index('pub enum %s ' % nm)
    e = text.index('impl Encode for %s ' % nm); eb = text[e:block(e)]
    vals = []
    for key, v in items:
        if base == '&Symbol':
            szl = int(re.search(r'%s::%s => (\d+) \+ 2' % (nm, v), eb).group(1))
            w = re.search(r'%s::%s => \{?\s*StaticSymbol\(("[^"]+")\)' % (nm, v), eb).group(1)
            vals.append((v, key, szl, w))
        else:
            parts = re.findall(r'%s::%s => \{\s*let v: \w+ = (\w+);' % (nm, v), eb)
            assert len(parts) == 2 and parts[0] == parts[1]
            vals.append((v, key, None, parts[0]))
    enums[nm] = dict(base=base, vals=vals, l0=line_of(s), l1=line_of(block(e)))

PFX = {'Role': 'Role', 'SenderSettleMode': 'Sender', 'ReceiverSettleMode': 'Receiver', 'AmqpError': 'Amqp',
       'ConnectionError': 'Conn', 'SessionError': 'Sess', 'LinkError': 'Link', 'SaslCode': 'Sasl',
       'TerminusDurability': 'TerminusDurability', 'TerminusExpiryPolicy': 'Expiry'}
def tname(nm): return nm + '_t' if nm != 'transfer' else 'transfer_head'
def prefix(nm): return {'error': 'err'}.get(nm, nm)
for nm, c in comps.items():
    if c['rust'] not in TY:
        TY[c['rust']] = (tname(nm), nm + '_c', 'legal_' + nm)

out = []
W = out.append
def section(s): W('(** ** %s *)\n' % s)
W('''(** * The composite types and enumerations of codec/src/protocol

    Written by tools/gen_protocol.py from codec/src/protocol/definitions.rs:
    one record per composite type, its fields in order, and for every field
    whether it is optional, mandatory or has a default.  Line numbers without a
    file name refer to definitions.rs. *)

From Coq Require Import Strings.String.
From Verif Require Export Codec.
''')
section('Enumerations')
def emit_enum(nm):
    e = enums[nm]; p = PFX[nm]; t = snake(nm)
    W('(** %d-%d [%s]. *)' % (e['l0'], e['l1'], nm))
    W('Inductive %s : Type :=\n| %s.' % (t, ' | '.join(p + v[0] for v in e['vals'])))
    if e['base'] == '&Symbol':
        W('Definition %s_symbol (x : %s) : bytes :=\n  match x with\n%s\n  end.' % (t, t,
          '\n'.join('  | %s%s => str %s' % (p, v[0], v[3]) for v in e['vals'])))
        W('Definition %s_try_from (s : bytes) : option %s :=\n%s\n  None.' % (t, t,
          '\n'.join('  if beqb s (str %s) then Some %s%s else' % (v[1], p, v[0]) for v in e['vals'])))
        W('Definition %s_c : codec %s :=\n  enum_c symbol_c\n    (fun x => match x with\n%s\n              end)\n    %s_symbol %s_try_from.\n' % (t, t,
          '\n'.join('              | %s%s => %d + 2' % (p, v[0], v[2]) for v in e['vals']), t, t))
    else:
        base = {'bool': 'bool', 'u8': 'N', 'u32': 'N'}[e['base']]
        W('Definition %s_value (x : %s) : %s :=\n  match x with %s end.' % (t, t, base,
          ' '.join('| %s%s => %s' % (p, v[0], v[3]) for v in e['vals'])))
        if base == 'bool':
            W('Definition %s_try_from (v : bool) : option %s :=\n  match v with %s end.' % (t, t,
              ' '.join('| %s => Some %s%s' % (v[1], p, v[0]) for v in e['vals'])))
        else:
            W('Definition %s_try_from (v : N) : option %s :=\n%s\n  None.' % (t, t,
              '\n'.join('  if v =? %s then Some %s%s else' % (v[1], p, v[0]) for v in e['vals'])))
        W('Definition %s_c : codec %s :=\n  enum_c %s_c (fun x => c_sz %s_c (%s_value x)) %s_value %s_try_from.\n' % (t, t, e['base'], e['base'], t, t, t))
for nm in enums: emit_enum(nm)

W('''(** protocol/mod.rs:46-52 [MessageId], 66-102 its codec. *)
Inductive message_id : Type :=
| MidUlong (n : N) | MidUuid (b : bytes) | MidBinary (b : bytes) | MidString (s : bytes).
Definition message_id_c : codec message_id :=
  mk_codec
    (fun m => match m with
              | MidUlong n => sz_u64 n | MidUuid b => sz_uuid b
              | MidBinary b => sz_var b | MidString s => sz_var s
              end)
    (fun m => match m with
              | MidUlong n => enc_u64 n | MidUuid b => enc_uuid b
              | MidBinary b => enc_binary b | MidString s => enc_string s
              end)
    (fun _ fmt inp =>
       match fmt with
       | x53 | x80 | x44 => map_res MidUlong (dec_u64 fmt inp)
       | x98 => map_res MidUuid (dec_uuid fmt inp)
       | xa0 | xb0 => map_res MidBinary (dec_binary fmt inp)
       | xa1 | xb1 => map_res MidString (dec_string fmt inp)
       | _ => Err (InvalidFormatCode fmt)
       end).

(** protocol/mod.rs:104-159 [ErrorCondition]. *)
Inductive error_condition : Type :=
| CondAmqp (e : amqp_error) | CondConnection (e : connection_error)
| CondSession (e : session_error) | CondLink (e : link_error) | CondCustom (s : bytes).
Definition condition_of_symbol (s : bytes) : error_condition :=
  match amqp_error_try_from s with Some e => CondAmqp e | None =>
  match connection_error_try_from s with Some e => CondConnection e | None =>
  match session_error_try_from s with Some e => CondSession e | None =>
  match link_error_try_from s with Some e => CondLink e | None => CondCustom s
  end end end end.
Definition error_condition_c : codec error_condition :=
  mk_codec
    (fun c => match c with
              | CondAmqp e => c_sz amqp_error_c e | CondConnection e => c_sz connection_error_c e
              | CondSession e => c_sz session_error_c e | CondLink e => c_sz link_error_c e
              | CondCustom s => sz_var s
              end)
    (fun c => match c with
              | CondAmqp e => c_enc amqp_error_c e | CondConnection e => c_enc connection_error_c e
              | CondSession e => c_enc session_error_c e | CondLink e => c_enc link_error_c e
              | CondCustom s => enc_symbol s
              end)
    (fun _ fmt inp => map_res condition_of_symbol (dec_symbol fmt inp)).

(** protocol/mod.rs:161-196 [DistributionMode]. *)
Inductive distribution_mode : Type := DistMove | DistCopy | DistCustom (s : bytes).
Definition distribution_of_symbol (s : bytes) : distribution_mode :=
  if beqb s (str "move") then DistMove else
  if beqb s (str "copy") then DistCopy else DistCustom s.
Definition distribution_mode_c : codec distribution_mode :=
  mk_codec
    (fun m => match m with DistMove => 6 | DistCopy => 6 | DistCustom s => sz_var s end)
    (fun m => match m with
              | DistMove => enc_symbol (str "move") | DistCopy => enc_symbol (str "copy")
              | DistCustom s => enc_symbol s
              end)
    (fun _ fmt inp => map_res distribution_of_symbol (dec_symbol fmt inp)).
''')
section('Composite types')
def coqty(t, kind):
    t = ALIAS.get(t, t)
    base = TY[t][0]
    return ('option %s' % base) if kind == 'opt' else base
def cod(t): return TY[ALIAS.get(t, t)][1]
def leg(t): return TY[ALIAS.get(t, t)][2]
def emit_comp(nm):
    c = comps[nm]; p = prefix(nm); t = tname(nm); fs = c['fields']; L = c['lines']
    extra = '' if nm != 'transfer' else '\n    Here without the body, which follows the list: see [Frames.v].'
    W('(** %d-%d [%s]; decoder %d-%d, size %d-%d, encoder %d-%d, descriptor %d-%d.%s *)' % (c['stl'], c['ste'], c['rust'], *L, extra))
    if fs:
        W('Record %s : Type := mk_%s {\n%s\n}.' % (t, p, ';\n'.join('  %s_%s : %s' % (p, f[0], coqty(f[2], f[1])) for f in fs)))
    else:
        W('Record %s : Type := mk_%s { }.' % (t, p))
    ft = ''
    for i, f in enumerate(fs):
        if f[1] == 'opt': ft += '    (FOpt %s\n' % cod(f[2])
        elif f[1] == 'req': ft += '    (FReq %s\n' % cod(f[2])
        else: ft += '    (FDef %s %s\n' % (cod(f[2]), default(f[3]))
    ft += '    FNil' + ')' * len(fs)
    v = ['v%d' % i for i in range(len(fs))]
    tup = 'tt'; pat = '_'
    for f in reversed(fs): tup = '(%s_%s x, %s)' % (p, f[0], tup)
    for x in reversed(v): pat = '(%s, %s)' % (x, pat)
    W('Definition %s_k : comp %s :=\n  mk_comp %d (str "%s")\n%s\n    (fun x => %s)\n    (fun t => let \'%s := t in mk_%s %s).' % (
        nm, t, c['code'], c['sym'], ft, tup, pat, p, ' '.join(v)))
    W('Definition %s_c : codec %s := comp_c %s_k.\n' % (nm, t, nm))

def emit_union(nm, rust, alts):
    s = text.index('pub enum %s ' % rust); e = text.index('impl Encode for %s ' % rust)
    W('(** %d-%d [%s]. *)' % (line_of(s), line_of(block(e)), rust))
    pre = {'delivery_state': 'DS', 'outcome': 'O'}[nm]
    W('Inductive %s : Type :=\n%s.' % (nm, '\n'.join('| %s%s (x : %s_t)' % (pre, a.capitalize(), a) for a in alts)))
    W('Definition %s_c : codec %s :=\n  mk_codec\n    (fun s => match s with\n%s\n              end)\n    (fun s => match s with\n%s\n              end)\n    (fun p fmt inp =>\n       \'(d, inp) <- dec_described fmt inp ;;\n%s\n       Err (InvalidDescriptor d)).\n' % (nm, nm,
      '\n'.join('              | %s%s x => sz_inner %s_k x' % (pre, a.capitalize(), a) for a in alts),
      '\n'.join('              | %s%s x => enc_inner %s_k x' % (pre, a.capitalize(), a) for a in alts),
      '\n'.join('       if desc_is d %d (str "%s") then map_res %s%s (dec_inner %s_k p inp) else' % (comps[a]['code'], comps[a]['sym'], pre, a.capitalize(), a) for a in alts)))
    ub = text[s:block(e)]
    for a in alts:
        assert 'Descriptor::Ulong(%d)' % comps[a]['code'] in ub and '"%s"' % comps[a]['sym'] in ub
order = ['error', 'received', 'accepted', 'rejected', 'released', 'modified', 'DS', 'O', 'source', 'target',
         'open', 'begin', 'attach', 'flow', 'transfer', 'disposition', 'detach', 'end', 'close',
         'sasl_mechanisms', 'sasl_init', 'sasl_challenge', 'sasl_response', 'sasl_outcome', 'header', 'properties']
assert set(order) - {'DS', 'O'} == set(comps), set(comps) ^ set(order)
DSA = ['received', 'accepted', 'rejected', 'released', 'modified']; OA = DSA[1:]
for nm in order:
    if nm == 'DS': emit_union('delivery_state', 'DeliveryState', DSA)
    elif nm == 'O': emit_union('outcome', 'Outcome', OA)
    else: emit_comp(nm)
open(OUT + '/Protocol.v', 'w').write('\n'.join(out))

# ---------------------------------------------------------------- spec
# The mandatory fields according to the AMQP 1.0 type definitions.
MANDATORY = {tuple(x.split('.')) for x in '''
    error.condition received.section_number received.section_offset
    open.container_id begin.next_outgoing_id begin.incoming_window begin.outgoing_window
    attach.name attach.handle attach.role
    flow.incoming_window flow.next_outgoing_id flow.outgoing_window
    transfer.handle disposition.role disposition.first detach.handle
    sasl_mechanisms.sasl_server_mechanisms sasl_init.mechanism
    sasl_challenge.challenge sasl_response.response sasl_outcome.code'''.split()}
out = []; W = out.append
known = [v[3] for e in ['AmqpError', 'ConnectionError', 'SessionError', 'LinkError'] for v in enums[e]['vals']]
W('''(** * Specification vocabulary for the protocol types

    Written by tools/gen_protocol.py.  [legal_T x]: [x] is a value of the Rust
    type whose parts have a faithful wire form.  [T_items x]: the wire forms of
    the fields of [x], one by one.  [T_seen sent x]: what AMQP 1.0 says a
    receiver must understand when of the fields of [x] only those with [sent i]
    are sent (the others are null, or left out at the end): an optional field
    that is not sent is absent, a field with a default has it, and a mandatory
    one is an error ([None]). *)

From Coq Require Import Strings.String.
From Verif Require Import Protocol Spec.

Definition optional {A} (P : A -> Prop) (o : option A) : Prop :=
  match o with Some a => P a | None => True end.

Definition legal_symbols (l : list bytes) : Prop := Forall text l.
Definition legal_timestamp (t : datetime) : Prop := instant t /\\ wire_instant t.
Definition legal_value (v : variant) : Prop := legal v /\\ wire_safe v.
Definition legal_pairs (m : list (bytes * variant)) : Prop :=
  Forall (fun kv => text (fst kv) /\\ legal_value (snd kv)) m.
(** A [HashMap] holds each key once. *)
Definition legal_fields (m : list (bytes * variant)) : Prop :=
  legal_pairs m /\\ NoDup (map fst m).
Definition legal_filter (m : list (bytes * option bytes)) : Prop :=
  Forall (fun kv => text (fst kv) /\\ optional text (snd kv)) m /\\ NoDup (map fst m).
Definition legal_map (m : list (variant * variant)) : Prop := legal_value (VMap m).
Definition legal_message_id (m : message_id) : Prop :=
  match m with
  | MidUlong n => unsigned 64 n | MidUuid b => length b = 16%nat
  | MidBinary _ => True | MidString s => text s
  end.

(** The error conditions named by AMQP 1.0; a custom condition is any other
    symbol. *)''')
W('Definition known_conditions : list bytes :=\n  [%s].' % ';\n   '.join('str ' + k for k in known))
W('''Definition legal_condition (c : error_condition) : Prop :=
  match c with CondCustom s => text s /\\ ~ In s known_conditions | _ => True end.
Definition legal_distribution (m : distribution_mode) : Prop :=
  match m with DistCustom s => text s /\\ s <> str "move" /\\ s <> str "copy" | _ => True end.

(** The wire form of an optional field. *)
Definition wire_opt {A} (enc : A -> bytes) (o : option A) : bytes :=
  match o with Some a => enc a | None => [x40] end.

(** The content of a list in which [n] of the given fields are present, each
    as its value or as null. *)
Fixpoint fields_wire (sent : nat -> bool) (n : nat) (items : list bytes) : bytes :=
  match n, items with
  | S n, item :: items =>
      (if sent 0%nat then item else [x40]) ++ fields_wire (fun i => sent (S i)) n items
  | _, _ => []
  end.

(** The three wire forms of a list with [count] elements and that content. *)
Inductive list_form (count : N) (content : bytes) : bytes -> Prop :=
| list_form0 : count = 0 -> content = [] -> list_form count content [x45]
| list_form8 : blen content + 1 < 256 -> count < 256 ->
    list_form count content (xc0 :: be 1 (blen content + 1) ++ be 1 count ++ content)
| list_form32 : blen content + 4 < 2 ^ 32 -> count < 2 ^ 32 ->
    list_form count content (xd0 :: be 4 (blen content + 4) ++ be 4 count ++ content).
''')
for nm in order:
    if nm in ('DS', 'O'):
        n, al, pre = ('delivery_state', DSA, 'DS') if nm == 'DS' else ('outcome', OA, 'O')
        W('Definition legal_%s (s : %s) : Prop :=\n  match s with %s end.\n' % (n, n,
          ' '.join('| %s%s x => legal_%s x' % (pre, a.capitalize(), a) for a in al)))
        continue
    c = comps[nm]; p = prefix(nm); t = tname(nm); fs = c['fields']
    conj = []
    for f in fs:
        l = leg(f[2])
        if l is None: continue
        conj.append(('optional (%s) (%s_%s x)' if f[1] == 'opt' else '%s (%s_%s x)') % (l, p, f[0]))
    W('Definition legal_%s (x : %s) : Prop :=\n  %s.' % (nm, t, '\n  /\\ '.join(conj) if conj else 'True'))
    items = []
    for f in fs:
        e = 'c_enc %s' % cod(f[2])
        items.append(('wire_opt (%s) (%s_%s x)' if f[1] == 'opt' else '%s (%s_%s x)') % (e, p, f[0]))
    W('Definition %s_items (x : %s) : list bytes :=\n  [%s].' % (nm, t, ';\n   '.join(items)))
    mand = [i for i, f in enumerate(fs) if (nm, f[0]) in MANDATORY]
    vals = []
    for i, f in enumerate(fs):
        if i in mand: vals.append('(%s_%s x)' % (p, f[0])); continue
        d = 'None' if (nm, f[0]) not in SPEC else SPEC[(nm, f[0])]
        vals.append('(if sent %d%%nat then %s_%s x else %s)' % (i, p, f[0], d))
    W('Definition %s_seen (sent : nat -> bool) (x : %s) : option %s :=' % (nm, t, t))
    body = 'Some (mk_%s%s)' % (p, ''.join('\n    ' + v for v in vals))
    W(''.join('  if negb (sent %d%%nat) then None else\n' % i for i in mand) + '  ' + body + '.\n')
open(OUT + '/SpecProtocol.v', 'w').write('\n'.join(out))

# ---------------------------------------------------------------- proofs
out = []; W = out.append
W('''(** * Every composite type has a good codec

    Written by tools/gen_protocol.py; the lemmas used are in [CodecProofs.v] and
    [CompositeProofs.v]. *)

From Coq Require Import Strings.String.
From Verif Require Import Protocol Spec SpecProtocol BaseProofs CodecProofs EnumProofs CompositeProofs.
''')
for nm in order:
    if nm in ('DS', 'O'):
        n, al = ('delivery_state', DSA) if nm == 'DS' else ('outcome', OA)
        W('Lemma good_%s : good %s_c legal_%s.\nProof.\n  constructor; intros; match goal with H : legal_%s ?s |- _ => destruct s end;\n    cbn [%s_c c_sz c_enc legal_%s] in *.' % ((n,) * 6))
        for a in al: W('  - apply (blen_enc_inner _ _ _ goodk_%s). assumption.' % a)
        for a in al: W('  - exact (g_pos good_%s _ ltac:(eassumption)).' % a)
        for a in al: W('  - union_case %s_k legal_%s goodk_%s.' % (a, a, a))
        W('Qed.\nLemma nonnull_%s : nonnull %s_c legal_%s.\nProof. intros [] _; do 2 eexists; (split; [reflexivity|discriminate]). Qed.\nGlobal Hint Resolve good_%s nonnull_%s : good.\n' % ((n,) * 5))
        continue
    W('Lemma goodk_%s : good_comp %s_k legal_%s.\nProof. prove_good_comp. Qed.' % (nm, nm, nm))
    W('Lemma good_%s : good %s_c legal_%s.\nProof. exact (good_comp_c _ _ goodk_%s). Qed.\nLemma nonnull_%s : nonnull %s_c legal_%s.\nProof. apply nonnull_comp. Qed.\nGlobal Hint Resolve good_%s nonnull_%s : good.' % ((nm,) * 9))
    W('Lemma seen_%s : good_seen %s_k legal_%s %s_items %s_seen.\nProof. apply (good_seen_comp _ _ _ _ goodk_%s); [items_tac|unfold %s_seen; seen_tac]. Qed.\n' % ((nm,) * 7))
open(OUT + '/ProtocolGood.v', 'w').write('\n'.join(out))
