(** * Specification vocabulary: composites in lists, maps in arrays *)

From Verif Require Export Spec Records.

(** What [Composite] asks of a type of the application: it writes one list, map or
    array, of the size it says, and reads back what it wrote. *)
Definition keeps {A} (C : composite A) (a : A) : Prop :=
  framed_compound (co_enc C a) /\ blen (co_enc C a) = co_sz C a
  /\ forall rest, co_dec C (co_enc C a ++ rest) = Ok (a, rest).
(** The descriptor is a number other than 0 or a symbol. *)
Definition usable (d : descriptor) : Prop := legal_descriptor d /\ wire_descriptor d.

(** The keys and values of map [m] are read back as written and have the size they
    say; no two keys are equal and none is a map. *)
Definition keeps_map {K V} (M : map_ty K V) (m : list (K * V)) : Prop :=
  Forall (fun kv => (forall rest, mt_deck M (mt_ek M (fst kv) ++ rest) = Ok (fst kv, rest))
                    /\ (forall rest, mt_decv M (mt_ev M (snd kv) ++ rest) = Ok (snd kv, rest))
                    /\ blen (mt_ek M (fst kv)) = mt_szk M (fst kv) /\ blen (mt_ev M (snd kv)) = mt_szv M (snd kv)
                    /\ 0 < mt_szk M (fst kv) /\ 0 < mt_szv M (snd kv)) m
  /\ Forall (fun kv => mt_hash M (fst kv) = true) m
  /\ ForallOrdPairs (fun a b => mt_eqb M a b = false) (map fst m).
