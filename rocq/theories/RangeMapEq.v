(** * Equality and hash of range maps (range.py:1284-1295, 1316-1320) *)
From Verif Require Import Prelude Order Range SortedDict RangeSet RangeMap.

Section RangeMapEq.
Context {T : Type} {O : TotalOrder T} {V : Type}.
(** equality and hash of the values; an unhashable value raises *)
Variable veq : V -> V -> bool.
Variable vhash : V -> res Z.

(** == of two immutabledicts (third party), trusted to be that of [dict]: as many keys, and every key of one has an equal value in the other *)
Definition idict_eq (a b : idict T V) : bool :=
  (length a =? length b)%nat && forallb (fun kv => match idict_get b (fst kv) with Ok v => veq (snd kv) v | Raise _ => false end) a.
(** range.py:1316: @attrs(frozen=True, repr=False) defines __eq__, replacing the inherited one: both attributes (1317-1320) are compared, the range sets by range.py:773-777.
    (With an object of another class it is NotImplemented, in the end False; not modelled.) *)
Definition rm_eq (a b : rmap T V) : bool := idict_eq (rng_to_val a) (rng_to_val b) && rs_eq (range_set a) (range_set b).
(** range.py:1284-1288: the __eq__ of RangeMap, what a subclass without an __eq__ of its own inherits.  ImmutableSet.of a mapping is the set of its keys. *)
Definition inherited_eq (a b : rmap T V) : bool :=
  let x := immutableset (map fst (as_dict a)) in
  let y := immutableset (map fst (as_dict b)) in
  (length x =? length y)%nat && forallb (fun r => existsb (range_eq r) y) x.
(** range.py:1316: the __hash__ attrs defines for a frozen class with __eq__: that of the tuple of the attributes' hashes ([mix]).  [dict_hash]: the hash of an immutabledict from
    those of its values.  The hash of a range set (range.py:779-780) is the identity hash of the view as_ranges() makes, at address [addr]. *)
Definition rm_hash (dict_hash : list (range T * Z) -> Z) (mix : Z -> Z -> Z) (id_hash : nat -> Z) (addr : nat) (m : rmap T V) : res Z :=
  let* hs := mapM (fun kv => let* h := vhash (snd kv) in Ok (fst kv, h)) (rng_to_val m) in
  Ok (mix (dict_hash hs) (id_hash addr)).
End RangeMapEq.
