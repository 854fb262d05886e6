(** * C119: range maps over values that cannot all be compared (range.py:1186-1401)

    The functions of RangeMap.v with a comparison [x < y] that may raise, on top of MixedSets.v. *)
From Verif Require Import Prelude Order Range SortedDict RangeSet RangePartial MixedSets RangeMap.
Local Open Scope nat_scope.

Section Mixed.
Context {T V : Type}.
Variable lt : T -> T -> res bool.
Variable eq : T -> T -> bool.
(** equality of values, as in RangeMap.v *)
Variable veq : V -> V -> bool.
Notation rng := (range T).

(** d[k] = v: by hash and Range.__eq__ (range.py:586-592), which do not raise *)
Fixpoint pidict_set (d : idict T V) (k : rng) (v : V) : idict T V :=
  match d with
  | [] => [(k, v)]
  | (k', v') :: r => if prange_eq eq k' k then (k', v) :: r else (k', v') :: pidict_set r k v
  end.
(** immutabledict(pairs), range.py:1401 and, by the builder, 1387-1395 *)
Definition pidict_of (pairs : list (rng * V)) : idict T V := fold_left (fun d kv => pidict_set d (fst kv) (snd kv)) pairs [].
(** d[k], range.py:1350, 1358, 1365, 1369 *)
Fixpoint pidict_get (d : idict T V) (k : rng) : res V :=
  match d with
  | [] => Raise KeyError
  | (k', v) :: r => if prange_eq eq k' k then Ok v else pidict_get r k
  end.
(** range.py:1322-1328 (the length check), 1378-1384 (range_set), 1398-1401; the builder of the range set adds to a mutable set (range.py:1165-1174, 1094-1140); the copy that build() makes (range.py:1072-1073) sorts keys that are of one type and sorted *)
Definition pimmutablerangemap (pairs : list (rng * V)) : res (rmap T V) :=
  let d := pidict_of pairs in
  match padd_all lt eq [] (map fst d) with
  | (_, Raise e) => Raise e
  | (rs, Ok _) => if length d =? length rs then Ok (MkMap d rs) else Raise ValueError
  end.
(** [self.rng_to_val[probe] if probe else None] *)
Definition pvalue_of (m : rmap T V) (probe : option rng) : res (option V) :=
  match probe with Some r => let* v := pidict_get (rng_to_val m) r in Ok (Some v) | None => Ok None end.
(** range.py:1344-1345 *)
Definition prm_contains (m : rmap T V) (x : T) : res bool := pset_contains lt eq (range_set m) x.
(** range.py:1356-1358 *)
Definition prm_getitem (m : rmap T V) (x : T) : res (option V) := let* c := prange_containing lt eq (range_set m) x in pvalue_of m c.
(** range.py:1363-1365 *)
Definition prm_rightmost (m : rmap T V) (x : T) : res (option V) := let* c := prightmost lt eq (range_set m) x in pvalue_of m c.
(** range.py:1367-1369 *)
Definition prm_leftmost (m : rmap T V) (x : T) : res (option V) := let* c := pleftmost lt eq (range_set m) x in pvalue_of m c.
(** range.py:1347-1351 *)
Definition prm_enclosed_by (m : rmap T V) (q : rng) : res (list V) :=
  let* ks := pranges_enclosed_by lt eq (range_set m) q in
  foldM (fun acc k => let* v := pidict_get (rng_to_val m) k in Ok (iset_add veq acc v)) ks [].
End Mixed.
