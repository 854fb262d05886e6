(** * Model of ImmutableRangeMap (range.py:1186-1401) *)
From Verif Require Import Prelude Order Range SortedDict RangeSet.

Section RangeMap.
Context {T : Type} {O : TotalOrder T} {V : Type}.
(** equality of values (values are hashed into an ImmutableSet by get_enclosed_by) *)
Variable veq : V -> V -> bool.

(** immutablecollections.immutabledict (third party), trusted to behave like [dict]:
    insertion order of the first occurrence of a key, last value wins. *)
Definition idict := list (range T * V).
(** d[k] = v, keys compared with Range.__eq__ (range.py:586-592) *)
Fixpoint idict_set (d : idict) (k : range T) (v : V) : idict :=
  match d with
  | [] => [(k, v)]
  | (k', v') :: r => if range_eq k' k then (k', v) :: r else (k', v') :: idict_set r k v
  end.
(** immutabledict(pairs): later values win, the order is that of the first occurrence *)
Definition idict_of (pairs : list (range T * V)) : idict :=
  fold_left (fun d kv => idict_set d (fst kv) (snd kv)) pairs [].
(** d[k] (range.py:1356-1362) *)
Fixpoint idict_get (d : idict) (k : range T) : res V :=
  match d with
  | [] => Raise KeyError
  | (k', v) :: r => if range_eq k' k then Ok v else idict_get r k
  end.

(** range.py:1317-1320: the two attributes *)
Record rmap := MkMap { rng_to_val : idict; range_set : rset T }.

(** range.py:1322-1328 (the length check), 1379-1384 (range_set), 1398-1401
    (immutablerangemap), 1387-1395 (Builder: put* then build is the same call). *)
Definition immutablerangemap (pairs : list (range T * V)) : res rmap :=
  let d := idict_of pairs in
  let* rs := build (map fst d) in
  if (length d =? rs_len rs)%nat then Ok (MkMap d rs) else Raise ValueError.

(** range.py:1344-1345 *)
Definition rm_contains (m : rmap) (x : T) : res bool := rs_contains (range_set m) x.
(** range.py:1353-1354 *)
Definition rm_is_empty (m : rmap) : bool := rs_is_empty (range_set m).
(** [self.rng_to_val[probe] if probe else None] *)
Definition value_of (m : rmap) (probe : option (range T)) : res (option V) :=
  match probe with
  | Some r => let* v := idict_get (rng_to_val m) r in Ok (Some v)
  | None => Ok None
  end.
(** range.py:1356-1358 *)
Definition rm_getitem (m : rmap) (x : T) : res (option V) :=
  let* c := range_containing (range_set m) x in value_of m c.
(** range.py:1363-1365 *)
Definition rm_rightmost (m : rmap) (x : T) : res (option V) :=
  let* c := rightmost_containing_or_below (range_set m) x in value_of m c.
(** range.py:1367-1369 *)
Definition rm_leftmost (m : rmap) (x : T) : res (option V) :=
  let* c := leftmost_containing_or_above (range_set m) x in value_of m c.
(** ImmutableSet.Builder.add / build: first occurrences, in order. *)
Fixpoint iset_add (acc : list V) (v : V) : list V :=
  match acc with [] => [v] | a :: r => if veq a v then acc else a :: iset_add r v end.
(** range.py:1347-1351 *)
Definition rm_enclosed_by (m : rmap) (q : range T) : res (list V) :=
  let* ks := ranges_enclosed_by (range_set m) q in
  foldM (fun acc k => let* v := idict_get (rng_to_val m) k in Ok (iset_add acc v)) ks [].
(** range.py:1360-1361 *)
Definition as_dict (m : rmap) : idict := rng_to_val m.
(** range.py:1371-1376 (__reduce__): rebuild from the items. *)
Definition reduce_state (m : rmap) : list (range T * V) :=
  if rm_is_empty m then [] else as_dict m.
End RangeMap.
Arguments rmap T V : clear implicits.
Arguments idict T V : clear implicits.
