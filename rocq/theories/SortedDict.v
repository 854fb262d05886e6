(** * Model of sortedcontainers.SortedDict (third-party, version 2.1.0) keyed by cuts

    The dictionary is its list of (key, value) pairs in iteration order.  Trusted
    interface, as documented by sortedcontainers: iteration is in increasing key order;
    [bisect_left]/[bisect] return the insertion point before/after equal keys;
    [keys()[i]], [values()[i]] index that order; [irange(a, b, inclusive=(True, False))]
    lists the keys k with a <= k < b; item lookup, deletion and assignment are by [==].
    Simplification: bisection is a linear scan, which on a sorted list returns the same
    index as binary search. *)
From Verif Require Import Prelude Order Range.

Section SortedDict.
Context {T : Type} {O : TotalOrder T} {V : Type}.
(** sortedcontainers.SortedDict: its items in key order (used by range.py:905-1177) *)
Definition sdict := list (cut T * V).

(** SortedDict.keys() *)
Definition sd_keys (d : sdict) : list (cut T) := map fst d.
(** SortedDict.values() *)
Definition sd_values (d : sdict) : list V := map snd d.

(** SortedDict.bisect_left (range.py:1405-1459) *)
Fixpoint bisect_left (d : sdict) (k : cut T) : nat :=
  match d with
  | [] => 0
  | (k', _) :: r => if cut_lt k' k then S (bisect_left r k) else 0
  end.
(** SortedDict.bisect_right (range.py:1405-1459) *)
Fixpoint bisect_right (d : sdict) (k : cut T) : nat :=
  match d with
  | [] => 0
  | (k', _) :: r => if cut_lt k k' then 0 else S (bisect_right r k)
  end.

(** [d[k]] *)
Fixpoint sd_get (d : sdict) (k : cut T) : res V :=
  match d with
  | [] => Raise KeyError
  | (k', v) :: r => if cut_eq k' k then Ok v else sd_get r k
  end.

(** [d.index(k)] *)
Definition sd_index (d : sdict) (k : cut T) : res nat :=
  let i := bisect_left d k in
  match nth_error (sd_keys d) i with
  | Some k' => if cut_eq k' k then Ok i else Raise ValueError
  | None => Raise ValueError
  end.

(** [d[k] = v] *)
Fixpoint sd_set (d : sdict) (k : cut T) (v : V) : sdict :=
  match d with
  | [] => [(k, v)]
  | (k', v') :: r =>
      if cut_eq k' k then (k', v) :: r
      else if cut_lt k k' then (k, v) :: (k', v') :: r
      else (k', v') :: sd_set r k v
  end.

(** [del d[k]] *)
Fixpoint sd_del (d : sdict) (k : cut T) : res sdict :=
  match d with
  | [] => Raise KeyError
  | (k', v') :: r =>
      if cut_eq k' k then Ok r
      else let* r' := sd_del r k in Ok ((k', v') :: r')
  end.

(** [d.irange(a, b, inclusive=(True, False))] *)
Definition sd_irange (d : sdict) (a b : cut T) : list (cut T) :=
  filter (fun k => cut_le a k && cut_lt k b) (sd_keys d).

(** [SortedDict(pairs)]: later pairs overwrite earlier ones with an equal key. *)
Definition sd_of_list (l : list (cut T * V)) : sdict :=
  fold_left (fun d kv => sd_set d (fst kv) (snd kv)) l [].
End SortedDict.
Arguments sdict T V : clear implicits.
