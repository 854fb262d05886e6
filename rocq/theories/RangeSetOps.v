(** * Sequences of public calls on a mutable range set

    A history is a list of calls on one MutableRangeSet created empty
    (range.py:637-638 create_mutable).  An exception leaves the value the object had:
    [add] never raises on factory-made ranges (theorem C11_calls), so [add_all] never stops
    half-way, and [remove] raises before touching anything.
    Simplification: [add_all(rs)] takes the ranges as a list; iteration over a view of the set
    that is being mutated, as in [rs.add_all(rs)], is in RangeLive.v. *)
From Verif Require Import Prelude Order Range RangeSet.

Section Ops.
Context {T : Type} {O : TotalOrder T}.
Notation rng := (range T).
(** range.py:837-903: the mutators *)
Inductive op := Add (r : rng) | AddAll (rs : list rng) | Clear | Remove (r : rng) | RemoveAll (rs : list rng).
(** One call (range.py:1094-1148); [None] = returned normally. remove raises before touching anything. *)
Definition step (d : rset T) (o : op) : rset T * option exn :=
  let fin (c : res (rset T)) := match c with Ok d' => (d', None) | Raise e => (d, Some e) end in
  match o with
  | Add r => fin (add d r)
  | AddAll rs => fin (add_all d rs)
  | Clear => fin (clear d)
  | Remove r => fin (remove d r)
  | RemoveAll rs => fin (remove_all d rs)
  end.
(** The state after a history. *)
Definition run (ops : list op) : rset T := fold_left (fun d o => fst (step d o)) ops create_mutable.
Definition op_ranges (o : op) : list rng :=
  match o with Add r => [r] | AddAll rs => rs | _ => [] end.
(** the ranges added since the last clear *)
Fixpoint live (ops : list op) (acc : list rng) : list rng :=
  match ops with
  | [] => acc
  | Clear :: r => live r []
  | o :: r => live r (acc ++ op_ranges o)
  end.
End Ops.
Arguments op T : clear implicits.
