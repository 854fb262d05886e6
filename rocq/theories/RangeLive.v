(** * Live views of range sets (range.py:1057-1058), and adding while iterating over them

    [as_ranges()] is [SortedDict.values()]: not a list, but a view that refers to the dictionary of the set.  An iterator over it walks the sorted list of
    keys by position (sortedcontainers: one list of keys as long as there are at most 2000 of them).  [add_all(s)] iterates over [s.as_ranges()]
    (range.py:862-868, 1133-1140), also if [s] is the set itself. *)
From Verif Require Import Prelude Order Range SortedDict RangeSet RangeSetOps RangeSetHeap.

Section Live.
Context {T : Type} {O : TotalOrder T}.
(** range.py:1057-1058 (as_ranges): the view holds the set's dictionary; a builder has no such method *)
Definition take_view (w : world T) (i : nat) : option nat :=
  match nth_error (objs w) i with
  | Some (KBuilder, _) | None => None
  | Some (_, a) => Some a
  end.
(** list(view), len(view), view[i], iteration without changes: what the dictionary has at that time (range.py:1057-1058) *)
Definition see (w : world T) (view : nat) : list (range T) := as_ranges (deref w view).

(** range.py:1133-1140 (add_all), the argument being a view of the set itself: the iterator is at position [i]; [f] is what is added for a range
    delivered, [fun r => r] in add_all.  The result is the ranges delivered and the dictionary at the end; [None] if the loop is not at its end after [fuel] rounds. *)
Fixpoint add_each (fuel : nat) (f : range T -> range T) (d : rset T) (i : nat) : option (list (range T) * res (rset T)) :=
  match nth_error (as_ranges d) i with
  | None => Some ([], Ok d)
  | Some r =>
      match fuel with
      | 0 => None
      | S fuel =>
          match add d (f r) with
          | Raise e => Some ([r], Raise e)
          | Ok d' => match add_each fuel f d' (S i) with Some (l, x) => Some (r :: l, x) | None => None end
          end
      end
  end.
(** range.py:1133-1140: [s.add_all(s)] and [s.add_all(s.as_ranges())] *)
Definition add_all_self (fuel : nat) (d : rset T) : option (list (range T) * res (rset T)) := add_each fuel (fun r => r) d 0.
End Live.
