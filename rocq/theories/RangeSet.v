(** * Model of RangeSet (range.py:610-1177) and the SortedDict helpers (1405-1459)

    A range set object holds one SortedDict from lower bounds to ranges
    (range.py:910-914); its state is that dictionary.  Object identity (the copy made
    by [immutable_copy]) is modelled in RangeSetHeap.v. *)
From Verif Require Import Prelude Order Range SortedDict.

Section RangeSet.
Context {T : Type} {O : TotalOrder T}.
(** self._ranges_by_lower_bound, range.py:910-914 *)
Definition rset := sdict T (range T).

(** range.py:1405-1418 (_value_below).  [idx - 1 >= 0] is the match on [bisect_left];
    the clamp at 1413-1414 is kept. *)
Definition value_below (d : rset) (k : cut T) : res (option (range T)) :=
  match bisect_left d k with
  | 0 => Ok None
  | S idx =>
      let idx := if length d <=? idx then length d - 1 else idx in
      let* lb_key := getitem (sd_keys d) idx in
      let* v := sd_get d lb_key in
      Ok (Some v)
  end.

(** range.py:1421-1437 (_value_at_or_below) *)
Definition value_at_or_below (d : rset) (k : cut T) : res (option (range T)) :=
  match d with
  | [] => Ok None
  | _ =>
      let idx := bisect_left d k in
      let differs :=
        match nth_error (sd_keys d) idx with
        | None => true                               (* idx >= len(sorted_dict) *)
        | Some k' => negb (cut_eq k k')              (* key != keys()[idx] *)
        end in
      if differs then
        match idx with
        | 0 => Ok None
        | S i => let* key := getitem (sd_keys d) i in
                 let* v := sd_get d key in Ok (Some v)
        end
      else let* v := sd_get d k in Ok (Some v)
  end.

(** range.py:1440-1447 (_value_at_or_above) *)
Definition value_at_or_above (d : rset) (k : cut T) : res (option (range T)) :=
  match d with
  | [] => Ok None
  | _ =>
      let idx := bisect_left d k in
      if length d <=? idx then Ok None
      else let* key := getitem (sd_keys d) idx in
           let* v := sd_get d key in Ok (Some v)
  end.

(** range.py:1450-1459 (_clear) *)
Definition clear_keys (d : rset) (a b : cut T) : res rset :=
  foldM sd_del (sd_irange d a b) d.

(** range.py:1090-1092 (create), 637-638 (create_mutable) *)
Definition create_mutable : rset := [].

(** range.py:1057-1061, 1078-1079 *)
Definition as_ranges (d : rset) : list (range T) := sd_values d.
(** range.py:1060-1061 *)
Definition rs_is_empty (d : rset) : bool := (length d =? 0)%nat.
(** range.py:1078-1079 *)
Definition rs_len (d : rset) : nat := length d.

(** range.py:1150-1154 (_replace_range_with_same_lower_bound) *)
Definition replace_range (d : rset) (rng : range T) : res rset :=
  if is_empty rng then sd_del d (lower rng)
  else Ok (sd_set d (lower rng) rng).

(** range.py:1094-1131 (add) *)
Definition add (d : rset) (r : range T) : res rset :=
  if is_empty r then Ok d
  else
    let* below := value_below d (lower r) in
    let below_hit :=                                    (* 1110 *)
      match below with
      | Some b => if cut_le (lower r) (upper b) then Some b else None
      | None => None
      end in
    let lb := match below_hit with Some b => lower b | None => lower r end in  (* 1113 *)
    let contained :=                                    (* 1117 *)
      match below_hit with Some b => cut_lt (upper r) (upper b) | None => false end in
    if contained then Ok d                              (* 1118 *)
    else
      let* below_ub := value_at_or_below d (upper r) in (* 1121 *)
      let ub :=                                         (* 1124-1125 *)
        match below_ub with
        | Some b => if cut_lt (upper r) (upper b) then upper b else upper r
        | None => upper r
        end in
      let* d' := clear_keys d lb ub in                  (* 1128 *)
      let* rng := mk_range lb ub in
      replace_range d' rng.

(** range.py:1133-1140, 856-868 (add_all).  Both argument forms iterate ranges. *)
Definition add_all (d : rset) (rs : list (range T)) : res rset := foldM add rs d.

(** range.py:1142-1143 (clear) *)
Definition clear (d : rset) : res rset := clear_keys d BelowAll AboveAll.

(** range.py:1145-1148 (remove): always raises, state untouched. *)
Definition remove (d : rset) (r : range T) : res rset := Raise NotImplementedError.
(** range.py:891-903 (remove_all) *)
Definition remove_all (d : rset) (rs : list (range T)) : res rset := foldM remove rs d.

(** range.py:916-923 (range_containing) *)
Definition range_containing (d : rset) (x : T) : res (option (range T)) :=
  let* b := value_at_or_below d (BelowV x) in
  match b with
  | Some r => if contains r x then Ok (Some r) else Ok None
  | None => Ok None
  end.

(** range.py:925-935 (range_enclosing_range) *)
Definition range_enclosing_range (d : rset) (q : range T) : res (option (range T)) :=
  let* b := value_at_or_below d (lower q) in
  match b with
  | Some r => if encloses r q then Ok (Some r) else Ok None
  | None => Ok None
  end.

(** immutableset(iterable): first occurrence of each element, in order. *)
Fixpoint dedupe (seen : list (range T)) (l : list (range T)) : list (range T) :=
  match l with
  | [] => []
  | r :: l' => if existsb (range_eq r) seen then dedupe seen l'
               else r :: dedupe (r :: seen) l'
  end.
(** immutablecollections' immutableset: order of first occurrence *)
Definition immutableset (l : list (range T)) : list (range T) := dedupe [] l.

(** range.py:937-954 (ranges_enclosed_by): the loop from [start_idx], stopping at the
    first range that is not enclosed. *)
Fixpoint take_enclosed (q : range T) (l : list (range T)) : list (range T) :=
  match l with
  | [] => []
  | r :: l' => if encloses q r then r :: take_enclosed q l' else []
  end.
(** range.py:937-954 *)
Definition ranges_enclosed_by (d : rset) (q : range T) : res (list (range T)) :=
  let* above := value_at_or_above d (lower q) in
  match above with
  | Some h =>
      let* start_idx := sd_index d (lower h) in
      Ok (immutableset (take_enclosed q (skipn start_idx (sd_values d))))
  | None => Ok []
  end.

(** range.py:957-964 (__contains__) *)
Definition rs_contains (d : rset) (x : T) : res bool :=
  let* b := value_at_or_below d (BelowV x) in
  Ok (match b with Some r => contains r x | None => false end).

(** range.py:966-973 (encloses) *)
Definition rs_encloses (d : rset) (q : range T) : res bool :=
  let* b := value_at_or_below d (lower q) in
  Ok (match b with Some r => encloses r q | None => false end).

(** range.py:654-663 (encloses_all) *)
Fixpoint rs_encloses_all (d : rset) (qs : list (range T)) : res bool :=
  match qs with
  | [] => Ok true
  | q :: qs' => let* b := rs_encloses d q in
                if b then rs_encloses_all d qs' else Ok false
  end.

(** The test used twice in range.py:975-994 *)
Definition connected_nonempty (r q : range T) : res bool :=
  if is_connected r q then
    let* i := intersection r q in Ok (negb (is_empty i))
  else Ok false.

(** range.py:975-994 (intersects) *)
Definition rs_intersects (d : rset) (q : range T) : res bool :=
  let* ceiling := value_at_or_above d (lower q) in
  let* hit := match ceiling with Some r => connected_nonempty r q | None => Ok false end in
  if hit then Ok true
  else
    let* lower_range := value_below d (lower q) in
    match lower_range with Some r => connected_nonempty r q | None => Ok false end.

(** [rlb[rlb.keys()[i]]] *)
Definition at_index (d : rset) (i : nat) : res (range T) :=
  let* k := getitem (sd_keys d) i in sd_get d k.

(** range.py:996-1027 (ranges_overlapping) *)
Definition ranges_overlapping (d : rset) (q : range T) : res (list (range T)) :=
  if rs_is_empty d then Ok []
  else
    let from_index := bisect_right d (lower q) in
    if (from_index =? length d)%nat then
      let* last_range := at_index d (length d - 1) in
      Ok (if intersects last_range q then [last_range] else [])
    else
      let to_index := bisect_right d (upper q) in
      if (to_index =? 0)%nat then
        let* first_range := at_index d 0 in
        Ok (if intersects first_range q then [first_range] else [])
      else
        let* cands := mapM (at_index d) (seq (from_index - 1) (to_index - (from_index - 1))) in
        Ok (immutableset (filter (fun r => intersects r q) cands)).

(** range.py:1029-1030 *)
Definition rightmost_containing_or_below (d : rset) (x : T) : res (option (range T)) :=
  value_at_or_below d (BelowV x).

(** range.py:1032-1055 *)
Definition leftmost_containing_or_above (d : rset) (x : T) : res (option (range T)) :=
  let limit := AboveV x in
  let idx := bisect_left d limit in
  let* hit :=
    match idx with
    | 0 => Ok None
    | S i => let* latest := at_index d i in
             Ok (if cut_le limit (upper latest) then Some latest else None)
    end in
  match hit with
  | Some r => Ok (Some r)
  | None => if idx <? length d then let* r := at_index d idx in Ok (Some r) else Ok None
  end.

(** range.py:1063-1070 (span) *)
Definition rs_span (d : rset) : res (range T) :=
  if rs_is_empty d then Raise ValueError
  else
    let* first := getitem (sd_values d) 0 in
    let* last := getitem (sd_values d) (length d - 1) in
    mk_range (lower first) (upper last).

(** range.py:773-777 (__eq__): equality of the sets of ranges. *)
Definition rs_eq (a b : rset) : bool :=
  let x := immutableset (as_ranges a) in
  let y := immutableset (as_ranges b) in
  (length x =? length y)%nat && forallb (fun r => existsb (range_eq r) y) x.

(** range.py:1165-1174 (Builder), 829-833 (Builder.add_all), 1072-1073 (immutable_copy,
    identity on the value) *)
Definition build (rs : list (range T)) : res rset := foldM add rs create_mutable.

(** range.py:800-803 (__getstate__), 1081-1084 (__setstate__) *)
Definition getstate (d : rset) : list (range T) := if rs_is_empty d then [] else as_ranges d.
(** range.py:1081-1084 *)
Definition setstate (st : list (range T)) : rset :=
  sd_of_list (map (fun r => (lower r, r)) st).
End RangeSet.
Arguments rset T : clear implicits.
