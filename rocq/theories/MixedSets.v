(** * C115: range sets over values that cannot all be compared (range.py:610-1177, 1405-1459)

    The functions of SortedDict.v and RangeSet.v with a comparison [x < y] that may raise, as in RangePartial.v.  Methods that change the set give the set they leave, also when they raise. *)
From Verif Require Import Prelude Order Range SortedDict RangeSet RangeSetOps RangePartial.
Local Open Scope nat_scope.

Section Mixed.
Context {T : Type}.
Variable lt : T -> T -> res bool.
Variable eq : T -> T -> bool.
Notation rng := (range T).
Notation dict := (list (cut T * range T)) (only parsing).

(** range.py:146-147 *)
Definition pcut_lt (a b : cut T) : res bool := let* c := pcompare_to lt a b in Ok (c <? 0)%Z.
(** SortedDict.bisect_left and bisect_right (used in range.py:1001-1040, 1405-1459).  Simplification: a scan from the left, as in SortedDict.v; that bisection as written in Python's
    bisect module gives the same result, and raises in the same cases, is C115_bisection. *)
Fixpoint pbisect_left (ks : list (cut T)) (k : cut T) : res nat :=
  match ks with
  | [] => Ok 0
  | k' :: r => let* less := pcut_lt k' k in if (less : bool) then let* i := pbisect_left r k in Ok (S i) else Ok 0
  end.
(** SortedDict.bisect_right (range.py:1001, 1009) *)
Fixpoint pbisect_right (ks : list (cut T)) (k : cut T) : res nat :=
  match ks with
  | [] => Ok 0
  | k' :: r => let* less := pcut_lt k k' in if (less : bool) then Ok 0 else let* i := pbisect_right r k in Ok (S i)
  end.
(** Python's bisect.bisect_left(a, x, lo, hi): [fuel] bounds the number of rounds *)
Fixpoint halve_left (fuel : nat) (ks : list (cut T)) (k : cut T) (lo hi : nat) : res nat :=
  match fuel with
  | 0 => Ok lo
  | S fuel =>
      if lo <? hi then
        let mid := (lo + hi) / 2 in
        let* m := getitem ks mid in
        let* less := pcut_lt m k in
        if (less : bool) then halve_left fuel ks k (mid + 1) hi else halve_left fuel ks k lo mid
      else Ok lo
  end.
(** Python's bisect.bisect_right(a, x, lo, hi) *)
Fixpoint halve_right (fuel : nat) (ks : list (cut T)) (k : cut T) (lo hi : nat) : res nat :=
  match fuel with
  | 0 => Ok lo
  | S fuel =>
      if lo <? hi then
        let mid := (lo + hi) / 2 in
        let* m := getitem ks mid in
        let* less := pcut_lt k m in
        if (less : bool) then halve_right fuel ks k lo mid else halve_right fuel ks k (mid + 1) hi
      else Ok lo
  end.
(** [d[k]]: by hash and ==, which do not raise *)
Fixpoint psd_get (d : dict) (k : cut T) : res rng :=
  match d with
  | [] => Raise KeyError
  | (k', v) :: r => if pcut_eq eq k' k then Ok v else psd_get r k
  end.
(** [d.index(k)], range.py:942-944 *)
Definition psd_index (d : dict) (k : cut T) : res nat :=
  let* i := pbisect_left (sd_keys d) k in
  match nth_error (sd_keys d) i with
  | Some k' => if pcut_eq eq k' k then Ok i else Raise ValueError
  | None => Raise ValueError
  end.
(** taking a key away *)
Fixpoint without (d : dict) (k : cut T) : res dict :=
  match d with
  | [] => Raise KeyError
  | (k', v') :: r => if pcut_eq eq k' k then Ok r else let* r' := without r k in Ok ((k', v') :: r')
  end.
(** [del d[k]], range.py:1459: the hash table first, then the sorted list, whose place is found by bisection.  (When the bisection raises, the list keeps the key that the table has lost; here only the table is kept.) *)
Definition psd_del (d : dict) (k : cut T) : dict * res unit :=
  match without d k with
  | Raise e => (d, Raise e)
  | Ok d' => match pbisect_left (sd_keys d) k with Ok _ => (d', Ok tt) | Raise e => (d', Raise e) end
  end.
(** replacing the value of a key *)
Fixpoint replace_value (d : dict) (k : cut T) (v : rng) : option dict :=
  match d with
  | [] => None
  | (k', v') :: r => if pcut_eq eq k' k then Some ((k', v) :: r) else match replace_value r k v with Some r' => Some ((k', v') :: r') | None => None end
  end.
(** [d[k] = v], range.py:1154: a new key is put into the sorted list first, after the keys that are not above it *)
Definition psd_set (d : dict) (k : cut T) (v : rng) : dict * res unit :=
  match replace_value d k v with
  | Some d' => (d', Ok tt)
  | None => match pbisect_right (sd_keys d) k with Ok i => (firstn i d ++ (k, v) :: skipn i d, Ok tt) | Raise e => (d, Raise e) end
  end.
(** the keys with a <= k < b *)
Fixpoint pbetween (ks : list (cut T)) (a b : cut T) : res (list (cut T)) :=
  match ks with
  | [] => Ok []
  | k :: r =>
      let* from := pcut_le lt a k in
      let* to := if (from : bool) then pcut_lt k b else Ok false in
      let* rest := pbetween r a b in
      Ok (if (to : bool) then k :: rest else rest)
  end.

(** range.py:1405-1418 *)
Definition pvalue_below (d : dict) (k : cut T) : res (option rng) :=
  let* i := pbisect_left (sd_keys d) k in
  match i with
  | 0 => Ok None
  | S idx =>
      let idx := if length d <=? idx then length d - 1 else idx in
      let* lb_key := getitem (sd_keys d) idx in
      let* v := psd_get d lb_key in Ok (Some v)
  end.
(** range.py:1421-1437 *)
Definition pvalue_at_or_below (d : dict) (k : cut T) : res (option rng) :=
  match d with
  | [] => Ok None
  | _ =>
      let* idx := pbisect_left (sd_keys d) k in
      let differs := match nth_error (sd_keys d) idx with None => true | Some k' => negb (pcut_eq eq k k') end in
      if (differs : bool) then
        match idx with
        | 0 => Ok None
        | S i => let* key := getitem (sd_keys d) i in let* v := psd_get d key in Ok (Some v)
        end
      else let* v := psd_get d k in Ok (Some v)
  end.
(** range.py:1440-1447 *)
Definition pvalue_at_or_above (d : dict) (k : cut T) : res (option rng) :=
  match d with
  | [] => Ok None
  | _ =>
      let* idx := pbisect_left (sd_keys d) k in
      if length d <=? idx then Ok None
      else let* key := getitem (sd_keys d) idx in let* v := psd_get d key in Ok (Some v)
  end.
(** the loop of range.py:1454-1459 *)
Fixpoint del_each (ks : list (cut T)) (d : dict) : dict * res unit :=
  match ks with
  | [] => (d, Ok tt)
  | k :: r => match psd_del d k with (d', Ok _) => del_each r d' | (d', Raise e) => (d', Raise e) end
  end.
(** range.py:1450-1459: the keys are listed before any is deleted *)
Definition pclear_keys (d : dict) (a b : cut T) : dict * res unit :=
  match pbetween (sd_keys d) a b with Ok ks => del_each ks d | Raise e => (d, Raise e) end.
(** range.py:1150-1154 *)
Definition preplace_range (d : dict) (r : rng) : dict * res unit :=
  if pis_empty eq r then psd_del d (lower r) else psd_set d (lower r) r.

(** range.py:1103-1125: the bounds of the range that will be put in, or None if there is nothing to do *)
Definition bounds_to_add (d : dict) (r : rng) : res (option (cut T * cut T)) :=
  let* below := pvalue_below d (lower r) in
  let* hit := match below with Some b => let* x := pcut_le lt (lower r) (upper b) in Ok (if (x : bool) then Some b else None) | None => Ok None end in
  let* contained := match hit with Some b => pcut_lt (upper r) (upper b) | None => Ok false end in
  if (contained : bool) then Ok None
  else
    let lb := match hit with Some b => lower b | None => lower r end in
    let* below_ub := pvalue_at_or_below d (upper r) in
    let* over := match below_ub with Some b => let* x := pcut_lt (upper r) (upper b) in Ok (if (x : bool) then Some b else None) | None => Ok None end in
    Ok (Some (lb, match over with Some b => upper b | None => upper r end)).
(** range.py:1094-1131 *)
Definition padd (d : dict) (r : rng) : dict * res unit :=
  if pis_empty eq r then (d, Ok tt)
  else
    match bounds_to_add d r with
    | Raise e => (d, Raise e)
    | Ok None => (d, Ok tt)
    | Ok (Some (lb, ub)) =>
        match pclear_keys d lb ub with
        | (d', Raise e) => (d', Raise e)
        | (d', Ok _) => match pmk_range lt lb ub with Ok rng => preplace_range d' rng | Raise e => (d', Raise e) end
        end
    end.
(** range.py:1133-1140: stops at the first range that raises *)
Fixpoint padd_all (d : dict) (rs : list rng) : dict * res unit :=
  match rs with
  | [] => (d, Ok tt)
  | r :: rs => match padd d r with (d', Ok _) => padd_all d' rs | (d', Raise e) => (d', Raise e) end
  end.
(** one call of range.py:1094-1148, 891-903 *)
Definition pstep (d : dict) (o : op T) : dict * res unit :=
  match o with
  | Add r => padd d r
  | AddAll rs => padd_all d rs
  | Clear => pclear_keys d BelowAll AboveAll
  | Remove _ => (d, Raise NotImplementedError)
  | RemoveAll rs => match rs with [] => (d, Ok tt) | _ => (d, Raise NotImplementedError) end
  end.
(** a history of calls on a new set (range.py:1090-1092), the caller catching exceptions *)
Definition prun (ops : list (op T)) : dict := fold_left (fun d o => fst (pstep d o)) ops [].

(** range.py:916-923 *)
Definition prange_containing (d : dict) (x : T) : res (option rng) :=
  let* b := pvalue_at_or_below d (BelowV x) in
  match b with Some r => let* c := pcontains lt eq r x in Ok (if (c : bool) then Some r else None) | None => Ok None end.
(** range.py:957-964 *)
Definition pset_contains (d : dict) (x : T) : res bool :=
  let* b := pvalue_at_or_below d (BelowV x) in
  match b with Some r => pcontains lt eq r x | None => Ok false end.
(** range.py:925-935 *)
Definition prange_enclosing_range (d : dict) (q : rng) : res (option rng) :=
  let* b := pvalue_at_or_below d (lower q) in
  match b with Some r => let* c := pencloses lt r q in Ok (if (c : bool) then Some r else None) | None => Ok None end.
(** range.py:966-973 *)
Definition pset_encloses (d : dict) (q : rng) : res bool :=
  let* b := pvalue_at_or_below d (lower q) in
  match b with Some r => pencloses lt r q | None => Ok false end.
(** the loop of range.py:946-951 *)
Fixpoint ptake_enclosed (q : rng) (l : list rng) : res (list rng) :=
  match l with
  | [] => Ok []
  | r :: l => let* c := pencloses lt q r in if (c : bool) then let* rest := ptake_enclosed q l in Ok (r :: rest) else Ok []
  end.
(** immutableset(...) of ranges: by hash and == *)
Fixpoint pdedupe (seen : list rng) (l : list rng) : list rng :=
  match l with
  | [] => []
  | r :: l' => if existsb (prange_eq eq r) seen then pdedupe seen l' else r :: pdedupe (r :: seen) l'
  end.
(** range.py:937-954 *)
Definition pranges_enclosed_by (d : dict) (q : rng) : res (list rng) :=
  let* above := pvalue_at_or_above d (lower q) in
  match above with
  | Some h =>
      let* start_idx := psd_index d (lower h) in
      let* found := ptake_enclosed q (skipn start_idx (sd_values d)) in
      Ok (pdedupe [] found)
  | None => Ok []
  end.
(** the test used twice in range.py:975-994 *)
Definition pconnected_nonempty (r q : rng) : res bool :=
  let* c := pis_connected lt r q in
  if (c : bool) then let* i := pintersection lt r q in Ok (negb (pis_empty eq i)) else Ok false.
(** range.py:975-994 *)
Definition pset_intersects (d : dict) (q : rng) : res bool :=
  let* ceiling := pvalue_at_or_above d (lower q) in
  let* hit := match ceiling with Some r => pconnected_nonempty r q | None => Ok false end in
  if (hit : bool) then Ok true
  else
    let* lower_range := pvalue_below d (lower q) in
    match lower_range with Some r => pconnected_nonempty r q | None => Ok false end.
(** [rlb[rlb.keys()[i]]], range.py:1005-1027 *)
Definition pat_index (d : dict) (i : nat) : res rng := let* k := getitem (sd_keys d) i in psd_get d k.
(** the comprehension of range.py:1017-1026 *)
Fixpoint poverlapping_at (d : dict) (q : rng) (is : list nat) : res (list rng) :=
  match is with
  | [] => Ok []
  | i :: is =>
      let* r := pat_index d i in
      let* c := pintersects lt r q in
      let* rest := poverlapping_at d q is in
      Ok (if (c : bool) then r :: rest else rest)
  end.
(** range.py:996-1027 *)
Definition pranges_overlapping (d : dict) (q : rng) : res (list rng) :=
  if length d =? 0 then Ok []
  else
    let* from_index := pbisect_right (sd_keys d) (lower q) in
    if from_index =? length d then
      let* last_range := pat_index d (length d - 1) in
      let* c := pintersects lt last_range q in Ok (if (c : bool) then [last_range] else [])
    else
      let* to_index := pbisect_right (sd_keys d) (upper q) in
      if to_index =? 0 then
        let* first_range := pat_index d 0 in
        let* c := pintersects lt first_range q in Ok (if (c : bool) then [first_range] else [])
      else
        let* found := poverlapping_at d q (seq (from_index - 1) (to_index - (from_index - 1))) in
        Ok (pdedupe [] found).
(** range.py:1029-1030 *)
Definition prightmost (d : dict) (x : T) : res (option rng) := pvalue_at_or_below d (BelowV x).
(** range.py:1032-1055 *)
Definition pleftmost (d : dict) (x : T) : res (option rng) :=
  let limit := AboveV x in
  let* idx := pbisect_left (sd_keys d) limit in
  let* hit :=
    match idx with
    | 0 => Ok None
    | S i => let* latest := pat_index d i in let* c := pcut_le lt limit (upper latest) in Ok (if (c : bool) then Some latest else None)
    end in
  match hit with
  | Some r => Ok (Some r)
  | None => if idx <? length d then let* r := pat_index d idx in Ok (Some r) else Ok None
  end.
End Mixed.
