(** * Model of vistautils/range.py:82-595 (cuts and Range) *)
From Verif Require Import Prelude Order.

(** range.py:82-304.  [_BelowAll] (162-192) and [_AboveAll] (195-225) are
    singletons compared by identity; [_BelowValue] (234-267) and [_AboveValue]
    (270-304) carry an endpoint.  Here the singletons are constructors; the
    identity comparison is revisited in Pickle.v. *)
Inductive cut (T : Type) : Type :=
| BelowAll
| BelowV (x : T)
| AboveV (x : T)
| AboveAll.
Arguments BelowAll {T}.
Arguments BelowV {T} x.
Arguments AboveV {T} x.
Arguments AboveAll {T}.

Inductive bound_type := BOpen | BClosed.      (* range.py:36-66 *)

(** range.py:53-54 *)
Definition flip (b : bound_type) : bound_type :=
  match b with BOpen => BClosed | BClosed => BOpen end.

Section Range.
Context {T : Type} {O : TotalOrder T}.

(** range.py:121-142 (_Cut.compare_to), 184-188 (_BelowAll), 217-221 (_AboveAll). *)
Definition compare_to (self other : cut T) : Z :=
  match self with
  | BelowAll => match other with BelowAll => 0 | _ => -1 end
  | AboveAll => match other with AboveAll => 0 | _ => 1 end
  | BelowV a =>
      match other with
      | BelowAll => 1
      | AboveAll => -1
      | BelowV b => if ltb a b then -1 else if ltb b a then 1 else 0
      | AboveV b => if ltb a b then -1 else if ltb b a then 1 else -1
      end
  | AboveV a =>
      match other with
      | BelowAll => 1
      | AboveAll => -1
      | AboveV b => if ltb a b then -1 else if ltb b a then 1 else 0
      | BelowV b => if ltb a b then -1 else if ltb b a then 1 else 1
      end
  end%Z.

(** range.py:146-156 *)
Definition cut_lt (a b : cut T) : bool := (compare_to a b <? 0)%Z.
(** range.py:149-150 *)
Definition cut_le (a b : cut T) : bool := (compare_to a b <=? 0)%Z.
(** range.py:152-153 *)
Definition cut_gt (a b : cut T) : bool := (0 <? compare_to a b)%Z.
(** range.py:155-156 *)
Definition cut_ge (a b : cut T) : bool := (0 <=? compare_to a b)%Z.

(** range.py:158-159 (_Cut.__eq__ via compare_to), 255-258 and 292-295 (the
    overrides of the two value cuts). *)
Definition cut_eq (a b : cut T) : bool :=
  match a with
  | BelowAll | AboveAll => (compare_to a b =? 0)%Z
  | BelowV x => match b with BelowV y => eqb x y | _ => false end
  | AboveV x => match b with AboveV y => eqb x y | _ => false end
  end.

(** [endpoint]: range.py:166-167, 199-200, 240-241, 276-277 *)
Definition endpoint (c : cut T) : res T :=
  match c with
  | BelowAll | AboveAll => Raise ValueError
  | BelowV x | AboveV x => Ok x
  end.

(** [is_less_than]: range.py:169-170, 202-203, 243-244, 279-280 *)
Definition is_less_than (c : cut T) (x : T) : bool :=
  match c with
  | BelowAll => true
  | AboveAll => false
  | BelowV a => ltb a x || eqb a x
  | AboveV a => ltb a x
  end.

(** range.py:172-176, 205-209, 246-250, 282-286 *)
Definition as_upper_bound (c : cut T) : res bound_type :=
  match c with
  | BelowAll | AboveAll => Raise AssertionError
  | BelowV _ => Ok BOpen
  | AboveV _ => Ok BClosed
  end.
(** range.py:175-176, 208-209, 249-250, 285-286 *)
Definition as_lower_bound (c : cut T) : res bound_type :=
  match c with
  | BelowAll | AboveAll => Raise AssertionError
  | BelowV _ => Ok BClosed
  | AboveV _ => Ok BOpen
  end.

(** range.py:312-387 *)
Record range := MkRange { lower : cut T; upper : cut T }.

(** "== _BELOW_ALL", range.py:227-231 *)
Definition is_below_all (c : cut T) : bool := match c with BelowAll => true | _ => false end.
(** "== _ABOVE_ALL", range.py:227-231 *)
Definition is_above_all (c : cut T) : bool := match c with AboveAll => true | _ => false end.

(** range.py:380-387 ([Range.__attrs_post_init__]).  When the first check fails the
    error message formats [self]; formatting a bound [_ABOVE_ALL] as lower bound
    (211-212) or [_BELOW_ALL] as upper bound (181-182) raises AssertionError instead.
    (A third way to fail, an endpoint whose [%]-formatting raises, is in Repr.v, C98_constructor and C98_tuples_refuted.) *)
Definition mk_range (lb ub : cut T) : res range :=
  if cut_le lb ub then
    if is_above_all lb then Raise ValueError
    else if is_below_all ub then Raise ValueError
    else Ok (MkRange lb ub)
  else if is_above_all lb || is_below_all ub then Raise AssertionError
  else Raise ValueError.

(** range.py:389-423 *)
Definition open_ (a b : T) := mk_range (AboveV a) (BelowV b).
(** range.py:393-395 *)
Definition closed (a b : T) := mk_range (BelowV a) (AboveV b).
(** range.py:397-399 *)
Definition closed_open (a b : T) := mk_range (BelowV a) (BelowV b).
(** range.py:401-403 *)
Definition open_closed (a b : T) := mk_range (AboveV a) (AboveV b).
(** range.py:405-407 *)
Definition less_than (b : T) := mk_range BelowAll (BelowV b).
(** range.py:409-411 *)
Definition at_most (b : T) := mk_range BelowAll (AboveV b).
(** range.py:413-415 *)
Definition greater_than (a : T) := mk_range (AboveV a) AboveAll.
(** range.py:417-419 *)
Definition at_least (a : T) := mk_range (BelowV a) AboveAll.
(** range.py:421-423 *)
Definition all_ := mk_range BelowAll AboveAll.

(** Python's [min]/[max] over a non-empty generator: the first minimal (maximal)
    element, comparing with [<] (resp. [>]). *)
Fixpoint min_from (m : cut T) (l : list (cut T)) : cut T :=
  match l with [] => m | c :: r => min_from (if cut_lt c m then c else m) r end.
(** max() of range.py:425-431: the first of equal maxima *)
Fixpoint max_from (m : cut T) (l : list (cut T)) : cut T :=
  match l with [] => m | c :: r => max_from (if cut_gt c m then c else m) r end.

(** range.py:425-431 *)
Definition create_spanning (rs : list range) : res range :=
  match rs with
  | [] => Raise ValueError
  | r :: rs' => mk_range (min_from (lower r) (map lower rs'))
                         (max_from (upper r) (map upper rs'))
  end.

(** range.py:433-437 *)
Definition has_lower_bound (r : range) : bool := negb (is_below_all (lower r)).
(** range.py:436-437 *)
Definition has_upper_bound (r : range) : bool := negb (is_above_all (upper r)).
(** range.py:439-453 *)
Definition lower_bound_type (r : range) := as_lower_bound (lower r).
(** range.py:442-444 *)
Definition upper_bound_type (r : range) := as_upper_bound (upper r).
(** range.py:446-449 *)
Definition lower_endpoint (r : range) := endpoint (lower r).
(** range.py:451-453 *)
Definition upper_endpoint (r : range) := endpoint (upper r).

(** range.py:455-466 *)
Definition is_empty (r : range) : bool := cut_eq (lower r) (upper r).

(** range.py:469-473.  The [check_not_none] is outside the model: values are
    elements of [T], never None. *)
Definition contains (r : range) (x : T) : bool :=
  is_less_than (lower r) x && negb (is_less_than (upper r) x).

(** range.py:475-480 *)
Definition encloses (a b : range) : bool :=
  (compare_to (lower a) (lower b) <=? 0)%Z && (0 <=? compare_to (upper a) (upper b))%Z.

(** range.py:482-506 *)
Definition is_connected (a b : range) : bool :=
  cut_le (lower a) (upper b) && cut_le (lower b) (upper a).

(** range.py:508-531 *)
Definition span (a b : range) : res range :=
  let lower_cmp := compare_to (lower a) (lower b) in
  let upper_cmp := compare_to (upper a) (upper b) in
  if (lower_cmp <=? 0)%Z && (0 <=? upper_cmp)%Z then Ok a
  else if (0 <=? lower_cmp)%Z && (upper_cmp <=? 0)%Z then Ok b
  else mk_range (if (lower_cmp <=? 0)%Z then lower a else lower b)
                (if (0 <=? upper_cmp)%Z then upper a else upper b).

(** range.py:533-560 *)
Definition intersection (a b : range) : res range :=
  let lower_cmp := compare_to (lower a) (lower b) in
  let upper_cmp := compare_to (upper a) (upper b) in
  if (0 <=? lower_cmp)%Z && (upper_cmp <=? 0)%Z then Ok a
  else if (lower_cmp <=? 0)%Z && (0 <=? upper_cmp)%Z then Ok b
  else mk_range (if (0 <=? lower_cmp)%Z then lower a else lower b)
                (if (upper_cmp <=? 0)%Z then upper a else upper b).

(** range.py:562-584 *)
Definition intersects (a b : range) : bool :=
  let lower_cmp := compare_to (lower a) (lower b) in
  let upper_cmp := compare_to (upper a) (upper b) in
  if (0 <=? lower_cmp)%Z && (upper_cmp <=? 0)%Z then true
  else if (lower_cmp <=? 0)%Z && (0 <=? upper_cmp)%Z then true
  else
    let ilb := if (0 <=? lower_cmp)%Z then lower a else lower b in
    let iub := if (upper_cmp <=? 0)%Z then upper a else upper b in
    cut_le ilb iub.

(** range.py:586-592 *)
Definition range_eq (a b : range) : bool :=
  cut_eq (lower a) (lower b) && cut_eq (upper a) (upper b).

(** range.py:594-595 with the cut hashes 190-192, 223-225, 252-253, 288-290; [h] is the
    hash of endpoints, [~x] is [-x-1].  Python reduces the final sum to machine
    size; that reduction is a function of the sum, so it is omitted. *)
Definition cut_hash (h : T -> Z) (c : cut T) : Z :=
  match c with
  | BelowAll => 233904909
  | AboveAll => 9989388
  | BelowV x => h x
  | AboveV x => - h x - 1
  end%Z.
(** range.py:594-595; [h] is the elements' hash *)
Definition range_hash (h : T -> Z) (r : range) : Z :=
  (cut_hash h (lower r) + 31 * cut_hash h (upper r))%Z.

(** A range the constructor accepts. *)
Definition valid (r : range) : Prop := mk_range (lower r) (upper r) = Ok r.

End Range.
Arguments range T : clear implicits.
