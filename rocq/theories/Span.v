(** * Model of vistautils/span.py *)
From Verif Require Import Prelude Order Range SortedDict RangeSet RangeMap.
Local Open Scope Z_scope.

(** span.py:18-40: start inclusive, end exclusive; the constructor checks start < end
    (attrs validators run after both fields are set; the [instance_of(int)] checks are the
    types here). *)
Record span := MkSpan { start : Z; end_ : Z }.
(** Span(s, e): span.py:30-40 *)
Definition mk_span (s e : Z) : res span :=
  if s <? e then Ok (MkSpan s e) else Raise ValueError.
(** span.py:42-49 *)
Definition from_inclusive_to_exclusive (s e : Z) : res span := mk_span s e.
(** attrs equality *)
Definition span_eq (a b : span) : bool := (start a =? start b) && (end_ a =? end_ b).
(** span.py:51-52 *)
Definition contains_offset (a : span) (i : Z) : bool := (start a <=? i) && (i <? end_ a).
(** span.py:54-55, 98-99 ([in]) *)
Definition contains_span (a b : span) : bool := (start a <=? start b) && (end_ b <=? end_ a).
(** span.py:57-63 *)
Definition precedes (a b : span) : bool := end_ a <=? start b.
(** span.py:65-71 *)
Definition follows (a b : span) : bool := start a >=? end_ b.
(** span.py:73-81 *)
Definition overlaps (a b : span) : bool := negb (precedes a b || precedes b a).
(** span.py:95-96 *)
Definition as_range (a : span) : res (range Z) := closed (start a) (end_ a - 1).
(** span.py:83-93 *)
Definition span_intersection (a b : span) : res (option span) :=
  if overlaps a b then
    let* ra := as_range a in
    let* rb := as_range b in
    let* i := intersection ra rb in
    let* l := lower_endpoint i in
    let* u := upper_endpoint i in
    let* s := mk_span l (u + 1) in
    Ok (Some s)
  else Ok None.
(** span.py:101-102 *)
Definition span_len (a : span) : Z := end_ a - start a.
(** span.py:104-115 *)
Definition clip_to (a enclosing : span) : res (option span) :=
  if negb (overlaps enclosing a) then Ok None
  else if contains_span enclosing a then Ok (Some a)
  else let* s := mk_span (Z.max (start a) (start enclosing)) (Z.min (end_ a) (end_ enclosing)) in
       Ok (Some s).
(** span.py:117-123 *)
Definition shift (a : span) (d : Z) : res span := mk_span (start a + d) (end_ a + d).
(** Python's min()/max() of an iterable of ints *)
Definition py_min (l : list Z) : res Z :=
  match l with [] => Raise ValueError | x :: r => Ok (fold_left Z.min r x) end.
(** max() of a list, ValueError if it is empty *)
Definition py_max (l : list Z) : res Z :=
  match l with [] => Raise ValueError | x :: r => Ok (fold_left Z.max r x) end.
(** span.py:125-132: two passes over [spans].  [pass1]/[pass2] is what each iteration
    yields: the same list twice for a collection, the list and then nothing for an
    iterator or generator. *)
Definition minimal_enclosing_passes (pass1 pass2 : list span) : res span :=
  let* lo := py_min (map start pass1) in
  let* hi := py_max (map end_ pass2) in
  mk_span lo hi.
(** span.py:125-132 on a collection *)
Definition minimal_enclosing_span (spans : list span) : res span := minimal_enclosing_passes spans spans.
(** span.py:125-132 on an iterator, exhausted by the first pass *)
Definition minimal_enclosing_span_iterator (spans : list span) : res span := minimal_enclosing_passes spans [].
(** span.py:134-137 *)
Definition earliest_then_longest_first_key (x : span) : Z * Z :=
  (start x, - (end_ x - start x)).
(** Comparison of key tuples, as used by sorted() *)
Definition key_ltb (a b : Z * Z) : bool := (fst a <? fst b) || ((fst a =? fst b) && (snd a <? snd b)).

Section Index.
Context {I : Type}.
Variable ieq : I -> I -> bool.          (* == on items *)
Variable span_of : I -> span.           (* item.span *)

(** span.py:211-216, 180-188 (index_disjoint), 219-225 *)
Definition index_disjoint (items : list I) : res (rmap Z I) :=
  let* pairs := mapM (fun it => let* r := as_range (span_of it) in Ok (r, it)) items in
  immutablerangemap pairs.
(** dict.get(key) *)
Definition idict_find (d : idict Z I) (k : range Z) : option I :=
  match idict_get d k with Ok v => Some v | Raise _ => None end.
(** span.py:227-228 *)
Definition dis_exactly_matching (m : rmap Z I) (q : span) : res (option I) :=
  let* r := as_range q in Ok (idict_find (rng_to_val m) r).
(** span.py:230-236 *)
Definition dis_overlapping (m : rmap Z I) (q : span) : res (list I) :=
  let* r := as_range q in
  let* ks := ranges_overlapping (range_set m) r in
  foldM (fun acc k => let* v := idict_get (rng_to_val m) k in Ok (iset_add ieq acc v)) ks [].
(** span.py:238-239 *)
Definition dis_contained (m : rmap Z I) (q : span) : res (list I) :=
  let* r := as_range q in rm_enclosed_by ieq m r.
(** [==] on Optional items *)
Definition opt_eq (a b : option I) : bool :=
  match a, b with Some x, Some y => ieq x y | None, None => true | _, _ => false end.
(** span.py:241-248 *)
Definition dis_containing (m : rmap Z I) (q : span) : res (option I) :=
  let* r := as_range q in
  let* lo := lower_endpoint r in
  let* hi := upper_endpoint r in
  let* a := rm_getitem m lo in
  let* b := rm_getitem m hi in
  if opt_eq a b then rm_getitem m lo else Ok None.

(** immutablecollections.immutablesetmultidict (third party), trusted: keys in order of first
    occurrence, each with the set of its values in insertion order; a missing key has the
    empty set.  immutableset(...) keeps first occurrences in order. *)
Definition iset (l : list I) : list I := fold_left (iset_add ieq) l [].
(** the keys of span.py:211-216, in order of first occurrence *)
Fixpoint first_spans (seen : list span) (items : list I) : list span :=
  match items with
  | [] => []
  | it :: r => if existsb (span_eq (span_of it)) seen then first_spans seen r
               else span_of it :: first_spans (span_of it :: seen) r
  end.
(** span.py:170-178 (index), 251-259: the index is the list of items. *)
Definition ov_keys (items : list I) : list span := first_spans [] items.
(** span.py:261-262 *)
Definition ov_get (items : list I) (q : span) : list I :=
  iset (filter (fun it => span_eq (span_of it) q) items).
(** span.py:261-262 *)
Definition ov_exactly_matching (items : list I) (q : span) : list I := ov_get items q.
(** span.py:264-286: the three generator expressions *)
Definition ov_query (p : span -> bool) (items : list I) : list I :=
  iset (concat (map (fun c => filter (fun _ => p c) (ov_get items c)) (ov_keys items))).
(** span.py:264-270 *)
Definition ov_overlapping (items : list I) (q : span) := ov_query (fun c => overlaps c q) items.
(** span.py:272-278 *)
Definition ov_contained (items : list I) (q : span) := ov_query (fun c => contains_span q c) items.
(** span.py:280-286 *)
Definition ov_containing (items : list I) (q : span) := ov_query (fun c => contains_span c q) items.
End Index.
