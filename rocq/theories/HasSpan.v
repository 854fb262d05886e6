(** * C133: objects that have a span, alone, where a span is expected, and in indices (span.py:51-115, 143-159, 165-178, 251-286) *)
From Verif Require Import Prelude Order Range SortedDict RangeSet RangeMap Span SpanProofs SpanProps.
Local Open Scope Z_scope.

(** ** Model *)
(** A Python value that has a span or is one: a Span, or a (mutable) object of a class derived from HasSpan, span.py:18-31, 143-145 *)
Inductive target := ToSpan (s : span) | ToObj (i : nat).
(** The attribute [span] of each object (span.py:143-145), if it has been set *)
Definition heap := nat -> option target.
(** HasSpan's methods delegate to self.span (span.py:147-159): [f] is the method of Span, which gets the depth of recursion that is left; [fuel] is Python's recursion limit *)
Fixpoint deleg {A} (h : heap) (f : nat -> span -> res A) (fuel : nat) (t : target) : res A :=
  match t with
  | ToSpan s => f fuel s
  | ToObj i => match fuel with
               | O => Raise RecursionError
               | S n => match h i with None => Raise AttributeError | Some t' => deleg h f n t' end
               end
  end.
Section Methods.
Variable h : heap.
(** span.py:147-149 *)
Definition get_start := deleg h (fun _ s => Ok (start s)).
(** span.py:151-153 *)
Definition get_end := deleg h (fun _ s => Ok (end_ s)).
(** span.py:51-52, 155-156 *)
Definition has_contains_offset (fuel : nat) (t : target) (i : Z) : res bool := deleg h (fun _ s => Ok (contains_offset s i)) fuel t.
(** Span.contains_span and "in" (span.py:54-55, 98-99) with any object as argument: "and" looks at other.end only if the first comparison holds *)
Definition span_contains (fuel : nat) (s : span) (u : target) : res bool :=
  let* a := get_start fuel u in if start s <=? a then let* b := get_end fuel u in Ok (b <=? end_ s) else Ok false.
(** span.py:158-159 *)
Definition has_contains_span (fuel : nat) (t u : target) : res bool := deleg h (fun left s => span_contains left s u) fuel t.
(** Span.precedes, span.py:57-63 *)
Definition span_precedes (fuel : nat) (s : span) (u : target) : res bool := let* a := get_start fuel u in Ok (end_ s <=? a).
(** Span.follows, span.py:65-71 *)
Definition span_follows (fuel : nat) (s : span) (u : target) : res bool := let* a := get_end fuel u in Ok (start s >=? a).
(** Span.overlaps, span.py:73-81: other.precedes(self) is only asked for if self does not precede other; HasSpan has no such method *)
Definition span_overlaps (fuel : nat) (s : span) (u : target) : res bool :=
  let* p := span_precedes fuel s u in
  if p then Ok false else match u with ToSpan s' => Ok (negb (precedes s' s)) | ToObj _ => Raise AttributeError end.
(** Span.intersection, span.py:83-93; other.as_range is not reached for other objects, see [span_overlaps] *)
Definition span_intersects (fuel : nat) (s : span) (u : target) : res (option span) :=
  let* o := span_overlaps fuel s u in if o then match u with ToSpan s' => span_intersection s s' | ToObj _ => Raise AttributeError end else Ok None.
(** Span.clip_to, span.py:104-115: enclosing.overlaps comes first *)
Definition span_clip_to (s : span) (u : target) : res (option span) := match u with ToSpan s' => clip_to s s' | ToObj _ => Raise AttributeError end.
End Methods.

(** What a program does with objects and indices: it sets an object's span, it builds an index of objects (span.py:170-178), it asks an index (261-286) *)
Inductive event := SetSpan (i : nat) (s : span) | Build (items : list nat) | Ask (k : nat) (query : nat) (q : span).
(** An index holds the spans that its items had when it was built (span.py:175-178: pairs of item.span and item, in a dictionary) *)
Record index := MkIndex { ix_items : list nat; ix_span : nat -> span }.
(** item.span of an object whose span is a Span (for span.py:175-178); objects without one are not put into indices here *)
Definition span_at (h : nat -> span) (i : nat) : span := h i.
(** The four questions, span.py:261-286 (0: exactly matching, 1: overlapping, 2: contained, else containing) *)
Definition ask (ix : index) (query : nat) (q : span) : list nat :=
  match query with
  | 0%nat => ov_exactly_matching Nat.eqb (ix_span ix) (ix_items ix) q
  | 1%nat => ov_overlapping Nat.eqb (ix_span ix) (ix_items ix) q
  | 2%nat => ov_contained Nat.eqb (ix_span ix) (ix_items ix) q
  | _ => ov_containing Nat.eqb (ix_span ix) (ix_items ix) q
  end.
(** A run (span.py:143-145, 170-178, 261-286): the objects' spans, the indices built so far, the answers *)
Fixpoint run (h : nat -> span) (ixs : list index) (evs : list event) : (nat -> span) * list index * list (list nat) :=
  match evs with
  | [] => (h, ixs, [])
  | SetSpan i s :: r => run (fun j => if (j =? i)%nat then s else h j) ixs r
  | Build items :: r => run h (ixs ++ [MkIndex items (span_at h)]) r
  | Ask k query q :: r => let '(h1, ixs1, l) := run h ixs r in
                          (h1, ixs1, match nth_error ixs k with Some ix => ask ix query q | None => [] end :: l)
  end.

(** ** Specification *)
(** Following [span] [n] times leads from [t] to the span [s]. *)
Inductive leads_to (h : heap) : target -> span -> nat -> Prop :=
| lt_here s : leads_to h (ToSpan s) s 0
| lt_next i t s n : h i = Some t -> leads_to h t s n -> leads_to h (ToObj i) s (S n).
(** ... leads to an object without a span *)
Inductive stops (h : heap) : target -> nat -> Prop :=
| st_here i : h i = None -> stops h (ToObj i) 0
| st_next i t n : h i = Some t -> stops h t n -> stops h (ToObj i) (S n).
(** the question [query] about a span [x] and the span [q] asked for *)
Definition fits (query : nat) (x q : span) : Prop :=
  match query with
  | 0%nat => x = q
  | 1%nat => exists i, start x <= i < end_ x /\ start q <= i < end_ q
  | 2%nat => start q <= start x /\ end_ x <= end_ q
  | _ => start x <= start q /\ end_ q <= end_ x
  end.

(** ** Theorems *)
Lemma deleg_span {A} h (f : nat -> span -> res A) t s n : leads_to h t s n -> forall fuel, (n <= fuel)%nat -> deleg h f fuel t = f (fuel - n)%nat s.
Proof.
  intros L. induction L as [s|i t s n E L IH]; intros fuel F; [rewrite Nat.sub_0_r; destruct fuel; reflexivity|]. destruct fuel as [|fuel]; [lia|]. cbn [deleg]. rewrite E, IH by lia. reflexivity.
Qed.
(** C133: an object whose [span] leads to a span, directly or through other objects, starts, ends and contains what that span does, also where the span of another object is asked for. *)
Theorem C133_delegates : forall h fuel t s n, leads_to h t s n -> (n <= fuel)%nat ->
  get_start h fuel t = Ok (start s) /\ get_end h fuel t = Ok (end_ s) /\ (forall i, has_contains_offset h fuel t i = Ok (contains_offset s i)) /\
  (forall u s' m, leads_to h u s' m -> (n + m <= fuel)%nat -> has_contains_span h fuel t u = Ok (contains_span s s')).
Proof.
  intros h fuel t s n L F. unfold get_start, get_end, has_contains_offset, has_contains_span. rewrite !(deleg_span _ _ _ _ _ L) by assumption.
  split; [reflexivity|]. split; [reflexivity|]. split; [intros i; now rewrite (deleg_span _ _ _ _ _ L)|]. intros u s' m L' F'. rewrite (deleg_span _ _ _ _ _ L) by assumption.
  unfold span_contains, get_start, get_end. rewrite !(deleg_span _ _ _ _ _ L') by lia. cbn [bind]. unfold contains_span. destruct (start s <=? start s'); reflexivity.
Qed.
(** C133: in the span's own methods contains_span, "in", precedes and follows such an object can stand for its span. *)
Theorem C133_stands_for_span : forall h fuel u s' m s, leads_to h u s' m -> (m <= fuel)%nat ->
  span_contains h fuel s u = Ok (contains_span s s') /\ span_precedes h fuel s u = Ok (precedes s s') /\ span_follows h fuel s u = Ok (follows s s').
Proof.
  intros h fuel u s' m s L F. unfold span_contains, span_precedes, span_follows, get_start, get_end. rewrite !(deleg_span _ _ _ _ _ L) by assumption. cbn [bind]. unfold contains_span, precedes, follows.
  split; [destruct (start s <=? start s'); reflexivity|split; reflexivity].
Qed.
(** Expected: also in overlaps, intersection and clip_to.  Refuted: they raise AttributeError, except that overlaps and intersection say False and None when the span precedes that of the object. *)
Theorem C133_overlaps_refuted : forall h fuel i s' m s, leads_to h (ToObj i) s' m -> (m <= fuel)%nat ->
  (precedes s s' = true -> span_overlaps h fuel s (ToObj i) = Ok false /\ span_intersects h fuel s (ToObj i) = Ok None) /\
  (precedes s s' = false -> span_overlaps h fuel s (ToObj i) = Raise AttributeError /\ span_intersects h fuel s (ToObj i) = Raise AttributeError) /\
  span_clip_to s (ToObj i) = Raise AttributeError.
Proof.
  intros h fuel i s' m s L F. destruct (C133_stands_for_span h fuel (ToObj i) s' m s L F) as (_ & P & _). unfold span_intersects, span_overlaps. rewrite P. cbn [bind].
  split; [intros ->; split; reflexivity|]. split; [intros ->; split; reflexivity|reflexivity].
Qed.
(** for spans themselves the general methods are those of Span.v *)
Theorem C133_spans : forall h fuel s s', span_overlaps h fuel s (ToSpan s') = Ok (overlaps s s') /\ span_intersects h fuel s (ToSpan s') = span_intersection s s' /\ span_contains h fuel s (ToSpan s') = Ok (contains_span s s').
Proof.
  intros h fuel s s'. assert (O : span_overlaps h fuel s (ToSpan s') = Ok (overlaps s s')).
  { unfold span_overlaps, span_precedes, get_start, overlaps. assert (D : deleg h (fun _ s => Ok (start s)) fuel (ToSpan s') = Ok (start s')) by (destruct fuel; reflexivity). rewrite D. cbn [bind]. unfold precedes at 2. unfold precedes at 1. destruct (end_ s <=? start s'); reflexivity. }
  split; [exact O|]. split; [unfold span_intersects; rewrite O; cbn [bind]; unfold span_intersection; destruct (overlaps s s'); reflexivity|].
  exact (proj1 (C133_stands_for_span h fuel (ToSpan s') s' 0 s (lt_here _ _) (Nat.le_0_l _))).
Qed.
(** C133: an object that leads nowhere: AttributeError if an object on the way has no span, RecursionError if there is no end. *)
Theorem C133_no_span : forall h fuel t, (forall s n, (n <= fuel)%nat -> ~ leads_to h t s n) ->
  get_start h fuel t = get_end h fuel t /\
  ((exists n, (n < fuel)%nat /\ stops h t n) /\ get_start h fuel t = Raise AttributeError \/ (forall n, (n < fuel)%nat -> ~ stops h t n) /\ get_start h fuel t = Raise RecursionError).
Proof.
  intros h fuel. unfold get_start, get_end. induction fuel as [|fuel IH]; intros [s|i] N; try (exfalso; exact (N s 0%nat (Nat.le_0_l _) (lt_here h s))).
  - split; [reflexivity|]. right. split; [intros n L; lia|reflexivity].
  - cbn [deleg]. destruct (h i) as [t|] eqn:E.
    + destruct (IH t) as (Q & [((n & L & St) & R)|(X & R)]); [intros s n L T; exact (N s (S n) ltac:(lia) (lt_next _ _ _ _ _ E T))| |].
      * split; [exact Q|]. left. split; [exists (S n); split; [lia|exact (st_next _ _ _ _ E St)]|exact R].
      * split; [exact Q|]. right. split; [|exact R]. intros n L St. inversion St as [j E2|j t2 n2 E2 St2]; subst; [congruence|]. rewrite E in E2. injection E2 as <-. exact (X n2 ltac:(lia) St2).
    + split; [reflexivity|]. left. split; [exists 0%nat; split; [lia|now constructor]|reflexivity].
Qed.

Lemma ask_fits ix query q : (forall i, is_span (ix_span ix i)) -> is_span q -> NoDup (ask ix query q) /\ forall i, In i (ask ix query q) <-> In i (ix_items ix) /\ fits query (ix_span ix i) q.
Proof.
  intros P Q. destruct (C34_overlapping_queries nat Nat.eqb (ix_span ix) (ix_items ix) q Nat.eqb_eq) as ((N0 & H0) & (N1 & H1) & (N2 & H2) & (N3 & H3)).
  destruct query as [|[|[|query]]]; cbn [ask fits]; (split; [assumption|]); intros i.
  - apply H0.
  - rewrite H1. assert (O : overlaps (ix_span ix i) q = true <-> exists j, start (ix_span ix i) <= j < end_ (ix_span ix i) /\ start q <= j < end_ q).
    { specialize (P i). apply is_span_iff in P. apply is_span_iff in Q. unfold overlaps, precedes. rewrite negb_true_iff, orb_false_iff, !Z.leb_gt. split; [intros (A & B); exists (Z.max (start (ix_span ix i)) (start q)); lia|intros (j & A); lia]. }
    now rewrite O.
  - rewrite H2. unfold contains_span. now rewrite andb_true_iff, !Z.leb_le.
  - rewrite H3. unfold contains_span. now rewrite andb_true_iff, !Z.leb_le.
Qed.
Lemma run_keeps evs : forall h ixs k ix, nth_error ixs k = Some ix -> nth_error (snd (fst (run h ixs evs))) k = Some ix.
Proof.
  induction evs as [|[i s|items|k0 query q] evs IH]; intros h ixs k ix E; cbn [run]; [exact E|now apply IH| |].
  - apply IH. rewrite nth_error_app1; [assumption|]. apply nth_error_Some. congruence.
  - specialize (IH h ixs k ix E). destruct (run h ixs evs) as [[h1 ixs1] l]. exact IH.
Qed.
Lemma run_app evs1 : forall h ixs evs2, run h ixs (evs1 ++ evs2) =
  let '(h1, ixs1, l1) := run h ixs evs1 in let '(h2, ixs2, l2) := run h1 ixs1 evs2 in (h2, ixs2, l1 ++ l2).
Proof.
  induction evs1 as [|[i s|items|k0 query q] evs IH]; intros h ixs evs2; cbn [run app].
  - destruct (run h ixs evs2) as [[? ?] ?]. reflexivity.
  - apply IH.
  - apply IH.
  - rewrite IH. destruct (run h ixs evs) as [[h1 ixs1] l1]. destruct (run h1 ixs1 evs2) as [[? ?] ?]. reflexivity.
Qed.
(** C133: an index answers by the spans that its items had when it was built, whatever has happened to them - and to other indices - before and since. *)
Theorem C133_index_history : forall h before items between query q, (forall i, is_span (h i)) -> (forall i s, In (SetSpan i s) before -> is_span s) -> is_span q ->
  let '(h1, ixs1, _) := run h [] before in
  exists l answers, snd (run h [] (before ++ Build items :: between ++ [Ask (length ixs1) query q])) = answers ++ [l] /\
    NoDup l /\ forall i, In i l <-> In i items /\ fits query (h1 i) q.
Proof.
  intros h before items between query q P B Q. destruct (run h [] before) as [[h1 ixs1] l1] eqn:R1.
  assert (P1 : forall i, is_span (h1 i)).
  { revert R1 P B. clear. generalize (@nil index) as ixs. revert h l1. induction before as [|[i s|its|k0 qu q0] evs IH]; intros h l1 ixs R P B; cbn [run] in R.
    - now inversion R; subst.
    - apply (IH _ _ _ R); [|intros j s0 I; apply (B j s0); now right]. intros j. destruct (j =? i)%nat; [apply (B i s); now left|apply P].
    - apply (IH _ _ _ R P). intros j s0 I; apply (B j s0); now right.
    - destruct (run h ixs evs) as [[h2 ixs2] l2] eqn:R2. inversion R; subst. apply (IH _ _ _ R2 P). intros j s0 I; apply (B j s0); now right. }
  rewrite run_app, R1. cbn [run]. rewrite run_app.
  assert (K : nth_error (snd (fst (run h1 (ixs1 ++ [MkIndex items (span_at h1)]) between))) (length ixs1) = Some (MkIndex items (span_at h1))).
  { apply run_keeps. rewrite nth_error_app2 by lia. now rewrite Nat.sub_diag. }
  destruct (run h1 (ixs1 ++ [MkIndex items (span_at h1)]) between) as [[h2 ixs2] l2]. cbn [fst snd] in K. cbn [run]. rewrite K.
  exists (ask (MkIndex items (span_at h1)) query q), (l1 ++ l2). split; [cbn [snd]; now rewrite app_assoc|]. apply (ask_fits (MkIndex items (span_at h1)) query q P1 Q).
Qed.
(** Expected: it answers by the spans they have.  Refuted. *)
Theorem C133_index_follows_refuted : exists h evs, (forall i, is_span (h i)) /\ (forall i s, In (SetSpan i s) evs -> is_span s) /\ is_span (MkSpan 0 2) /\
  let '(h', _, answers) := run h [] (evs ++ [Ask 0 1 (MkSpan 0 2)]) in answers = [[0%nat]] /\ ~ fits 1 (h' 0%nat) (MkSpan 0 2) /\ fits 1 (h' 1%nat) (MkSpan 0 2).
Proof.
  exists (fun i => if (i =? 0)%nat then MkSpan 0 1 else MkSpan 5 6), [Build [0; 1]%nat; SetSpan 0 (MkSpan 5 6); SetSpan 1 (MkSpan 0 1)].
  split; [intros [|i]; apply is_span_iff; cbn; lia|]. split; [intros i s [E|[E|[E|[]]]]; try discriminate; injection E as <- <-; apply is_span_iff; cbn; lia|]. split; [apply is_span_iff; cbn; lia|].
  cbn [app run]. split; [reflexivity|]. cbn. split; [intros (j & ?); lia|exists 0; lia].
Qed.

(** ** Cases that meet the hypotheses *)
Definition heap133 : heap := fun i => match i with 0%nat => Some (ToSpan (MkSpan 3 9)) | 1%nat => Some (ToObj 0) | 2%nat => Some (ToObj 2) | 3%nat => Some (ToObj 4) | _ => None end.
Example C133_witness : leads_to heap133 (ToObj 1) (MkSpan 3 9) 2 /\ leads_to heap133 (ToObj 0) (MkSpan 3 9) 1 /\
  (forall fuel s n, (n <= fuel)%nat -> ~ leads_to heap133 (ToObj 2) s n) /\ (forall fuel s n, (n <= fuel)%nat -> ~ leads_to heap133 (ToObj 3) s n) /\ stops heap133 (ToObj 3) 1 /\
  get_start heap133 1000 (ToObj 2) = Raise RecursionError /\ get_start heap133 1000 (ToObj 3) = Raise AttributeError /\ has_contains_span heap133 1000 (ToObj 1) (ToSpan (MkSpan 4 5)) = Ok true /\
  span_overlaps heap133 1000 (MkSpan 0 3) (ToObj 1) = Ok false /\ span_overlaps heap133 1000 (MkSpan 0 4) (ToObj 1) = Raise AttributeError.
Proof.
  split; [apply (lt_next _ _ (ToObj 0)); [reflexivity|]; apply (lt_next _ _ (ToSpan (MkSpan 3 9))); [reflexivity|constructor]|].
  split; [apply (lt_next _ _ (ToSpan (MkSpan 3 9))); [reflexivity|constructor]|].
  split. { intros fuel s n _. induction n as [|n IH]; intros L; inversion L as [|i t s0 n0 E L2]; subst. injection E as <-. exact (IH L2). }
  split. { intros fuel s n _ L. inversion L as [|i t s0 n0 E L2]; subst. injection E as <-. inversion L2 as [|i t s0 n1 E2 L3]; subst. discriminate E2. }
  split; [apply (st_next _ _ (ToObj 4)); [reflexivity|now constructor]|]. repeat split; reflexivity.
Qed.
Example C133_index_witness : exists h before, (forall i, is_span (h i)) /\ (forall i s, In (SetSpan i s) before -> is_span s) /\
  snd (run h [] (before ++ Build [0; 1; 2]%nat :: [SetSpan 1 (MkSpan 50 51)] ++ [Ask 1 1 (MkSpan 4 6)])) = [[0; 1]%nat].
Proof.
  exists (fun i => MkSpan (3 * Z.of_nat i) (3 * Z.of_nat i + 3)), [Build [1%nat]; SetSpan 0 (MkSpan 4 5)]. split; [intros i; apply is_span_iff; cbn; lia|].
  split; [intros i s [E|[E|[]]]; try discriminate; injection E as <- <-; apply is_span_iff; cbn; lia|reflexivity].
Qed.
Print Assumptions C133_delegates. Print Assumptions C133_no_span. Print Assumptions C133_index_history.
