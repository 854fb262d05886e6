(** * Property theorems about spans (span.py).  C27-C34.

    [is_span a] says [a] is an object the constructor accepted.  The offsets of a span are
    the integers [i] with [start <= i < end]. *)
From Coq Require Import Sorted.
From Verif Require Import Prelude Order Range RangeFacts RangeProofs SortedDict RangeSet
  RangeSetOps RangeSetProofs RangeSetProofs2 RangeMap RangeMapProofs Span SpanProofs.
Local Open Scope Z_scope.

Definition offset (a : span) (i : Z) : Prop := start a <= i < end_ a.

(** C27 *)
Theorem C27_construction : forall s e,
  (s < e -> exists a, mk_span s e = Ok a /\ start a = s /\ end_ a = e /\ is_span a /\
     0 < span_len a /\ (forall i, offset a i <-> s <= i < e)) /\
  (e <= s -> mk_span s e = Raise ValueError).
Proof.
  intros s e. unfold mk_span. split; intros H.
  - replace (s <? e) with true by lia. exists (MkSpan s e). unfold is_span, span_len, mk_span, offset. simpl.
    replace (s <? e) with true by lia. repeat split; lia.
  - now replace (s <? e) with false by lia.
Qed.
Print Assumptions C27_construction.
Theorem C27_predicates : forall a b i, is_span a -> is_span b ->
  (contains_offset a i = true <-> offset a i) /\
  (contains_span a b = true <-> forall j, offset b j -> offset a j) /\
  (precedes a b = true <-> forall j k, offset a j -> offset b k -> j < k) /\
  (follows a b = true <-> forall j k, offset a j -> offset b k -> k < j) /\
  (overlaps a b = true <-> exists j, offset a j /\ offset b j) /\
  (span_eq a b = true <-> forall j, offset a j <-> offset b j) /\
  span_len a = Z.of_nat (length (filter (contains_offset a) (map (fun n => start a + Z.of_nat n) (seq 0 (Z.to_nat (end_ a - start a)))))).
Proof.
  intros a b i Ha Hb. apply is_span_iff in Ha, Hb. unfold offset, contains_offset, contains_span, precedes, follows, overlaps.
  split; [lia|]. split; [|split; [|split; [|split; [|split]]]].
  - split; [intros H j Hj; lia|]. intros H. pose proof (H (start b)). pose proof (H (end_ b - 1)). lia.
  - split; [intros H j k Hj Hk; lia|]. intros H. pose proof (H (end_ a - 1) (start b)). lia.
  - split; [intros H j k Hj Hk; lia|]. intros H. pose proof (H (start a) (end_ b - 1)). lia.
  - unfold precedes. split.
    + intros H. exists (Z.max (start a) (start b)). lia.
    + intros (j & H1 & H2). lia.
  - rewrite span_eq_iff. split; [intros ->; tauto|]. intros H.
    pose proof (H (start a)). pose proof (H (start b)). pose proof (H (end_ a - 1)). pose proof (H (end_ b - 1)).
    destruct a, b; simpl in *. f_equal; lia.
  - rewrite filter_all, map_length, seq_length; [unfold span_len; lia|].
    intros x Hx. apply in_map_iff in Hx. destruct Hx as (n & <- & Hn). apply in_seq in Hn. lia.
Qed.
Print Assumptions C27_predicates.
Example C27_witness : exists a b, is_span a /\ is_span b /\ overlaps a b = true /\ contains_span a b = false.
Proof. exists (MkSpan 1 5), (MkSpan 4 8). repeat split. Qed.

(** C28 *)
Theorem C28_intersection_clip : forall a b, is_span a -> is_span b ->
  exists o, span_intersection a b = Ok o /\ clip_to a b = Ok o /\
    match o with
    | None => forall i, ~ (offset a i /\ offset b i)
    | Some c => is_span c /\ forall i, offset c i <-> offset a i /\ offset b i
    end.
Proof.
  intros a b Ha Hb. unfold span_intersection, clip_to.
  rewrite (as_range_ok a Ha), (as_range_ok b Hb). cbn [bind].
  assert (Va := sr_valid a Ha). assert (Vb := sr_valid b Hb).
  apply is_span_iff in Ha, Hb.
  assert (OS : overlaps b a = overlaps a b) by (unfold overlaps, precedes; lia).
  rewrite OS. destruct (overlaps a b) eqn:Ov.
  - rewrite intersection_eq by assumption. rewrite sr_connected, Ov. cbn [bind].
    assert (L : cmax (lower (sr a)) (lower (sr b)) = BelowV (Z.max (start a) (start b))).
    { unfold cmax, cltb, sr. cbn [lower]. zcut. destruct (Z.ltb_spec (start a) (start b)), (Z.ltb_spec (start b) (start a)); cbn; f_equal; lia. }
    assert (U : cmin (upper (sr a)) (upper (sr b)) = AboveV (Z.min (end_ a - 1) (end_ b - 1))).
    { unfold cmin, cltb, sr. cbn [upper]. zcut. destruct (Z.ltb_spec (end_ a - 1) (end_ b - 1)), (Z.ltb_spec (end_ b - 1) (end_ a - 1)); cbn; f_equal; lia. }
    rewrite L, U. unfold lower_endpoint, upper_endpoint. cbn [lower upper endpoint bind].
    unfold overlaps, precedes in Ov.
    replace (Z.min (end_ a - 1) (end_ b - 1) + 1) with (Z.min (end_ a) (end_ b)) by lia.
    exists (Some (MkSpan (Z.max (start a) (start b)) (Z.min (end_ a) (end_ b)))).
    assert (M : mk_span (Z.max (start a) (start b)) (Z.min (end_ a) (end_ b)) =
      Ok (MkSpan (Z.max (start a) (start b)) (Z.min (end_ a) (end_ b)))) by (apply mk_span_ok; split; [reflexivity|lia]).
    rewrite M. cbn [bind negb]. split; [reflexivity|]. split.
    + destruct (contains_span b a) eqn:C; [|reflexivity]. unfold contains_span in C. destruct a as [s e]. simpl in *.
      do 3 f_equal; lia.
    + split; [apply is_span_iff; simpl; lia|]. intros i. unfold offset. simpl. lia.
  - exists None. split; [reflexivity|]. split; [reflexivity|].
    intros i. unfold offset, overlaps, precedes in *. lia.
Qed.
Print Assumptions C28_intersection_clip.
Theorem C28_shift : forall a d, is_span a ->
  exists b, shift a d = Ok b /\ is_span b /\ (forall i, offset b (i + d) <-> offset a i) /\
    span_len b = span_len a /\ shift b (- d) = Ok a.
Proof.
  intros a d H. pose proof H as H0. apply is_span_iff in H. unfold shift.
  exists (MkSpan (start a + d) (end_ a + d)).
  split; [apply mk_span_ok; split; [reflexivity|lia]|]. split; [apply is_span_iff; simpl; lia|].
  split; [intros i; unfold offset; simpl; lia|]. split; [unfold span_len; simpl; lia|].
  apply mk_span_ok. simpl. split; [|lia]. destruct a; simpl. f_equal; lia.
Qed.
Print Assumptions C28_shift.
Example C28_witness : span_intersection (MkSpan 1 5) (MkSpan 4 8) = Ok (Some (MkSpan 4 5)) /\
  clip_to (MkSpan 1 5) (MkSpan 5 8) = Ok None /\ shift (MkSpan 1 5) (-1) = Ok (MkSpan 0 4).
Proof. repeat split. Qed.

(** C29: spans as ranges. *)
Theorem C29_as_range : forall a b, is_span a -> is_span b ->
  exists ra rb, as_range a = Ok ra /\ as_range b = Ok rb /\
    factory_made ra /\ is_empty ra = false /\
    (forall i, contains ra i = contains_offset a i) /\
    encloses ra rb = contains_span a b /\
    is_connected ra rb = overlaps a b /\ intersects ra rb = overlaps a b /\
    (ra = rb <-> a = b).
Proof.
  intros a b Ha Hb. exists (sr a), (sr b).
  split; [now apply as_range_ok|]. split; [now apply as_range_ok|].
  split; [apply valid_factory; now apply sr_valid|]. split; [reflexivity|].
  split; [intros i; apply sr_contains|]. split; [apply sr_encloses|]. split; [apply sr_connected|].
  split; [rewrite intersects_connected by (now apply sr_valid); apply sr_connected|].
  split; [apply sr_inj|now intros ->].
Qed.
Print Assumptions C29_as_range.
Example C29_witness : exists a b, is_span a /\ is_span b /\ overlaps a b = false /\ end_ a = start b.
Proof. exists (MkSpan 1 5), (MkSpan 5 8). repeat split. Qed.

(** C30: a collection (iterable any number of times). *)
Theorem C30_minimal_enclosing_span : forall l, Forall is_span l ->
  (l = [] -> minimal_enclosing_span l = Raise ValueError) /\
  (l <> [] -> exists m, minimal_enclosing_span l = Ok m /\ is_span m /\
     (forall a, In a l -> contains_span m a = true) /\
     (forall m', (forall a, In a l -> contains_span m' a = true) -> contains_span m' m = true)).
Proof.
  intros l F. split; [intros ->; reflexivity|]. intros NE.
  destruct (minimal_spec l NE F) as (m & E & H1 & H2). exists m. repeat split; auto.
  unfold minimal_enclosing_span, minimal_enclosing_passes in E.
  destruct (py_min _); [|discriminate]. simpl in E. destruct (py_max _); [|discriminate]. simpl in E.
  apply mk_span_ok in E. destruct E as [-> L]. apply is_span_iff. exact L.
Qed.
Print Assumptions C30_minimal_enclosing_span.
(** C30 fails for iterators and generators (allowed by the [Iterable] annotation): the second
    pass sees nothing, so the call always raises. *)
Theorem C30_iterator_refuted : forall l, minimal_enclosing_span_iterator l = Raise ValueError.
Proof. intros l. unfold minimal_enclosing_span_iterator, minimal_enclosing_passes. destruct l; reflexivity. Qed.
Print Assumptions C30_iterator_refuted.
Example C30_witness : minimal_enclosing_span [MkSpan 3 5; MkSpan 1 2; MkSpan 4 9] = Ok (MkSpan 1 9).
Proof. reflexivity. Qed.

(** C31: the sort key orders by start, then longest first, and separates distinct spans. *)
Theorem C31_key : forall a b,
  (key_ltb (earliest_then_longest_first_key a) (earliest_then_longest_first_key b) = true <->
     start a < start b \/ (start a = start b /\ span_len b < span_len a)) /\
  (earliest_then_longest_first_key a = earliest_then_longest_first_key b <-> a = b).
Proof.
  intros [s e] [s' e']. unfold key_ltb, earliest_then_longest_first_key, span_len. simpl. split; [lia|].
  split; intros H; inversion H; f_equal; lia.
Qed.
Print Assumptions C31_key.
(** C31: a span containing another never sorts after it. *)
Theorem C31_containing_first : forall a b, contains_span a b = true -> a <> b ->
  key_ltb (earliest_then_longest_first_key a) (earliest_then_longest_first_key b) = true.
Proof.
  intros [s e] [s' e']. unfold key_ltb, earliest_then_longest_first_key, contains_span. simpl. intros H NE.
  assert (~ (s = s' /\ e = e')) by (intros [-> ->]; congruence). lia.
Qed.
Print Assumptions C31_containing_first.
Example C31_witness : contains_span (MkSpan 1 5) (MkSpan 1 3) = true.
Proof. reflexivity. Qed.

(** ** Indices.  Items have a [span_of]; [ieq] is their [==], assumed to identify only equal
    items. *)

(** C32: construction of a disjoint index. *)
Theorem C32_index_disjoint : forall (I : Type) (span_of : I -> span) (items : list I),
  (forall i, is_span (span_of i)) ->
  let fine := forall a b, In a items -> In b items -> span_of a <> span_of b ->
    ~ exists i, offset (span_of a) i /\ offset (span_of b) i in
  (fine -> exists m, index_disjoint span_of items = Ok m) /\
  (~ fine -> index_disjoint span_of items = Raise ValueError).
Proof.
  intros I span_of items S fine.
  assert (X : forall a b : I, overlaps (span_of a) (span_of b) = false <-> ~ exists i, offset (span_of a) i /\ offset (span_of b) i).
  { intros a b. destruct (C27_predicates (span_of a) (span_of b) 0 (S a) (S b)) as (_ & _ & _ & _ & O & _).
    rewrite <- O. destruct (overlaps (span_of a) (span_of b)); split; congruence. }
  destruct (index_spec span_of S items) as [(G & rs & E & _)|(G & E)].
  - split; [eauto|]. intros N. exfalso. apply N. intros a b Ha Hb NE. apply X. auto.
  - split; [|auto]. intros F. exfalso. apply G. intros a b Ha Hb NE. apply X. auto.
Qed.
Print Assumptions C32_index_disjoint.
(** The documentation says the disjoint index disallows overlapping spans.  That is false for
    items with identical spans: construction succeeds and one of the items is lost. *)
Theorem C32_identical_spans_refuted : exists (I : Type) (span_of : I -> span) (items : list I) m a b,
  (forall i, is_span (span_of i)) /\ In a items /\ In b items /\ a <> b /\
  overlaps (span_of a) (span_of b) = true /\
  index_disjoint span_of items = Ok m /\ dis_exactly_matching m (span_of a) = Ok (Some b).
Proof.
  exists bool, (fun _ => MkSpan 1 5), [true; false]. eexists. exists true, false.
  repeat split; simpl; auto; discriminate.
Qed.
Print Assumptions C32_identical_spans_refuted.
Example C32_witness : exists m, index_disjoint (fun x : Z * Z => MkSpan (fst x) (fst x + 2)) [(5, 1); (3, 2); (9, 3)] = Ok m.
Proof. eexists. reflexivity. Qed.

Lemma find_split {A} (p : A -> bool) (l : list A) x : find p l = Some x -> exists l1 l2, l = l1 ++ x :: l2 /\ p x = true /\ forall y, In y l1 -> p y = false.
Proof.
  induction l as [|a l IH]; [discriminate|]. cbn [find]. destruct (p a) eqn:E.
  - intros H. inversion H; subst. exists [], l. split; [reflexivity|]. split; [assumption|]. intros y [].
  - intros H. destruct (IH H) as (l1 & l2 & -> & P & N). exists (a :: l1), l2. split; [reflexivity|]. split; [assumption|]. intros y [<-|Hy]; auto.
Qed.
(** [x] is the last item with its span. *)
Definition last_of_its_span {I : Type} (span_of : I -> span) (items : list I) (x : I) : Prop :=
  exists before after, items = before ++ x :: after /\ forall y, In y after -> span_of y <> span_of x.
Lemma last_with_kept {I : Type} (span_of : I -> span) (items : list I) x : last_with span_of items (span_of x) = Some x <-> last_of_its_span span_of items x.
Proof.
  unfold last_with, last_of_its_span. split.
  - intros F. destruct (find_split _ _ _ F) as (l1 & l2 & E & _ & N). exists (rev l2), (rev l1). split.
    + rewrite <- (rev_involutive items), E, rev_app_distr. cbn [rev]. rewrite <- app_assoc. reflexivity.
    + intros y Hy E'. apply in_rev in Hy. specialize (N y Hy). apply span_eq_iff in E'. congruence.
  - intros (l1 & l2 & -> & N). rewrite rev_app_distr. cbn [rev]. rewrite <- app_assoc. cbn [app].
    assert (N' : forall y, In y (rev l2) -> span_eq (span_of y) (span_of x) = false).
    { intros y Hy. apply in_rev in Hy. specialize (N y Hy). destruct (span_eq (span_of y) (span_of x)) eqn:E; [apply span_eq_iff in E; contradiction|reflexivity]. }
    clear N. induction (rev l2) as [|y l IH]; cbn [app find]; [now rewrite (proj2 (span_eq_iff (span_of x) (span_of x)) eq_refl)|]. rewrite N' by (now left). apply IH. intros z Hz. apply N'. now right.
Qed.
(** C33: queries on a disjoint index: of the items with the same span only the last is found. *)
Theorem C33_last_of_each_span : forall (I : Type) (ieq : I -> I -> bool) (span_of : I -> span) (items : list I) m (q : span),
  (forall a b, ieq a b = true <-> a = b) -> (forall i, is_span (span_of i)) -> is_span q ->
  index_disjoint span_of items = Ok m ->
  (exists o, dis_exactly_matching m q = Ok o /\ forall x, o = Some x <-> last_of_its_span span_of items x /\ span_of x = q) /\
  (exists l, dis_overlapping ieq m q = Ok l /\ NoDup l /\ forall x, In x l <-> last_of_its_span span_of items x /\ overlaps (span_of x) q = true) /\
  (exists l, dis_contained ieq m q = Ok l /\ NoDup l /\ forall x, In x l <-> last_of_its_span span_of items x /\ contains_span q (span_of x) = true) /\
  (exists o, dis_containing ieq m q = Ok o /\ forall x, o = Some x <-> last_of_its_span span_of items x /\ contains_span (span_of x) q = true).
Proof.
  intros I ieq span_of items m q IE S Q E.
  destruct (index_spec span_of S items) as [(G & rs & E' & W & K)|(G & E')]; [|congruence].
  rewrite E in E'. inversion E'; subst m; clear E E'.
  assert (LW : forall x, last_with span_of items (span_of x) = Some x <-> last_of_its_span span_of items x) by (intros x; apply last_with_kept).
  assert (LI : forall x, last_of_its_span span_of items x -> In x items) by (intros x (l1 & l2 & -> & _); apply in_or_app; right; now left).
  assert (Vq := sr_valid q Q).
  split; [|split; [|split]].
  - unfold dis_exactly_matching. rewrite as_range_ok by assumption. cbn [bind rng_to_val].
    eexists. split; [reflexivity|]. intros x. unfold idict_find. rewrite idict_of_get.
    rewrite last_value_pairs. split.
    + destruct (last_with span_of items q) eqn:L; [|discriminate]. intros H. inversion H; subst.
      assert (span_of x = q) as <- by now apply last_with_some in L. split; [now apply LW|reflexivity].
    + intros [Hx <-]. apply LW in Hx. now rewrite Hx.
  - unfold dis_overlapping. rewrite as_range_ok by assumption. cbn [bind range_set].
    rewrite overlapping_q by assumption. cbn [bind].
    destruct (collect_spec ieq IE span_of items (filter (is_connected (sr q)) rs) (map kv rs)) as (vs & E & N & M).
    { intros k Hk. apply filter_In in Hk. now apply K. }
    exists vs. split; [exact E|]. split; [assumption|]. intros x. rewrite M, filter_In, K, sr_connected, LW.
    assert (OS : overlaps q (span_of x) = overlaps (span_of x) q) by (unfold overlaps, precedes; lia).
    rewrite OS. split; [tauto|]. intros [Hx O]. assert (Ix := LI x Hx). repeat split; eauto.
  - unfold dis_contained, rm_enclosed_by. rewrite as_range_ok by assumption. cbn [bind range_set].
    rewrite enclosed_by_q by assumption. cbn [bind].
    destruct (collect_spec ieq IE span_of items (filter (encloses (sr q)) rs) (map kv rs)) as (vs & E & N & M).
    { intros k Hk. apply filter_In in Hk. now apply K. }
    exists vs. split; [exact E|]. split; [assumption|]. intros x. rewrite M, filter_In, K, sr_encloses, LW.
    split; [tauto|]. intros [Hx O]. assert (Ix := LI x Hx). repeat split; eauto.
  - unfold dis_containing. rewrite as_range_ok by assumption. cbn [bind].
    unfold lower_endpoint, upper_endpoint. cbn [sr lower upper endpoint bind].
    assert (GI : forall i, exists o, rm_getitem (MkMap (idict_of (pairs_of span_of items)) (map kv rs)) i = Ok o /\
       forall x, o = Some x <-> last_of_its_span span_of items x /\ contains_offset (span_of x) i = true).
    { intros i. unfold rm_getitem. cbn [range_set]. rewrite contains_q by assumption. cbn [bind].
      destruct (find (fun k => contains k i) rs) as [k|] eqn:F; cbn [value_of rng_to_val].
      - apply find_some in F. destruct F as [Hk Ck]. apply K in Hk. destruct Hk as (it & Hit & ->).
        destruct (value_found span_of items it Hit) as (v & Gv & L). rewrite Gv. cbn [bind].
        exists (Some v). split; [reflexivity|]. pose proof L as L'. apply last_with_some in L. destruct L as [Hv Sv].
        rewrite sr_contains in Ck.
        rewrite <- Sv in L'. intros x. split; [intros H; inversion H; subst; rewrite Sv; split; [now apply LW|assumption]|].
        intros [Kx Cx]. assert (Hx := LI x Kx). f_equal. destruct (span_eq (span_of x) (span_of v)) eqn:SE.
        + apply span_eq_iff in SE. apply LW in Kx. rewrite SE in Kx. congruence.
        + exfalso. assert (NE : span_of x <> span_of v) by (intros H; apply span_eq_iff in H; congruence).
          specialize (G x v Hx Hv NE). rewrite <- Sv in Ck. unfold overlaps, precedes, contains_offset in *. lia.
      - exists None. split; [reflexivity|]. intros x. split; [discriminate|]. intros [Kx Cx]. assert (Hx := LI x Kx).
        rewrite <- sr_contains in Cx. pose proof (find_none _ _ F (sr (span_of x))) as N. simpl in N.
        rewrite N in Cx; [discriminate|]. apply K. eauto. }
    destruct (GI (start q)) as (a & Ea & Ha). destruct (GI (end_ q - 1)) as (b & Eb & Hb).
    rewrite Ea, Eb. cbn [bind]. apply is_span_iff in Q.
    assert (C : forall x, contains_span (span_of x) q = true <-> contains_offset (span_of x) (start q) = true /\ contains_offset (span_of x) (end_ q - 1) = true).
    { intros x. unfold contains_span, contains_offset. specialize (S x). apply is_span_iff in S. lia. }
    destruct (opt_eq ieq a b) eqn:OE.
    + exists a. split; [reflexivity|]. intros x. rewrite C. split.
      * intros ->. destruct (proj1 (Ha x) eq_refl) as [Hx Cx]. split; [assumption|]. split; [assumption|].
        destruct b as [y|]; [|discriminate]. simpl in OE. apply IE in OE. subst y. now apply Hb.
      * intros (Hx & C1 & C2). apply Ha. auto.
    + exists None. split; [reflexivity|]. intros x. split; [discriminate|]. rewrite C. intros (Hx & C1 & C2).
      assert (a = Some x) by (apply Ha; auto). assert (b = Some x) by (apply Hb; auto). subst. simpl in OE.
      rewrite (proj2 (IE x x) eq_refl) in OE. discriminate.
Qed.
(** C33: queries on a disjoint index whose items have pairwise different spans. *)
Theorem C33_disjoint_queries : forall (I : Type) (ieq : I -> I -> bool) (span_of : I -> span) (items : list I) m (q : span),
  (forall a b, ieq a b = true <-> a = b) -> (forall i, is_span (span_of i)) -> is_span q ->
  (forall a b, In a items -> In b items -> span_of a = span_of b -> a = b) ->
  index_disjoint span_of items = Ok m ->
  (exists o, dis_exactly_matching m q = Ok o /\ forall x, o = Some x <-> In x items /\ span_of x = q) /\
  (exists l, dis_overlapping ieq m q = Ok l /\ NoDup l /\ forall x, In x l <-> In x items /\ overlaps (span_of x) q = true) /\
  (exists l, dis_contained ieq m q = Ok l /\ NoDup l /\ forall x, In x l <-> In x items /\ contains_span q (span_of x) = true) /\
  (exists o, dis_containing ieq m q = Ok o /\ forall x, o = Some x <-> In x items /\ contains_span (span_of x) q = true).
Proof.
  intros I ieq span_of items m q IE S Q U E.
  assert (K : forall x, last_of_its_span span_of items x <-> In x items).
  { intros x. split; [intros (l1 & l2 & -> & _); apply in_or_app; right; now left|]. intros H. apply last_with_kept.
    destruct (value_found span_of items x H) as (v & _ & L). rewrite L. f_equal. apply last_with_some in L. destruct L as [Hv Sv]. apply U; auto. }
  destruct (C33_last_of_each_span I ieq span_of items m q IE S Q E) as ((o1 & E1 & H1) & (l2 & E2 & N2 & H2) & (l3 & E3 & N3 & H3) & (o4 & E4 & H4)).
  split; [|split; [|split]].
  - exists o1. split; [exact E1|]. intros x. rewrite <- K. apply H1.
  - exists l2. split; [exact E2|]. split; [exact N2|]. intros x. rewrite <- K. apply H2.
  - exists l3. split; [exact E3|]. split; [exact N3|]. intros x. rewrite <- K. apply H3.
  - exists o4. split; [exact E4|]. intros x. rewrite <- K. apply H4.
Qed.
Print Assumptions C33_last_of_each_span.
Print Assumptions C33_disjoint_queries.
(** C33 needs equal items to be identical: two distinct items at different spans that compare
    [==] make get_containing return an item that does not contain the query. *)
Theorem C33_equal_items_refuted : exists (I : Type) (ieq : I -> I -> bool) (span_of : I -> span) (items : list I) m q x,
  (forall i, is_span (span_of i)) /\ (forall a, ieq a a = true) /\ is_span q /\
  index_disjoint span_of items = Ok m /\ dis_containing ieq m q = Ok (Some x) /\
  contains_span (span_of x) q = false.
Proof.
  exists bool, (fun _ _ => true), (fun b : bool => if b then MkSpan 0 2 else MkSpan 5 8), [true; false].
  eexists. exists (MkSpan 1 6), true. split; [intros []; reflexivity|]. repeat split.
Qed.
Print Assumptions C33_equal_items_refuted.
Example C33_witness :
  let so := fun x : Z * Z => MkSpan (fst x) (fst x + 2) in
  exists m, index_disjoint so [(5, 1); (3, 2); (9, 3)] = Ok m /\
    dis_overlapping (fun a b => (fst a =? fst b) && (snd a =? snd b)) m (MkSpan 4 6) = Ok [(3, 2); (5, 1)] /\
    dis_containing (fun a b => (fst a =? fst b) && (snd a =? snd b)) m (MkSpan 9 10) = Ok (Some (9, 3)).
Proof. eexists. split; [reflexivity|]. split; reflexivity. Qed.

(** Of two items at the same span the last is found, the first is lost. *)
Example C33_same_span_witness :
  let so := fun x : Z * Z => MkSpan (fst x) (fst x + 2) in let eq := fun a b : Z * Z => (fst a =? fst b) && (snd a =? snd b) in
  exists m, index_disjoint so [(5, 1); (3, 2); (5, 4)] = Ok m /\ dis_overlapping eq m (MkSpan 4 6) = Ok [(3, 2); (5, 4)] /\ dis_containing eq m (MkSpan 6 7) = Ok (Some (5, 4)).
Proof. eexists. split; [reflexivity|]. split; reflexivity. Qed.

(** C34: queries on an overlapping index. *)
Theorem C34_overlapping_queries : forall (I : Type) (ieq : I -> I -> bool) (span_of : I -> span) (items : list I) (q : span),
  (forall a b, ieq a b = true <-> a = b) ->
  (NoDup (ov_exactly_matching ieq span_of items q) /\
   forall x, In x (ov_exactly_matching ieq span_of items q) <-> In x items /\ span_of x = q) /\
  (NoDup (ov_overlapping ieq span_of items q) /\
   forall x, In x (ov_overlapping ieq span_of items q) <-> In x items /\ overlaps (span_of x) q = true) /\
  (NoDup (ov_contained ieq span_of items q) /\
   forall x, In x (ov_contained ieq span_of items q) <-> In x items /\ contains_span q (span_of x) = true) /\
  (NoDup (ov_containing ieq span_of items q) /\
   forall x, In x (ov_containing ieq span_of items q) <-> In x items /\ contains_span (span_of x) q = true).
Proof.
  intros I ieq span_of items q IE. repeat split; try (now apply (iset_nodup ieq IE));
  try (now apply (ov_get_in ieq IE)); try (apply (ov_query_in ieq IE)); try assumption;
  try (match goal with H : In _ _ |- _ => apply (ov_query_in ieq IE) in H || apply (ov_get_in ieq IE) in H end; tauto).
  all: intros [? ?]; (apply (ov_query_in ieq IE) || apply (ov_get_in ieq IE)); auto.
Qed.
Print Assumptions C34_overlapping_queries.
Example C34_witness : ov_overlapping Z.eqb (fun x => MkSpan x (x + 3)) [1; 7; 2; 7] (MkSpan 3 8) = [1; 7; 2].
Proof. reflexivity. Qed.
