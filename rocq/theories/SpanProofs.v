(** * Proofs about spans and span indices *)
From Verif Require Import Prelude Order Range RangeFacts RangeProofs SortedDict RangeSet
  RangeSetOps RangeSetProofs RangeSetProofs2 RangeMap RangeMapProofs Span.
Local Open Scope Z_scope.

(** A span object: one the constructor accepted. *)
Definition is_span (a : span) : Prop := mk_span (start a) (end_ a) = Ok a.
Lemma is_span_iff a : is_span a <-> start a < end_ a.
Proof.
  unfold is_span, mk_span. destruct (start a <? end_ a) eqn:E; split; intros H; try lia; try discriminate.
  now destruct a.
Qed.
Lemma mk_span_ok s e a : mk_span s e = Ok a <-> a = MkSpan s e /\ s < e.
Proof.
  unfold mk_span. destruct (s <? e) eqn:E; split; intros H.
  - inversion H. split; [reflexivity|lia].
  - destruct H as [-> _]. reflexivity.
  - discriminate.
  - lia.
Qed.
Lemma span_eq_iff a b : span_eq a b = true <-> a = b.
Proof. destruct a, b. unfold span_eq. simpl. split; intros H; [f_equal; lia|inversion H; lia]. Qed.

(** the range of a span *)
Definition sr (a : span) : range Z := MkRange (BelowV (start a)) (AboveV (end_ a - 1)).
Lemma as_range_ok a : is_span a -> as_range a = Ok (sr a).
Proof.
  rewrite is_span_iff. intros H. unfold as_range, closed.
  apply mk_range_ok. split; [reflexivity|]. apply valid_factory.
  apply (fm_closed (start a) (end_ a - 1)). 
  unfold closed, mk_range, sr. simpl. unfold cut_le, cut_gt, cut_lt, cut_ge. simpl.
  assert (E : (end_ a - 1 <? start a) = false) by lia.
  repeat match goal with |- context [(?x <? ?y)] => destruct (x <? y) eqn:?; try lia; simpl end; try reflexivity; try lia.
Qed.
Lemma sr_valid a : is_span a -> valid (sr a).
Proof. intros H. apply as_range_ok in H. unfold as_range, closed in H. apply mk_range_ok in H. tauto. Qed.
Lemma sr_inj a b : sr a = sr b -> a = b.
Proof. destruct a, b. unfold sr. simpl. intros H. inversion H. f_equal; lia. Qed.
Ltac zcut := unfold is_connected, encloses, contains, cut_le, cut_lt, cut_ge, cut_gt, sr, compare_to, is_less_than, is_empty, cut_eq;
  cbn [lower upper start end_]; change (@ltb Z Z_order) with Z.ltb; change (@eqb Z Z_order) with Z.eqb.
Ltac zdes := repeat match goal with |- context [if ?x <? ?y then _ else _] => destruct (Z.ltb_spec x y) end.
Lemma sr_connected a b : is_connected (sr a) (sr b) = overlaps a b.
Proof. unfold overlaps, precedes. zcut. zdes; lia. Qed.
Lemma sr_encloses a b : encloses (sr a) (sr b) = contains_span a b.
Proof. unfold contains_span. zcut. zdes; lia. Qed.
Lemma sr_contains a i : contains (sr a) i = contains_offset a i.
Proof. unfold contains_offset. zcut. zdes; lia. Qed.
Lemma sr_nonempty a : is_empty (sr a) = false.
Proof. reflexivity. Qed.
Lemma sr_eq a b : range_eq (sr a) (sr b) = span_eq a b.
Proof. unfold range_eq, span_eq. zcut. lia. Qed.

Lemma fold_min l x : fold_left Z.min l x <= x /\ (forall y, In y l -> fold_left Z.min l x <= y) /\
  (fold_left Z.min l x = x \/ In (fold_left Z.min l x) l).
Proof.
  revert x. induction l as [|y l IH]; intros x; simpl.
  - repeat split; try lia; try (intros ? []); auto.
  - destruct (IH (Z.min x y)) as (A & B & C). repeat split.
    + lia.
    + intros z [<-|Hz]; [lia|auto].
    + destruct C as [C|C]; [|auto]. rewrite C. destruct (Z.min_spec x y) as [[_ ->]|[_ ->]]; auto.
Qed.
Lemma fold_max l x : x <= fold_left Z.max l x /\ (forall y, In y l -> y <= fold_left Z.max l x) /\
  (fold_left Z.max l x = x \/ In (fold_left Z.max l x) l).
Proof.
  revert x. induction l as [|y l IH]; intros x; simpl.
  - repeat split; try lia; try (intros ? []); auto.
  - destruct (IH (Z.max x y)) as (A & B & C). repeat split.
    + lia.
    + intros z [<-|Hz]; [lia|auto].
    + destruct C as [C|C]; [|auto]. rewrite C. destruct (Z.max_spec x y) as [[_ ->]|[_ ->]]; auto.
Qed.
Lemma minimal_spec l : l <> [] -> Forall is_span l ->
  exists m, minimal_enclosing_span l = Ok m /\
    (forall a, In a l -> contains_span m a = true) /\
    (forall m', (forall a, In a l -> contains_span m' a = true) -> contains_span m' m = true).
Proof.
  intros NE F. destruct l as [|a l]; [congruence|]. unfold minimal_enclosing_span, minimal_enclosing_passes.
  simpl. destruct (fold_min (map start l) (start a)) as (A1 & A2 & A3).
  destruct (fold_max (map end_ l) (end_ a)) as (B1 & B2 & B3).
  set (lo := fold_left Z.min (map start l) (start a)) in *. set (hi := fold_left Z.max (map end_ l) (end_ a)) in *.
  assert (L : lo < hi). { inversion F as [|? ? H _]; subst. apply is_span_iff in H. lia. }
  exists (MkSpan lo hi). split; [now apply mk_span_ok|]. split.
  - intros b [<-|Hb]; unfold contains_span; simpl; [lia|].
    specialize (A2 _ (in_map start _ _ Hb)). specialize (B2 _ (in_map end_ _ _ Hb)). lia.
  - intros m' H. unfold contains_span. simpl.
    assert (S : start m' <= lo).
    { destruct A3 as [->|A3]; [specialize (H a (or_introl eq_refl)); unfold contains_span in H; lia|].
      apply in_map_iff in A3. destruct A3 as (b & E & Hb). specialize (H b (or_intror Hb)).
      unfold contains_span in H. lia. }
    assert (T : hi <= end_ m').
    { destruct B3 as [->|B3]; [specialize (H a (or_introl eq_refl)); unfold contains_span in H; lia|].
      apply in_map_iff in B3. destruct B3 as (b & E & Hb). specialize (H b (or_intror Hb)).
      unfold contains_span in H. lia. }
    lia.
Qed.

(** ** Indices *)
Section Index.
Context {I : Type}.
Variable ieq : I -> I -> bool.
Hypothesis ieq_iff : forall a b, ieq a b = true <-> a = b.
Variable span_of : I -> span.
Hypothesis spans : forall i, is_span (span_of i).

Definition pairs_of (items : list I) := map (fun it => (sr (span_of it), it)) items.
Lemma mapM_pairs items :
  mapM (fun it => let* r := as_range (span_of it) in Ok (r, it)) items = Ok (pairs_of items).
Proof using spans.
  induction items as [|it items IH]; [reflexivity|]. cbn [mapM].
  rewrite as_range_ok by apply spans. cbn [bind]. rewrite IH. reflexivity.
Qed.
(** the item that an index keeps for a span: the last one given *)
Definition last_with (items : list I) (q : span) : option I :=
  find (fun it => span_eq (span_of it) q) (rev items).
Lemma last_value_pairs items q : last_value (pairs_of items) (sr q) = last_with items q.
Proof.
  unfold last_value, last_with, pairs_of. rewrite <- map_rev. induction (rev items) as [|a l IH]; [reflexivity|].
  simpl. rewrite sr_eq. destruct (span_eq (span_of a) q); [reflexivity|exact IH].
Qed.
Lemma last_value_key items k v : last_value (pairs_of items) k = Some v ->
  k = sr (span_of v) /\ last_with items (span_of v) = Some v.
Proof.
  intros H. assert (K : k = sr (span_of v)).
  { unfold last_value in H. destruct (find _ (rev (pairs_of items))) as [p|] eqn:F; [|discriminate].
    apply find_some in F. destruct F as [Hp Ep]. apply in_rev in Hp. apply range_eq_iff in Ep. subst k.
    unfold pairs_of in Hp. apply in_map_iff in Hp. destruct Hp as (it & <- & _). simpl in *. congruence. }
  split; [assumption|]. rewrite K, last_value_pairs in H. exact H.
Qed.
Lemma last_with_some items q v : last_with items q = Some v -> In v items /\ span_of v = q.
Proof.
  unfold last_with. intros H. apply find_some in H. destruct H as [H E].
  apply span_eq_iff in E. split; [now apply in_rev|assumption].
Qed.

Lemma index_spec items :
  ((forall a b, In a items -> In b items -> span_of a <> span_of b -> overlaps (span_of a) (span_of b) = false) /\
   exists rs, index_disjoint span_of items = Ok (MkMap (idict_of (pairs_of items)) (map kv rs)) /\
     WF rs /\ forall k, In k rs <-> exists it, In it items /\ k = sr (span_of it)) \/
  (~ (forall a b, In a items -> In b items -> span_of a <> span_of b -> overlaps (span_of a) (span_of b) = false) /\
   index_disjoint span_of items = Raise ValueError).
Proof using spans.
  unfold index_disjoint. rewrite mapM_pairs. cbn [bind].
  assert (KI : forall k, In k (map fst (pairs_of items)) <-> exists it, In it items /\ k = sr (span_of it)).
  { intros k. unfold pairs_of. rewrite map_map. rewrite in_map_iff. simpl. split; intros (it & A & B); exists it; auto. }
  assert (F : Forall valid (map fst (pairs_of items))).
  { apply Forall_forall. intros k Hk. apply KI in Hk. destruct Hk as (it & _ & ->). apply sr_valid, spans. }
  assert (G : good_keys (pairs_of items) <->
     (forall a b, In a items -> In b items -> span_of a <> span_of b -> overlaps (span_of a) (span_of b) = false)).
  { unfold good_keys. split.
    - intros [_ H] a b Ha Hb NE. rewrite <- sr_connected. apply H; [apply KI; eauto|apply KI; eauto|].
      intros E. apply NE. now apply sr_inj.
    - intros H. split.
      + intros k Hk. apply KI in Hk. destruct Hk as (it & _ & ->). reflexivity.
      + intros a b Ha Hb NE. apply KI in Ha, Hb. destruct Ha as (ia & Ha & ->), Hb as (ib & Hb & ->).
        rewrite sr_connected. apply H; auto. congruence. }
  destruct (make_spec (pairs_of items) F) as [(Gk & rs & E & W & K)|(Gk & E)].
  - left. split; [now apply G|]. exists rs. split; [exact E|]. split; [assumption|].
    intros k. rewrite K. apply KI.
  - right. split; [now rewrite <- G|exact E].
Qed.

Lemma value_found items it : In it items -> exists v, idict_get (idict_of (pairs_of items)) (sr (span_of it)) = Ok v /\
  last_with items (span_of it) = Some v.
Proof.
  intros H. rewrite idict_of_get, last_value_pairs.
  destruct (last_with items (span_of it)) as [v|] eqn:E; [eauto|].
  exfalso. unfold last_with in E. pose proof (find_none _ _ E it (proj1 (in_rev _ _) H)) as F. simpl in F.
  assert (span_eq (span_of it) (span_of it) = true) by now apply span_eq_iff. congruence.
Qed.

(** a set-valued query over a list of key ranges *)
Lemma collect_spec items ks rs : (forall k, In k ks -> exists it, In it items /\ k = sr (span_of it)) ->
  exists vs, foldM (fun acc k => let* v := idict_get (rng_to_val (MkMap (idict_of (pairs_of items)) rs)) k in Ok (iset_add ieq acc v)) ks [] = Ok vs /\
    NoDup vs /\ forall v, In v vs <-> In (sr (span_of v)) ks /\ last_with items (span_of v) = Some v.
Proof using ieq_iff.
  intros H. destruct items as [|i0 items0] eqn:Ei.
  { assert (ks = []) by (destruct ks as [|k ks]; [reflexivity|]; destruct (H k (or_introl eq_refl)) as (? & [] & _)).
    subst. exists []. split; [reflexivity|]. split; [constructor|]. intros v. simpl. tauto. }
  rewrite <- Ei in *.
  set (f := fun k => match last_value (pairs_of items) k with Some v => v | None => i0 end).
  destruct (enclosed_fold ieq ieq_iff (MkMap (idict_of (pairs_of items)) rs) ks [] f) as (vs & E & N & M).
  - intros k Hk. destruct (H k Hk) as (it & Hit & ->). cbn [rng_to_val].
    destruct (value_found items it Hit) as (v & G & L). rewrite G. f_equal. unfold f.
    rewrite last_value_pairs, L. reflexivity.
  - constructor.
  - exists vs. split; [exact E|]. split; [assumption|]. intros v. rewrite M. split.
    + intros [[]|(k & Hk & Ev)]. destruct (H k Hk) as (it & Hit & ->).
      destruct (value_found items it Hit) as (v' & G & L). unfold f in Ev.
      rewrite last_value_pairs, L in Ev. subst v'.
      pose proof (last_with_some _ _ _ L) as [_ S]. rewrite S. auto.
    + intros [Hk L]. right. exists (sr (span_of v)). split; [assumption|]. unfold f.
      now rewrite last_value_pairs, L.
Qed.

(** ** Overlapping index *)
Lemma iset_spec l acc : NoDup acc -> NoDup (fold_left (iset_add ieq) l acc) /\
  forall x, In x (fold_left (iset_add ieq) l acc) <-> In x acc \/ In x l.
Proof using ieq_iff.
  revert acc. induction l as [|a l IH]; intros acc N; simpl; [tauto|].
  destruct (IH (iset_add ieq acc a)) as [N' M]; [now apply (iset_add_nodup ieq ieq_iff)|].
  split; [assumption|]. intros x. rewrite M, (iset_add_in ieq ieq_iff). intuition.
Qed.
Lemma iset_in l x : In x (iset ieq l) <-> In x l.
Proof using ieq_iff. unfold iset. rewrite (proj2 (iset_spec l [] (NoDup_nil _))). simpl. tauto. Qed.
Lemma iset_nodup l : NoDup (iset ieq l).
Proof using ieq_iff. apply (iset_spec l []). constructor. Qed.
Lemma first_spans_in seen items q : In q (first_spans span_of seen items) <->
  (exists it, In it items /\ span_of it = q) /\ ~ In q seen.
Proof.
  revert seen. induction items as [|it items IH]; intros seen; simpl.
  - split; [contradiction|]. intros [(it & [] & _) _].
  - destruct (existsb (span_eq (span_of it)) seen) eqn:E.
    + rewrite IH. apply existsb_exists in E. destruct E as (s & Hs & E). apply span_eq_iff in E. subst s.
      split; intros [(i & Hi & Hq) N]; (split; [|assumption]).
      * eauto.
      * destruct Hi as [<-|Hi]; [congruence|eauto].
    + assert (NI : ~ In (span_of it) seen).
      { intros H. assert (existsb (span_eq (span_of it)) seen = true); [|congruence].
        apply existsb_exists. exists (span_of it). split; [assumption|]. now apply span_eq_iff. }
      simpl. rewrite IH. simpl. split.
      * intros [<-|[(i & Hi & Hq) N]]; [split; [exists it; auto|assumption]|]. split; [eauto|tauto].
      * intros [(i & [<-|Hi] & Hq) N]; [auto|]. destruct (span_eq (span_of it) q) eqn:F.
        -- apply span_eq_iff in F. auto.
        -- right. split; [eauto|]. intros [H|H]; [|contradiction].
           apply span_eq_iff in H. congruence.
Qed.
Lemma ov_get_in items q x : In x (ov_get ieq span_of items q) <-> In x items /\ span_of x = q.
Proof using ieq_iff. unfold ov_get. rewrite iset_in, filter_In, span_eq_iff. tauto. Qed.
Lemma ov_query_in p items x : In x (ov_query ieq span_of p items) <-> In x items /\ p (span_of x) = true.
Proof using ieq_iff.
  unfold ov_query, ov_keys. rewrite iset_in, in_concat. split.
  - intros (l & Hl & Hx). apply in_map_iff in Hl. destruct Hl as (c & <- & Hc).
    apply filter_In in Hx. destruct Hx as [Hx P]. apply ov_get_in in Hx. destruct Hx as [Hx <-]. auto.
  - intros [Hx P]. exists (filter (fun _ => p (span_of x)) (ov_get ieq span_of items (span_of x))). split.
    + apply in_map_iff. exists (span_of x). split; [reflexivity|]. apply first_spans_in. split; [eauto|auto].
    + apply filter_In. split; [|assumption]. apply ov_get_in. auto.
Qed.
End Index.
