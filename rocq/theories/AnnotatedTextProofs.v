(** * Proofs about annotated text *)
From Coq Require Import Sorted.
From Verif Require Import Prelude SortLib PyStr Order Range Span SpanProofs AnnotatedText AnnotatedTextSpec.
Local Open Scope Z_scope.

Definition tag_of (e : event) : tag :=
  match e with Open a => start_tag_of a | Close a => end_tag_of a end.
Definition good (n : nat) (anns : list annotation) : Prop :=
  forall a, In a anns -> 0 <= start (ann_span a) /\ start (ann_span a) < end_ (ann_span a) /\ end_ (ann_span a) <= Z.of_nat n.

Lemma clip_visible w anns : is_span w -> (forall a, In a anns -> is_span (ann_span a)) ->
  clip_to_offsets_and_shift anns w = Ok (visible w anns).
Proof.
  intros Hw. rewrite is_span_iff in Hw. induction anns as [|a r IH]; intros H; [reflexivity|].
  assert (Ha := H a (or_introl eq_refl)). rewrite is_span_iff in Ha.
  assert (IH' : clip_to_offsets_and_shift r w = Ok (visible w r)) by (apply IH; intros; apply H; simpl; auto). clear IH H.
  simpl. unfold clip_to, overlaps, precedes, contains_span.
  destruct (Z.max (start (ann_span a)) (start w) <? Z.min (end_ (ann_span a)) (end_ w)) eqn:E.
  - replace (negb (negb _)) with false by lia. destruct (_ && _) eqn:C.
    + simpl. unfold shift, mk_span. replace (_ <? _) with true by lia. simpl. rewrite IH'. simpl.
      do 3 f_equal. f_equal; lia.
    + unfold mk_span at 1. rewrite E. simpl. unfold shift, mk_span. simpl. replace (_ <? _) with true by lia. simpl.
      rewrite IH'. simpl. do 3 f_equal.
  - replace (negb (negb _)) with true by lia. exact IH'.
Qed.
Lemma visible_good w anns n : span_len w = Z.of_nat n -> good n (visible w anns).
Proof.
  intros L a Ha. unfold visible in Ha. apply in_flat_map in Ha. destruct Ha as (b & Hb & Ha).
  destruct (_ <? _) eqn:E in Ha; [|destruct Ha]. destruct Ha as [<-|[]]. simpl. unfold span_len in L. lia.
Qed.

(** sorted tags at one offset *)
Lemma key_ltb_asym a b : key_ltb a b = true -> key_ltb b a = false.
Proof. unfold key_ltb. lia. Qed.
Lemma key_ltb_ntrans a b c : key_ltb b a = false -> key_ltb c b = false -> key_ltb c a = false.
Proof. unfold key_ltb. lia. Qed.
Lemma tag_key_ltb_asym a b : tag_key_ltb a b = true -> tag_key_ltb b a = false.
Proof. unfold tag_key_ltb. destruct a as [? []], b as [? []]; simpl; lia. Qed.
Lemma tag_key_ltb_ntrans a b c : tag_key_ltb b a = false -> tag_key_ltb c b = false -> tag_key_ltb c a = false.
Proof. unfold tag_key_ltb. destruct a as [? []], b as [? []], c as [? []]; simpl; lia. Qed.

Lemma filter_map {A B} (f : A -> B) p l : filter p (map f l) = map f (filter (fun x => p (f x)) l).
Proof. induction l as [|x l IH]; simpl; [reflexivity|]. destruct (p (f x)); simpl; now rewrite IH. Qed.
Lemma ss_app {A} (R : A -> A -> Prop) l1 l2 : StronglySorted R l1 -> StronglySorted R l2 ->
  (forall x y, In x l1 -> In y l2 -> R x y) -> StronglySorted R (l1 ++ l2).
Proof.
  induction l1 as [|a l1 IH]; intros S1 S2 H; simpl; [assumption|].
  inversion S1 as [|? ? S1' F]; subst. constructor.
  - apply IH; auto. intros; apply H; simpl; auto.
  - apply Forall_app. split; [assumption|]. apply Forall_forall. intros y Hy. apply H; simpl; auto.
Qed.
Lemma ss_const {A} (R : A -> A -> Prop) l : (forall x y, In x l -> In y l -> R x y) -> StronglySorted R l.
Proof.
  induction l as [|a l IH]; intros H; constructor.
  - apply IH. intros; apply H; simpl; auto.
  - apply Forall_forall. intros; apply H; simpl; auto.
Qed.

Lemma tags_at anns i :
  filter (fun t => tag_offset t =? Z.of_nat i) (tag_sequence anns) = map tag_of (events_at anns i).
Proof.
  unfold tag_sequence. rewrite sorted_filter by (exact tag_key_ltb_asym || exact tag_key_ltb_ntrans).
  rewrite filter_app, !filter_map. simpl.
  rewrite !sorted_filter by (exact key_ltb_asym || exact key_ltb_ntrans).
  rewrite sorted_id.
  - unfold events_at. rewrite map_app, !map_map. f_equal; simpl.
    + f_equal. apply sorted_ext. intros x y Hx Hy. apply filter_In in Hx, Hy.
      unfold key_ltb, end_tag_key, alen, span_len. simpl. lia.
    + f_equal. apply sorted_ext. intros x y Hx Hy. apply filter_In in Hx, Hy.
      unfold key_ltb, start_tag_key, alen, span_len. simpl. lia.
  - apply ss_app.
    + apply ss_const. intros x y Hx Hy. apply in_map_iff in Hx, Hy. destruct Hx as (a & <- & Hx), Hy as (b & <- & Hy).
      apply sorted_in, filter_In in Hx, Hy. unfold kle, tag_key_ltb. simpl. lia.
    + apply ss_const. intros x y Hx Hy. apply in_map_iff in Hx, Hy. destruct Hx as (a & <- & Hx), Hy as (b & <- & Hy).
      apply sorted_in, filter_In in Hx, Hy. unfold kle, tag_key_ltb. simpl. lia.
    + intros x y Hx Hy. apply in_map_iff in Hx, Hy. destruct Hx as (a & <- & Hx), Hy as (b & <- & Hy).
      apply sorted_in, filter_In in Hx, Hy. unfold kle, tag_key_ltb. simpl. lia.
Qed.
(** a sorted list is the concatenation of its blocks *)
Lemma sorted_blocks {A} (off : A -> Z) (l : list A) k : forall i,
  StronglySorted (fun a b => off a <= off b) l ->
  (forall a, In a l -> Z.of_nat i <= off a < Z.of_nat (i + k)) ->
  l = flat_map (fun j => filter (fun a => off a =? Z.of_nat j) l) (seq i k).
Proof.
  revert l. induction k as [|k IH]; intros l i SS H; simpl.
  - destruct l as [|a l]; [reflexivity|]. specialize (H a (or_introl eq_refl)). lia.
  - assert (D : l = filter (fun a => off a =? Z.of_nat i) l ++ filter (fun a => negb (off a =? Z.of_nat i)) l).
    { assert (H' : forall a, In a l -> Z.of_nat i <= off a) by (intros a Ha; specialize (H a Ha); lia).
      clear H IH. induction l as [|a l IH]; [reflexivity|]. simpl. inversion SS as [|? ? S' F]; subst.
      destruct (off a =? Z.of_nat i) eqn:E; simpl.
      - f_equal. apply IH; auto. intros; apply H'; simpl; auto.
      - assert (N : forall b, In b l -> off b =? Z.of_nat i = false).
        { intros b Hb. rewrite Forall_forall in F. specialize (F b Hb). specialize (H' a (or_introl eq_refl)). lia. }
        clear -N. assert (filter (fun a => off a =? Z.of_nat i) l = []) as ->.
        { induction l as [|b l IH]; [reflexivity|]. simpl. rewrite (N b (or_introl eq_refl)). apply IH. intros; apply N; simpl; auto. }
        simpl. f_equal. induction l as [|b l IH]; [reflexivity|]. simpl. rewrite (N b (or_introl eq_refl)). simpl. f_equal.
        apply IH. intros; apply N; simpl; auto. }
    rewrite D at 1. f_equal.
    set (m := filter (fun a => negb (off a =? Z.of_nat i)) l).
    rewrite (IH m (S i)).
    + assert (E : forall j, In j (seq (S i) k) -> filter (fun a => off a =? Z.of_nat j) m = filter (fun a => off a =? Z.of_nat j) l).
      { intros j Hj. apply in_seq in Hj. unfold m. clear -Hj. induction l as [|a l IHl]; [reflexivity|]. simpl.
        destruct (off a =? Z.of_nat i) eqn:E1; simpl; destruct (off a =? Z.of_nat j) eqn:E2; rewrite ?IHl; try reflexivity; lia. }
      clear -E. induction (seq (S i) k) as [|j js IHj]; [reflexivity|]. simpl. rewrite E by (simpl; auto). f_equal. apply IHj.
      intros; apply E; simpl; auto.
    + unfold m. clear -SS. induction l as [|a l IHl]; [constructor|]. inversion SS as [|? ? S' F]; subst. simpl.
      destruct (off a =? Z.of_nat i); simpl; [auto|]. constructor; [auto|]. apply Forall_forall. intros b Hb.
      apply filter_In in Hb. rewrite Forall_forall in F. now apply F.
    + intros a Ha. unfold m in Ha. apply filter_In in Ha. destruct Ha as [Ha N]. specialize (H a Ha). lia.
Qed.
Lemma tag_sequence_in anns t : In t (tag_sequence anns) <-> exists e, tag_of e = t /\ exists a, In a anns /\ (e = Open a \/ e = Close a).
Proof.
  unfold tag_sequence. rewrite sorted_in, in_app_iff, !in_map_iff. split.
  - intros [(a & <- & Ha)|(a & <- & Ha)]; apply sorted_in in Ha; [exists (Close a)|exists (Open a)]; eauto 6.
  - intros (e & <- & a & Ha & [->| ->]); [right|left]; exists a; (split; [reflexivity|]); now apply sorted_in.
Qed.
Lemma tag_sequence_events anns n : good n anns -> tag_sequence anns = map tag_of (all_events anns n).
Proof.
  intros G. rewrite (sorted_blocks tag_offset (tag_sequence anns) (S n) 0).
  - unfold all_events. rewrite !flat_map_concat_map, concat_map, map_map. f_equal. apply map_ext. intros j. apply tags_at.
  - unfold tag_sequence. match goal with |- StronglySorted _ (sorted_by ?l ?k ?x) =>
      pose proof (sorted_sorted l k tag_key_ltb_asym tag_key_ltb_ntrans x) as SS; revert SS; generalize (sorted_by l k x) end.
    induction l as [|a l IH]; intros SS; [constructor|]. inversion SS as [|? ? S' F]; subst. constructor; [auto|].
    eapply Forall_impl; [|exact F]. intros b Hb. unfold kle, tag_key_ltb, tag_key in Hb. simpl in Hb. lia.
  - intros t Ht. apply tag_sequence_in in Ht. destruct Ht as (e & <- & a & Ha & [->| ->]); specialize (G a Ha); simpl; lia.
Qed.
Lemma all_events_at anns n i : (i <= n)%nat ->
  filter (fun e => event_offset e =? Z.of_nat i) (all_events anns n) = events_at anns i.
Proof.
  intros Hi. unfold all_events.
  assert (G : forall j, filter (fun e => event_offset e =? Z.of_nat i) (events_at anns j) = if (j =? i)%nat then events_at anns i else []).
  { intros j. assert (N : forall e, In e (events_at anns j) -> event_offset e = Z.of_nat j).
    { intros e He. unfold events_at in He. rewrite in_app_iff, !in_map_iff in He.
      destruct He as [(a & <- & Ha)|(a & <- & Ha)]; apply sorted_in, filter_In in Ha; simpl; lia. }
    destruct (Nat.eqb_spec j i) as [->|NE].
    - induction (events_at anns i) as [|e l IH]; [reflexivity|]. simpl. rewrite (N e (or_introl eq_refl)), Z.eqb_refl. f_equal.
      apply IH. intros; apply N; simpl; auto.
    - induction (events_at anns j) as [|e l IH]; [reflexivity|]. simpl. rewrite (N e (or_introl eq_refl)).
      replace (_ =? _) with false by lia. apply IH. intros; apply N; simpl; auto. }
  assert (K : forall k s, filter (fun e => event_offset e =? Z.of_nat i) (flat_map (events_at anns) (seq s k)) =
    if ((s <=? i) && (i <? s + k))%nat then events_at anns i else []).
  { induction k as [|k IH]; intros s; simpl.
    - destruct (_ && _) eqn:E; [lia|reflexivity].
    - rewrite filter_app, IH, G. destruct (Nat.eqb_spec s i) as [->|NE].
      + replace ((S i <=? i)%nat) with false by lia. simpl. rewrite app_nil_r. now replace ((i <=? i) && _)%nat with true by lia.
      + cbn [app]. destruct ((S s <=? i) && (i <? S s + k))%nat eqn:E1; destruct ((s <=? i) && (i <? s + S k))%nat eqn:E2; try reflexivity; lia. }
  rewrite K. now replace ((0 <=? i) && (i <? 0 + S n))%nat with true by lia.
Qed.

(** the copying loop *)
Definition write_end (text : str) (e : Z) (st : Z * str) : str :=
  let (last, out) := st in if last <? e then out ++ py_slice text last e else out.
Lemma py_slice_nat {A} (s : list A) (i j : nat) : (i <= j)%nat ->
  py_slice s (Z.of_nat i) (Z.of_nat j) = firstn (j - i) (skipn i s).
Proof.
  intros H. unfold py_slice, py_index.
  destruct (Z.of_nat i <? 0) eqn:E1; [lia|]. destruct (Z.of_nat j <? 0) eqn:E2; [lia|].
  destruct (Nat.le_gt_cases (length s) i) as [Hi|Hi].
  - rewrite (skipn_all2 s Hi), firstn_nil. replace (Z.to_nat (Z.max 0 (Z.min (Z.of_nat (length s)) (Z.of_nat i)))) with (length s) by lia.
    rewrite skipn_all. apply firstn_nil.
  - replace (Z.to_nat (Z.max 0 (Z.min (Z.of_nat (length s)) (Z.of_nat i)))) with i by lia.
    destruct (Nat.le_gt_cases j (length s)).
    + f_equal. lia.
    + rewrite (firstn_all2 (n := j - i)) by (rewrite skipn_length; lia).
      rewrite firstn_all2 by (rewrite skipn_length; lia). reflexivity.
Qed.
Lemma write_block text i B : Forall (fun t => tag_offset t = Z.of_nat i) B -> forall last out, (last <= i)%nat ->
  fold_left (write_tag text) B (Z.of_nat last, out) =
  match B with [] => (Z.of_nat last, out)
  | _ => (Z.of_nat i, out ++ firstn (i - last) (skipn last text) ++ concat (map tag_string B)) end.
Proof.
  induction B as [|t B IH]; intros F last out L; [reflexivity|].
  inversion F as [|? ? Ht F']; subst. cbn [fold_left write_tag]. rewrite Ht.
  destruct (Z.of_nat last <? Z.of_nat i) eqn:E.
  - rewrite (IH F') by lia. rewrite py_slice_nat by lia. destruct B as [|u B]; simpl.
    + f_equal. rewrite ?app_nil_r, ?Nat.sub_diag, ?app_assoc. reflexivity.
    + f_equal. rewrite Nat.sub_diag. simpl. rewrite <- !app_assoc. reflexivity.
  - assert (last = i) by lia. subst last. rewrite (IH F') by lia. rewrite Nat.sub_diag. simpl. destruct B as [|u B]; simpl.
    + f_equal. now rewrite app_nil_r.
    + f_equal. rewrite <- !app_assoc. reflexivity.
Qed.
Lemma skipn_skipn_ {A} (l : list A) x y : skipn x (skipn y l) = skipn (x + y) l.
Proof.
  revert l. induction y as [|y IH]; intros l; simpl; [now rewrite Nat.add_0_r|].
  rewrite Nat.add_succ_r. destruct l; simpl; [apply skipn_nil|apply IH].
Qed.
Lemma firstn_skipn_join {A} (l : list A) a b c : (a <= b <= c)%nat ->
  firstn (b - a) (skipn a l) ++ firstn (c - b) (skipn b l) = firstn (c - a) (skipn a l).
Proof.
  intros H. replace (c - a)%nat with ((b - a) + (c - b))%nat by lia.
  replace (skipn b l) with (skipn (b - a) (skipn a l)) by (rewrite skipn_skipn_; replace (b - a + a)%nat with b by lia; reflexivity).
  generalize (skipn a l) as m. generalize (b - a)%nat as p, (c - b)%nat as q. clear.
  induction p as [|p IH]; intros q m; [reflexivity|]. destruct m; simpl; [now rewrite firstn_nil|]. now rewrite IH.
Qed.
Lemma write_blocks text blk e : Z.of_nat (length text) <= e ->
  (forall i, Forall (fun x => event_offset x = Z.of_nat i) (blk i)) ->
  forall k i last out, (last <= i)%nat -> (i + k = S (length text))%nat ->
  write_end text e (fold_left (write_tag text) (flat_map (fun i => map tag_of (blk i)) (seq i k)) (Z.of_nat last, out)) =
  out ++ firstn (i - last) (skipn last text) ++ woven text blk (seq i k).
Proof.
  intros He Hb. induction k as [|k IH]; intros i last out L E; cbn [seq flat_map woven].
  - simpl. replace e with (Z.of_nat (Z.to_nat e)) by lia. destruct (_ <? _) eqn:C.
    + rewrite py_slice_nat by lia. rewrite app_nil_r. f_equal.
      rewrite !firstn_all2 by (rewrite skipn_length; lia). reflexivity.
    + rewrite firstn_all2 by (rewrite skipn_length; lia). rewrite skipn_all2 by lia. now rewrite !app_nil_r.
  - rewrite fold_left_app. rewrite (write_block text i).
    2:{ apply Forall_forall. intros t Ht. apply in_map_iff in Ht. destruct Ht as (x & <- & Hx).
        specialize (Hb i). rewrite Forall_forall in Hb. specialize (Hb x Hx). destruct x; exact Hb. }
    2:{ exact L. }
    change (flat_map (fun i0 => concat (map event_string (blk i0)) ++ firstn 1 (skipn i0 text)) (seq (S i) k)) with (woven text blk (seq (S i) k)).
    destruct (blk i) as [|x xs] eqn:B.
    + simpl map. cbn match. rewrite IH by lia. cbn [concat map app]. f_equal.
      rewrite <- (firstn_skipn_join text last i (S i)) by lia. rewrite <- app_assoc. f_equal.
      replace (S i - i)%nat with 1%nat by lia. reflexivity.
    + rewrite <- B. replace (map tag_of (blk i)) with (tag_of x :: map tag_of xs) by now rewrite B. cbn match.
      rewrite IH by lia. rewrite <- !app_assoc. do 2 f_equal.
      replace (S i - i)%nat with 1%nat by lia. f_equal. rewrite B. simpl.
      assert (TS : forall y, tag_string (tag_of y) = event_string y) by (intros []; reflexivity).
      rewrite TS. f_equal. rewrite map_map. f_equal. apply map_ext. exact TS.
Qed.
Lemma annotated_text_spec text anns w : is_span w -> 0 <= start w -> span_len w = Z.of_nat (length text) ->
  (forall a, In a anns -> is_span (ann_span a)) ->
  annotated_text text anns (Some w) = Ok (woven text (events_at (visible w anns)) (seq 0 (S (length text)))).
Proof.
  intros Hw H0 L Ha. unfold annotated_text. cbn [bind]. rewrite L, Z.eqb_refl. cbn [negb].
  rewrite clip_visible by assumption. cbn [bind].
  assert (G := visible_good w anns _ L). rewrite (tag_sequence_events _ _ G).
  match goal with |- context [fold_left ?f ?l ?s] => destruct (fold_left f l s) as [last out] eqn:E end.
  f_equal. change (write_end text (end_ w) (last, out) = woven text (events_at (visible w anns)) (seq 0 (S (length text)))).
  rewrite <- E. unfold all_events. rewrite flat_map_concat_map, concat_map, map_map, <- flat_map_concat_map.
  change (0, @nil N) with (Z.of_nat 0, @nil N). rewrite write_blocks; try lia; [reflexivity| |].
  - unfold span_len in L. lia.
  - intros i. apply Forall_forall. intros e He. unfold events_at in He. rewrite in_app_iff, !in_map_iff in He.
    destruct He as [(a & <- & H)|(a & <- & H)]; apply sorted_in, filter_In in H; simpl; lia.
Qed.

(** ** well-nestedness *)
Lemma nested_app s1 e1 s2 e2 s3 : nested s1 e1 s2 -> nested s2 e2 s3 -> nested s1 (e1 ++ e2) s3.
Proof. induction 1; intros H2; simpl; [assumption|constructor; auto|constructor; auto]. Qed.
Lemma nested_closes l s : nested (l ++ s) (map Close l) s.
Proof. induction l; simpl; constructor; auto. Qed.
Lemma nested_opens l s : nested s (map Open l) (rev l ++ s).
Proof.
  revert s. induction l as [|a l IH]; intros s; simpl; [constructor|]. constructor.
  rewrite <- app_assoc. simpl. apply IH.
Qed.
Section Nest.
Variable anns : list annotation.
Variable n : nat.
Hypothesis G : good n anns.
Hypothesis ND : NoDup (map ann_span anns).
Hypothesis LAM : forall a b, In a anns -> In b anns -> laminar_pair (ann_span a) (ann_span b).

Lemma same_span a b : In a anns -> In b anns -> start (ann_span a) = start (ann_span b) -> end_ (ann_span a) = end_ (ann_span b) -> a = b.
Proof using ND.
  clear G LAM. induction anns as [|x l IH]; intros Ha Hb H1 H2; [destruct Ha|].
  simpl in ND. inversion ND as [|? ? N ND']; subst.
  assert (E : ann_span a = ann_span b) by (destruct (ann_span a), (ann_span b); simpl in *; congruence).
  destruct Ha as [<-|Ha], Hb as [<-|Hb]; auto.
  - exfalso. apply N. rewrite E. now apply in_map.
  - exfalso. apply N. rewrite <- E. now apply in_map.
Qed.
Definition slt (a b : annotation) : Prop := alen a < alen b.
Definition stack_at (i : nat) : list annotation :=      (* open just before offset i's end tags *)
  shortest_first (filter (fun a => (start (ann_span a) <? Z.of_nat i) && (Z.of_nat i <=? end_ (ann_span a))) anns).
Lemma strict_sorted (p : annotation -> bool) (k : annotation -> Z) :
  (forall a b, In a anns -> In b anns -> p a = true -> p b = true -> k a = k b -> a = b) ->
  StronglySorted (fun a b => k a < k b) (sorted_by Z.ltb k (filter p anns)).
Proof using ND LAM.
  intros H.
  assert (S : StronglySorted (kle Z.ltb k) (sorted_by Z.ltb k (filter p anns))) by (apply sorted_sorted; intros; lia).
  assert (D : NoDup (sorted_by Z.ltb k (filter p anns))).
  { eapply Permutation_NoDup; [symmetry; apply sorted_perm|]. apply NoDup_filter. eapply NoDup_map_inv, ND. }
  assert (I : forall x, In x (sorted_by Z.ltb k (filter p anns)) -> In x anns /\ p x = true).
  { intros x Hx. apply sorted_in in Hx. now apply filter_In in Hx. }
  revert S D I. generalize (sorted_by Z.ltb k (filter p anns)).
  induction l as [|a l IH]; intros S D I; [constructor|]. inversion S as [|? ? S' F]; subst. inversion D as [|? ? N D']; subst.
  constructor.
  - apply IH; auto. intros; apply I; simpl; auto.
  - apply Forall_forall. intros b Hb. rewrite Forall_forall in F. specialize (F b Hb). unfold kle in F.
    assert (k a <> k b); [|lia]. intros E. apply N. rewrite (H a b); auto; apply I; simpl; auto.
Qed.
Lemma sweep i : nested (stack_at i) (events_at anns i) (stack_at (S i)).
Proof using G ND LAM.
  unfold events_at.
  set (C := shortest_first (filter (fun a => end_ (ann_span a) =? Z.of_nat i) anns)).
  set (O := longest_first (filter (fun a => start (ann_span a) =? Z.of_nat i) anns)).
  set (R := shortest_first (filter (fun a => (start (ann_span a) <? Z.of_nat i) && (Z.of_nat i <? end_ (ann_span a))) anns)).
  assert (SS : forall p, (forall a b, In a anns -> In b anns -> p a = true -> p b = true -> alen a = alen b -> a = b) ->
    StronglySorted slt (shortest_first (filter p anns))).
  { intros p H. exact (strict_sorted p alen H). }
  assert (UQ : forall l1 l2, StronglySorted slt l1 -> StronglySorted slt l2 -> (forall x, In x l1 <-> In x l2) -> l1 = l2).
  { intros l1 l2. apply strict_sorted_unique; unfold slt; intros; lia. }
  assert (CH : forall j, StronglySorted slt (stack_at j)).
  { intros j. apply SS. intros a b Ha Hb Pa Pb E. unfold alen in E. assert (L := LAM a b Ha Hb). unfold laminar_pair in L.
    apply same_span; auto; lia. }
  assert (SR : StronglySorted slt R).
  { apply SS. intros a b Ha Hb Pa Pb E. unfold alen in E. assert (L := LAM a b Ha Hb). unfold laminar_pair in L.
    apply same_span; auto; lia. }
  assert (E1 : stack_at i = C ++ R).
  { apply UQ; [apply CH| |].
    - apply ss_app; [|exact SR|].
      + apply SS. intros a b Ha Hb Pa Pb E. unfold alen in E. assert (Ga := G a Ha). assert (Gb := G b Hb). apply same_span; auto; lia.
      + intros x y Hx Hy. unfold C, R in Hx, Hy. apply sorted_in, filter_In in Hx, Hy. destruct Hx as [Hx Px], Hy as [Hy Py].
        assert (L := LAM x y Hx Hy). unfold laminar_pair in L. unfold slt, alen. specialize (G x Hx). lia.
    - intros x. unfold stack_at, C, R. rewrite in_app_iff. unfold shortest_first. rewrite !sorted_in, !filter_In.
      split.
      + intros [Hx P]. destruct (end_ (ann_span x) =? Z.of_nat i) eqn:E; [left|right]; (split; [assumption|]); lia.
      + intros [[Hx P]|[Hx P]]; (split; [assumption|]); specialize (G x Hx); lia. }
  assert (E2 : stack_at (S i) = rev O ++ R).
  { apply UQ; [apply CH| |].
    - apply ss_app; [|exact SR|].
      + assert (SO : StronglySorted (fun a b => - alen a < - alen b) O).
        { apply strict_sorted. intros a b Ha Hb Pa Pb E. unfold alen in E. apply same_span; auto; lia. }
        revert SO. generalize O. clear. induction O as [|a l IH]; intros S; simpl; [constructor|].
        inversion S as [|? ? S' F]; subst. apply ss_app; [auto|repeat constructor|].
        intros x y Hx [<-|[]]. rewrite <- in_rev in Hx. rewrite Forall_forall in F. specialize (F x Hx). unfold slt. simpl in F. lia.
      + intros x y Hx Hy. rewrite <- in_rev in Hx. unfold O, R in Hx, Hy. apply sorted_in, filter_In in Hx, Hy. destruct Hx as [Hx Px], Hy as [Hy Py].
        assert (L := LAM x y Hx Hy). unfold laminar_pair in L. unfold slt, alen. specialize (G x Hx). lia.
    - intros x. rewrite in_app_iff, <- in_rev. unfold stack_at, O, R, shortest_first, longest_first. rewrite !sorted_in, !filter_In.
      split.
      + intros [Hx P]. destruct (start (ann_span x) =? Z.of_nat i) eqn:E; [left|right]; (split; [assumption|]); lia.
      + intros [[Hx P]|[Hx P]]; (split; [assumption|]); specialize (G x Hx); lia. }
  rewrite E1, E2. eapply nested_app; [apply nested_closes|apply nested_opens].
Qed.
Lemma nested_all : nested [] (all_events anns n) [].
Proof using G ND LAM.
  assert (K : forall k i, nested (stack_at i) (flat_map (events_at anns) (seq i k)) (stack_at (i + k))).
  { induction k as [|k IH]; intros i; simpl; [rewrite Nat.add_0_r; constructor|].
    eapply nested_app; [apply sweep|]. replace (i + S k)%nat with (S i + k)%nat by lia. apply IH. }
  assert (Z0 : forall i, (forall a, In a anns -> (start (ann_span a) <? Z.of_nat i) && (Z.of_nat i <=? end_ (ann_span a)) = false) -> stack_at i = []).
  { intros i H. unfold stack_at. assert (filter (fun a => (start (ann_span a) <? Z.of_nat i) && (Z.of_nat i <=? end_ (ann_span a))) anns = []) as ->; [|reflexivity].
    destruct (filter _ anns) as [|a l] eqn:E; [reflexivity|]. exfalso.
    assert (I : In a (a :: l)) by (simpl; auto). rewrite <- E in I. apply filter_In in I. destruct I as [I P]. rewrite (H a I) in P. discriminate. }
  specialize (K (S n) 0%nat). rewrite (Z0 0%nat), (Z0 (0 + S n)%nat) in K; [exact K| |]; intros a Ha; specialize (G a Ha); lia.
Qed.
End Nest.
Lemma flat_map_split_perm {A B} (f g : A -> list B) l : Permutation (flat_map (fun x => f x ++ g x) l) (flat_map f l ++ flat_map g l).
Proof.
  induction l as [|x l IH]; simpl; [reflexivity|]. rewrite <- !app_assoc. apply Permutation_app_head. rewrite IH.
  rewrite !app_assoc. apply Permutation_app_tail. apply Permutation_app_comm.
Qed.
Lemma flat_map_filter_perm {A} (off : A -> Z) l k : forall i, (forall a, In a l -> Z.of_nat i <= off a < Z.of_nat (i + k)) ->
  Permutation (flat_map (fun j => filter (fun a => off a =? Z.of_nat j) l) (seq i k)) l.
Proof.
  revert l. induction k as [|k IH]; intros l i H; simpl.
  - destruct l as [|a l]; [reflexivity|]. specialize (H a (or_introl eq_refl)). lia.
  - set (m := filter (fun a => negb (off a =? Z.of_nat i)) l).
    assert (E : flat_map (fun j => filter (fun a => off a =? Z.of_nat j) l) (seq (S i) k) = flat_map (fun j => filter (fun a => off a =? Z.of_nat j) m) (seq (S i) k)).
    { assert (E : forall j, In j (seq (S i) k) -> filter (fun a => off a =? Z.of_nat j) l = filter (fun a => off a =? Z.of_nat j) m).
      { intros j Hj. apply in_seq in Hj. unfold m. clear -Hj. induction l as [|a l IHl]; [reflexivity|]. simpl.
        destruct (off a =? Z.of_nat i) eqn:E1; simpl; destruct (off a =? Z.of_nat j) eqn:E2; rewrite ?IHl; try reflexivity; lia. }
      revert E. generalize (seq (S i) k). clear. induction l0 as [|j js IHj]; intros E; [reflexivity|]. simpl. rewrite E by (simpl; auto). f_equal. apply IHj.
      intros; apply E; simpl; auto. }
    rewrite E, (IH m (S i)).
    + unfold m. clear. induction l as [|a l IHl]; [reflexivity|]. simpl. destruct (off a =? Z.of_nat i); simpl.
      * now constructor.
      * rewrite <- Permutation_middle. now constructor.
    + intros a Ha. unfold m in Ha. apply filter_In in Ha. destruct Ha as [Ha N]. specialize (H a Ha). lia.
Qed.
Lemma all_events_perm anns n : good n anns -> Permutation (all_events anns n) (map Open anns ++ map Close anns).
Proof.
  intros Gd. unfold all_events, events_at. rewrite flat_map_split_perm, Permutation_app_comm.
  assert (MS : forall (f : annotation -> event) (srt : list annotation -> list annotation) off,
    (forall l, Permutation (srt l) l) -> (forall a, In a anns -> 0 <= off a < Z.of_nat (S n)) ->
    Permutation (flat_map (fun i => map f (srt (filter (fun a => off a =? Z.of_nat i) anns))) (seq 0 (S n))) (map f anns)).
  { intros f srt off Hs Ho. transitivity (map f (flat_map (fun i => filter (fun a => off a =? Z.of_nat i) anns) (seq 0 (S n)))).
    - generalize (seq 0 (S n)). induction l as [|i l IH]; [reflexivity|]. cbn [flat_map]. rewrite map_app. apply Permutation_app; [|exact IH].
      apply Permutation_map, Hs.
    - apply Permutation_map, flat_map_filter_perm. intros a Ha. specialize (Ho a Ha). lia. }
  apply Permutation_app.
  - apply (MS Open longest_first (fun a => start (ann_span a))); [apply sorted_perm|]. intros a Ha. specialize (Gd a Ha). lia.
  - apply (MS Close shortest_first (fun a => end_ (ann_span a))); [apply sorted_perm|]. intros a Ha. specialize (Gd a Ha). lia.
Qed.
Lemma all_events_offsets anns n : Sorted Z.le (map event_offset (all_events anns n)).
Proof.
  apply StronglySorted_Sorted. unfold all_events. generalize (S n) as k, 0%nat as i.
  induction k as [|k IH]; intros i; simpl; [constructor|]. rewrite map_app.
  assert (N : forall j e, In e (events_at anns j) -> event_offset e = Z.of_nat j).
  { intros j e He. unfold events_at in He. rewrite in_app_iff, !in_map_iff in He.
    destruct He as [(a & <- & Ha)|(a & <- & Ha)]; apply sorted_in, filter_In in Ha; simpl; lia. }
  apply ss_app; [|apply IH|].
  - apply ss_const. intros x y Hx Hy. apply in_map_iff in Hx, Hy. destruct Hx as (a & <- & Hx), Hy as (b & <- & Hy).
    rewrite (N _ _ Hx), (N _ _ Hy). lia.
  - intros x y Hx Hy. apply in_map_iff in Hx, Hy. destruct Hx as (a & <- & Hx), Hy as (b & <- & Hy).
    apply in_flat_map in Hy. destruct Hy as (j & Hj & Hy). apply in_seq in Hj. rewrite (N _ _ Hx), (N _ _ Hy). lia.
Qed.
