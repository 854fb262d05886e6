(** * Properties C35, C36, C76, C77: annotated text *)
From Coq Require Import Sorted.
From Verif Require Import Prelude SortLib PyStr Order Range Span SpanProofs AnnotatedText AnnotatedTextSpec AnnotatedTextProofs.
Local Open Scope Z_scope.

(** ** C35 *)
(** Reference stripper: drop everything from a '<' to the next '>'. *)
Fixpoint strip_tags (in_tag : bool) (s : str) : str :=
  match s with
  | [] => []
  | c :: r => if in_tag then strip_tags (negb (c =? 62)%N) r
              else if (c =? 60)%N then strip_tags true r else c :: strip_tags false r
  end.
Definition no_char (c : N) (s : str) : Prop := ~ In c s.
Definition clean_annotation (a : annotation) : Prop :=
  no_char 62 (label a) /\ forall k v, In (k, v) (attributes a) -> no_char 62 k /\ no_char 62 v.

(** The whole output: the text, with at each offset the end tags of the annotations ending there
    (shortest first) and the start tags of the annotations starting there (longest first). *)
Theorem C35_annotated_text_spec : forall text anns w,
  is_span w -> 0 <= start w -> span_len w = Z.of_nat (length text) ->
  (forall a, In a anns -> is_span (ann_span a)) ->
  annotated_text text anns (Some w) =
  Ok (flat_map (fun i => concat (map event_string (events_at (visible w anns) i)) ++ firstn 1 (skipn i text))
               (seq 0 (S (length text)))).
Proof. intros. now apply annotated_text_spec. Qed.

(** Without text_offsets the window is the whole text; an empty text is rejected, and so is a
    window of the wrong length. *)
Theorem C35_default_window : forall text anns,
  annotated_text text anns None =
  if Nat.eqb (length text) 0 then Raise ValueError
  else annotated_text text anns (Some (MkSpan 0 (Z.of_nat (length text)))).
Proof.
  intros. unfold annotated_text at 1, from_inclusive_to_exclusive, mk_span.
  destruct (Nat.eqb_spec (length text) 0) as [E|E].
  - now replace (0 <? Z.of_nat (length text)) with false by lia.
  - now replace (0 <? Z.of_nat (length text)) with true by lia.
Qed.
Theorem C35_wrong_length : forall text anns w,
  span_len w <> Z.of_nat (length text) -> annotated_text text anns (Some w) = Raise ValueError.
Proof. intros text anns w H. unfold annotated_text. simpl. apply Z.eqb_neq in H. now rewrite H. Qed.

Lemma strip_in s r : no_char 62 s -> strip_tags true (s ++ 62%N :: r) = strip_tags false r.
Proof.
  unfold no_char. induction s as [|c s IH]; intros H; simpl; [reflexivity|].
  destruct (N.eqb_spec c 62) as [->|]; [exfalso; apply H; simpl; auto|]. simpl. apply IH. intros K. apply H. simpl; auto.
Qed.
Lemma no_char_app c a b : no_char c a -> no_char c b -> no_char c (a ++ b).
Proof. unfold no_char. intros A B H. apply in_app_iff in H. tauto. Qed.
Lemma no_char_join c sep l : no_char c sep -> (forall x, In x l -> no_char c x) -> no_char c (py_join sep l).
Proof.
  intros Hs. induction l as [|x l IH]; intros H; simpl; [now intros []|].
  assert (Hx : no_char c x) by (apply H; simpl; auto).
  assert (IH' : no_char c (py_join sep l)) by (apply IH; intros; apply H; simpl; auto).
  destruct l; [assumption|]. now repeat apply no_char_app.
Qed.
Ltac lit := unfold no_char; vm_compute; intuition discriminate.
Lemma strip_event e r : (match e with Open a | Close a => clean_annotation a end) ->
  strip_tags false (event_string e ++ r) = strip_tags false r.
Proof.
  destruct e as [a|a]; intros [Hl Ha]; cbn [event_string].
  - unfold to_start_tag. rewrite <- !app_assoc. change (strip_tags false (!!"<" ++ ?x)) with (strip_tags true x).
    rewrite app_assoc. change (!!">" ++ r) with (62%N :: r). apply strip_in.
    apply no_char_app; [assumption|]. destruct (attributes a) as [|kv kvs] eqn:E; [now intros []|]. rewrite <- E in *.
    apply no_char_app; [lit|]. apply no_char_join; [lit|]. intros x Hx. apply in_map_iff in Hx.
    destruct Hx as ((k & v) & <- & Hx). apply sorted_in in Hx. destruct (Ha k v Hx). simpl fst. simpl snd.
    repeat apply no_char_app; auto; lit.
  - unfold to_end_tag. rewrite <- !app_assoc. change (strip_tags false (!!"</" ++ ?x)) with (strip_tags true x).
    change (!!">" ++ r) with (62%N :: r). now apply strip_in.
Qed.
Lemma visible_clean w anns a : (forall a, In a anns -> clean_annotation a) -> In a (visible w anns) -> clean_annotation a.
Proof.
  intros H Ha. unfold visible in Ha. apply in_flat_map in Ha. destruct Ha as (b & Hb & Ha).
  destruct (_ <? _) in Ha; [|destruct Ha]. destruct Ha as [<-|[]]. exact (H b Hb).
Qed.
Lemma strip_woven text blk k : no_char 60 text ->
  (forall i e, In e (blk i) -> match e with Open a | Close a => clean_annotation a end) ->
  forall i, (i + k = S (length text))%nat -> strip_tags false (woven text blk (seq i k)) = skipn i text.
Proof.
  intros Ht Hb. induction k as [|k IH]; intros i E; cbn [seq woven flat_map].
  - simpl. now rewrite skipn_all2 by lia.
  - fold (woven text blk (seq (S i) k)). rewrite <- app_assoc.
    assert (B : forall l r, (forall e, In e l -> match e with Open a | Close a => clean_annotation a end) ->
      strip_tags false (concat (map event_string l) ++ r) = strip_tags false r).
    { induction l as [|e l IHl]; intros r H; simpl; [reflexivity|]. rewrite <- app_assoc.
      rewrite strip_event by (apply H; simpl; auto). apply IHl. intros; apply H; simpl; auto. }
    rewrite B by apply Hb. destruct (skipn i text) as [|c s] eqn:S1.
    + assert (length text <= i)%nat. { assert (L := skipn_length i text). rewrite S1 in L. simpl in L. lia. }
      cbn [firstn app]. rewrite IH by lia. now rewrite skipn_all2 by lia.
    + cbn [firstn app strip_tags].
      assert (I : In c text). { rewrite <- (firstn_skipn i text), S1, in_app_iff. simpl. auto. }
      destruct (N.eqb_spec c 60) as [->|]; [contradiction|]. f_equal. rewrite IH by lia.
      change (S i) with (1 + i)%nat. rewrite <- (skipn_skipn_ text 1 i), S1. reflexivity.
Qed.
(** Deleting the tags gives back the text. *)
Theorem C35_no_text_lost : forall text anns w,
  is_span w -> 0 <= start w -> span_len w = Z.of_nat (length text) ->
  (forall a, In a anns -> is_span (ann_span a)) ->
  no_char 60 text -> (forall a, In a anns -> clean_annotation a) ->
  exists out, annotated_text text anns (Some w) = Ok out /\ strip_tags false out = text.
Proof.
  intros text anns w Hw H0 L Ha Ht Hc. eexists. split; [now apply annotated_text_spec|].
  rewrite strip_woven; [reflexivity|assumption| |lia].
  intros i e He. unfold events_at in He. rewrite in_app_iff, !in_map_iff in He.
  destruct He as [(a & <- & H)|(a & <- & H)]; apply sorted_in, filter_In in H; (eapply visible_clean; [exact Hc|]; apply H).
Qed.
(** The restriction to windows starting at a non-negative offset is needed: the trailing slice uses
    the unshifted end offset, so text is dropped. *)
Theorem C35_negative_window_refuted : exists text w,
  is_span w /\ span_len w = Z.of_nat (length text) /\
  annotated_text text [] (Some w) = Ok (firstn 2 text) /\ length text = 4%nat.
Proof. exists !!"abcd", (MkSpan (-2) 2). vm_compute. repeat split. Qed.

Definition demo_anns : list annotation :=
  [MkAnn !!"b" (MkSpan 1 5) [(!!"z", !!"1"); (!!"a", !!"2")]; MkAnn !!"i" (MkSpan 2 4) []; MkAnn !!"u" (MkSpan (-3) 40) []].
Example C35_witness :
  annotated_text !!"hello" demo_anns None =
  Ok !!"<u>h<b a=""2"" z=""1"">e<i>ll</i>o</b></u>".
Proof. vm_compute. reflexivity. Qed.
Example C35_hyps : is_span (MkSpan 3 8) /\ (forall a, In a demo_anns -> is_span (ann_span a)) /\
  no_char 60 !!"hello" /\ (forall a, In a demo_anns -> clean_annotation a).
Proof.
  split; [reflexivity|]. split; [intros a H; simpl in H; intuition (subst; reflexivity)|]. split; [lit|].
  intros a H; simpl in H; destruct H as [<-|[<-|[<-|[]]]]; (split; [lit|]); simpl; intros k v H;
    repeat destruct H as [H|H]; try contradiction; inversion H; subst; (split; lit).
Qed.

(** ** C36 *)
(** The output is the text with a well-nested sequence of tag occurrences: the start and the end
    tag of each visible annotation exactly once, at the annotation's (clipped) offsets, in order. *)
Theorem C36_tags_well_nested : forall text anns w,
  is_span w -> 0 <= start w -> span_len w = Z.of_nat (length text) ->
  (forall a, In a anns -> is_span (ann_span a)) ->
  (forall a b, In a anns -> In b anns -> laminar_pair (ann_span a) (ann_span b)) ->
  NoDup (map ann_span (visible w anns)) ->
  exists events,
    nested [] events [] /\
    Permutation events (map Open (visible w anns) ++ map Close (visible w anns)) /\
    Sorted Z.le (map event_offset events) /\
    annotated_text text anns (Some w) =
      Ok (flat_map (fun i => concat (map event_string (filter (fun e => event_offset e =? Z.of_nat i) events))
                             ++ firstn 1 (skipn i text)) (seq 0 (S (length text)))).
Proof.
  intros text anns w Hw H0 L Ha LAM ND. assert (G := visible_good w anns _ L).
  exists (all_events (visible w anns) (length text)). split; [|split; [|split]].
  - apply nested_all; auto. intros a b Ia Ib. unfold visible in Ia, Ib. apply in_flat_map in Ia, Ib.
    destruct Ia as (a' & Ia & Fa), Ib as (b' & Ib & Fb).
    destruct (_ <? _) eqn:Ea in Fa; [|destruct Fa]. destruct (_ <? _) eqn:Eb in Fb; [|destruct Fb].
    destruct Fa as [<-|[]], Fb as [<-|[]]. specialize (LAM a' b' Ia Ib). unfold laminar_pair in *. simpl. lia.
  - now apply all_events_perm.
  - apply all_events_offsets.
  - rewrite annotated_text_spec by assumption. f_equal. unfold woven.
    rewrite !flat_map_concat_map. f_equal. apply map_ext_in. intros i Hi. apply in_seq in Hi.
    now rewrite all_events_at by lia.
Qed.
Example C36_witness : exists w, is_span w /\ 0 <= start w /\ span_len w = Z.of_nat (length !!"hello") /\
  (forall a b, In a demo_anns -> In b demo_anns -> laminar_pair (ann_span a) (ann_span b)) /\
  NoDup (map ann_span (visible w demo_anns)) /\ length (visible w demo_anns) = 3%nat.
Proof.
  exists (MkSpan 0 5). split; [reflexivity|]. split; [simpl; lia|]. split; [reflexivity|]. split.
  - intros a b Ha Hb. simpl in Ha, Hb. unfold laminar_pair. repeat destruct Ha as [<-|Ha]; try contradiction;
      repeat destruct Hb as [<-|Hb]; try contradiction; simpl; lia.
  - split; [|reflexivity]. vm_compute. repeat (apply NoDup_cons; [simpl; intuition discriminate|]). constructor.
Qed.
(** Distinctness of the *clipped* spans is needed: two nested distinct spans that clip to the same
    window produce crossing tags. *)
Theorem C36_clipped_to_same_refuted : exists text anns w,
  is_span w /\ 0 <= start w /\ span_len w = Z.of_nat (length text) /\
  (forall a, In a anns -> is_span (ann_span a)) /\ NoDup (map ann_span anns) /\
  (forall a b, In a anns -> In b anns -> laminar_pair (ann_span a) (ann_span b)) /\
  annotated_text text anns (Some w) = Ok !!"<b><i>xy</b></i>".
Proof.
  exists !!"xy", [MkAnn !!"b" (MkSpan 0 9) []; MkAnn !!"i" (MkSpan 0 5) []], (MkSpan 0 2).
  split; [reflexivity|]. split; [simpl; lia|]. split; [reflexivity|].
  split; [intros a H; simpl in H; intuition (subst; reflexivity)|]. split.
  - simpl. repeat (apply NoDup_cons; [simpl; intuition discriminate|]). constructor.
  - split; [|reflexivity]. intros a b Ha Hb. simpl in Ha, Hb. unfold laminar_pair.
    repeat destruct Ha as [<-|Ha]; try contradiction; repeat destruct Hb as [<-|Hb]; try contradiction; simpl; lia.
Qed.

(** ** C76: attributes are written sorted by key, whatever their insertion order *)
Lemma str_ltb_irrefl a : str_ltb a a = false.
Proof. induction a as [|x a IH]; simpl; [reflexivity|]. now rewrite N.ltb_irrefl. Qed.
Lemma str_ltb_trans a : forall b c, str_ltb a b = true -> str_ltb b c = true -> str_ltb a c = true.
Proof.
  induction a as [|x a IH]; intros [|y b] [|z c]; simpl; try discriminate; auto.
  destruct (x <? y)%N eqn:E1, (y <? z)%N eqn:E2, (y <? x)%N eqn:E3, (z <? y)%N eqn:E4, (x <? z)%N eqn:E5, (z <? x)%N eqn:E6;
    try lia; try discriminate; auto. intros; eapply IH; eauto.
Qed.
Lemma str_ltb_total a : forall b, str_ltb a b = false -> str_ltb b a = false -> a = b.
Proof.
  induction a as [|x a IH]; intros [|y b]; simpl; try discriminate; auto.
  destruct (x <? y)%N eqn:E1, (y <? x)%N eqn:E2; try discriminate. intros. f_equal; [lia|auto].
Qed.
Lemma str_ltb_asym a b : str_ltb a b = true -> str_ltb b a = false.
Proof.
  intros H. destruct (str_ltb b a) eqn:E; [|reflexivity].
  pose proof (str_ltb_trans _ _ _ H E) as K. now rewrite str_ltb_irrefl in K.
Qed.
Lemma pair_asym a b : str_pair_ltb a b = true -> str_pair_ltb b a = false.
Proof.
  unfold str_pair_ltb, str_eqb. destruct a as [a1 a2], b as [b1 b2]. simpl.
  destruct (list_eq_dec _ a1 b1), (list_eq_dec _ b1 a1); try congruence; apply str_ltb_asym.
Qed.
Lemma str_ltb_ntrans a b c : str_ltb b a = false -> str_ltb c b = false -> str_ltb c a = false.
Proof.
  intros H1 H2. destruct (str_ltb c a) eqn:E; [|reflexivity].
  destruct (str_ltb b c) eqn:E2. { now rewrite (str_ltb_trans _ _ _ E2 E) in H1. }
  rewrite (str_ltb_total _ _ E2 H2) in H1. congruence.
Qed.
Lemma pair_ntrans a b c : str_pair_ltb b a = false -> str_pair_ltb c b = false -> str_pair_ltb c a = false.
Proof.
  unfold str_pair_ltb, str_eqb. destruct a as [a1 a2], b as [b1 b2], c as [c1 c2]. simpl.
  destruct (list_eq_dec _ b1 a1), (list_eq_dec _ c1 b1), (list_eq_dec _ c1 a1); subst; try congruence.
  - apply str_ltb_ntrans.
  - intros H1 H2. destruct n. now apply str_ltb_total.
  - apply str_ltb_ntrans.
Qed.
Definition sorted_keys (kvs : list (str * str)) : Prop :=
  StronglySorted (fun a b => str_ltb (fst a) (fst b) = true) kvs.
Lemma sorted_attrs kvs l : NoDup (map fst l) -> sorted_keys kvs -> Permutation kvs l ->
  sorted_by str_pair_ltb (fun kv => kv) l = kvs.
Proof.
  intros ND S P.
  assert (SL := sorted_sorted str_pair_ltb (fun kv => kv) pair_asym pair_ntrans l).
  assert (PL := sorted_perm str_pair_ltb (fun kv => kv) l).
  assert (D : NoDup (map fst (sorted_by str_pair_ltb (fun kv => kv) l))).
  { eapply Permutation_NoDup; [|exact ND]. apply Permutation_map. now symmetry. }
  apply (strict_sorted_unique (fun a b => str_ltb (fst a) (fst b) = true)).
  - intros a H. now rewrite str_ltb_irrefl in H.
  - intros a b H1 H2. rewrite (str_ltb_asym _ _ H1) in H2. discriminate.
  - revert SL D. generalize (sorted_by str_pair_ltb (fun kv => kv) l). clear. induction l as [|a l IH]; intros S D; [constructor|].
    inversion S as [|? ? S' F]; subst. inversion D as [|? ? N D']; subst. constructor; [auto|].
    apply Forall_forall. intros b Hb. rewrite Forall_forall in F. specialize (F b Hb). unfold kle, str_pair_ltb in F.
    destruct (str_eqb (fst b) (fst a)) eqn:E.
    + apply str_eqb_eq in E. exfalso. apply N. rewrite <- E. now apply in_map.
    + destruct (str_ltb (fst a) (fst b)) eqn:E2; [reflexivity|]. apply str_eqb_neq in E. exfalso. apply E. now apply str_ltb_total.
  - exact S.
  - intros x. rewrite sorted_in. split; apply Permutation_in; [now symmetry|assumption].
Qed.
(** If [kvs] is the key-sorted arrangement of the attributes, the tag is
    [<label k1="v1" k2="v2" ...>]. *)
Theorem C76_start_tag : forall a kvs,
  NoDup (map fst (attributes a)) -> sorted_keys kvs -> Permutation kvs (attributes a) ->
  to_start_tag a = !!"<" ++ label a ++ flat_map (fun kv => !!" " ++ fst kv ++ !!"=""" ++ snd kv ++ !!"""") kvs ++ !!">".
Proof.
  intros a kvs ND S P. unfold to_start_tag. rewrite (sorted_attrs kvs) by assumption. do 3 f_equal.
  assert (E : (match attributes a with [] => true | _ => false end) = match kvs with [] => true | _ => false end).
  { destruct kvs; [apply Permutation_nil in P; now rewrite P|]. destruct (attributes a); [|reflexivity].
    symmetry in P. now apply Permutation_nil in P. }
  destruct (attributes a) as [|x l]; destruct kvs as [|kv kvs]; try discriminate; [reflexivity|]. clear.
  revert kv. induction kvs as [|y kvs IH]; intros kv.
  - simpl. now rewrite app_nil_r.
  - cbn [map py_join] in *. cbn [flat_map] in *. cbn [map] in IH. rewrite <- (IH y). cbn [map].
    rewrite <- !app_assoc. reflexivity.
Qed.
Theorem C76_insertion_order_irrelevant : forall l s kvs1 kvs2,
  NoDup (map fst kvs1) -> Permutation kvs1 kvs2 ->
  to_start_tag (MkAnn l s kvs1) = to_start_tag (MkAnn l s kvs2).
Proof.
  intros l s k1 k2 ND P.
  assert (S : sorted_keys (sorted_by str_pair_ltb (fun kv => kv) k1)).
  { assert (SL := sorted_sorted str_pair_ltb (fun kv => kv) pair_asym pair_ntrans k1).
    assert (D : NoDup (map fst (sorted_by str_pair_ltb (fun kv => kv) k1))).
    { eapply Permutation_NoDup; [|exact ND]. apply Permutation_map. symmetry. apply sorted_perm. }
    revert SL D. generalize (sorted_by str_pair_ltb (fun kv => kv) k1). clear. induction l as [|a l IH]; intros S D; [constructor|].
    inversion S as [|? ? S' F]; subst. inversion D as [|? ? N D']; subst. constructor; [now apply IH|].
    apply Forall_forall. intros b Hb. rewrite Forall_forall in F. specialize (F b Hb). unfold kle, str_pair_ltb in F.
    destruct (str_eqb (fst b) (fst a)) eqn:E.
    + apply str_eqb_eq in E. exfalso. apply N. rewrite <- E. now apply in_map.
    + destruct (str_ltb (fst a) (fst b)) eqn:E2; [reflexivity|]. apply str_eqb_neq in E. exfalso. apply E. now apply str_ltb_total. }
  rewrite (C76_start_tag (MkAnn l s k1) _ ND S (sorted_perm _ _ _)).
  symmetry. apply (C76_start_tag (MkAnn l s k2)); simpl; auto.
  - eapply Permutation_NoDup; [|exact ND]. now apply Permutation_map.
  - rewrite sorted_perm. exact P.
Qed.
Example C76_witness :
  to_start_tag (MkAnn !!"b" (MkSpan 1 5) [(!!"z", !!"1"); (!!"a", !!"2")]) = !!"<b a=""2"" z=""1"">" /\
  sorted_keys [(!!"a", !!"2"); (!!"z", !!"1")].
Proof. split; [reflexivity|]. repeat constructor. Qed.

(** ** C77: the order in which the annotations are supplied is irrelevant *)
Lemma filter_perm {A} (p : A -> bool) l1 l2 : Permutation l1 l2 -> Permutation (filter p l1) (filter p l2).
Proof.
  induction 1; simpl; [constructor| | |etransitivity; eauto].
  - destruct (p x); [now constructor|assumption].
  - destruct (p x), (p y); try constructor; reflexivity.
Qed.
Lemma sorted_perm_eq (k : annotation -> Z) l1 l2 : Permutation l1 l2 ->
  NoDup l1 -> (forall a b, In a l1 -> In b l1 -> k a = k b -> a = b) ->
  sorted_by Z.ltb k l1 = sorted_by Z.ltb k l2.
Proof.
  intros P ND H.
  assert (ST : forall l, NoDup l -> (forall a b, In a l -> In b l -> k a = k b -> a = b) ->
    StronglySorted (fun a b => k a < k b) (sorted_by Z.ltb k l)).
  { clear. intros l ND H.
    assert (S : StronglySorted (kle Z.ltb k) (sorted_by Z.ltb k l)) by (apply sorted_sorted; intros; lia).
    assert (D : NoDup (sorted_by Z.ltb k l)) by (eapply Permutation_NoDup; [symmetry; apply sorted_perm|assumption]).
    assert (I : forall x, In x (sorted_by Z.ltb k l) -> In x l) by (intros x; apply sorted_in).
    revert S D I. generalize (sorted_by Z.ltb k l).
    induction l0 as [|a m IH]; intros S D I; [constructor|]. inversion S as [|? ? S' F]; subst. inversion D as [|? ? N D']; subst.
    constructor; [apply IH; auto; intros; apply I; simpl; auto|].
    apply Forall_forall. intros b Hb. rewrite Forall_forall in F. specialize (F b Hb). unfold kle in F.
    assert (k a <> k b); [|lia]. intros E. apply N. rewrite (H a b); auto; apply I; simpl; auto. }
  apply (strict_sorted_unique (fun a b => k a < k b)); try (intros; lia).
  - now apply ST.
  - apply ST; [eapply Permutation_NoDup; eassumption|]. intros a b Ha Hb. apply H; eapply Permutation_in; try (symmetry; exact P); assumption.
  - intros x. rewrite !sorted_in. split; apply Permutation_in; [assumption|now symmetry].
Qed.
Theorem C77_annotation_order_irrelevant : forall text anns1 anns2 w,
  is_span w -> 0 <= start w -> span_len w = Z.of_nat (length text) ->
  (forall a, In a anns1 -> is_span (ann_span a)) ->
  Permutation anns1 anns2 ->
  NoDup (map ann_span (visible w anns1)) ->
  annotated_text text anns1 (Some w) = annotated_text text anns2 (Some w).
Proof.
  intros text a1 a2 w Hw H0 L Ha P ND.
  rewrite !annotated_text_spec; auto.
  2:{ intros a Ia. apply Ha. eapply Permutation_in; [symmetry; exact P|exact Ia]. }
  f_equal. unfold woven. rewrite !flat_map_concat_map. f_equal. apply map_ext. intros i. do 3 f_equal.
  assert (PV : Permutation (visible w a1) (visible w a2)) by now apply Permutation_flat_map.
  assert (SP : forall a b, In a (visible w a1) -> In b (visible w a1) -> ann_span a = ann_span b -> a = b).
  { revert ND. generalize (visible w a1). clear. induction l as [|x l IH]; intros ND a b Ia Ib E; [destruct Ia|].
    simpl in ND. inversion ND as [|? ? N ND']; subst. destruct Ia as [<-|Ia], Ib as [<-|Ib]; auto.
    - exfalso. apply N. rewrite E. now apply in_map.
    - exfalso. apply N. rewrite <- E. now apply in_map. }
  unfold events_at. f_equal; f_equal; apply sorted_perm_eq; try (now apply filter_perm);
    try (apply NoDup_filter; eapply NoDup_map_inv; exact ND);
    intros a b Ia Ib E; apply filter_In in Ia, Ib; destruct Ia as [Ia Pa], Ib as [Ib Pb]; apply SP; auto;
    unfold alen in E; destruct (ann_span a), (ann_span b); simpl in *; f_equal; lia.
Qed.
(** With two annotations on the same span the output depends on the order. *)
Theorem C77_same_span_refuted : exists a b,
  annotated_text !!"x" [a; b] None = Ok !!"<b><i>x</b></i>" /\ annotated_text !!"x" [b; a] None = Ok !!"<i><b>x</i></b>".
Proof. exists (MkAnn !!"b" (MkSpan 0 1) []), (MkAnn !!"i" (MkSpan 0 1) []). split; reflexivity. Qed.
Example C77_witness : Permutation demo_anns (rev demo_anns) /\ NoDup (map ann_span (visible (MkSpan 0 5) demo_anns)).
Proof. split; [apply Permutation_rev|]. vm_compute. repeat (apply NoDup_cons; [simpl; intuition discriminate|]). constructor. Qed.

Print Assumptions C35_annotated_text_spec.
Print Assumptions C35_no_text_lost.
Print Assumptions C36_tags_well_nested.
Print Assumptions C76_start_tag.
Print Assumptions C77_annotation_order_irrelevant.
