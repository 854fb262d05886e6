(** * Proofs about RangeSet: representation, helpers, add *)
From Coq Require Import Sorted.
From Verif Require Import Prelude Order Range RangeFacts RangeProofs SortedDict RangeSet.

Section SSFacts.
Context {A : Type} (R : A -> A -> Prop).
Lemma ss_app l1 l2 : StronglySorted R (l1 ++ l2) <->
  StronglySorted R l1 /\ StronglySorted R l2 /\ (forall a b, In a l1 -> In b l2 -> R a b).
Proof.
  induction l1 as [|x l1 IH]; simpl.
  - split; [intros H; repeat split; [constructor|assumption|contradiction]|tauto].
  - split.
    + intros H. inversion H as [|? ? HS HF]; subst. apply IH in HS. destruct HS as (S1 & S2 & S3).
      rewrite Forall_app in HF. destruct HF as [F1 F2]. repeat split; auto.
      * constructor; assumption.
      * intros a b [<-|Ha] Hb; [|auto]. rewrite Forall_forall in F2. auto.
    + intros (S1 & S2 & S3). inversion S1 as [|? ? HS HF]; subst. constructor.
      * apply IH. repeat split; auto.
      * apply Forall_app. split; [assumption|]. apply Forall_forall. auto.
Qed.
Lemma ss_cases l a b : StronglySorted R l -> In a l -> In b l -> a = b \/ R a b \/ R b a.
Proof.
  induction l as [|x l IH]; simpl; [contradiction|]. intros H.
  inversion H as [|? ? HS HF]; subst. rewrite Forall_forall in HF.
  intros [<-|Ha] [<-|Hb]; auto.
Qed.
Lemma ss_filter p l : StronglySorted R l -> StronglySorted R (filter p l).
Proof.
  induction l as [|x l IH]; simpl; intros H; [constructor|].
  inversion H as [|? ? HS HF]; subst. destruct (p x); auto.
  constructor; auto. apply Forall_forall. intros y Hy. apply filter_In in Hy.
  rewrite Forall_forall in HF. now apply HF.
Qed.
End SSFacts.

Section Proofs.
Context {T : Type} {O : TotalOrder T}.
Notation rng := (range T).

Definition kv (r : rng) : cut T * rng := (lower r, r).
Definition good (r : rng) : Prop := valid r /\ cltb (lower r) (upper r) = true.
Definition before (a b : rng) : Prop := cltb (upper a) (lower b) = true.
Definition WF (rs : list rng) : Prop := Forall good rs /\ StronglySorted before rs.
(** Representation invariant: the dictionary lists well-formed ranges under their own
    lower bounds. *)
Definition Inv (d : rset T) : Prop := exists rs, d = map kv rs /\ WF rs.

Lemma keys_kv rs : sd_keys (map kv rs) = map lower rs.
Proof. unfold sd_keys. rewrite map_map. reflexivity. Qed.
Lemma values_kv rs : sd_values (map kv rs) = rs.
Proof. unfold sd_values. rewrite map_map. apply map_id. Qed.
Lemma as_ranges_kv rs : as_ranges (map kv rs) = rs.
Proof. apply values_kv. Qed.

Lemma good_lt r : good r -> cltb (lower r) (upper r) = true.
Proof. now intros []. Qed.
Lemma good_nonempty r : good r <-> valid r /\ is_empty r = false.
Proof.
  unfold good. split; intros [V H]; (split; [assumption|]).
  - cord.
  - apply valid_spec in V. cord.
Qed.
Lemma wf_app l1 l2 : WF (l1 ++ l2) -> WF l1 /\ WF l2.
Proof.
  intros [F S]. apply Forall_app in F. apply ss_app in S. unfold WF. tauto.
Qed.
Lemma wf_filter p rs : WF rs -> WF (filter p rs).
Proof.
  intros [F S]. split; [|now apply ss_filter].
  apply Forall_forall. intros x Hx. apply filter_In in Hx. rewrite Forall_forall in F. now apply F.
Qed.
Lemma wf_cases rs a b : WF rs -> In a rs -> In b rs -> a = b \/ before a b \/ before b a.
Proof. intros [_ S]. now apply ss_cases. Qed.
Lemma wf_good rs a : WF rs -> In a rs -> good a.
Proof. intros [F _]. rewrite Forall_forall in F. apply F. Qed.
Lemma wf_mid l1 e l2 q : WF (l1 ++ e :: l2) -> In q (l1 ++ e :: l2) ->
  (In q l1 /\ before q e) \/ q = e \/ (In q l2 /\ before e q).
Proof.
  intros [_ S] Hq. apply ss_app in S. destruct S as (_ & S & H).
  apply in_app_or in Hq. destruct Hq as [Hq|[<-|Hq]].
  - left. split; [assumption|]. apply H; simpl; auto.
  - auto.
  - right; right. inversion S as [|? ? _ HF]; subst. rewrite Forall_forall in HF. auto.
Qed.

(** *** bisect *)
Lemma bisect_left_spec rs k : WF rs -> exists l1 l2, rs = l1 ++ l2 /\
  bisect_left (map kv rs) k = length l1 /\
  (forall q, In q l1 -> cltb (lower q) k = true) /\
  (forall q, In q l2 -> cltb (lower q) k = false).
Proof.
  induction rs as [|r rs IH]; intros W.
  - exists [], []. simpl. repeat split; contradiction.
  - cbn [map bisect_left kv]. change (cut_lt (lower r) k) with (cltb (lower r) k).
    destruct W as [F S]. inversion F as [|? ? G F']; subst. inversion S as [|? ? S' HF]; subst.
    destruct (cltb (lower r) k) eqn:E.
    + destruct (IH (conj F' S')) as (l1 & l2 & -> & H2 & H3 & H4).
      exists (r :: l1), l2. simpl. repeat split; auto. intros q [<-|Hq]; auto.
    + exists [], (r :: rs). repeat split; [simpl; contradiction|].
      intros q [<-|Hq]; [assumption|]. rewrite Forall_forall in HF. specialize (HF q Hq).
      unfold before in HF. apply good_lt in G. cord.
Qed.
Lemma bisect_right_spec rs k : WF rs -> exists l1 l2, rs = l1 ++ l2 /\
  bisect_right (map kv rs) k = length l1 /\
  (forall q, In q l1 -> cltb k (lower q) = false) /\
  (forall q, In q l2 -> cltb k (lower q) = true).
Proof.
  induction rs as [|r rs IH]; intros W.
  - exists [], []. simpl. repeat split; contradiction.
  - cbn [map bisect_right kv]. change (cut_lt k (lower r)) with (cltb k (lower r)).
    destruct W as [F S]. inversion F as [|? ? G F']; subst. inversion S as [|? ? S' HF]; subst.
    destruct (cltb k (lower r)) eqn:E.
    + exists [], (r :: rs). repeat split; [simpl; contradiction|].
      intros q [<-|Hq]; [assumption|]. rewrite Forall_forall in HF. specialize (HF q Hq).
      unfold before in HF. apply good_lt in G. cord.
    + destruct (IH (conj F' S')) as (l1 & l2 & -> & H2 & H3 & H4).
      exists (r :: l1), l2. simpl. repeat split; auto. intros q [<-|Hq]; auto.
Qed.

Lemma sd_get_kv rs e : WF rs -> In e rs -> sd_get (map kv rs) (lower e) = Ok e.
Proof.
  intros W He. induction rs as [|r rs IH]; [contradiction|].
  cbn [map sd_get kv]. destruct (cut_eq (lower r) (lower e)) eqn:E.
  - f_equal. apply cut_eq_spec in E.
    destruct (wf_cases _ r e W (or_introl eq_refl) He) as [H|[H|H]]; [assumption| |].
    + pose proof (good_lt r (wf_good _ _ W (or_introl eq_refl))). unfold before in H.
      rewrite <- E in H. exfalso. cord.
    + pose proof (good_lt e (wf_good _ _ W He)). unfold before in H.
      rewrite <- E in *. exfalso. cord.
  - destruct He as [<-|He].
    + rewrite (proj2 (cut_eq_spec _ _) eq_refl) in E. discriminate.
    + apply IH; [|assumption]. destruct W as [F S]. inversion F; inversion S; subst. now split.
Qed.

Lemma getitem_mid {A} (l1 : list A) e l2 : getitem (l1 ++ e :: l2) (length l1) = Ok e.
Proof. unfold getitem. rewrite nth_error_app2 by lia. now rewrite Nat.sub_diag. Qed.
Lemma getitem_keys l1 (e : rng) l2 :
  getitem (sd_keys (map kv (l1 ++ e :: l2))) (length l1) = Ok (lower e).
Proof.
  rewrite keys_kv, map_app. simpl. rewrite <- (map_length lower l1). apply getitem_mid.
Qed.
Lemma at_index_kv l1 (e : rng) l2 : WF (l1 ++ e :: l2) ->
  at_index (map kv (l1 ++ e :: l2)) (length l1) = Ok e.
Proof.
  intros W. unfold at_index. rewrite getitem_keys. simpl. apply sd_get_kv; [assumption|].
  apply in_or_app. simpl. auto.
Qed.

Lemma snoc_cases {A} (l : list A) : l = [] \/ exists l' x, l = l' ++ [x].
Proof.
  destruct l as [|a l]; [now left|right].
  destruct (exists_last (l:=a :: l)) as (l' & x & E); [discriminate|]. eauto.
Qed.

Lemma value_below_spec rs k : WF rs ->
  (exists l1 e l2, rs = l1 ++ e :: l2 /\ value_below (map kv rs) k = Ok (Some e) /\
     cltb (lower e) k = true /\ (forall q, In q l2 -> cltb (lower q) k = false)) \/
  (value_below (map kv rs) k = Ok None /\ forall q, In q rs -> cltb (lower q) k = false).
Proof.
  intros W. destruct (bisect_left_spec rs k W) as (l1 & l2 & E & H2 & H3 & H4).
  unfold value_below. rewrite H2. destruct (snoc_cases l1) as [->|(l & e & ->)].
  - right. simpl in *. subst. auto.
  - left. exists l, e, l2. rewrite app_length. simpl. rewrite Nat.add_comm. simpl.
    rewrite <- app_assoc in E. simpl in E. subst rs.
    rewrite map_length, app_length. simpl.
    replace (length l + S (length l2) <=? length l) with false by (symmetry; apply Nat.leb_gt; lia).
    rewrite getitem_keys. simpl. rewrite sd_get_kv; [|assumption|apply in_or_app; simpl; auto].
    repeat split; auto. apply H3. apply in_or_app. simpl. auto.
Qed.

Lemma nth_error_keys_mid l1 (e : rng) l2 :
  nth_error (sd_keys (map kv (l1 ++ e :: l2))) (length l1) = Some (lower e).
Proof.
  rewrite keys_kv, map_app. simpl. rewrite nth_error_app2; rewrite map_length; [|lia].
  now rewrite Nat.sub_diag.
Qed.
Lemma nth_error_keys_end (l : list rng) : nth_error (sd_keys (map kv l)) (length l) = None.
Proof. apply nth_error_None. rewrite keys_kv, map_length. lia. Qed.

Lemma match_nonempty {A B} (l : list A) (x y : B) : (l = [] -> x = y) -> match l with [] => x | _ :: _ => y end = y.
Proof. destruct l; auto. Qed.

Lemma value_at_or_below_spec rs k : WF rs ->
  (exists l1 e l2, rs = l1 ++ e :: l2 /\ value_at_or_below (map kv rs) k = Ok (Some e) /\
     cltb k (lower e) = false /\ (forall q, In q l2 -> cltb k (lower q) = true)) \/
  (value_at_or_below (map kv rs) k = Ok None /\ forall q, In q rs -> cltb k (lower q) = true).
Proof.
  intros W. destruct (bisect_left_spec rs k W) as (l1 & l2 & E & H2 & H3 & H4).
  unfold value_at_or_below. cbv zeta. rewrite H2.
  assert (Hmiss : (forall q, In q l2 -> cltb k (lower q) = true) ->
    (match l1 with [] => True | _ => rs <> [] end) ->
    let r := match length l1 with
        | 0 => Ok None
        | S i => let* key := getitem (sd_keys (map kv rs)) i in
                 let* v := sd_get (map kv rs) key in Ok (Some v)
        end in
    (exists l1 e l2, rs = l1 ++ e :: l2 /\ r = Ok (Some e) /\
     cltb k (lower e) = false /\ (forall q, In q l2 -> cltb k (lower q) = true)) \/
    (r = Ok None /\ forall q, In q rs -> cltb k (lower q) = true)).
  { intros Hl2 _. cbv zeta. destruct (snoc_cases l1) as [->|(l & e & ->)].
    - right. simpl in *. subst. auto.
    - left. exists l, e, l2. rewrite app_length. simpl. rewrite Nat.add_comm. simpl.
      rewrite <- app_assoc in E. simpl in E. subst rs. rewrite getitem_keys. simpl.
      rewrite sd_get_kv; [|assumption|apply in_or_app; simpl; auto].
      repeat split; auto. specialize (H3 e). rewrite in_app_iff in H3. simpl in H3.
      specialize (H3 (or_intror (or_introl eq_refl))). cord. }
  destruct rs as [|r0 rs0].
  { right. simpl. auto. }
  cbn [map]. change (kv r0 :: map kv rs0) with (map kv (r0 :: rs0)).
  remember (r0 :: rs0) as rs eqn:Ers. clear Ers r0 rs0.
  destruct l2 as [|e l2].
  - rewrite app_nil_r in E. subst l1. rewrite nth_error_keys_end.
    apply Hmiss; [simpl; contradiction|]. destruct rs; auto. discriminate.
  - subst rs. rewrite nth_error_keys_mid. destruct (cut_eq k (lower e)) eqn:Q; simpl.
    + apply cut_eq_spec in Q. subst k. left. exists l1, e, l2.
      rewrite sd_get_kv; [|assumption|apply in_or_app; simpl; auto].
      repeat split; auto. { apply cltb_irrefl. }
      intros q Hq. assert (Hq' : In q (l1 ++ e :: l2)) by (apply in_or_app; simpl; auto).
      destruct W as [F S]. apply ss_app in S. destruct S as (_ & S & _).
      inversion S as [|? ? _ HF]; subst. rewrite Forall_forall in HF. specialize (HF q Hq).
      rewrite Forall_forall in F. specialize (F e). rewrite in_app_iff in F. simpl in F.
      specialize (F (or_intror (or_introl eq_refl))). apply good_lt in F. unfold before in HF. cord.
    + apply Hmiss; [|destruct l1; auto; discriminate].
      intros q Hq. pose proof (H4 q Hq) as Hk.
      destruct (cltb k (lower q)) eqn:E1; [reflexivity|]. exfalso.
      pose proof (cltb_total _ _ Hk E1) as E2.
      pose proof (H4 e (or_introl eq_refl)) as He.
      destruct Hq as [<-|Hq].
      * subst k. rewrite (proj2 (cut_eq_spec _ _) eq_refl) in Q. discriminate.
      * destruct W as [F S]. apply ss_app in S. destruct S as (_ & S & _).
        inversion S as [|? ? _ HF]; subst. rewrite Forall_forall in HF. specialize (HF q Hq).
        rewrite Forall_forall in F. specialize (F e). rewrite in_app_iff in F. simpl in F.
        specialize (F (or_intror (or_introl eq_refl))). apply good_lt in F. unfold before in HF. cord.
Qed.

Lemma value_at_or_above_spec rs k : WF rs ->
  (exists l1 e l2, rs = l1 ++ e :: l2 /\ value_at_or_above (map kv rs) k = Ok (Some e) /\
     cltb (lower e) k = false /\ (forall q, In q l1 -> cltb (lower q) k = true)) \/
  (value_at_or_above (map kv rs) k = Ok None /\ forall q, In q rs -> cltb (lower q) k = true).
Proof.
  intros W. destruct (bisect_left_spec rs k W) as (l1 & l2 & E & H2 & H3 & H4).
  unfold value_at_or_above. cbv zeta. rewrite H2, map_length.
  destruct rs as [|r0 rs0].
  { right. simpl. auto. }
  cbn [map]. change (kv r0 :: map kv rs0) with (map kv (r0 :: rs0)).
  remember (r0 :: rs0) as rs eqn:Ers. clear Ers r0 rs0.
  destruct l2 as [|e l2].
  - rewrite app_nil_r in E. subst l1. rewrite Nat.leb_refl. right. auto.
  - left. subst rs. exists l1, e, l2. rewrite app_length. simpl.
    replace (length l1 + S (length l2) <=? length l1) with false by (symmetry; apply Nat.leb_gt; lia).
    rewrite getitem_keys. simpl. rewrite sd_get_kv; [|assumption|apply in_or_app; simpl; auto].
    repeat split; auto. apply H4. simpl; auto.
Qed.

(** *** clearing *)
Lemma foldM_del_cons ks k (v : rng) d :
  (forall k', In k' ks -> cut_eq k k' = false) ->
  foldM sd_del ks ((k, v) :: d) = let* d' := foldM sd_del ks d in Ok ((k, v) :: d').
Proof.
  revert d. induction ks as [|k' ks IH]; intros d H; [reflexivity|].
  cbn [foldM sd_del]. rewrite (H k') by (simpl; auto).
  destruct (sd_del d k') as [d'|e] eqn:E; simpl; [|reflexivity].
  apply IH. intros; apply H; simpl; auto.
Qed.
Lemma clear_kv rs p : WF rs ->
  foldM sd_del (filter p (map lower rs)) (map kv rs) =
  Ok (map kv (filter (fun q => negb (p (lower q))) rs)).
Proof.
  induction rs as [|r rs IH]; intros W; [reflexivity|].
  assert (W' : WF rs) by (destruct W as [F S]; inversion F; inversion S; subst; now split).
  cbn [map filter kv]. destruct (p (lower r)) eqn:E.
  - cbn [foldM sd_del]. change (kv r) with (lower r, r). cbn iota beta. rewrite (proj2 (cut_eq_spec _ _) eq_refl). cbn [bind]. simpl negb.
    cbn iota. apply IH. assumption.
  - change (kv r) with (lower r, r). rewrite foldM_del_cons.
    + rewrite IH by assumption. reflexivity.
    + intros k Hk. apply filter_In in Hk. destruct Hk as [Hk _]. apply in_map_iff in Hk.
      destruct Hk as (q & <- & Hq). destruct W as [F S]. inversion S as [|? ? _ HF]; subst.
      rewrite Forall_forall in HF. specialize (HF q Hq). inversion F as [|? ? G _]; subst.
      apply good_lt in G. unfold before in HF.
      destruct (cut_eq (lower r) (lower q)) eqn:C; [|reflexivity]. apply cut_eq_spec in C.
      rewrite <- C in HF. exfalso. cord.
Qed.
Lemma sd_set_kv L h R :
  (forall q, In q L -> cltb (lower q) (lower h) = true) ->
  (forall q, In q R -> cltb (lower h) (lower q) = true) ->
  sd_set (map kv (L ++ R)) (lower h) h = map kv (L ++ h :: R).
Proof.
  intros HL HR. induction L as [|q L IH]; simpl.
  - destruct R as [|q R]; [reflexivity|]. cbn [map kv sd_set].
    specialize (HR q (or_introl eq_refl)).
    destruct (cut_eq (lower q) (lower h)) eqn:E.
    + apply cut_eq_spec in E. rewrite E, cltb_irrefl in HR. discriminate.
    + change (cut_lt (lower h) (lower q)) with (cltb (lower h) (lower q)). now rewrite HR.
  - specialize (HL q (or_introl eq_refl)) as Hq.
    destruct (cut_eq (lower q) (lower h)) eqn:E.
    + apply cut_eq_spec in E. rewrite E, cltb_irrefl in Hq. discriminate.
    + change (cut_lt (lower h) (lower q)) with (cltb (lower h) (lower q)).
      destruct (cltb (lower h) (lower q)) eqn:E2; [exfalso; cord|].
      f_equal. apply IH. intros; apply HL; simpl; auto.
Qed.

Lemma filter_or_split (p q : rng -> bool) rs :
  StronglySorted before rs ->
  (forall x y, In x rs -> In y rs -> before x y -> q x = true -> p y = false) ->
  (forall x, In x rs -> p x = true -> q x = false) ->
  filter (fun x => p x || q x) rs = filter p rs ++ filter q rs.
Proof.
  induction rs as [|x rs IH]; intros S H1 H2; [reflexivity|].
  inversion S as [|? ? S' HF]; subst. rewrite Forall_forall in HF.
  assert (IH' : filter (fun x => p x || q x) rs = filter p rs ++ filter q rs).
  { apply IH; [assumption| |].
    - intros a b Ha Hb. apply H1; simpl; auto.
    - intros a Ha. apply H2; simpl; auto. }
  simpl. destruct (p x) eqn:Ep; simpl.
  - rewrite (H2 x (or_introl eq_refl) Ep), IH'. reflexivity.
  - destruct (q x) eqn:Eq; [|exact IH'].
    assert (N : filter p rs = []).
    { clear IH IH' S S'.
      assert (A : forall y, In y rs -> p y = false)
        by (intros y Hy; eapply (H1 x y); simpl; eauto).
      clear -A. induction rs as [|y rs IH]; [reflexivity|]. simpl.
      rewrite (A y (or_introl eq_refl)). apply IH. intros; apply A; simpl; auto. }
    rewrite IH', N. reflexivity.
Qed.

(** *** add *)
Definition lbelow (r q : rng) : bool := cltb (upper q) (lower r).
Definition labove (r q : rng) : bool := cltb (upper r) (lower q).

Lemma partition_wf rs r : WF rs -> cltb (upper r) (lower r) = false ->
  forall q, In q rs -> is_connected r q = negb (lbelow r q) && negb (labove r q).
Proof. intros W V q Hq. unfold lbelow, labove. cord. Qed.

Lemma filter_nil {A} (p : A -> bool) l : (forall x, In x l -> p x = false) -> filter p l = [].
Proof.
  induction l as [|x l IH]; intros H; [reflexivity|]. simpl.
  rewrite (H x (or_introl eq_refl)). apply IH. intros; apply H; simpl; auto.
Qed.
Lemma filter_all {A} (p : A -> bool) l : (forall x, In x l -> p x = true) -> filter p l = l.
Proof.
  induction l as [|x l IH]; intros H; [reflexivity|]. simpl.
  rewrite (H x (or_introl eq_refl)). f_equal. apply IH. intros; apply H; simpl; auto.
Qed.

(** the hull is what create_spanning computes *)
Lemma hull_unique rs r h : good r -> WF rs -> valid h ->
  (lower h = lower r \/ exists e, In e rs /\ is_connected r e = true /\ lower h = lower e) ->
  (upper h = upper r \/ exists e, In e rs /\ is_connected r e = true /\ upper h = upper e) ->
  encloses h r = true ->
  (forall q, In q rs -> is_connected r q = true -> encloses h q = true) ->
  create_spanning (r :: filter (is_connected r) rs) = Ok h.
Proof.
  intros [Vr Lr] W Vh HL HU Hr Hq.
  destruct (create_spanning_spec (r :: filter (is_connected r) rs)) as (c & E & Vc & C1 & C2).
  - discriminate.
  - constructor; [assumption|]. apply Forall_forall. intros q H. apply filter_In in H.
    destruct (wf_good _ _ W (proj1 H)); assumption.
  - rewrite E. f_equal. apply encloses_antisym.
    + pose proof (C1 r (or_introl eq_refl)) as Cr.
      assert (Ce : forall e, In e rs -> is_connected r e = true -> encloses c e = true).
      { intros e He Ce. apply C1. right. apply filter_In. auto. }
      assert (A : cltb (lower h) (lower c) = false).
      { destruct HL as [->|(e & He & Hc & ->)]; [cord|]. specialize (Ce e He Hc). cord. }
      assert (B : cltb (upper c) (upper h) = false).
      { destruct HU as [->|(e & He & Hc & ->)]; [cord|]. specialize (Ce e He Hc). cord. }
      cord.
    + apply C2. intros q [<-|H]; [assumption|]. apply filter_In in H. destruct H. auto.
Qed.

Lemma add_core rs r : WF rs -> good r ->
  exists h, create_spanning (r :: filter (is_connected r) rs) = Ok h /\ valid h /\
    (lower h = lower r \/ exists e, In e rs /\ is_connected r e = true /\ lower h = lower e) /\
    (upper h = upper r \/ exists e, In e rs /\ is_connected r e = true /\ upper h = upper e) /\
    encloses h r = true /\
    add (map kv rs) r = Ok (map kv (filter (lbelow r) rs ++ h :: filter (labove r) rs)).
Proof.
  intros W Gr. destruct (Gr) as [Vr Lr].
  assert (Er : is_empty r = false) by (apply good_nonempty; exact Gr).
  unfold add. rewrite Er.
  (* F1 *)
  assert (F1 : exists b, value_below (map kv rs) (lower r) = Ok b /\
     let hit := match b with Some b => if cut_le (lower r) (upper b) then Some b else None | None => None end in
     (hit = None /\ (forall q, In q rs -> cltb (upper q) (lower r) = false -> cltb (lower q) (lower r) = false)) \/
     (exists e, hit = Some e /\ In e rs /\ cltb (lower e) (lower r) = true /\ cltb (upper e) (lower r) = false)).
  { destruct (value_below_spec rs (lower r) W) as [(l1 & e & l2 & E & H1 & H2 & H3)|[H1 H2]].
    - exists (Some e). split; [assumption|]. cbv zeta. rewrite cut_le_spec.
      assert (He : In e rs) by (subst; apply in_or_app; simpl; auto).
      destruct (cltb (upper e) (lower r)) eqn:Q; simpl.
      + left. split; [reflexivity|]. intros q Hq Hu. subst rs.
        destruct (wf_mid _ _ _ q W Hq) as [[_ Hb]|[->|[Hq2 _]]]; [|congruence|auto].
        unfold before in Hb. pose proof (good_lt e (wf_good _ _ W He)). cord.
      + right. exists e. auto.
    - exists None. split; [assumption|]. left. split; [reflexivity|]. auto. }
  destruct F1 as (b & -> & F1). cbn [bind]. cbv zeta in F1.
  set (hit := match b with Some b => _ | None => _ end) in *. clearbody hit. clear b.
  set (lb := match hit with Some b => lower b | None => lower r end).
  assert (LB : (lb = lower r /\ hit = None /\
                (forall q, In q rs -> cltb (upper q) (lower r) = false -> cltb (lower q) (lower r) = false)) \/
               (exists e, hit = Some e /\ In e rs /\ lb = lower e /\ is_connected r e = true /\
                cltb (lower e) (lower r) = true /\ cltb (upper e) (lower r) = false)).
  { destruct F1 as [[-> H]|(e & -> & He & H1 & H2)]; [left; auto|right].
    exists e. repeat split; auto. cord. }
  (* F2 *)
  assert (F2 : exists b, value_at_or_below (map kv rs) (upper r) = Ok b /\
     let ub := match b with Some b => if cut_lt (upper r) (upper b) then upper b else upper r | None => upper r end in
     (ub = upper r /\ (forall q, In q rs -> cltb (upper r) (lower q) = false -> cltb (upper r) (upper q) = false)) \/
     (exists e, In e rs /\ ub = upper e /\ cltb (upper r) (lower e) = false /\ cltb (upper r) (upper e) = true)).
  { destruct (value_at_or_below_spec rs (upper r) W) as [(l1 & e & l2 & E & H1 & H2 & H3)|[H1 H2]].
    - exists (Some e). split; [assumption|]. cbv zeta.
      change (cut_lt (upper r) (upper e)) with (cltb (upper r) (upper e)).
      assert (He : In e rs) by (subst; apply in_or_app; simpl; auto).
      destruct (cltb (upper r) (upper e)) eqn:Q; simpl.
      + right. exists e. auto.
      + left. split; [reflexivity|]. intros q Hq Hu. subst rs.
        destruct (wf_mid _ _ _ q W Hq) as [[_ Hb]|[->|[Hq2 _]]]; [|assumption|].
        * unfold before in Hb. pose proof (good_lt e (wf_good _ _ W He)). cord.
        * rewrite (H3 q Hq2) in Hu. discriminate.
    - exists None. split; [assumption|]. left. split; [reflexivity|].
      intros q Hq Hu. rewrite (H2 q Hq) in Hu. discriminate. }
  destruct (match hit with Some b => cut_lt (upper r) (upper b) | None => false end) eqn:Hcont.
  - (* already contained *)
    destruct LB as [(_ & -> & _)|(e & -> & He & _ & Hc & L1 & L2)]; [discriminate|].
    change (cut_lt (upper r) (upper e)) with (cltb (upper r) (upper e)) in Hcont.
    exists e. destruct (wf_good _ _ W He) as [Ve Le].
    assert (Hu : forall q, In q rs -> is_connected r q = true -> q = e).
    { intros q Hq C. destruct (wf_cases _ q e W Hq He) as [H|[H|H]]; [assumption| |];
        unfold before in H; exfalso; destruct (wf_good _ _ W Hq); cord. }
    assert (Enc : encloses e r = true) by cord.
    split; [|split; [assumption|split; [|split; [|split; [assumption|]]]]].
    + apply hull_unique; auto.
      * right. eauto.
      * right. eauto.
      * intros q Hq C. rewrite (Hu q Hq C). apply encloses_refl.
    + right. eauto.
    + right. eauto.
    + f_equal. f_equal. apply in_split in He. destruct He as (l1 & l2 & ->).
      assert (X1 : forall q, In q l1 -> before q e).
      { intros q Hq. destruct W as [_ S]. apply ss_app in S. destruct S as (_ & _ & S). apply S; simpl; auto. }
      assert (X2 : forall q, In q l2 -> before e q).
      { intros q Hq. destruct W as [_ S]. apply ss_app in S. destruct S as (_ & S & _).
        inversion S as [|? ? _ HF]; subst. rewrite Forall_forall in HF. auto. }
      rewrite !filter_app. cbn [filter].
      assert (Y0 : lbelow r e = false /\ labove r e = false) by (unfold lbelow, labove; split; cord).
      destruct Y0 as [-> ->].
      rewrite (filter_all (lbelow r) l1), (filter_nil (lbelow r) l2),
              (filter_nil (labove r) l1), (filter_all (labove r) l2).
      * now rewrite app_nil_r.
      * intros q Hq. specialize (X2 q Hq). unfold before, labove in *. cord.
      * intros q Hq. specialize (X1 q Hq). unfold before, labove in *.
        assert (good q) as [_ G] by (apply (wf_good _ _ W); apply in_or_app; auto). cord.
      * intros q Hq. specialize (X2 q Hq). unfold before, lbelow in *.
        assert (good q) as [_ G] by (apply (wf_good _ _ W); apply in_or_app; simpl; auto). cord.
      * intros q Hq. specialize (X1 q Hq). unfold before, lbelow in *. cord.
  - destruct F2 as (b & -> & F2). cbn [bind]. cbv zeta in F2.
    set (ub := match b with Some b => _ | None => _ end) in *. clearbody ub. clear b.
    set (h := MkRange lb ub).
    (* key facts about every member *)
    assert (B1 : cltb (lower r) lb = false /\ cltb ub (upper r) = false).
    { split.
      - destruct LB as [(-> & _)|(e & _ & _ & -> & _ & H1 & _)]; [apply cltb_irrefl|cord].
      - destruct F2 as [(-> & _)|(e & _ & -> & _ & H2)]; [apply cltb_irrefl|cord]. }
    assert (K1 : forall q, In q rs -> cltb (lower q) lb = lbelow r q).
    { intros q Hq. pose proof (good_lt q (wf_good _ _ W Hq)) as Gq. unfold lbelow.
      destruct LB as [(-> & _ & H)|(e & _ & He & -> & _ & H1 & H2)].
      - specialize (H q Hq). destruct (cltb (upper q) (lower r)) eqn:E; [cord|auto].
      - pose proof (good_lt e (wf_good _ _ W He)) as Ge.
        destruct (wf_cases _ q e W Hq He) as [->|[H|H]]; unfold before in *; [cord|cord|cord]. }
    assert (K2 : forall q, In q rs -> negb (cltb (lower q) ub) = labove r q).
    { intros q Hq. pose proof (good_lt q (wf_good _ _ W Hq)) as Gq. unfold labove.
      destruct F2 as [(-> & H)|(e & He & -> & H1 & H2)].
      - specialize (H q Hq). destruct (cltb (upper r) (lower q)) eqn:E; [cord|]. specialize (H eq_refl). cord.
      - pose proof (good_lt e (wf_good _ _ W He)) as Ge.
        destruct (wf_cases _ q e W Hq He) as [->|[H|H]]; unfold before in *; [cord|cord|cord]. }
    assert (Vh : valid h).
    { apply valid_spec. apply valid_spec in Vr. unfold h; cbn [lower upper].
      repeat split; [cord| |].
      - destruct LB as [(-> & _)|(e & _ & He & -> & _)]; [cord|].
        destruct (wf_good _ _ W He) as [Ve _]. apply valid_spec in Ve. tauto.
      - destruct F2 as [(-> & _)|(e & He & -> & _)]; [tauto|].
        destruct (wf_good _ _ W He) as [Ve _]. apply valid_spec in Ve. tauto. }
    assert (HL : lower h = lower r \/ exists e, In e rs /\ is_connected r e = true /\ lower h = lower e).
    { unfold h; cbn [lower]. destruct LB as [(-> & _)|(e & _ & He & -> & C & _)]; [auto|right; eauto]. }
    assert (HU : upper h = upper r \/ exists e, In e rs /\ is_connected r e = true /\ upper h = upper e).
    { unfold h; cbn [upper]. destruct F2 as [(-> & _)|(e & He & -> & H1 & H2)]; [auto|right].
      exists e. repeat split; auto. cord. }
    assert (Hr : encloses h r = true) by (unfold h; cut_norm; cbn [lower upper]; cord).
    exists h. split; [|split; [exact Vh|split; [exact HL|split; [exact HU|split; [exact Hr|]]]]].
    + apply hull_unique; auto. intros q Hq C. specialize (K1 q Hq). specialize (K2 q Hq).
      pose proof (good_lt q (wf_good _ _ W Hq)) as Gq. unfold lbelow, labove in *.
      assert (cltb ub (upper q) = false).
      { destruct F2 as [(-> & H)|(e & He & -> & H1 & H2)].
        - apply H; auto. cord.
        - pose proof (good_lt e (wf_good _ _ W He)) as Ge.
          destruct (wf_cases _ q e W Hq He) as [->|[H|H]]; unfold before in *; cord. }
      unfold h; cut_norm; cbn [lower upper]. cord.
    + unfold clear_keys, sd_irange. rewrite keys_kv, (clear_kv rs _ W). cbn [bind].
      replace (mk_range lb ub) with (@Ok (range T) h) by (symmetry; exact Vh). cbn [bind].
      unfold replace_range.
      assert (Eh : is_empty h = false) by (unfold h; cut_norm; cbn [lower upper]; cord).
      rewrite Eh. f_equal.
      replace (filter (fun q => negb (cut_le lb (lower q) && cut_lt (lower q) ub)) rs)
        with (filter (lbelow r) rs ++ filter (labove r) rs).
      * apply sd_set_kv.
        -- intros q Hq. apply filter_In in Hq. destruct Hq as [Hq1 Hq2].
           unfold h; cbn [lower]. now rewrite K1.
        -- intros q Hq. apply filter_In in Hq. destruct Hq as [Hq1 Hq2].
           rewrite <- K2 in Hq2 by assumption. unfold h; cbn [lower]. cord.
      * rewrite <- filter_or_split.
        -- apply filter_ext_in. intros q Hq. rewrite cut_le_spec.
           change (cut_lt (lower q) ub) with (cltb (lower q) ub).
           rewrite <- K1, <- K2 by assumption.
           destruct (cltb (lower q) lb), (cltb (lower q) ub); reflexivity.
        -- apply W.
        -- intros x y Hx Hy Hb. unfold before, lbelow, labove in *.
           pose proof (good_lt x (wf_good _ _ W Hx)). pose proof (good_lt y (wf_good _ _ W Hy)).
           intros. cord.
        -- intros x Hx. unfold lbelow, labove. pose proof (good_lt x (wf_good _ _ W Hx)).
           intros. cord.
Qed.
End Proofs.
