(** * Proofs about RangeSet: histories and queries *)
From Coq Require Import Sorted.
From Verif Require Import Prelude Order Range RangeFacts RangeProofs SortedDict RangeSet RangeSetProofs RangeSetOps.

Section Proofs.
Context {T : Type} {O : TotalOrder T}.
Notation rng := (range T).

(** ** Least range sets *)
(** some member encloses [q] *)
Definition covers (rs : list rng) (q : rng) : Prop := exists m, In m rs /\ encloses m q = true.

Lemma before_asym a b : good a -> good b -> before a b -> before b a -> False.
Proof. intros [_ A] [_ B]. unfold before. intros. cord. Qed.
Lemma before_irrefl a : good a -> before a a -> False.
Proof. intros A H. exact (before_asym a a A A H H). Qed.
Lemma before_disconnected a b : good a -> good b -> before a b -> is_connected a b = false /\ is_connected b a = false.
Proof. intros [_ A] [_ B]. unfold before. intros. split; cord. Qed.
Lemma wf_tail a l : WF (a :: l) -> good a /\ WF l /\ forall b, In b l -> before a b.
Proof.
  intros [F S]. inversion F as [|? ? G F']; subst. inversion S as [|? ? S' HF]; subst.
  rewrite Forall_forall in HF. split; [assumption|]. split; [now split|assumption].
Qed.
Lemma wf_unique l1 l2 : WF l1 -> WF l2 -> (forall x, In x l1 <-> In x l2) -> l1 = l2.
Proof.
  revert l2. induction l1 as [|x l1 IH]; intros [|y l2] W1 W2 H.
  - reflexivity.
  - exfalso. apply (H y). simpl; auto.
  - exfalso. apply (H x). simpl; auto.
  - destruct (wf_tail _ _ W1) as (Gx & W1' & B1). destruct (wf_tail _ _ W2) as (Gy & W2' & B2).
    assert (E : x = y).
    { destruct (proj1 (H x) (or_introl eq_refl)) as [E|Hx]; [auto|].
      destruct (proj2 (H y) (or_introl eq_refl)) as [E|Hy]; [auto|].
      exfalso. eapply (before_asym x y); auto. }
    subst y. f_equal. apply IH; auto. intros z. split; intros Hz.
    + destruct (proj1 (H z) (or_intror Hz)) as [<-|Hz']; [|assumption].
      exfalso. apply (before_irrefl x Gx). auto.
    + destruct (proj2 (H z) (or_intror Hz)) as [<-|Hz']; [|assumption].
      exfalso. apply (before_irrefl x Gx). auto.
Qed.
(** members of a well-formed list that are connected are equal *)
Lemma wf_connected_eq rs a b : WF rs -> In a rs -> In b rs -> is_connected a b = true -> a = b.
Proof.
  intros W Ha Hb C. pose proof (wf_good _ _ W Ha) as Ga. pose proof (wf_good _ _ W Hb) as Gb.
  destruct (wf_cases _ a b W Ha Hb) as [E|[H|H]]; [assumption| |];
    apply before_disconnected in H; auto; destruct H; congruence.
Qed.
Lemma enclosed_connected a b q : valid q -> encloses a q = true -> encloses b q = true -> is_connected a b = true.
Proof. intros V. apply valid_spec in V. intros. cord. Qed.
Lemma covers_antisym rs1 rs2 : WF rs1 -> WF rs2 ->
  (forall m, In m rs1 -> covers rs2 m) -> (forall m, In m rs2 -> covers rs1 m) -> rs1 = rs2.
Proof.
  assert (Half : forall rs1 rs2, WF rs1 -> WF rs2 ->
    (forall m, In m rs1 -> covers rs2 m) -> (forall m, In m rs2 -> covers rs1 m) ->
    forall m, In m rs1 -> In m rs2).
  { clear rs1 rs2. intros rs1 rs2 W1 W2 H1 H2 m Hm. destruct (H1 m Hm) as (m' & Hm' & E1).
    destruct (H2 m' Hm') as (m'' & Hm'' & E2).
    assert (E : m = m'').
    { apply (wf_connected_eq rs1); auto. destruct (wf_good _ _ W1 Hm) as [V _].
      apply (enclosed_connected m m'' m V); [apply encloses_refl|eapply encloses_trans; eassumption]. }
    subst m''. assert (E : m = m') by (now apply encloses_antisym). now subst. }
  intros W1 W2 H1 H2. apply wf_unique; auto. intros x. split; apply Half; auto.
Qed.

(** [rs] is the least well-formed family covering every non-empty range of [live] *)
Definition Least (live rs : list rng) : Prop :=
  WF rs /\ (forall r, In r live -> is_empty r = false -> covers rs r) /\
  (forall rs', WF rs' -> (forall r, In r live -> is_empty r = false -> covers rs' r) ->
     forall m, In m rs -> covers rs' m).
Lemma least_unique l1 l2 rs1 rs2 : Least l1 rs1 -> Least l2 rs2 ->
  (forall r, is_empty r = false -> (In r l1 <-> In r l2)) -> rs1 = rs2.
Proof.
  intros (W1 & C1 & M1) (W2 & C2 & M2) H. apply covers_antisym; auto.
  - apply M1; auto. intros r Hr E. apply C2; auto. now apply H.
  - apply M2; auto. intros r Hr E. apply C1; auto. now apply H.
Qed.
Lemma least_nil : Least [] [].
Proof. repeat split; simpl; try contradiction; constructor. Qed.

Lemma add_wf rs r h : WF rs -> good r ->
  create_spanning (r :: filter (is_connected r) rs) = Ok h -> valid h ->
  (lower h = lower r \/ exists e, In e rs /\ is_connected r e = true /\ lower h = lower e) ->
  (upper h = upper r \/ exists e, In e rs /\ is_connected r e = true /\ upper h = upper e) ->
  encloses h r = true ->
  WF (filter (lbelow r) rs ++ h :: filter (labove r) rs).
Proof.
  intros W Gr Hc Vh HL HU Hr.
  assert (Gh : good h) by (destruct Gr as [_ L]; split; [assumption|]; cord).
  destruct (wf_filter (lbelow r) rs W) as [F1 S1]. destruct (wf_filter (labove r) rs W) as [F2 S2].
  assert (B1 : forall q, In q (filter (lbelow r) rs) -> before q h).
  { intros q Hq. apply filter_In in Hq. destruct Hq as [Hq B]. unfold lbelow, before in *.
    destruct HL as [->|(e & He & C & ->)]; [assumption|].
    pose proof (wf_good _ _ W Hq) as [_ Gq]. pose proof (wf_good _ _ W He) as [_ Ge]. destruct Gr as [_ L].
    destruct (wf_cases _ q e W Hq He) as [->|[H|H]]; unfold before in *; cord. }
  assert (B2 : forall q, In q (filter (labove r) rs) -> before h q).
  { intros q Hq. apply filter_In in Hq. destruct Hq as [Hq B]. unfold labove, before in *.
    destruct HU as [->|(e & He & C & ->)]; [assumption|].
    pose proof (wf_good _ _ W Hq) as [_ Gq]. pose proof (wf_good _ _ W He) as [_ Ge]. destruct Gr as [_ L].
    destruct (wf_cases _ q e W Hq He) as [->|[H|H]]; unfold before in *; cord. }
  split.
  - apply Forall_app. split; [assumption|]. constructor; assumption.
  - apply ss_app. split; [assumption|]. split.
    + constructor; [assumption|]. now apply Forall_forall.
    + intros a b Ha [<-|Hb]; [auto|].
      specialize (B1 a Ha). specialize (B2 b Hb). destruct Gh as [_ Lh]. unfold before in *. cord.
Qed.

(** The exact effect of [add] on the list of ranges. *)
Definition add_result (rs : list rng) (r : rng) (rs' : list rng) : Prop :=
  if is_empty r then rs' = rs
  else exists h, create_spanning (r :: filter (is_connected r) rs) = Ok h /\
    rs' = filter (lbelow r) rs ++ h :: filter (labove r) rs.

Lemma add_spec rs r : WF rs -> valid r ->
  exists rs', add (map kv rs) r = Ok (map kv rs') /\ WF rs' /\ add_result rs r rs'.
Proof.
  intros W V. unfold add_result. destruct (is_empty r) eqn:E.
  - exists rs. unfold add. rewrite E. auto.
  - assert (G : good r) by (apply good_nonempty; auto).
    destruct (add_core rs r W G) as (h & H1 & H2 & H3 & H4 & H5 & H6).
    eexists. split; [exact H6|]. split; [now apply add_wf|]. exists h. auto.
Qed.

Lemma add_result_in rs r rs' h q : WF rs -> good r ->
  create_spanning (r :: filter (is_connected r) rs) = Ok h ->
  rs' = filter (lbelow r) rs ++ h :: filter (labove r) rs ->
  In q rs' <-> q = h \/ (In q rs /\ is_connected r q = false).
Proof.
  intros W [_ L] Hc ->. rewrite in_app_iff. simpl. rewrite !filter_In. split.
  - intros [[H B]|[<-|[H B]]]; auto; right; (split; [assumption|]); unfold lbelow, labove in *;
      pose proof (wf_good _ _ W H) as [_ G]; cord.
  - intros [->|[H C]]; auto.
    destruct (lbelow r q) eqn:B; [auto|]. right; right. split; [assumption|].
    unfold lbelow, labove in *. cord.
Qed.

Lemma hull_enclosed_by rs r h m : WF rs -> good r ->
  create_spanning (r :: filter (is_connected r) rs) = Ok h ->
  encloses m r = true -> (forall q, In q rs -> is_connected r q = true -> encloses m q = true) ->
  encloses m h = true.
Proof.
  intros W [V L] E Hr Hq.
  destruct (create_spanning_spec (r :: filter (is_connected r) rs)) as (c & E' & _ & _ & C2).
  - discriminate.
  - constructor; [assumption|]. apply Forall_forall. intros q H. apply filter_In in H.
    destruct (wf_good _ _ W (proj1 H)); assumption.
  - rewrite E in E'. inversion E'; subst c. apply C2. intros q [<-|H]; [assumption|].
    apply filter_In in H. destruct H. auto.
Qed.
Lemma hull_encloses rs r h : WF rs -> good r ->
  create_spanning (r :: filter (is_connected r) rs) = Ok h ->
  valid h /\ encloses h r = true /\ (forall q, In q rs -> is_connected r q = true -> encloses h q = true).
Proof.
  intros W [V L] E.
  destruct (create_spanning_spec (r :: filter (is_connected r) rs)) as (c & E' & Vc & C1 & _).
  - discriminate.
  - constructor; [assumption|]. apply Forall_forall. intros q H. apply filter_In in H.
    destruct (wf_good _ _ W (proj1 H)); assumption.
  - rewrite E in E'. inversion E'; subst c. split; [assumption|].
    split; [apply C1; simpl; auto|]. intros q Hq C. apply C1. right. apply filter_In. auto.
Qed.

Lemma add_least live rs r rs' : Least live rs -> valid r -> WF rs' -> add_result rs r rs' ->
  Least (r :: live) rs'.
Proof.
  intros (W & C & M) V W' A. unfold add_result in A. destruct (is_empty r) eqn:E.
  { subst rs'. split; [assumption|]. split.
    - intros q [<-|Hq] Eq; [congruence|auto].
    - intros rs' W2 C2. apply M; auto. intros q Hq Eq. apply C2; simpl; auto. }
  assert (G : good r) by (apply good_nonempty; auto).
  destruct A as (h & Hh & ->). destruct (hull_encloses rs r h W G Hh) as (Vh & H1 & H2).
  pose proof (fun q => add_result_in rs r _ h q W G Hh eq_refl) as IN.
  split; [assumption|]. split.
  - intros q [<-|Hq] Eq.
    + exists h. split; [apply IN; auto|assumption].
    + destruct (C q Hq Eq) as (m & Hm & Em). destruct (is_connected r m) eqn:Cm.
      * exists h. split; [apply IN; auto|]. eapply encloses_trans; [apply H2|]; eauto.
      * exists m. split; [apply IN; auto|assumption].
  - intros rs2 W2 C2 m Hm. apply IN in Hm. destruct Hm as [->|[Hm Hc]].
    + destruct (C2 r (or_introl eq_refl) E) as (m & Hm & Em). exists m. split; [assumption|].
      apply (hull_enclosed_by rs r h m W G Hh Em). intros q Hq Cq.
      assert (Cv : covers rs2 q) by (apply M; auto; intros; apply C2; simpl; auto).
      destruct Cv as (m' & Hm' & Em').
      assert (EE : m = m').
      { apply (wf_connected_eq rs2); auto. destruct G as [_ L].
        pose proof (wf_good _ _ W Hq) as [_ Lq]. cord. }
      now subst.
    + apply M; auto. intros q Hq Eq. apply C2; simpl; auto.
Qed.

Definition member (rs : list rng) (x : T) : Prop := exists m, In m rs /\ contains m x = true.
Lemma create_spanning_connected_members rs r h x : WF rs -> good r ->
  create_spanning (r :: filter (is_connected r) rs) = Ok h ->
  (lower h = lower r \/ exists e, In e rs /\ is_connected r e = true /\ lower h = lower e) ->
  (upper h = upper r \/ exists e, In e rs /\ is_connected r e = true /\ upper h = upper e) ->
  contains h x = true ->
  contains r x = true \/ exists q, In q rs /\ is_connected r q = true /\ contains q x = true.
Proof.
  intros W G E HL HU Hx. destruct (contains r x) eqn:R; [auto|right].
  apply contains_spec in Hx. destruct Hx as [X1 X2].
  assert (R' : cltb (BelowV x) (lower r) = true \/ cltb (BelowV x) (upper r) = false) by cord.
  destruct R' as [R1|R2].
  - destruct HL as [HL|(e & He & C & HL)]; [rewrite HL in X1; congruence|].
    exists e. repeat split; auto. rewrite HL in X1.
    destruct G as [_ L]. cord.
  - destruct HU as [HU|(e & He & C & HU)]; [rewrite HU in X2; congruence|].
    exists e. repeat split; auto. rewrite HU in X2.
    destruct G as [_ L]. cord.
Qed.
Lemma add_member rs r rs' x : WF rs -> valid r -> add (map kv rs) r = Ok (map kv rs') ->
  member rs' x <-> contains r x = true \/ member rs x.
Proof.
  intros W V A. destruct (is_empty r) eqn:E.
  - unfold add in A. rewrite E in A. inversion A as [A'].
    assert (rs = rs') by (rewrite <- (values_kv rs), A'; apply values_kv). subst.
    rewrite (empty_no_member r x E). intuition congruence.
  - assert (G : good r) by (apply good_nonempty; auto).
    destruct (add_core rs r W G) as (h & Hh & Vh & HL & HU & Hr & A2).
    rewrite A in A2. inversion A2 as [A'].
    assert (ER : rs' = filter (lbelow r) rs ++ h :: filter (labove r) rs)
      by (rewrite <- (values_kv rs'), A'; apply values_kv).
    pose proof (fun q => add_result_in rs r _ h q W G Hh ER) as IN.
    destruct (hull_encloses rs r h W G Hh) as (_ & H1 & H2).
    unfold member. split.
    + intros (m & Hm & Cm). apply IN in Hm. destruct Hm as [->|[Hm _]]; [|eauto].
      destruct (create_spanning_connected_members rs r h x W G Hh HL HU Cm) as [?|(q & Hq & _ & Cq)]; eauto.
    + intros [Hx|(m & Hm & Cm)].
      * exists h. split; [apply IN; auto|]. eapply encloses_members; eauto.
      * destruct (is_connected r m) eqn:C.
        -- exists h. split; [apply IN; auto|]. eapply encloses_members; [apply H2|]; eauto.
        -- exists m. split; [apply IN; auto|assumption].
Qed.

(** ** Histories (definitions in RangeSetOps.v) *)
Definition ok_ops (ops : list (op T)) : Prop := Forall (fun o => Forall valid (op_ranges o)) ops.

Lemma clear_all rs : WF rs -> clear (map kv rs) = Ok [].
Proof.
  intros W. unfold clear, clear_keys, sd_irange. rewrite keys_kv, (clear_kv rs _ W).
  rewrite filter_nil; [reflexivity|]. intros q Hq. rewrite cut_le_spec, below_all_least.
  change (cut_lt (lower q) AboveAll) with (cltb (lower q) AboveAll).
  destruct (wf_good _ _ W Hq) as [V _]. apply valid_spec in V. now rewrite (proj1 (proj2 V)).
Qed.

Definition State (live : list rng) (d : rset T) : Prop :=
  exists rs, d = map kv rs /\ Least live rs /\
    forall x, member rs x <-> exists r, In r live /\ contains r x = true.

Lemma least_ext l1 l2 rs : (forall r, In r l1 <-> In r l2) -> Least l1 rs -> Least l2 rs.
Proof.
  intros H (W & C & M). split; [assumption|]. split.
  - intros r Hr. apply C. now apply H.
  - intros rs' W' C'. apply M; auto. intros r Hr. apply C'. now apply H.
Qed.
Lemma state_add l d r : State l d -> valid r -> exists d', add d r = Ok d' /\ State (l ++ [r]) d'.
Proof.
  intros (rs & -> & L & M) V. pose proof L as (W & _).
  destruct (add_spec rs r W V) as (rs' & A & W' & R).
  exists (map kv rs'). split; [exact A|]. exists rs'. split; [reflexivity|]. split.
  - apply least_ext with (r :: l); [intros q; rewrite in_app_iff; simpl; tauto|].
    now apply add_least with rs.
  - intros x. rewrite (add_member rs r rs' x W V A), M. split.
    + intros [H|(q & Hq & Cq)]; [exists r|exists q]; rewrite in_app_iff; simpl; auto.
    + intros (q & Hq & Cq). rewrite in_app_iff in Hq. destruct Hq as [Hq|[<-|[]]]; eauto.
Qed.
Lemma state_add_all l d rs : State l d -> Forall valid rs -> exists d', add_all d rs = Ok d' /\ State (l ++ rs) d'.
Proof.
  revert l d. induction rs as [|r rs IH]; intros l d S V; unfold add_all; simpl.
  - exists d. rewrite app_nil_r. auto.
  - inversion V as [|? ? Vr Vs]; subst. destruct (state_add l d r S Vr) as (d' & -> & S'). simpl.
    destruct (IH _ _ S' Vs) as (d2 & H2 & S2). exists d2. rewrite <- app_assoc in S2. auto.
Qed.
Lemma state_nil : State [] [].
Proof.
  exists []. split; [reflexivity|]. split; [apply least_nil|].
  intros x. unfold member. split; intros (m & [] & _).
Qed.
Lemma state_clear l d : State l d -> clear d = Ok [].
Proof. intros (rs & -> & (W & _) & _). now apply clear_all. Qed.

Lemma step_state l d o : State l d -> Forall valid (op_ranges o) ->
  State (live [o] l) (fst (step d o)).
Proof.
  intros S V. destruct o as [r|rs| |r|rs]; simpl in *.
  - inversion V; subst. destruct (state_add l d r S) as (d' & -> & S'); auto.
  - destruct (state_add_all l d rs S V) as (d' & -> & S'). auto.
  - rewrite (state_clear l d S). apply state_nil.
  - rewrite app_nil_r. assumption.
  - rewrite app_nil_r. destruct rs; simpl; assumption.
Qed.
Lemma live_cons (o : op T) ops acc : live (o :: ops) acc = live ops (live [o] acc).
Proof. destruct o; reflexivity. Qed.
Lemma run_state_gen ops l d : State l d -> ok_ops ops ->
  State (live ops l) (fold_left (fun d o => fst (step d o)) ops d).
Proof.
  revert l d. induction ops as [|o ops IH]; intros l d S V; [exact S|].
  inversion V; subst. rewrite live_cons. cbn [fold_left]. apply IH; [|assumption].
  now apply step_state.
Qed.
Lemma run_state ops : ok_ops ops -> State (live ops []) (run ops).
Proof. intros V. apply run_state_gen; [apply state_nil|assumption]. Qed.
Lemma state_inv l d : State l d -> Inv d.
Proof. intros (rs & -> & (W & _) & _). exists rs. auto. Qed.
Lemma step_no_raise l d o : State l d -> Forall valid (op_ranges o) ->
  match o with
  | Remove _ | RemoveAll (_ :: _) => step d o = (d, Some NotImplementedError)
  | _ => snd (step d o) = None
  end.
Proof.
  intros S V. destruct o as [r|rs| |r|[|r rs]]; simpl in *.
  - inversion V; subst. destruct (state_add l d r S) as (d' & -> & _); auto.
  - destruct (state_add_all l d rs S V) as (d' & -> & _). auto.
  - now rewrite (state_clear l d S).
  - reflexivity.
  - reflexivity.
  - reflexivity.
Qed.

(** ** Queries on a well-formed set *)
Lemma find_unique (p : rng -> bool) rs e : WF rs -> In e rs -> p e = true ->
  (forall q, In q rs -> p q = true -> q = e) -> find p rs = Some e.
Proof.
  intros _ He Hp U. destruct (find p rs) as [q|] eqn:F.
  - apply find_some in F. destruct F. f_equal. now apply U.
  - pose proof (find_none _ _ F e He). congruence.
Qed.
Lemma find_none_iff (p : rng -> bool) rs : (forall q, In q rs -> p q = false) -> find p rs = None.
Proof.
  intros H. destruct (find p rs) eqn:F; [|reflexivity]. apply find_some in F.
  destruct F as [A B]. rewrite (H _ A) in B. discriminate.
Qed.
Lemma existsb_find {A} (p : A -> bool) l :
  existsb p l = match find p l with Some _ => true | None => false end.
Proof. induction l as [|a l IH]; simpl; [reflexivity|]. destruct (p a); auto. Qed.

Lemma contains_q rs x : WF rs -> range_containing (map kv rs) x = Ok (find (fun m => contains m x) rs).
Proof.
  intros W. unfold range_containing.
  destruct (value_at_or_below_spec rs (BelowV x) W) as [(l1 & e & l2 & E & -> & H2 & H3)|[-> H2]]; simpl.
  - assert (He : In e rs) by (subst; apply in_or_app; simpl; auto).
    assert (U : forall q, In q rs -> contains q x = true -> q = e).
    { intros q Hq C. subst rs. apply contains_spec in C. pose proof (good_lt e (wf_good _ _ W He)).
      destruct (wf_mid _ _ _ q W Hq) as [[_ Hb]|[->|[Hq2 _]]]; [|reflexivity|].
      - unfold before in Hb. exfalso. cord.
      - specialize (H3 q Hq2). destruct C. congruence. }
    destruct (contains e x) eqn:C.
    + now rewrite (find_unique _ rs e).
    + rewrite find_none_iff; [reflexivity|]. intros q Hq. destruct (contains q x) eqn:Cq; [|reflexivity].
      rewrite (U q Hq Cq) in Cq. congruence.
  - rewrite find_none_iff; [reflexivity|]. intros q Hq. specialize (H2 q Hq). cord.
Qed.
Lemma rs_contains_q rs x : WF rs -> rs_contains (map kv rs) x = Ok (existsb (fun m => contains m x) rs).
Proof.
  intros W. pose proof (contains_q rs x W) as H. unfold range_containing in H.
  unfold rs_contains. rewrite existsb_find.
  destruct (value_at_or_below (map kv rs) (BelowV x)) as [[e|]|]; simpl in *; try discriminate.
  - destruct (contains e x); inversion H; reflexivity.
  - inversion H. reflexivity.
Qed.
Lemma enclosing_q rs q : WF rs -> valid q ->
  range_enclosing_range (map kv rs) q = Ok (find (fun m => encloses m q) rs).
Proof.
  intros W V. unfold range_enclosing_range.
  destruct (value_at_or_below_spec rs (lower q) W) as [(l1 & e & l2 & E & -> & H2 & H3)|[-> H2]]; simpl.
  - assert (He : In e rs) by (subst; apply in_or_app; simpl; auto).
    assert (U : forall m, In m rs -> encloses m q = true -> m = e).
    { intros m Hq C. subst rs. pose proof (good_lt e (wf_good _ _ W He)). apply valid_spec in V.
      destruct (wf_mid _ _ _ m W Hq) as [[_ Hb]|[->|[Hq2 _]]]; [|reflexivity|].
      - unfold before in Hb. exfalso. cord.
      - specialize (H3 m Hq2). exfalso. cord. }
    destruct (encloses e q) eqn:C.
    + now rewrite (find_unique _ rs e).
    + rewrite find_none_iff; [reflexivity|]. intros m Hq. destruct (encloses m q) eqn:Cq; [|reflexivity].
      rewrite (U m Hq Cq) in Cq. congruence.
  - rewrite find_none_iff; [reflexivity|]. intros m Hq. specialize (H2 m Hq). cord.
Qed.
Lemma rs_encloses_q rs q : WF rs -> valid q ->
  rs_encloses (map kv rs) q = Ok (existsb (fun m => encloses m q) rs).
Proof.
  intros W V. pose proof (enclosing_q rs q W V) as H. unfold range_enclosing_range in H.
  unfold rs_encloses. rewrite existsb_find.
  destruct (value_at_or_below (map kv rs) (lower q)) as [[e|]|]; simpl in *; try discriminate.
  - destruct (encloses e q); inversion H; reflexivity.
  - inversion H. reflexivity.
Qed.
Lemma rs_encloses_all_q rs qs : WF rs -> Forall valid qs ->
  rs_encloses_all (map kv rs) qs = Ok (forallb (fun q => existsb (fun m => encloses m q) rs) qs).
Proof.
  intros W V. induction qs as [|q qs IH]; simpl; [reflexivity|].
  inversion V; subst. rewrite rs_encloses_q by assumption. simpl.
  destruct (existsb _ rs); simpl; auto.
Qed.

Lemma dedupe_id seen l : (forall a b, In a seen -> In b l -> a <> b) -> NoDup l -> dedupe seen l = l.
Proof.
  revert seen. induction l as [|r l IH]; intros seen H N; simpl; [reflexivity|].
  inversion N; subst.
  destruct (existsb (range_eq r) seen) eqn:E.
  - apply existsb_exists in E. destruct E as (s & Hs & Es). apply range_eq_iff in Es. subst.
    exfalso. apply (H s s); simpl; auto.
  - f_equal. apply IH; [|assumption]. intros a b [<-|Ha] Hb.
    + intros ->. contradiction.
    + apply H; simpl; auto.
Qed.
Lemma wf_nodup rs : WF rs -> NoDup rs.
Proof.
  induction rs as [|r rs IH]; intros W; constructor.
  - intros H. destruct (wf_tail _ _ W) as (G & _ & B). apply (before_irrefl r G). auto.
  - apply IH. now destruct (wf_tail _ _ W) as (_ & ? & _).
Qed.
Lemma immutableset_id rs : WF rs -> immutableset rs = rs.
Proof. intros W. apply dedupe_id; [contradiction|now apply wf_nodup]. Qed.

Lemma take_enclosed_filter q l : WF l -> (forall m, In m l -> cltb (lower m) (lower q) = false) ->
  take_enclosed q l = filter (encloses q) l.
Proof.
  induction l as [|r l IH]; intros W H; simpl; [reflexivity|].
  destruct (wf_tail _ _ W) as (G & W' & B).
  destruct (encloses q r) eqn:E.
  - f_equal. apply IH; auto. intros; apply H; simpl; auto.
  - symmetry. apply filter_nil. intros m Hm. specialize (B m Hm).
    pose proof (H m (or_intror Hm)). pose proof (H r (or_introl eq_refl)).
    destruct (wf_good _ _ W' Hm) as [_ Gm]. destruct G as [_ G]. unfold before in B. cord.
Qed.
Lemma enclosed_by_q rs q : WF rs -> ranges_enclosed_by (map kv rs) q = Ok (filter (encloses q) rs).
Proof.
  intros W. unfold ranges_enclosed_by.
  destruct (value_at_or_above_spec rs (lower q) W) as [(l1 & e & l2 & E & -> & H2 & H3)|[-> H2]]; simpl.
  - assert (I : sd_index (map kv rs) (lower e) = Ok (length l1)).
    { unfold sd_index. destruct (bisect_left_spec rs (lower e) W) as (m1 & m2 & E' & B & M1 & M2).
      rewrite B. assert (EQ : m1 = l1 /\ m2 = e :: l2).
      { assert (A1 : forall x, In x l1 -> cltb (lower x) (lower e) = true).
        { intros x Hx. specialize (H3 x Hx). clear E E' W B. cord. }
        assert (A2 : forall x, In x (e :: l2) -> cltb (lower x) (lower e) = false).
        { intros x [<-|Hx]; [apply cltb_irrefl|]. rewrite E in W.
          destruct (wf_app _ _ W) as [_ W2]. destruct (wf_tail _ _ W2) as ([_ G] & _ & B2).
          specialize (B2 x Hx). unfold before in B2. cord. }
        assert (EE : l1 ++ e :: l2 = m1 ++ m2) by congruence. clear -A1 A2 M1 M2 EE.
        revert m1 M1 EE. induction l1 as [|a l1 IH]; intros [|b m1] M1 EE; simpl in *.
        - auto.
        - inversion EE; subst. pose proof (M1 b (or_introl eq_refl)). rewrite cltb_irrefl in H. discriminate.
        - subst m2. pose proof (M2 a (or_introl eq_refl)). rewrite (A1 a (or_introl eq_refl)) in H. discriminate.
        - inversion EE; subst. destruct (IH (fun x Hx => A1 x (or_intror Hx)) m1 (fun x Hx => M1 x (or_intror Hx)) H1) as [-> ->].
          auto. }
      destruct EQ as [-> ->]. subst rs. rewrite nth_error_keys_mid.
      now rewrite (proj2 (cut_eq_spec _ _) eq_refl). }
    rewrite I. simpl. f_equal. rewrite values_kv. subst rs.
    replace (skipn (length l1) (l1 ++ e :: l2)) with (e :: l2)
      by (rewrite skipn_app, Nat.sub_diag, skipn_all; reflexivity).
    destruct (wf_app _ _ W) as [_ W2].
    rewrite take_enclosed_filter; [|assumption|].
    + rewrite immutableset_id by (now apply wf_filter).
      rewrite filter_app. rewrite (filter_nil _ l1); [reflexivity|].
      intros x Hx. specialize (H3 x Hx). cord.
    + intros m [<-|Hm]; [assumption|]. destruct (wf_tail _ _ W2) as ([_ G] & _ & B2).
      specialize (B2 m Hm). unfold before in B2. cord.
  - f_equal. symmetry. apply filter_nil. intros x Hx. specialize (H2 x Hx). cord.
Qed.

(** intersects *)
Definition meets (m q : rng) : bool :=
  cltb (lower m) (upper q) && cltb (lower q) (upper m) &&
  cltb (lower q) (upper q) && cltb (lower m) (upper m).
Lemma connected_nonempty_spec m q : valid m -> valid q -> connected_nonempty m q = Ok (meets m q).
Proof.
  intros Vm Vq. unfold connected_nonempty. rewrite (intersection_eq m q Vm Vq).
  apply valid_spec in Vm, Vq.
  destruct (is_connected m q) eqn:C; simpl; f_equal; unfold meets.
  - unfold cmax, cmin. cut_norm. cbn [lower upper].
    destruct (cltb (lower m) (lower q)) eqn:E1, (cltb (upper q) (upper m)) eqn:E2; cord.
  - cord.
Qed.
Lemma meets_spec m q : valid m -> valid q ->
  (meets m q = true <-> exists c, valid c /\ is_empty c = false /\ encloses m c = true /\ encloses q c = true).
Proof.
  intros Vm Vq. apply valid_spec in Vm, Vq. unfold meets. split.
  - intros H. exists (MkRange (cmax (lower m) (lower q)) (cmin (upper m) (upper q))).
    rewrite valid_spec. unfold cmax, cmin. cut_norm. cbn [lower upper].
    destruct (cltb (lower m) (lower q)) eqn:E1, (cltb (upper q) (upper m)) eqn:E2; repeat split; cord.
  - intros (c & Vc & E & H1 & H2). apply valid_spec in Vc. cord.
Qed.
Lemma rs_intersects_q rs q : WF rs -> valid q ->
  rs_intersects (map kv rs) q = Ok (existsb (fun m => meets m q) rs).
Proof.
  intros W V. unfold rs_intersects.
  assert (Vm : forall m, In m rs -> valid m) by (intros m Hm; apply (wf_good _ _ W Hm)).
  assert (NO : forall P : bool, (P = true -> existsb (fun m => meets m q) rs = true) ->
     (existsb (fun m => meets m q) rs = true -> P = true) -> Ok P = Ok (existsb (fun m => meets m q) rs)).
  { intros P H1 H2. f_equal. destruct P, (existsb (fun m => meets m q) rs); auto. symmetry; auto. }
  destruct (value_at_or_above_spec rs (lower q) W) as [(l1 & e & l2 & E & -> & H2 & H3)|[-> H2]]; cbn [bind].
  - assert (He : In e rs) by (subst; apply in_or_app; simpl; auto).
    rewrite connected_nonempty_spec by auto. cbn [bind].
    destruct (meets e q) eqn:M.
    { apply NO; auto. intros _. apply existsb_exists. eauto. }
    assert (FAR : forall m, In m (e :: l2) -> meets m q = false).
    { intros m [<-|Hm]; [assumption|]. subst rs. destruct (wf_app _ _ W) as [_ W2].
      destruct (wf_tail _ _ W2) as ([_ G] & _ & B2).
      specialize (B2 m Hm). unfold before, meets in *. cord. }
    destruct (value_below_spec rs (lower q) W) as [(k1 & f & k2 & E' & -> & G2 & G3)|[-> G2]]; cbn [bind].
    + assert (Hf : In f rs) by (rewrite E'; apply in_or_app; simpl; auto).
      rewrite connected_nonempty_spec by auto. apply NO.
      * intros Hm. apply existsb_exists. eauto.
      * intros Hm. apply existsb_exists in Hm. destruct Hm as (m & Hm & Mm).
        assert (X : In m (k1 ++ f :: k2)) by (rewrite <- E'; exact Hm).
        assert (WW : WF (k1 ++ f :: k2)) by (rewrite <- E'; exact W).
        destruct (wf_mid _ _ _ m WW X) as [[_ Hb]|[->|[Hq2 Hb]]]; [|assumption|].
        -- exfalso. pose proof (good_lt f (wf_good _ _ W Hf)). unfold before, meets in *. cord.
        -- exfalso. specialize (G3 m Hq2).
           assert (Y : In m (e :: l2)).
           { rewrite E in Hm. apply in_app_or in Hm. destruct Hm as [Hm|Hm]; [|assumption].
             specialize (H3 m Hm). congruence. }
           rewrite (FAR m Y) in Mm. discriminate.
    + apply NO; [discriminate|]. intros Hm. apply existsb_exists in Hm. destruct Hm as (m & Hm & Mm).
      specialize (G2 m Hm). assert (Y : In m (e :: l2)).
      { rewrite E in Hm. apply in_app_or in Hm. destruct Hm as [Hm|Hm]; [|assumption].
        specialize (H3 m Hm). congruence. }
      rewrite (FAR m Y) in Mm. discriminate.
  - destruct (value_below_spec rs (lower q) W) as [(k1 & f & k2 & E' & -> & G2 & G3)|[-> G2]]; cbn [bind].
    + assert (Hf : In f rs) by (rewrite E'; apply in_or_app; simpl; auto).
      rewrite connected_nonempty_spec by auto. apply NO.
      * intros Hm. apply existsb_exists. eauto.
      * intros Hm. apply existsb_exists in Hm. destruct Hm as (m & Hm & Mm). subst rs.
        destruct (wf_mid _ _ _ m W Hm) as [[_ Hb]|[->|[Hq2 Hb]]]; [|assumption|].
        -- exfalso. pose proof (good_lt f (wf_good _ _ W Hf)). unfold before, meets in *. cord.
        -- specialize (G3 m Hq2). specialize (H2 m Hm). congruence.
    + apply NO; [discriminate|]. intros Hm. apply existsb_exists in Hm. destruct Hm as (m & Hm & Mm).
      specialize (G2 m Hm). specialize (H2 m Hm). congruence.
Qed.

(** overlapping *)
Lemma mapM_at_index l1 l2 l3 : WF (l1 ++ l2 ++ l3) ->
  mapM (at_index (map kv (l1 ++ l2 ++ l3))) (seq (length l1) (length l2)) = Ok l2.
Proof.
  revert l1. induction l2 as [|e l2 IH]; intros l1 W; simpl; [reflexivity|].
  simpl in W. change (l1 ++ e :: l2 ++ l3) with (l1 ++ e :: (l2 ++ l3)).
  rewrite at_index_kv by assumption. simpl.
  specialize (IH (l1 ++ [e])). rewrite <- app_assoc in IH. simpl in IH. rewrite app_length in IH. simpl in IH.
  rewrite Nat.add_1_r in IH. rewrite IH by assumption. reflexivity.
Qed.
Lemma app_eq_split {A} (a b c d : list A) : a ++ b = c ++ d -> length a <= length c ->
  exists m, c = a ++ m /\ b = m ++ d.
Proof.
  revert c. induction a as [|x a IH]; intros c E L; simpl in *.
  - exists c. auto.
  - destruct c as [|y c]; simpl in *; [lia|]. inversion E; subst.
    destruct (IH c H1) as (m & -> & ->); [lia|]. exists m. auto.
Qed.
Lemma overlapping_q rs q : WF rs -> valid q ->
  ranges_overlapping (map kv rs) q = Ok (filter (is_connected q) rs).
Proof.
  intros W V. unfold ranges_overlapping. unfold rs_is_empty. rewrite !map_length.
  pose proof V as V0. apply valid_spec in V.
  assert (Vm : forall m, In m rs -> valid m) by (intros m Hm; apply (wf_good _ _ W Hm)).
  destruct (length rs =? 0) eqn:N.
  { apply Nat.eqb_eq in N. destruct rs; [reflexivity|discriminate]. }
  destruct (bisect_right_spec rs (lower q) W) as (a1 & a2 & Ea & -> & A1 & A2).
  destruct (length a1 =? length rs) eqn:N1.
  - apply Nat.eqb_eq in N1. rewrite Ea, app_length in N1.
    assert (a2 = []) by (destruct a2; [reflexivity|simpl in N1; lia]). subst a2. rewrite app_nil_r in Ea. subst a1.
    destruct (snoc_cases rs) as [->|(l & e & ->)]; [discriminate|].
    rewrite app_length. simpl. replace (length l + 1 - 1) with (length l) by lia.
    rewrite at_index_kv by assumption. cbn [bind]. f_equal.
    rewrite filter_app. simpl. rewrite filter_nil.
    + rewrite intersects_connected; [|apply Vm; apply in_or_app; simpl; auto|assumption].
      rewrite connected_sym. destruct (is_connected q e); reflexivity.
    + intros x Hx. assert (He : In e (l ++ [e])) by (apply in_or_app; simpl; auto).
      destruct W as [_ S]. apply ss_app in S. destruct S as (_ & _ & S).
      specialize (S x e Hx (or_introl eq_refl)). specialize (A1 e He). unfold before in S. cord.
  - destruct (bisect_right_spec rs (upper q) W) as (b1 & b2 & Eb & -> & B1 & B2).
    destruct (length b1 =? 0) eqn:N2.
    + apply Nat.eqb_eq in N2. destruct b1; [|discriminate]. simpl in Eb. subst b2.
      destruct rs as [|r rs]; [discriminate|].
      change (map kv (r :: rs)) with (map kv ([] ++ r :: rs)).
      rewrite (at_index_kv [] r rs) by assumption. cbn [bind].
      rewrite intersects_connected by (auto; apply Vm; simpl; auto).
      replace (is_connected r q) with false.
      * f_equal. symmetry. apply filter_nil. intros x Hx. specialize (B2 x Hx). cord.
      * specialize (B2 r (or_introl eq_refl)). cord.
    + set (s := length a1 - 1).
      assert (SPL : exists p m, rs = p ++ m ++ b2 /\ length p = s /\ length b1 = length p + length m /\
        (forall x, In x p -> is_connected q x = false)).
      { assert (L : length a1 <= length b1).
        { destruct (le_lt_dec (length a1) (length b1)) as [L|L]; [assumption|]. exfalso.
          assert (E : b1 ++ b2 = a1 ++ a2) by congruence.
          destruct (app_eq_split _ _ _ _ E) as (m & E1 & E2); [lia|].
          destruct m as [|x m]; [rewrite app_nil_r in E1; subst; lia|].
          assert (I1 : In x a1) by (rewrite E1; apply in_or_app; simpl; auto).
          assert (I2 : In x b2) by (rewrite E2; simpl; auto).
          specialize (A1 x I1). specialize (B2 x I2). cord. }
        assert (E : a1 ++ a2 = b1 ++ b2) by congruence.
        destruct (app_eq_split _ _ _ _ E L) as (m & E1 & E2).
        destruct (snoc_cases a1) as [->|(l & e & ->)].
        - exists [], b1. unfold s. simpl. repeat split; auto. contradiction.
        - exists l, (e :: m). unfold s. rewrite app_length. simpl. repeat split.
          + rewrite Ea, E2. rewrite <- app_assoc. reflexivity.
          + lia.
          + rewrite E1, !app_length. simpl. lia.
          + intros x Hx. subst rs. destruct W as [_ S]. rewrite <- app_assoc in S. simpl in S.
            apply ss_app in S. destruct S as (_ & _ & S). specialize (S x e Hx (or_introl eq_refl)).
            assert (I : In e (l ++ [e])) by (apply in_or_app; simpl; auto).
            specialize (A1 e I). unfold before in S. cord. }
      destruct SPL as (p & m & Ers & Lp & Lb & P). rewrite <- Lp.
      replace (length b1 - length p) with (length m) by lia.
      clear Ea Eb. subst rs. rewrite mapM_at_index by assumption. cbn [bind]. f_equal.
      rewrite !filter_app, (filter_nil _ p P), (filter_nil _ b2).
      * rewrite app_nil_r. simpl. rewrite immutableset_id.
        -- apply filter_ext_in. intros x Hx. rewrite intersects_connected; auto.
           ++ apply connected_sym.
           ++ apply Vm. rewrite !in_app_iff. auto.
        -- apply wf_filter. destruct (wf_app _ _ W) as [_ W2]. now destruct (wf_app _ _ W2).
      * intros x Hx. specialize (B2 x Hx). cord.
Qed.

(** rightmost / leftmost *)
Lemma rightmost_q rs x u : WF rs -> greater_than x = Ok u ->
  rightmost_containing_or_below (map kv rs) x =
  Ok (hd_error (rev (filter (fun m => negb (encloses u m)) rs))).
Proof.
  intros W Hu. inversion Hu; subst u; clear Hu. unfold rightmost_containing_or_below.
  assert (P : forall m, In m rs -> negb (encloses (MkRange (AboveV x) AboveAll) m) = negb (cltb (BelowV x) (lower m))).
  { intros m Hm. cut_norm. cbn [lower upper]. rewrite above_all_greatest, andb_true_r.
    f_equal. pose proof (no_between x (lower m)) as NB. pose proof (below_above x).
    destruct (cltb (BelowV x) (lower m)) eqn:E1, (cltb (lower m) (AboveV x)) eqn:E2; simpl; auto;
      exfalso; (exact (NB E1 E2) || (clear NB; cord)). }
  destruct (value_at_or_below_spec rs (BelowV x) W) as [(l1 & e & l2 & E & -> & H2 & H3)|[-> H2]].
  - f_equal. subst rs. rewrite filter_app. cbn [filter].
    rewrite P, H2 by (apply in_or_app; simpl; auto). simpl negb. cbn iota.
    rewrite (filter_nil _ l2).
    + rewrite rev_app_distr. reflexivity.
    + intros q Hq. rewrite P by (apply in_or_app; simpl; auto). now rewrite H3.
  - f_equal. rewrite filter_nil; [reflexivity|]. intros q Hq. rewrite P by assumption. now rewrite H2.
Qed.
Lemma leftmost_q rs x u : WF rs -> less_than x = Ok u ->
  leftmost_containing_or_above (map kv rs) x =
  Ok (hd_error (filter (fun m => negb (encloses u m)) rs)).
Proof.
  intros W Hu. inversion Hu; subst u; clear Hu. unfold leftmost_containing_or_above.
  assert (P : forall m, In m rs -> negb (encloses (MkRange BelowAll (BelowV x)) m) = negb (cltb (upper m) (AboveV x))).
  { intros m Hm. cut_norm. cbn [lower upper]. rewrite below_all_least. simpl.
    f_equal. pose proof (no_between x (upper m)) as NB. pose proof (below_above x).
    destruct (cltb (BelowV x) (upper m)) eqn:E1, (cltb (upper m) (AboveV x)) eqn:E2; simpl; auto;
      exfalso; (exact (NB E1 E2) || (clear NB; cord)). }
  cbv zeta. rewrite map_length.
  destruct (bisect_left_spec rs (AboveV x) W) as (l1 & l2 & E & -> & H1 & H2).
  assert (TAIL : forall q, In q l2 -> negb (encloses (MkRange BelowAll (BelowV x)) q) = true).
  { intros q Hq. rewrite P by (rewrite E; apply in_or_app; auto). specialize (H2 q Hq).
    assert (G : good q) by (apply (wf_good _ _ W); rewrite E; apply in_or_app; auto).
    destruct G as [_ G]. cord. }
  destruct (snoc_cases l1) as [->|(l & e & ->)].
  - simpl in E. subst l2. simpl. rewrite (filter_all _ rs TAIL).
    destruct rs as [|r rs]; simpl; [reflexivity|].
    change (kv r :: map kv rs) with (map kv ([] ++ r :: rs)).
    rewrite (at_index_kv [] r rs) by assumption. reflexivity.
  - rewrite app_length. simpl. rewrite Nat.add_1_r. rewrite <- app_assoc in E. simpl in E.
    assert (He : In e rs) by (rewrite E; apply in_or_app; simpl; auto).
    rewrite E. rewrite at_index_kv by (rewrite <- E; assumption). cbn [bind]. rewrite cut_le_spec.
    rewrite filter_app. cbn [filter].
    assert (PRE : filter (fun m => negb (encloses (MkRange BelowAll (BelowV x)) m)) l = []).
    { apply filter_nil. intros q Hq. rewrite P by (rewrite E; apply in_or_app; auto).
      destruct W as [_ S]. rewrite E in S. apply ss_app in S. destruct S as (_ & _ & S).
      specialize (S q e Hq (or_introl eq_refl)). unfold before in S.
      assert (I : In e (l ++ [e])) by (apply in_or_app; simpl; auto).
      specialize (H1 e I). cord. }
    rewrite PRE, (P e He). simpl app.
    destruct (cltb (upper e) (AboveV x)) eqn:U; simpl negb; cbn iota; [|reflexivity].
    rewrite (filter_all _ l2 TAIL).
    destruct l2 as [|r l2].
    + rewrite app_length. simpl. replace (S (length l) <? length l + 1) with false; [reflexivity|].
      symmetry. apply Nat.ltb_ge. lia.
    + rewrite app_length. simpl length. replace (S (length l) <? length l + S (S (length l2))) with true.
      2:{ symmetry. apply Nat.ltb_lt. lia. }
      replace (S (length l)) with (length (l ++ [e])) by (rewrite app_length; simpl; lia).
      replace (l ++ e :: r :: l2) with ((l ++ [e]) ++ r :: l2) by (rewrite <- app_assoc; reflexivity).
      rewrite at_index_kv; [reflexivity|]. rewrite <- app_assoc. simpl. rewrite <- E. assumption.
Qed.

(** span *)
Lemma rs_span_q rs : WF rs -> rs_span (map kv rs) = create_spanning rs.
Proof.
  intros W. unfold rs_span, rs_is_empty. rewrite values_kv, map_length.
  destruct rs as [|r rs]; [reflexivity|]. simpl length. simpl Nat.eqb. cbn iota.
  replace (getitem (r :: rs) 0) with (@Ok rng r) by reflexivity. cbn [bind].
  destruct (snoc_cases (r :: rs)) as [|(l & e & E)]; [discriminate|].
  assert (Ll : S (length rs) - 1 = length l).
  { apply (f_equal (@length _)) in E. rewrite app_length in E. simpl in E. lia. }
  rewrite Ll. rewrite E at 1. rewrite getitem_mid. cbn [bind].
  assert (Ne : r :: rs <> []) by discriminate.
  assert (V : Forall valid (r :: rs)).
  { apply Forall_forall. intros q Hq. apply (wf_good _ _ W Hq). }
  destruct (create_spanning_spec (r :: rs) Ne V) as (c & -> & Vc & C1 & C2).
  assert (He : In e (r :: rs)) by (rewrite E; apply in_or_app; simpl; auto).
  assert (EQ : c = MkRange (lower r) (upper e)).
  { apply encloses_antisym.
    - pose proof (C1 r (or_introl eq_refl)). pose proof (C1 e He). cut_norm. cbn [lower upper]. cord.
    - apply C2. intros q Hq. destruct (wf_tail _ _ W) as (Gr & _ & B).
      assert (cltb (lower q) (lower r) = false).
      { destruct Hq as [<-|Hq]; [apply cltb_irrefl|]. specialize (B q Hq). destruct Gr as [_ Gr].
        unfold before in B. cord. }
      assert (cltb (upper e) (upper q) = false).
      { rewrite E in Hq. apply in_app_or in Hq. destruct Hq as [Hq|[<-|[]]]; [|apply cltb_irrefl].
        destruct (W) as [_ S]. rewrite E in S. apply ss_app in S. destruct S as (_ & _ & S).
        specialize (S q e Hq (or_introl eq_refl)). destruct (wf_good _ _ W He) as [_ Ge].
        unfold before in S. cord. }
      cut_norm. cbn [lower upper]. cord. }
  subst c. exact Vc.
Qed.

(** equality, pickled state *)
Lemma rs_eq_q a b : WF a -> WF b -> (rs_eq (map kv a) (map kv b) = true <-> a = b).
Proof.
  intros Wa Wb. unfold rs_eq. rewrite !as_ranges_kv, !immutableset_id by assumption. split.
  - rewrite andb_true_iff, Nat.eqb_eq, forallb_forall. intros [L H].
    assert (I : incl a b).
    { intros x Hx. specialize (H x Hx). apply existsb_exists in H. destruct H as (y & Hy & E).
      apply range_eq_iff in E. now subst. }
    apply wf_unique; auto. intros x. split; [apply I|].
    apply NoDup_length_incl; [now apply wf_nodup|lia|assumption].
  - intros <-. rewrite Nat.eqb_refl. simpl. apply forallb_forall. intros x Hx.
    apply existsb_exists. exists x. split; [assumption|]. now apply range_eq_iff.
Qed.
Lemma setstate_getstate rs : WF rs -> setstate (getstate (map kv rs)) = map kv rs.
Proof.
  intros W. unfold getstate. destruct (rs_is_empty (map kv rs)) eqn:E.
  - unfold rs_is_empty in E. apply Nat.eqb_eq in E. destruct rs; [reflexivity|discriminate].
  - rewrite as_ranges_kv. clear E. unfold setstate, sd_of_list.
    change (map (fun r : rng => (lower r, r)) rs) with (map kv rs).
    assert (G : forall l1 l2, WF (l1 ++ l2) ->
       fold_left (fun (d : sdict T rng) kvp => sd_set d (fst kvp) (snd kvp)) (map kv l2) (map kv l1) = map kv (l1 ++ l2)).
    { intros l1 l2. revert l1. induction l2 as [|e l2 IH]; intros l1 W12; simpl.
      - now rewrite app_nil_r.
      - replace (sd_set (map kv l1) (lower e) e) with (map kv (l1 ++ [e])).
        + rewrite IH by (rewrite <- app_assoc; exact W12). now rewrite <- app_assoc.
        + rewrite <- (app_nil_r l1) at 2. rewrite sd_set_kv; [reflexivity| |simpl; contradiction].
          intros q Hq. destruct W12 as [F S]. apply ss_app in S. destruct S as (_ & _ & S).
          specialize (S q e Hq (or_introl eq_refl)). rewrite Forall_forall in F.
          specialize (F q (in_or_app _ _ _ (or_introl Hq))). destruct F as [_ F]. unfold before in S. cord. }
    exact (G [] rs W).
Qed.
End Proofs.
Arguments op T : clear implicits.
