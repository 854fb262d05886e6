(** * Lookups and the YAML writer's preprocessing: lemmas *)
From Verif Require Import Prelude PyStr Params ParamsSpec ParamsProofs.

Lemma walk_reaches p q v : wf p -> (walk p q = Some v <-> reaches p q v).
Proof.
  revert p v. induction q as [|k q IH]; intros p v W; simpl.
  - split; [intros H; injection H as ->; constructor|]. inversion 1; subst. reflexivity.
  - split.
    + destruct p; try discriminate. destruct (dfind data k) as [x|] eqn:E; [|discriminate]. intros H.
      assert (Wx := wf_find _ _ _ _ W E). apply IH in H; [|assumption]. econstructor; [eapply dfind_in; eauto|assumption].
    + inversion 1 as [|pre d ? x ? ? I R]; subst. apply wf_map in W as W'. destruct W' as (N & _ & _).
      rewrite (in_dfind _ _ _ N I). apply IH; [|assumption]. exact (wf_find _ _ _ _ W (in_dfind _ _ _ N I)).
Qed.
Lemma stored_walk p name v : wf p -> (Stored p name v <-> walk p (py_split dot name) = Some v).
Proof. intros W. symmetry. now apply walk_reaches. Qed.
Lemma absent_walk p name : wf p -> (Absent p name <-> walk p (py_split dot name) = None).
Proof.
  intros W. unfold Absent. split.
  - intros H. destruct (walk p (py_split dot name)) as [v|] eqn:E; [|reflexivity]. apply (stored_walk _ _ _ W) in E. now destruct (H v).
  - intros H v K. apply (stored_walk _ _ _ W) in K. congruence.
Qed.
Lemma stored_unique p name v w : wf p -> Stored p name v -> Stored p name w -> v = w.
Proof. intros W H K. apply (stored_walk _ _ _ W) in H, K. congruence. Qed.
Lemma stored_or_absent p name : wf p -> (exists v, Stored p name v) \/ Absent p name.
Proof.
  intros W. destruct (walk p (py_split dot name)) as [v|] eqn:E; [left; exists v; now apply stored_walk|right; now apply absent_walk].
Qed.

Lemma is_none_eq v : is_none v = true <-> v = PNone.
Proof. destruct v; simpl; split; congruence. Qed.
Lemma is_none_neq v : is_none v = false <-> v <> PNone.
Proof. destruct v; simpl; split; congruence. Qed.

Lemma private_get_spec p name optional default : wf p ->
  (forall v, Candidate p name default v -> private_get p name optional default = Ok v) /\
  ((forall v, ~ Candidate p name default v) -> private_get p name optional default = if optional then Ok PNone else Raise ParameterError).
Proof.
  intros W. unfold private_get. split.
  - intros v [w H|A N].
    + apply (stored_walk _ _ _ W) in H. now rewrite H.
    + apply (absent_walk _ _ W) in A. rewrite A. apply is_none_neq in N. now rewrite N.
  - intros H. destruct (walk p (py_split dot name)) as [v|] eqn:E.
    + destruct (H v). constructor. now apply stored_walk.
    + destruct (is_none default) eqn:N; [reflexivity|]. destruct (H default). apply cand_default; [now apply absent_walk|now apply is_none_neq].
Qed.
Lemma no_candidate p name : Absent p name -> forall v, ~ Candidate p name PNone v.
Proof. intros A v [w H|_ N]; [exact (A _ H)|congruence]. Qed.
Lemma candidate_unique p name d v w : wf p -> Candidate p name d v -> Candidate p name d w -> v = w.
Proof.
  intros W [v' H|A N] [w' K|B M]; try reflexivity; [eapply stored_unique; eauto|destruct (B _ H)|destruct (A _ K)].
Qed.
Lemma contains_spec p name : wf p -> (contains p name = true <-> exists v, Stored p name v /\ v <> PNone).
Proof.
  intros W. unfold contains. destruct (private_get_spec p name true PNone W) as [H1 H2]. destruct (stored_or_absent p name W) as [(v & H)|A].
  - rewrite (H1 v) by (now constructor). destruct (is_none v) eqn:N; simpl.
    + apply is_none_eq in N. subst. split; [discriminate|]. intros (w & K & M). destruct M. eapply stored_unique; eauto.
    + apply is_none_neq in N. split; eauto.
  - rewrite H2 by (now apply no_candidate). simpl. split; [discriminate|]. intros (w & K & _). destruct (A _ K).
Qed.
Lemma contains_false p name : wf p -> (contains p name = false <-> (Absent p name \/ Stored p name PNone)).
Proof.
  intros W. destruct (contains p name) eqn:E.
  - apply (contains_spec _ _ W) in E. destruct E as (v & H & N). split; [discriminate|]. intros [A|K]; [destruct (A _ H)|]. destruct N. eapply stored_unique; eauto.
  - split; [|reflexivity]. intros _. destruct (stored_or_absent p name W) as [(v & H)|A]; [|auto]. right. destruct (is_none v) eqn:N.
    + apply is_none_eq in N. now subst.
    + apply is_none_neq in N. assert (contains p name = true); [|congruence]. apply contains_spec; eauto.
Qed.

(** ** the writer *)
Definition pre_item (kv : str * pv) : res (str * pv) := let* x := preprocess (snd kv) in Ok (fst kv, x).
Lemma preprocess_map m : preprocess (PMap m) = let* m' := mapM pre_item m in Ok (PMap m').
Proof.
  simpl. f_equal. induction m as [|[k x] m IH]; [reflexivity|]. simpl. unfold pre_item at 1. simpl. destruct (preprocess x); simpl; [|reflexivity]. now rewrite IH.
Qed.
Lemma preprocess_list l : preprocess (PList l) = let* l' := mapM preprocess l in Ok (PList l').
Proof. simpl. f_equal. induction l as [|x l IH]; [reflexivity|]. simpl. destruct (preprocess x); simpl; [|reflexivity]. now rewrite IH. Qed.

Lemma preprocess_spec v : match preprocess v with
  | Ok _ => writable v
  | Raise e => e = RuntimeError /\ ~ writable v
  end.
Proof.
  induction v using pv_ind_nested; try (cbn [preprocess]; constructor; fail); try (split; [reflexivity|inversion 1]; fail).
  - rewrite preprocess_list. assert (match mapM preprocess l with Ok _ => Forall writable l | Raise e => e = RuntimeError /\ Exists (fun x => ~ writable x) l end) as K.
    { induction H as [|x l Hx _ IH]; simpl; [constructor|]. destruct (preprocess x); simpl; [|destruct Hx; split; [assumption|now constructor]].
      destruct (mapM preprocess l); simpl; [now constructor|]. destruct IH; split; [assumption|now constructor 2]. }
    destruct (mapM preprocess l); simpl.
    + constructor. rewrite Forall_forall in K. exact K.
    + destruct K as [-> K]. split; [reflexivity|]. intros W. inversion W as [| | | | |? W'|]; subst. apply Exists_exists in K. destruct K as (x & I & N). auto.
  - rewrite preprocess_map. assert (match mapM pre_item m with Ok _ => Forall (fun kv => writable (snd kv)) m | Raise e => e = RuntimeError /\ Exists (fun kv => ~ writable (snd kv)) m end) as K.
    { induction H as [|[k x] l Hx _ IH]; simpl; [constructor|]. unfold pre_item at 1. simpl in *. destruct (preprocess x); simpl; [|destruct Hx; split; [assumption|now constructor]].
      destruct (mapM pre_item l); simpl; [now constructor|]. destruct IH; split; [assumption|now constructor 2]. }
    destruct (mapM pre_item m); simpl.
    + constructor. rewrite Forall_forall in K. intros k x I. apply (K _ I).
    + destruct K as [-> K]. split; [reflexivity|]. intros W. inversion W as [| | | | | |? W']; subst. apply Exists_exists in K. destruct K as ([k x] & I & N). eauto.
Qed.
Lemma writable_dictify v : writable (dictify v) <-> printable v.
Proof.
  induction v using pv_ind_nested; try (simpl; split; [intros H0; apply pr_leaf; [reflexivity|assumption]|inversion 1; subst; assumption]; fail).
  simpl. split.
  - intros W. apply pr_ns. intros k x I. rewrite Forall_forall in H. apply (H _ I). inversion W as [| | | | | |? W']; subst. apply (W' k). apply in_map_iff. exists (k, x). auto.
  - intros P. constructor. intros k x I. apply in_map_iff in I. destruct I as ([k' x'] & E & I). injection E as <- <-. rewrite Forall_forall in H. apply (H _ I).
    inversion P as [? ? P'|? F]; subst; [eapply P'; eauto|discriminate].
Qed.
Lemma raise_mentioning_spec v : wrong_type v (raise_mentioning v ParameterError).
Proof.
  unfold raise_mentioning. destruct v; try (apply wt_param; discriminate).
  pose proof (preprocess_spec (dictify (PParams prefix data))) as K. destruct (preprocess (dictify (PParams prefix data))) as [w|e].
  - apply wt_param. intros _. now apply writable_dictify.
  - destruct K as [-> K]. apply wt_runtime; [reflexivity|]. now rewrite <- writable_dictify.
Qed.
Lemma wrong_type_fun v e1 e2 : wrong_type v e1 -> wrong_type v e2 -> e1 = e2.
Proof. intros [H|H N] [K|K M]; auto; [destruct M; auto|destruct N; auto]. Qed.

(** The generic getter. *)
Lemma get_spec p name ty default : wf p ->
  (forall v, Candidate p name default v -> ty v = true -> get p name ty default = Ok v) /\
  (forall v, Candidate p name default v -> ty v = false -> exists e, get p name ty default = Raise e /\ wrong_type v e) /\
  ((forall v, ~ Candidate p name default v) -> get p name ty default = Raise ParameterError).
Proof.
  intros W. unfold get. destruct (private_get_spec p name false default W) as [H1 H2]. repeat split.
  - intros v C T. rewrite (H1 v C). simpl. now rewrite T.
  - intros v C T. rewrite (H1 v C). simpl. rewrite T. eexists; split; [reflexivity|apply raise_mentioning_spec].
  - intros N. now rewrite H2.
Qed.
Lemma get_optional_spec p name ty default : wf p ->
  (forall v, Stored p name v -> v <> PNone -> ty v = true -> get_optional p name ty default = Ok v) /\
  (forall v, Stored p name v -> v <> PNone -> ty v = false -> exists e, get_optional p name ty default = Raise e /\ wrong_type v e) /\
  (Absent p name \/ Stored p name PNone -> get_optional p name ty default = Ok default).
Proof.
  intros W. unfold get_optional. destruct (private_get_spec p name true PNone W) as [H1 H2]. repeat split.
  - intros v C N T. rewrite (H1 v (cand_stored _ _ _ _ C)). simpl. apply is_none_neq in N. now rewrite N, T.
  - intros v C N T. rewrite (H1 v (cand_stored _ _ _ _ C)). simpl. apply is_none_neq in N. rewrite N, T. eexists; split; [reflexivity|apply raise_mentioning_spec].
  - intros [A|C].
    + rewrite H2 by (now apply no_candidate). reflexivity.
    + rewrite (H1 _ (cand_stored _ _ _ _ C)). reflexivity.
Qed.
