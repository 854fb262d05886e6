(** * File-system lemmas *)
From Verif Require Import Prelude PyStr Params ParamsSpec TextLib Fs.

(** ** Specification vocabulary *)
(** [q] is [d] or lies below it. *)
Definition below (d q : list str) : Prop := exists l, q = l ++ d.
(** In a possible file system only directories have entries. *)
Definition wf_fs (fs : list (list str * fnode)) : Prop := forall c q k, look fs (c :: q) = Some k -> look fs q = Some KDir.
(** Two file systems have the same object (or none) at [q]. *)
Definition same_at (fs fs' : list (list str * fnode)) (q : list str) : Prop := look fs' q = look fs q.
(** [q] is occupied by something that is not a directory. *)
Definition occupied (fs : list (list str * fnode)) (q : list str) : Prop := exists k, look fs q = Some k /\ k <> KDir.

Lemma rpath_eqb_spec a b : reflect (a = b) (rpath_eqb a b).
Proof. unfold rpath_eqb. destruct (list_eq_dec (list_eq_dec N.eq_dec) a b); constructor; assumption. Qed.
Lemma below_refl d : below d d.
Proof. now exists []. Qed.
Lemma below_cons d c q : below d q -> below d (c :: q).
Proof. intros [l ->]. now exists (c :: l). Qed.
Lemma below_inv d c q : below d (c :: q) -> d = c :: q \/ below d q.
Proof. intros [[|x l] E]; simpl in E; [left; auto|]. injection E as -> ->. right. now exists l. Qed.
Lemma below_root q : below [] q.
Proof. exists q. now rewrite app_nil_r. Qed.
Lemma below_nil d : below d [] -> d = [].
Proof. intros [l E]. symmetry in E. apply app_eq_nil in E. tauto. Qed.
Lemma below_trans a b c : below a b -> below b c -> below a c.
Proof. intros [l ->] [m ->]. exists (m ++ l). now rewrite app_assoc. Qed.
Lemma below_antisym a b : below a b -> below b a -> a = b.
Proof.
  intros [l ->] [m E]. rewrite app_assoc in E. assert (length (m ++ l) = 0).
  { apply (f_equal (@length _)) in E. rewrite app_length in E. lia. }
  rewrite app_length in H. destruct l; [reflexivity|simpl in H; lia].
Qed.
Lemma below_linear a b q : below a q -> below b q -> below a b \/ below b a.
Proof.
  revert a b. induction q as [|c q IH]; intros a b A B.
  - apply below_nil in A, B. subst. left. apply below_refl.
  - apply below_inv in A. apply below_inv in B. destruct A as [->|A], B as [->|B]; try (left; apply below_refl).
    + right. now apply below_cons.
    + left. now apply below_cons.
    + auto.
Qed.
Lemma not_below_tail c q : ~ below (c :: q) q.
Proof. intros [l E]. apply (f_equal (@length _)) in E. rewrite app_length in E. simpl in E. lia. Qed.
Lemma at_or_below_spec d q : at_or_below d q = true <-> below d q.
Proof.
  induction q as [|c q IH]; simpl.
  - rewrite orb_false_r. destruct (rpath_eqb_spec [] d) as [<-|N]; split; try discriminate; auto using below_refl.
    intros H. apply below_nil in H. congruence.
  - destruct (rpath_eqb_spec (c :: q) d) as [<-|N]; simpl.
    + split; auto using below_refl.
    + rewrite IH. split; [apply below_cons|]. intros H. apply below_inv in H. destruct H; [congruence|assumption].
Qed.

Lemma wf_above fs d q k : wf_fs fs -> look fs q = Some k -> below d q -> d <> q -> look fs d = Some KDir.
Proof.
  intros W L B N. revert k L. induction q as [|c q IH]; intros k L.
  - apply below_nil in B. congruence.
  - apply below_inv in B. destruct B as [->|B]; [congruence|]. apply W in L.
    destruct (list_eq_dec (list_eq_dec N.eq_dec) d q) as [->|N']; [assumption|]. eauto.
Qed.

Lemma look_cons fs q v r : look ((q, v) :: fs) r = if rpath_eqb q r then match r with [] => Some KDir | _ => Some v end else look fs r.
Proof. destruct r; simpl; [destruct (rpath_eqb q []); reflexivity|]. reflexivity. Qed.
Lemma find_filter fs (f : list str -> bool) q : find_path (filter (fun e => f (fst e)) fs) q = if f q then find_path fs q else None.
Proof.
  induction fs as [|[k v] fs IH]; simpl; [now destruct (f q)|]. destruct (f k) eqn:F; simpl.
  - destruct (rpath_eqb_spec k q) as [->|N]; [now rewrite F|assumption].
  - destruct (rpath_eqb_spec k q) as [->|N]; [now rewrite F in *|assumption].
Qed.

Lemma search_spec fs q : wf_fs fs ->
  match search fs q with
  | Ok _ => look fs q = Some KDir
  | Raise e => (e = FileNotFoundError /\ look fs q = None /\ (forall d, below d q -> ~ occupied fs d)) \/
               (e = NotADirectoryError /\ exists d, below d q /\ occupied fs d)
  end.
Proof.
  intros W. induction q as [|c q IH]; [reflexivity|]. cbn [search bind].
  destruct (search fs q) as [u|e]; cbn [bind].
  - destruct (look fs (c :: q)) as [[b| |]|] eqn:L.
    + right. split; [reflexivity|]. exists (c :: q). split; [apply below_refl|]. exists (KFile b). split; [assumption|discriminate].
    + reflexivity.
    + right. split; [reflexivity|]. exists (c :: q). split; [apply below_refl|]. exists KOther. split; [assumption|discriminate].
    + left. split; [reflexivity|]. split; [reflexivity|]. intros d B (k & K & N). apply below_inv in B. destruct B as [->|B]; [congruence|].
      destruct (list_eq_dec (list_eq_dec N.eq_dec) d q) as [->|N']; [congruence|].
      rewrite (wf_above _ _ _ _ W IH B N') in K. congruence.
  - destruct IH as [(-> & L & B)|(-> & d & B & O)].
    + left. split; [reflexivity|]. assert (look fs (c :: q) = None) as L'.
      { destruct (look fs (c :: q)) eqn:E; [|reflexivity]. apply W in E. congruence. }
      split; [assumption|]. intros d D O. apply below_inv in D. destruct D as [->|D]; [|now apply (B d)].
      destruct O as (k & K & _). congruence.
    + right. split; [reflexivity|]. exists d. split; [now apply below_cons|assumption].
Qed.

(** What [mkdir -p q] means. *)
Definition made (fs fs' : list (list str * fnode)) (q : list str) : Prop :=
  (forall d, below d q -> look fs' d = Some KDir) /\ (forall d, ~ below d q -> same_at fs fs' d).
Definition unblocked (fs : list (list str * fnode)) (q : list str) : Prop := forall d, below d q -> ~ occupied fs d.

Lemma mkdir_p_unfold fs q : mkdir_p fs q =
  match os_mkdir fs q with
  | Ok fs' => (fs', Ok tt)
  | Raise FileNotFoundError =>
      match q with
      | [] => (fs, Raise FileNotFoundError)
      | _ :: r =>
          match mkdir_p fs r with
          | (fs1, Raise e) => (fs1, Raise e)
          | (fs1, Ok _) =>
              match os_mkdir fs1 q with
              | Ok fs2 => (fs2, Ok tt)
              | Raise FileNotFoundError => (fs1, Raise FileNotFoundError)
              | Raise e => if is_dir fs1 q then (fs1, Ok tt) else (fs1, Raise e)
              end
          end
      end
  | Raise e => if is_dir fs q then (fs, Ok tt) else (fs, Raise e)
  end.
Proof. destruct q; reflexivity. Qed.

Lemma is_dir_true fs q : is_dir fs q = true <-> look fs q = Some KDir.
Proof. unfold is_dir. destruct (look fs q) as [[| |]|]; split; congruence. Qed.
Lemma dir_all_above fs q : wf_fs fs -> look fs q = Some KDir -> forall d, below d q -> look fs d = Some KDir.
Proof.
  intros W L d B. destruct (list_eq_dec (list_eq_dec N.eq_dec) d q) as [->|N]; [assumption|]. eapply wf_above; eauto.
Qed.
Lemma made_wf fs fs' q : wf_fs fs -> made fs fs' q -> wf_fs fs'.
Proof.
  intros W [M1 M2] c r k L. destruct (at_or_below r q) eqn:B.
  - apply at_or_below_spec in B. auto.
  - assert (~ below r q) as B' by (intros K; apply at_or_below_spec in K; congruence).
    assert (~ below (c :: r) q) as B2. { intros K. apply B'. eapply below_trans; [|exact K]. exists [c]. reflexivity. }
    rewrite (M2 _ B'). rewrite (M2 _ B2) in L. eauto.
Qed.

Lemma mkdir_one fs c q : wf_fs fs -> look fs q = Some KDir -> look fs (c :: q) = None -> made fs ((c :: q, KDir) :: fs) (c :: q).
Proof.
  intros W L N. split.
  - intros d B. rewrite look_cons. destruct (rpath_eqb_spec (c :: q) d) as [<-|N']; [reflexivity|].
    apply below_inv in B. destruct B as [->|B]; [congruence|]. eapply dir_all_above; eauto.
  - intros d B. unfold same_at. rewrite look_cons. destruct (rpath_eqb_spec (c :: q) d) as [<-|N']; [|reflexivity]. destruct B. apply below_refl.
Qed.

Lemma mkdir_p_spec fs q : wf_fs fs ->
  match mkdir_p fs q with
  | (fs', Ok _) => unblocked fs q /\ made fs fs' q
  | (fs', Raise e) => fs' = fs /\ ((e = FileExistsError /\ occupied fs q) \/ (e = NotADirectoryError /\ exists d, below d q /\ d <> q /\ occupied fs d))
  end.
Proof.
  intros W. induction q as [|c q IH]; rewrite mkdir_p_unfold.
  - simpl. split.
    + intros d B. apply below_nil in B. subst. intros (k & K & N). simpl in K. congruence.
    + split; [|unfold same_at; reflexivity]. intros d B. apply below_nil in B. now subst.
  - assert (S := search_spec fs q W). unfold os_mkdir. destruct (search fs q) as [u|e]; cbn [bind].
    + destruct (look fs (c :: q)) as [k|] eqn:L.
      * destruct (is_dir fs (c :: q)) eqn:D.
        -- apply is_dir_true in D. split.
           ++ intros d B. intros (k' & K & N). rewrite (dir_all_above _ _ W D d B) in K. congruence.
           ++ split; [now apply dir_all_above|unfold same_at; reflexivity].
        -- split; [reflexivity|]. left. split; [reflexivity|]. exists k. split; [assumption|]. intros ->. apply is_dir_true in L. congruence.
      * split; [|now apply mkdir_one]. intros d B. apply below_inv in B. destruct B as [->|B]; intros (k & K & N); [congruence|].
        rewrite (dir_all_above _ _ W S d B) in K. congruence.
    + destruct S as [(-> & L & B)|(-> & d & B & O)].
      * destruct (mkdir_p fs q) as [fs1 [u|e]].
        -- destruct IH as [U M]. assert (look fs (c :: q) = None) as L'.
           { destruct (look fs (c :: q)) eqn:E; [|reflexivity]. apply W in E. congruence. }
           assert (W1 := made_wf _ _ _ W M). assert (S1 := search_spec fs1 q W1).
           assert (look fs1 q = Some KDir) as D1 by (apply (proj1 M), below_refl).
           assert (look fs1 (c :: q) = None) as L1. { rewrite (proj2 M); [assumption|apply not_below_tail]. }
           destruct (search fs1 q) as [u'|e].
           ++ cbn [bind]. rewrite L1. split.
              ** intros d D. apply below_inv in D. destruct D as [->|D]; [intros (k & K & _); congruence|now apply U].
              ** destruct (mkdir_one _ _ _ W1 D1 L1) as [A1 A2]. split; [assumption|]. intros d D. unfold same_at in *. rewrite (A2 d D).
                 apply (proj2 M). intros K. apply D. now apply below_cons.
           ++ exfalso. destruct S1 as [(_ & K & _)|(_ & d & D & O)]; [congruence|]. destruct O as (k & K & N). rewrite (proj1 M _ D) in K. congruence.
        -- destruct IH as [-> [[_ O]|[_ (d & D & N & O)]]].
           ++ exfalso. apply (B q (below_refl q)). assumption.
           ++ exfalso. apply (B d D O).
      * assert (look fs (c :: q) = None) as L'.
        { destruct (look fs (c :: q)) eqn:E; [|reflexivity]. assert (d <> c :: q) as N. { intros ->. now apply not_below_tail in B. }
          destruct O as (k & K & NK). rewrite (wf_above _ _ _ _ W E (below_cons _ _ _ B) N) in K. congruence. }
        unfold is_dir. rewrite L'. split; [reflexivity|]. right. split; [reflexivity|]. exists d. split; [now apply below_cons|]. split; [|assumption].
        intros ->. now apply not_below_tail in B.
Qed.

(** ** rmtree, emptiness *)
Lemma look_rmtree fs c d q : look (fst (rmtree fs (c :: d))) q = if at_or_below (c :: d) q then None else look fs q.
Proof.
  unfold rmtree. simpl fst. destruct q as [|x q].
  - simpl. reflexivity.
  - simpl look. rewrite (find_filter fs (fun k => negb (at_or_below (c :: d) k))). destruct (at_or_below (c :: d) (x :: q)); reflexivity.
Qed.
Lemma find_path_in fs q : (exists v, In (q, v) fs) <-> find_path fs q <> None.
Proof.
  induction fs as [|[k v] fs IH]; simpl.
  - split; [intros (v & [])|congruence].
  - destruct (rpath_eqb_spec k q) as [->|N].
    + split; [discriminate|]. intros _. exists v. auto.
    + rewrite <- IH. split; [intros (w & [E|H]); [congruence|eauto]|intros (w & H); eauto].
Qed.
Lemma empty_spec fs q : is_empty_directory fs q = true <-> look fs q = Some KDir /\ forall c, look fs (c :: q) = None.
Proof.
  unfold is_empty_directory. rewrite andb_true_iff, negb_true_iff, is_dir_true. apply and_iff_compat_l.
  split.
  - intros E c. simpl. destruct (find_path fs (c :: q)) eqn:F; [|reflexivity]. exfalso.
    assert (exists v, In (c :: q, v) fs) as (v & I) by (apply find_path_in; congruence).
    assert (existsb (child_of q) fs = true); [|congruence]. apply existsb_exists. exists (c :: q, v). split; [assumption|].
    unfold child_of. simpl. destruct (rpath_eqb_spec q q); congruence.
  - intros H. destruct (existsb (child_of q) fs) eqn:E; [|reflexivity]. exfalso. apply existsb_exists in E. destruct E as ([k v] & I & C).
    unfold child_of in C. simpl in C. destruct k as [|c r]; [discriminate|]. destruct (rpath_eqb_spec r q) as [->|]; [|discriminate].
    specialize (H c). simpl in H. assert (find_path fs (c :: q) <> None); [|congruence]. apply find_path_in. eauto.
Qed.

(** ** resolve *)
Definition proper (c : str) : Prop := c <> [] /\ c <> !!"." /\ c <> !!".." /\ ~ In slash c /\ ~ In 0%N c.
Lemma walk_comps_proper at_ comps : Forall proper at_ -> (forall c, In c comps -> ~ In slash c /\ ~ In 0%N c) -> Forall proper (walk_comps at_ comps).
Proof.
  revert at_. induction comps as [|c r IH]; intros at_ A H; cbn [walk_comps]; [assumption|].
  assert (forall c, In c r -> ~ In slash c /\ ~ In 0%N c) as H' by (intros; apply H; simpl; auto).
  destruct (str_eqb c [] || str_eqb c !!".") eqn:E; [apply IH; assumption|]. apply orb_false_iff in E. destruct E as [E1 E2]. apply str_eqb_neq in E1, E2.
  destruct (str_eqb c !!"..") eqn:E3; [apply IH; [destruct at_; simpl; [assumption|now inversion A]|assumption]|].
  apply str_eqb_neq in E3. apply IH; [|assumption]. constructor; [|assumption]. destruct (H c (or_introl eq_refl)). now repeat split.
Qed.
Lemma walk_comps_all at_ comps : Forall proper comps -> walk_comps at_ comps = rev comps ++ at_.
Proof.
  revert at_. induction comps as [|c r IH]; intros at_ F; [reflexivity|]. inversion F as [|? ? (N1 & N2 & N3 & _) F']; subst. cbn [walk_comps].
  apply str_eqb_neq in N1, N2, N3. rewrite N1, N2, N3. cbn [orb]. rewrite IH by assumption. cbn [rev]. rewrite <- app_assoc. reflexivity.
Qed.
Lemma join_no_nul l : Forall proper l -> ~ In 0%N (py_join [slash] l).
Proof.
  induction l as [|c l IH]; intros F; [intros []|]. inversion F as [|? ? (_ & _ & _ & _ & N) F']; subst. destruct l as [|d l]; [assumption|].
  change (py_join [slash] (c :: d :: l)) with (c ++ slash :: py_join [slash] (d :: l)). intros I. apply in_app_or in I. destruct I as [I|[I|I]]; [auto|discriminate|now apply IH].
Qed.
Lemma resolve_printed cwd q : Forall proper q -> resolve cwd (path_str q) = Ok q.
Proof.
  intros F. apply Forall_rev in F. unfold resolve, path_str. assert (existsb (N.eqb 0) (slash :: py_join [slash] (rev q)) = false) as ->.
  { destruct (existsb _ _) eqn:E; [|reflexivity]. exfalso. apply existsb_exists in E. destruct E as (x & I & E). apply N.eqb_eq in E. subst.
    destruct I as [I|I]; [discriminate|]. exact (join_no_nul _ F I). }
  rewrite N.eqb_refl. f_equal. destruct q as [|c q].
  - reflexivity.
  - change (slash :: py_join [slash] (rev (c :: q))) with ([] ++ slash :: py_join [slash] (rev (c :: q))). rewrite py_split_app by (intros []).
    cbn [walk_comps]. rewrite (str_eqb_refl []). cbn [orb].
    rewrite py_join_split; [|intros E; apply (f_equal (@length _)) in E; rewrite rev_length in E; discriminate|intros p I; rewrite Forall_forall in F; apply F in I; apply I].
    rewrite walk_comps_all by assumption. now rewrite rev_involutive, app_nil_r.
Qed.
Lemma in_split_in c s p x : In p (py_split c s) -> In x p -> In x s.
Proof.
  revert p. induction s as [|y s IH]; simpl; intros p I X.
  - destruct I as [<-|[]]. destruct X.
  - destruct (y =? c)%N.
    + destruct I as [<-|I]; [destruct X|right; eauto].
    + destruct (py_split c s) as [|q qs] eqn:E.
      * destruct I as [<-|[]]. destruct X as [->|[]]. auto.
      * destruct I as [<-|I]; [destruct X as [->|X]; [auto|right; apply (IH q); simpl; auto]|right; apply (IH p); simpl; auto].
Qed.
Lemma resolve_proper cwd s q : Forall proper cwd -> resolve cwd s = Ok q -> Forall proper q.
Proof.
  intros C. unfold resolve. destruct (existsb (N.eqb 0) s) eqn:E; [discriminate|]. intros H. injection H as <-.
  apply walk_comps_proper; [destruct s as [|x s]; [assumption|]; destruct (x =? slash)%N; [constructor|assumption]|].
  intros c I. split; [eapply py_split_parts; eauto|]. intros Z. assert (existsb (N.eqb 0) s = true); [|congruence].
  apply existsb_exists. exists 0%N. split; [eapply in_split_in; eauto|reflexivity].
Qed.
