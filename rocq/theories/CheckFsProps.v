(** * C93: checkpoints on a file system *)
From Verif Require Import Prelude PyStr TextLib Utf8 Params Load Fs FsProofs FsProps OsPath OsPathSpec OsPathProofs Mains MainsProofs LoadFs LoadFsSpec LoadFsProps CheckFs.
From Verif Require Checkpoints.

(** ** Specification *)
(** The checkpoint [name] of the directory [dir], used in the current directory [cwd], is the file at [q]. *)
Definition place_of (fs : list (list str * fnode)) (cwd : list str) (dir name : str) (q : list str) : Prop :=
  ~ In 0%N name /\ ((exists r, name = slash :: r) /\ opens fs [] (py_split slash name) q \/
                    (forall r, name <> slash :: r) /\ exists d, leads fs cwd dir d /\ opens fs d (py_split slash name) q).
(** The last component of a path is the name [c] (slashes and "." may follow). *)
Definition ends_in (s : str) (c : str) : Prop := exists l r, py_split slash s = l ++ c :: r /\ proper c /\ Forall (fun x => x = [] \/ x = !!".") r.

Notation Name := Checkpoints.Name.
Notation NotStr := Checkpoints.NotStr.
(** ** Lemmas *)
Lemma place_spec fs cwd dir name q : place fs cwd dir name = Ok q <-> place_of fs cwd dir name q.
Proof.
  unfold place, place_of. destruct (is_abs name) eqn:A.
  - assert (B : exists r, name = slash :: r) by now apply is_abs_spec. destruct (has_nul name) eqn:N.
    + split; [discriminate|]. intros (H & _). apply has_nul_spec in H. congruence.
    + apply has_nul_spec in N. unfold parts. rewrite os_walk_spec. split; [intros H; split; [assumption|]; left; auto|]. intros (_ & [[_ H]|[H _]]); [assumption|]. destruct B as (r & E). now destruct (H r).
  - assert (B : forall r, name <> slash :: r) by now apply is_abs_false. destruct (has_nul dir) eqn:ND; [|destruct (has_nul name) eqn:N]; cbn [orb].
    + split; [discriminate|]. intros (_ & [[(r & E) _]|[_ (d & ((H & _) & _))]]); [now destruct (B r)|]. apply has_nul_spec in H. congruence.
    + split; [discriminate|]. intros (H & _). apply has_nul_spec in H. congruence.
    + apply has_nul_spec in N. rewrite os_app. split.
      * intros E. apply bind_ok in E. destruct E as (d & E1 & E2). split; [assumption|]. right. split; [assumption|]. exists d. split; [now apply start_leads|]. now apply os_walk_spec.
      * intros (_ & [[(r & E) _]|[_ (d & H & H')]]); [now destruct (B r)|]. apply (start_leads _ _ _ _ ND) in H. rewrite H. cbn [bind]. now apply os_walk_spec.
Qed.
Lemma place_fun fs cwd dir name q q' : place_of fs cwd dir name q -> place_of fs cwd dir name q' -> q = q'.
Proof. rewrite <- !place_spec. congruence. Qed.
Lemma os_walk_error fs cs : forall q e, os_walk fs q cs = Raise e -> e = FileNotFoundError \/ e = NotADirectoryError.
Proof.
  induction cs as [|c cs IH]; intros q e E; [discriminate|]. cbn [os_walk] in E. destruct (look fs q) as [[]|]; try (injection E as <-; auto). destruct (str_eqb c !!".."); eauto.
Qed.
Lemma walk_end fs cs : wf_fs fs -> forall r q, look fs r <> None -> os_walk fs r cs = Ok q -> look fs q <> None \/ exists c d, q = c :: d /\ look fs d = Some KDir.
Proof.
  intros W. destruct cs as [|c cs _] using rev_ind; intros r q L E; [injection E as <-; auto|]. apply last_part in E. destruct E as (d & _ & D & ->). destruct (str_eqb c !!".."); [|eauto].
  left. destruct d as [|x d]; [discriminate|]. cbn [tl]. apply W in D. congruence.
Qed.
Lemma place_end fs cwd dir name q : wf_fs fs -> look fs cwd = Some KDir -> place_of fs cwd dir name q -> look fs q = None -> exists c d, q = c :: d /\ look fs d = Some KDir.
Proof.
  intros W C P L. apply place_spec in P. unfold place in P. destruct (is_abs name).
  - destruct (has_nul name); [discriminate|]. apply (walk_end _ _ W) in P; [destruct P as [P|P]; [congruence|assumption]|discriminate].
  - destruct (has_nul dir || has_nul name)%bool; [discriminate|]. apply (walk_end _ _ W) in P; [destruct P as [P|P]; [congruence|assumption]|]. unfold start. destruct (is_abs dir); [discriminate|congruence].
Qed.
Lemma walk_dirs fs fs' cs : (forall r, look fs' r = Some KDir <-> look fs r = Some KDir) -> forall r x, os_walk fs' r cs = Ok x <-> os_walk fs r cs = Ok x.
Proof.
  intros H. induction cs as [|c cs IH]; intros r x; [reflexivity|]. cbn [os_walk]. specialize (H r). destruct (look fs r) as [[]|] eqn:E.
  - destruct (look fs' r) as [[]|] eqn:E'; try (split; discriminate). destruct H as [H _]. specialize (H eq_refl). discriminate.
  - destruct H as [_ H]. rewrite (H eq_refl). destruct (str_eqb c !!".."); apply IH.
  - destruct (look fs' r) as [[]|] eqn:E'; try (split; discriminate). destruct H as [H _]. specialize (H eq_refl). discriminate.
  - destruct (look fs' r) as [[]|] eqn:E'; try (split; discriminate). destruct H as [H _]. specialize (H eq_refl). discriminate.
Qed.
Lemma place_dirs fs fs' cwd dir name q : (forall r, look fs' r = Some KDir <-> look fs r = Some KDir) -> place_of fs' cwd dir name q <-> place_of fs cwd dir name q.
Proof.
  intros H. rewrite <- !place_spec. unfold place. destruct (is_abs name); [destruct (has_nul name)|destruct (has_nul dir || has_nul name)%bool]; try reflexivity; now apply walk_dirs.
Qed.
Lemma set_dirs fs q b : q <> [] -> look fs q = None -> forall r, look (set_node fs q b) r = Some KDir <-> look fs r = Some KDir.
Proof. intros N L r. rewrite look_set by assumption. destruct (rpath_eqb_spec q r) as [<-|D]; [rewrite L; split; discriminate|reflexivity]. Qed.
Lemma filter_keep_walk cs : forall r, walk_comps r (filter keep cs) = walk_comps r cs.
Proof.
  induction cs as [|c cs IH]; intros r; [reflexivity|]. cbn [filter walk_comps]. destruct (str_eqb c [] || str_eqb c !!".") eqn:K; cbn [negb]; [apply IH|]. cbn [walk_comps]. rewrite K. destruct (str_eqb c !!".."); apply IH.
Qed.
Lemma os_walk_lexical fs cs : forall r q, os_walk fs r (filter keep cs) = Ok q -> walk_comps r (filter keep cs) = q.
Proof.
  intros r q E. apply os_walk_spec in E. rewrite filter_keep_walk. apply follow_walk. induction E as [|q c cs q' S _ IH|q cs q' _ _ IH|q c cs q' N1 N2 N3 _ _ IH]; [constructor|now apply fo_stay| |now apply fo_into].
  destruct q; [now apply fo_up_root|now apply fo_up].
Qed.
Lemma start_resolve cwd s : has_nul s = false -> resolve cwd s = Ok (walk_comps (start cwd s) (parts s)).
Proof. intros N. unfold resolve. unfold has_nul in N. rewrite N. unfold parts. rewrite filter_keep_walk. unfold start, is_abs. destruct s as [|c s]; [reflexivity|]. reflexivity. Qed.
Lemma leads_resolve fs cwd s q : leads fs cwd s q -> resolve cwd s = Ok q.
Proof. intros L. assert (N : has_nul s = false) by (apply has_nul_spec, L). rewrite (start_resolve _ _ N). f_equal. apply (start_leads _ _ _ _ N) in L. now apply (os_walk_lexical fs). Qed.
Lemma ends_parts s c : ends_in s c -> exists l, parts s = l ++ [c] /\ str_eqb c !!".." = false.
Proof.
  intros (l & r & E & (P1 & P2 & P3 & _) & F). exists (filter keep l). split; [|now apply str_eqb_neq]. unfold parts. rewrite E, filter_app. f_equal. cbn [filter]. assert (keep c = true) as -> by now apply keep_true. f_equal.
  clear E. induction F as [|x r Hx F IH]; [reflexivity|]. cbn [filter]. assert (keep x = false) as -> by now apply keep_false. assumption.
Qed.
Lemma ends_leads fs cwd s c q : ends_in s c -> leads fs cwd s q -> exists d, q = c :: d /\ look fs d = Some KDir.
Proof.
  intros E L. assert (N : has_nul s = false) by (apply has_nul_spec, L). apply (start_leads _ _ _ _ N) in L. destruct (ends_parts s c E) as (l & P & U). rewrite P in L. apply last_part in L. destruct L as (d & _ & D & ->). rewrite U. eauto.
Qed.

(** ** Single operations *)
(** Opening a directory: it is made, with the directories above it, and nothing else is touched, unless something in the way is not a directory. *)
Theorem C93_open : forall fs cwd dir q, wf_fs fs -> ~ In 0%N dir -> denotes cwd dir q -> Forall proper cwd ->
  match open_directory fs cwd dir with
  | (fs', Ok _) => (forall d, below d q -> look fs' d = Some KDir) /\ (forall r, ~ below r q -> look fs' r = look fs r)
  | (fs', Raise e) => fs' = fs /\ (e = FileExistsError \/ e = NotADirectoryError) /\ exists d k, below d q /\ look fs d = Some k /\ k <> KDir
  end.
Proof.
  intros fs cwd dir q W N D C. unfold open_directory. assert (resolve cwd dir = Ok q) as -> by (apply (proj1 (C80_resolution cwd dir q C)); auto). assert (S := mkdir_p_spec fs q W). destruct (mkdir_p fs q) as [fs' [u|e]].
  - destruct S as (_ & M1 & M2). split; [exact M1|exact M2].
  - destruct S as (-> & [(-> & k & L & K)|(-> & d & B & _ & k & L & K)]); (split; [reflexivity|]; split; [auto|]); [exists q, k; split; [apply below_refl|auto]|exists d, k; auto].
Qed.
(** Setting a checkpoint succeeds exactly if its place can be reached; then there is something there, which is a new empty file if there was nothing, and
    everything else is as it was.  Otherwise nothing changes. *)
Theorem C93_set : forall fs cwd dir n, wf_fs fs -> look fs cwd = Some KDir ->
  match set_checkpoint fs cwd dir (Name n) with
  | (fs', Ok _) => exists q, place_of fs cwd dir n q /\ look fs' q = match look fs q with Some k => Some k | None => Some (KFile []) end /\ (forall r, r <> q -> look fs' r = look fs r) /\ wf_fs fs'
  | (fs', Raise e) => fs' = fs /\ (forall q, ~ place_of fs cwd dir n q) /\ (e = ValueError \/ e = FileNotFoundError \/ e = NotADirectoryError)
  end.
Proof.
  intros fs cwd dir n W C. cbn [set_checkpoint]. destruct (place fs cwd dir n) as [q|e] eqn:P.
  - assert (P' := P). apply place_spec in P'. unfold exists_. destruct (look fs q) as [k|] eqn:L.
    + exists q. rewrite L. auto.
    + destruct (place_end _ _ _ _ _ W C P' L) as (c & d & -> & D). exists (c :: d). split; [assumption|]. split; [rewrite L; now apply look_set_same|]. split; [intros r N; apply look_set_other; [discriminate|congruence]|]. apply set_wf; [assumption|assumption|]. now left.
  - split; [reflexivity|]. split; [intros q H; apply place_spec in H; congruence|]. unfold place in P. destruct (is_abs n); [destruct (has_nul n)|destruct (has_nul dir || has_nul n)%bool]; try (injection P as <-; auto); apply os_walk_error in P; tauto.
Qed.
(** A checkpoint is set exactly if a file is in its place; asking never fails. *)
Theorem C93_has : forall fs cwd dir n, exists b, has_checkpoint fs cwd dir (Name n) = Ok b /\ (b = true <-> exists q c, place_of fs cwd dir n q /\ look fs q = Some (KFile c)).
Proof.
  intros fs cwd dir n. cbn [has_checkpoint]. destruct (place fs cwd dir n) as [q|e] eqn:P.
  - eexists. split; [reflexivity|]. apply place_spec in P. unfold is_file. split.
    + destruct (look fs q) as [[c| |]|] eqn:L; try discriminate. eauto.
    + intros (q' & c & P' & L). rewrite (place_fun _ _ _ _ _ _ P P'). now rewrite L.
  - exists false. split; [reflexivity|]. split; [discriminate|]. intros (q & c & P' & _). apply place_spec in P'. congruence.
Qed.
Theorem C93_not_str : forall fs cwd dir, set_checkpoint fs cwd dir NotStr = (fs, Raise TypeError) /\ has_checkpoint fs cwd dir NotStr = Raise TypeError.
Proof. split; reflexivity. Qed.
(** After setting a checkpoint, exactly the checkpoints are set which were set before, and those - of this or any other checkpoint object, by whatever
    name - which are in the same place, if there was nothing. *)
Theorem C93_set_has : forall fs cwd dir n fs' q cwd2 dir2 m, wf_fs fs -> look fs cwd = Some KDir -> set_checkpoint fs cwd dir (Name n) = (fs', Ok tt) -> place_of fs cwd dir n q ->
  (has_checkpoint fs' cwd2 dir2 (Name m) = Ok true <-> has_checkpoint fs cwd2 dir2 (Name m) = Ok true \/ look fs q = None /\ place_of fs cwd2 dir2 m q).
Proof.
  intros fs cwd dir n fs' q cwd2 dir2 m W C S P. assert (X := C93_set fs cwd dir n W C). rewrite S in X. destruct X as (q' & P' & L & O & W'). rewrite (place_fun _ _ _ _ _ _ P' P) in *. clear P' q'.
  assert (D : forall r, look fs' r = Some KDir <-> look fs r = Some KDir). { intros r. destruct (rpath_eqb_spec r q) as [->|N]; [|now rewrite O]. rewrite L. destruct (look fs q); [reflexivity|split; discriminate]. }
  assert (H : forall fs0, has_checkpoint fs0 cwd2 dir2 (Name m) = Ok true <-> exists q c, place_of fs0 cwd2 dir2 m q /\ look fs0 q = Some (KFile c)).
  { intros fs0. destruct (C93_has fs0 cwd2 dir2 m) as (b & E & I). rewrite E. rewrite <- I. split; congruence. }
  rewrite !H. split.
  - intros (r & c & P2 & L2). rewrite (place_dirs _ _ _ _ _ _ D) in P2. destruct (rpath_eqb_spec r q) as [->|N].
    + rewrite L in L2. destruct (look fs q) eqn:E; [left; exists q, c; split; [assumption|congruence]|right; auto].
    + left. exists r, c. rewrite O in L2 by assumption. auto.
  - intros [(r & c & P2 & L2)|(E & P2)].
    + exists r, c. rewrite (place_dirs _ _ _ _ _ _ D). split; [assumption|]. destruct (rpath_eqb_spec r q) as [->|N]; [now rewrite L, L2|now rewrite O].
    + exists q, []. rewrite (place_dirs _ _ _ _ _ _ D). split; [assumption|]. now rewrite L, E.
Qed.
(** Resetting empties the directory - of checkpoints, other files and subdirectories alike - and leaves everything else as it is. *)
Lemma reset_spec fs cwd dir q c : wf_fs fs -> leads fs cwd dir q -> look fs q = Some KDir -> ends_in dir c ->
  exists fs', reset_checkpoints fs cwd dir = (fs', Ok tt) /\ look fs' q = Some KDir /\ (forall x l, look fs' (x :: l ++ q) = None) /\ (forall r, ~ below q r -> look fs' r = look fs r) /\ wf_fs fs'.
Proof.
  intros W L D E. assert (N : has_nul dir = false) by (apply has_nul_spec, L). assert (R := leads_resolve _ _ _ _ L). destruct (ends_leads _ _ _ _ _ E L) as (d & -> & Dd). destruct (ends_parts _ _ E) as (l & P & U).
  apply (start_leads _ _ _ _ N) in L. unfold reset_checkpoints. rewrite N, L, D. assert ((match parts dir with [] => true | l0 => str_eqb (last l0 []) !!".." end) = false) as ->.
  { rewrite P. destruct l as [|x l]; [exact U|]. cbn [app]. rewrite app_comm_cons, last_last. exact U. }
  assert (R1 := look_rmtree fs c d). unfold rmtree in *. cbn [fst] in R1. set (fs1 := filter _ fs) in *. unfold open_directory. rewrite R.
  assert (W1 : wf_fs fs1).
  { intros x r k K. rewrite R1 in K. rewrite R1. destruct (at_or_below (c :: d) (x :: r)) eqn:B1; [discriminate|]. destruct (at_or_below (c :: d) r) eqn:B2; [|now apply W in K].
    apply at_or_below_spec in B2. assert (at_or_below (c :: d) (x :: r) = true) by (apply at_or_below_spec; now apply below_cons). congruence. }
  assert (AB : forall a, below a (c :: d) -> a <> c :: d -> look fs1 a = Some KDir).
  { intros a B Na. rewrite R1. destruct (at_or_below (c :: d) a) eqn:B2; [apply at_or_below_spec in B2; exfalso; apply Na; now apply below_antisym|]. now apply (wf_above fs a (c :: d) KDir). }
  assert (Q1 : look fs1 (c :: d) = None) by (rewrite R1; assert (at_or_below (c :: d) (c :: d) = true) as -> by (apply at_or_below_spec, below_refl); reflexivity).
  assert (S := mkdir_p_spec fs1 (c :: d) W1). destruct (mkdir_p fs1 (c :: d)) as [fs2 [u|e]].
  - destruct u. destruct S as (_ & M). exists fs2. split; [reflexivity|]. assert (W2 := made_wf _ _ _ W1 M). destruct M as (M1 & M2). split; [apply M1, below_refl|]. split; [|split; [|assumption]].
    + intros x l0. change (x :: l0 ++ c :: d) with ((x :: l0) ++ c :: d). rewrite M2.
      * rewrite R1. assert (at_or_below (c :: d) ((x :: l0) ++ c :: d) = true) as -> by (apply at_or_below_spec; now exists (x :: l0)). reflexivity.
      * intros B. assert (X := below_antisym _ _ B (ex_intro _ (x :: l0) eq_refl)). apply (f_equal (@length _)) in X. rewrite app_length in X. simpl in X. lia.
    + intros r Nr. destruct (at_or_below r (c :: d)) eqn:B.
      * apply at_or_below_spec in B. rewrite (M1 r B). symmetry. apply (wf_above fs r (c :: d) KDir); auto. intros ->. apply Nr, below_refl.
      * assert (~ below r (c :: d)) as B' by (intros X; apply at_or_below_spec in X; congruence). rewrite (M2 r B'), R1. destruct (at_or_below (c :: d) r) eqn:B2; [apply at_or_below_spec in B2; contradiction|reflexivity].
  - exfalso. destruct S as (_ & [(_ & k & K & _)|(_ & a & B & Na & k & K & NK)]); [congruence|]. rewrite (AB a B Na) in K. congruence.
Qed.
Theorem C93_reset : forall fs cwd dir q c, wf_fs fs -> leads fs cwd dir q -> look fs q = Some KDir -> ends_in dir c ->
  exists fs', reset_checkpoints fs cwd dir = (fs', Ok tt) /\ look fs' q = Some KDir /\ (forall r, below q r -> r <> q -> look fs' r = None) /\ (forall r, ~ below q r -> look fs' r = look fs r).
Proof.
  intros fs cwd dir q c W L D E. destruct (reset_spec fs cwd dir q c W L D E) as (fs' & R & A & B & O & _). exists fs'. split; [assumption|]. split; [assumption|]. split; [|assumption].
  intros r ([|x l] & ->) N; [now destruct N|]. apply B.
Qed.
(** A reset which dies on the way has deleted some of what is in the directory - possibly the directory too - and nothing else; opening the directory again
    brings it back, and a second reset finishes the work.  [left] says what the first one left. *)
Theorem C93_crashed_reset : forall fs cwd dir q c (left : list str -> bool), wf_fs fs -> Forall proper cwd -> leads fs cwd dir q -> look fs q = Some KDir -> ends_in dir c ->
  let crashed := filter (fun e => negb (at_or_below q (fst e)) || left (fst e)) fs in wf_fs crashed ->
  exists fs1, open_directory crashed cwd dir = (fs1, Ok tt) /\ look fs1 q = Some KDir /\
    (forall r, ~ below q r -> look fs1 r = look fs r) /\ (forall r, below q r -> r <> q -> look fs1 r = if left r then look fs r else None).
Proof.
  intros fs cwd dir q c left W PC L D E crashed W1. assert (R := leads_resolve _ _ _ _ L). destruct (ends_leads _ _ _ _ _ E L) as (d & -> & Dd). unfold open_directory. rewrite R.
  assert (LC : forall r, r <> [] -> look crashed r = if negb (at_or_below (c :: d) r) || left r then look fs r else None).
  { intros [|x r] Nr; [now destruct Nr|]. simpl look. unfold crashed. rewrite (find_filter fs (fun k => negb (at_or_below (c :: d) k) || left k)). reflexivity. }
  assert (AB : forall a, below a (c :: d) -> a <> c :: d -> look crashed a = Some KDir).
  { intros a B Na. destruct a as [|x a]; [reflexivity|]. rewrite LC by discriminate. destruct (at_or_below (c :: d) (x :: a)) eqn:B2; [apply at_or_below_spec in B2; exfalso; apply Na; now apply below_antisym|]. cbn [negb orb]. now apply (wf_above fs (x :: a) (c :: d) KDir). }
  assert (Q1 : look crashed (c :: d) = Some KDir \/ look crashed (c :: d) = None) by (rewrite LC by discriminate; destruct (negb _ || left _); auto).
  assert (S := mkdir_p_spec crashed (c :: d) W1). destruct (mkdir_p crashed (c :: d)) as [fs2 [u|e]].
  - destruct u. destruct S as (_ & M1 & M2). exists fs2. split; [reflexivity|]. split; [apply M1, below_refl|]. split.
    + intros r Nr. destruct (at_or_below r (c :: d)) eqn:B.
      * apply at_or_below_spec in B. rewrite (M1 r B). symmetry. apply (wf_above fs r (c :: d) KDir); auto. intros ->. apply Nr, below_refl.
      * assert (~ below r (c :: d)) as B' by (intros X; apply at_or_below_spec in X; congruence). rewrite (M2 r B'). destruct r as [|x r]; [reflexivity|]. rewrite LC by discriminate. destruct (at_or_below (c :: d) (x :: r)) eqn:B2; [apply at_or_below_spec in B2; contradiction|reflexivity].
    + intros r B Nr. assert (~ below r (c :: d)) as B' by (intros X; apply Nr; now apply below_antisym). rewrite (M2 r B'). rewrite LC by (intros ->; apply below_nil in B; discriminate). apply at_or_below_spec in B. rewrite B. reflexivity.
  - exfalso. destruct S as (_ & [(_ & k & K & NK)|(_ & a & B & Na & k & K & NK)]); [destruct Q1; congruence|]. rewrite (AB a B Na) in K. congruence.
Qed.

(** ** Histories *)
(** [at_] gives the place of each directory.  The checkpoint [n] of the directory at [q] has been set since the last reset of that directory, or was there at
    the beginning and there was no reset. *)
Definition resets (at_ : str -> list str) (q : list str) (c : call) : Prop := match c with Reset dir => at_ dir = q | Set_ _ _ => False end.
Definition checked (at_ : str -> list str) (fs : list (list str * fnode)) (h : list call) (q : list str) (n : str) : Prop :=
  (exists h1 dir h2, h = h1 ++ Set_ dir n :: h2 /\ at_ dir = q /\ forall c, In c h2 -> ~ resets at_ q c) \/
  ((exists b, look fs (n :: q) = Some (KFile b)) /\ forall c, In c h -> ~ resets at_ q c).
Definition used (c : call) : str := match c with Set_ dir _ => dir | Reset dir => dir end.
(** A directory given by a path without "..", and not just "/" or ".", of which [q] is the place, and which contains no subdirectories. *)
Definition checkpoint_directory (fs : list (list str * fnode)) (cwd : list str) (dir : str) (q : list str) : Prop :=
  ~ In 0%N dir /\ ~ In !!".." (py_split slash dir) /\ (exists c, ends_in dir c) /\ denotes cwd dir q /\ look fs q = Some KDir /\ forall n, free fs (n :: q).

Lemma walk_plain fs cs : wf_fs fs -> ~ In !!".." cs -> forall r, look fs (walk_comps r cs) = Some KDir -> (forall a, below a r -> below a (walk_comps r cs)) /\ opens fs r cs (walk_comps r cs).
Proof.
  intros W. induction cs as [|c cs IH]; intros N r L; [split; [auto|constructor]|]. cbn [walk_comps] in *. destruct (str_eqb c [] || str_eqb c !!".") eqn:K.
  - apply orb_true_iff in K. rewrite !str_eqb_eq in K. destruct (IH (fun I => N (or_intror I)) r L) as (A & B). split; [assumption|now apply op_stay].
  - apply orb_false_iff in K. rewrite !str_eqb_neq in K. destruct (str_eqb c !!"..") eqn:U; [apply str_eqb_eq in U; destruct N; simpl; auto|]. apply str_eqb_neq in U.
    destruct (IH (fun I => N (or_intror I)) (c :: r) L) as (A & B). split; [intros a Ha; apply A; now apply below_cons|]. apply op_into; try tauto. assert (X := A r (below_cons r c r (below_refl r))).
    apply (wf_above fs r _ KDir W L X). intros E. assert (Y := A (c :: r) (below_refl _)). rewrite <- E in Y. now apply not_below_tail in Y.
Qed.
Lemma dir_leads fs cwd dir q : wf_fs fs -> Forall proper cwd -> ~ In 0%N dir -> ~ In !!".." (py_split slash dir) -> denotes cwd dir q -> look fs q = Some KDir -> leads fs cwd dir q.
Proof.
  intros W PC N U D L. assert (R : resolve cwd dir = Ok q) by (apply (proj1 (C80_resolution cwd dir q PC)); auto). assert (Hn : has_nul dir = false) by now apply has_nul_spec. rewrite (start_resolve _ _ Hn) in R. injection R as R.
  apply start_leads; [assumption|]. unfold parts in *. rewrite filter_keep_walk in R. apply os_walk_spec. rewrite <- R. apply walk_plain; [assumption|assumption|]. now rewrite R.
Qed.
Lemma place_plain fs cwd dir q n : wf_fs fs -> Forall proper cwd -> ~ In 0%N dir -> ~ In !!".." (py_split slash dir) -> denotes cwd dir q -> look fs q = Some KDir -> proper n -> place_of fs cwd dir n (n :: q).
Proof.
  intros W PC N U D L (P1 & P2 & P3 & P4 & P5). split; [assumption|]. right. split; [intros r ->; apply P4; simpl; auto|]. exists q. split; [now apply dir_leads|]. rewrite py_split_no by assumption. apply op_into; auto. constructor.
Qed.
(** A history of calls on any number of checkpoint directories, none inside another (several objects, or several paths, may be for the same directory): a
    checkpoint is set exactly if it was set since the last reset of its directory, or was there before and there was no reset. *)
Theorem C93_history : forall fs cwd at_ h dir n, wf_fs fs -> look fs cwd = Some KDir -> Forall proper cwd ->
  (forall d, In d (dir :: map used h) -> checkpoint_directory fs cwd d (at_ d)) ->
  (forall d d', In d (dir :: map used h) -> In d' (dir :: map used h) -> below (at_ d) (at_ d') -> at_ d = at_ d') ->
  (forall d m, In (Set_ d m) h -> proper m) -> proper n ->
  exists b, has_checkpoint (run_calls cwd fs h) cwd dir (Name n) = Ok b /\ (b = true <-> checked at_ fs h (at_ dir) n).
Proof.
  intros fs cwd at_ h dir n W C PC HD HB HN Pn.
  assert (INV : wf_fs (run_calls cwd fs h) /\ (look (run_calls cwd fs h) cwd = Some KDir \/ exists d, In d (map used h) /\ below (at_ d) cwd) /\ (forall d, In d (dir :: map used h) -> checkpoint_directory (run_calls cwd fs h) cwd d (at_ d)) /\
    forall d m, In d (dir :: map used h) -> proper m -> ((exists b, look (run_calls cwd fs h) (m :: at_ d) = Some (KFile b)) <-> checked at_ fs h (at_ d) m)).
  { set (D := dir :: map used h) in *. assert (HU : forall c, In c h -> In (used c) D) by (intros c I; right; now apply in_map). clearbody D. revert HU HN. clear Pn. induction h as [|c h IH] using rev_ind; intros HU HN.
    - split; [assumption|]. split; [auto|]. split; [assumption|]. intros d m I Pm. split; [intros X; right; split; [assumption|intros c []]|]. intros [(h1 & x & h2 & E & _)|(X & _)]; [destruct h1; discriminate|assumption].
    - destruct IH as (W1 & C1 & D1 & S1); [intros c0 I; apply HU, in_or_app; auto|intros d m I; apply (HN d m), in_or_app; auto|]. unfold run_calls in *. rewrite fold_left_app. cbn [fold_left]. set (fs1 := fold_left (run_call cwd) h fs) in *. clearbody fs1.
      assert (Ic : In (used c) D) by (apply HU, in_or_app; simpl; auto). destruct (D1 _ Ic) as (N0 & N1 & (e & En) & Dn & Lq & Fr). assert (Ld := dir_leads _ _ _ _ W1 PC N0 N1 Dn Lq).
      destruct c as [d0 m0|d0]; cbn [used run_call] in *.
      + assert (Pm : proper m0) by (apply (HN d0 m0), in_or_app; simpl; auto). assert (P := place_plain _ _ _ _ m0 W1 PC N0 N1 Dn Lq Pm). cbn [set_checkpoint]. assert (P' := P). apply place_spec in P'. rewrite P'.
        set (fs2 := fst _). assert (LK : forall r, look fs2 r = if rpath_eqb (m0 :: at_ d0) r then match look fs1 r with Some k => Some k | None => Some (KFile []) end else look fs1 r).
        { intros r. unfold fs2, exists_. destruct (look fs1 (m0 :: at_ d0)) as [k|] eqn:Lm; cbn [fst]; [destruct (rpath_eqb_spec (m0 :: at_ d0) r) as [<-|X]; [now rewrite Lm|reflexivity]|]. rewrite look_set by discriminate. destruct (rpath_eqb_spec (m0 :: at_ d0) r) as [<-|X]; [now rewrite Lm|reflexivity]. }
        assert (W2 : wf_fs fs2). { unfold fs2, exists_. destruct (look fs1 (m0 :: at_ d0)) as [k|] eqn:Lm; cbn [fst]; [assumption|]. apply set_wf; [assumption|assumption|now left]. }
        clearbody fs2. assert (DI : forall r, look fs1 r = Some KDir -> look fs2 r = Some KDir) by (intros r Lr; rewrite LK, Lr; now destruct (rpath_eqb _ r)).
        split; [assumption|]. split; [destruct C1 as [C1|(x & I & B)]; [auto|right; exists x; split; [rewrite map_app, in_app_iff; auto|assumption]]|]. split; [|intros d m I Pm1].
        * intros d I. destruct (D1 d I) as (A1 & A2 & A3 & A4 & A5 & A6). repeat split; auto. intros x. unfold free in *. rewrite LK. destruct (rpath_eqb _ _); [|apply A6]. destruct (A6 x) as [X|(b & X)]; rewrite X; eauto.
        * rewrite LK. destruct (rpath_eqb_spec (m0 :: at_ d0) (m :: at_ d)) as [X|X].
          -- injection X as -> X. split; [|intros _; destruct (D1 d I) as (_ & _ & _ & _ & _ & A6); destruct (A6 m) as [Z|(b & Z)]; rewrite Z; eauto]. intros _. left. exists h, d0, []. split; [reflexivity|]. split; [assumption|intros ? []].
          -- rewrite (S1 d m I Pm1). split.
             ++ intros [(h1 & x & h2 & -> & E & H)|(E & H)]; [left; exists h1, x, (h2 ++ [Set_ d0 m0]); rewrite <- app_assoc; split; [reflexivity|]; split; [assumption|]|right; split; [assumption|]]; intros c Ic1; apply in_app_or in Ic1; destruct Ic1 as [Ic1|[<-|[]]]; cbn [resets]; auto.
             ++ intros [(h1 & x & h2 & E1 & E & H)|(E & H)].
                ** destruct h2 as [|y h2 _] using rev_ind; [apply app_inj_tail in E1; destruct E1 as (_ & E1); injection E1 as -> ->; congruence|]. rewrite app_comm_cons, app_assoc in E1. apply app_inj_tail in E1. destruct E1 as (-> & _). left. exists h1, x, h2. split; [reflexivity|]. split; [assumption|]. intros c0 I0. apply H, in_or_app; auto.
                ** right. split; [assumption|]. intros c0 I0. apply H, in_or_app; auto.
      + destruct (reset_spec fs1 cwd d0 (at_ d0) e W1 Ld Lq En) as (fs2 & R & Q1 & Q2 & Q3 & W2). rewrite R. cbn [fst]. split; [assumption|]. split; [|split; [|intros d m I Pm1]].
        * destruct C1 as [C1|(x & I & B)]; [|right; exists x; split; [rewrite map_app, in_app_iff; auto|assumption]]. destruct (at_or_below (at_ d0) cwd) eqn:B; [right; exists d0; apply at_or_below_spec in B; split; [rewrite map_app, in_app_iff; simpl; auto|assumption]|]. left. rewrite Q3; [assumption|]. intros X. apply at_or_below_spec in X. congruence.
        * intros d I. destruct (D1 d I) as (A1 & A2 & A3 & A4 & A5 & A6). split; [assumption|]. split; [assumption|]. split; [assumption|]. split; [assumption|]. destruct (rpath_eqb_spec (at_ d) (at_ d0)) as [X|X].
          -- rewrite X. split; [assumption|]. intros x. left. apply (Q2 x []).
          -- split; [rewrite Q3; [assumption|intros B; apply X; symmetry; now apply HB]|]. intros x. unfold free in *. rewrite Q3; [apply A6|]. intros B. apply below_inv in B. destruct B as [B|B]; [|apply X; symmetry; now apply HB]. rewrite B in Lq. destruct (A6 x) as [Z|(b & Z)]; congruence.
        * destruct (rpath_eqb_spec (at_ d) (at_ d0)) as [X|X].
          -- rewrite X. assert (Qm := Q2 m []). cbn [app] in Qm. rewrite Qm. split; [intros (b & E); discriminate|]. intros [(h1 & x & h2 & E1 & E & H)|(E & H)]; exfalso.
             ++ destruct h2 as [|y h2 _] using rev_ind; [apply app_inj_tail in E1; destruct E1 as (_ & E1); discriminate|]. rewrite app_comm_cons, app_assoc in E1. apply app_inj_tail in E1. destruct E1 as (_ & <-). apply (H (Reset d0)); [apply in_or_app; simpl; auto|reflexivity].
             ++ apply (H (Reset d0)); [apply in_or_app; simpl; auto|reflexivity].
          -- assert (~ below (at_ d0) (m :: at_ d)) as NB. { intros B. apply below_inv in B. destruct B as [B|B]; [|apply X; symmetry; now apply HB]. destruct (D1 d I) as (_ & _ & _ & _ & _ & A6). rewrite B in Lq. destruct (A6 m) as [Z|(b & Z)]; congruence. }
             rewrite (Q3 _ NB), (S1 d m I Pm1). split.
             ++ intros [(h1 & x & h2 & -> & E & H)|(E & H)]; [left; exists h1, x, (h2 ++ [Reset d0]); rewrite <- app_assoc; split; [reflexivity|]; split; [assumption|]|right; split; [assumption|]]; intros c Ic1; apply in_app_or in Ic1; destruct Ic1 as [Ic1|[<-|[]]]; cbn [resets]; auto.
             ++ intros [(h1 & x & h2 & E1 & E & H)|(E & H)].
                ** destruct h2 as [|y h2 _] using rev_ind; [apply app_inj_tail in E1; destruct E1 as (_ & E1); discriminate|]. rewrite app_comm_cons, app_assoc in E1. apply app_inj_tail in E1. destruct E1 as (-> & _). left. exists h1, x, h2. split; [reflexivity|]. split; [assumption|]. intros c0 I0. apply H, in_or_app; auto.
                ** right. split; [assumption|]. intros c0 I0. apply H, in_or_app; auto. }
  destruct INV as (W' & _ & D' & S'). destruct (D' dir (or_introl eq_refl)) as (N0 & N1 & _ & Dn & Lq & _). assert (P := place_plain _ _ _ _ n W' PC N0 N1 Dn Lq Pn).
  destruct (C93_has (run_calls cwd fs h) cwd dir n) as (b & E & I). exists b. split; [assumption|]. rewrite I, <- (S' dir n (or_introl eq_refl) Pn). split.
  - intros (q & c & P' & L). rewrite (place_fun _ _ _ _ _ _ P' P) in L. eauto.
  - intros (c & L). eauto.
Qed.

(** ** What does not hold *)
(** A checkpoint whose name leads out of the directory survives a reset. *)
Theorem C93_outside_refuted : let fs := [([!!"w"], KDir); ([!!"ck"; !!"w"], KDir)] in let fs1 := fst (set_checkpoint fs [!!"w"] !!"ck" (Name !!"../x")) in
  has_checkpoint fs1 [!!"w"] !!"ck" (Name !!"../x") = Ok true /\
  exists fs2, reset_checkpoints fs1 [!!"w"] !!"ck" = (fs2, Ok tt) /\ has_checkpoint fs2 [!!"w"] !!"ck" (Name !!"../x") = Ok true.
Proof. cbv zeta. split; [vm_compute; reflexivity|]. eexists. split; vm_compute; reflexivity. Qed.
(** If a checkpoint directory is inside another, resetting the outer one makes the inner one unusable. *)
Theorem C93_nested_refuted : let fs := [([!!"a"], KDir); ([!!"b"; !!"a"], KDir)] in let fs1 := fst (reset_checkpoints fs [] !!"/a") in
  set_checkpoint fs [] !!"/a/b" (Name !!"x") = (([!!"x"; !!"b"; !!"a"], KFile []) :: fs, Ok tt) /\ set_checkpoint fs1 [] !!"/a/b" (Name !!"x") = (fs1, Raise FileNotFoundError).
Proof. cbv zeta. split; vm_compute; reflexivity. Qed.
(** A directory given by a relative path is another one after changing the current directory: checkpoints are gone. *)
Theorem C93_chdir_refuted : let fs := fst (open_directory [([!!"w"], KDir)] [] !!"ck") in let fs1 := fst (set_checkpoint fs [] !!"ck" (Name !!"x")) in
  has_checkpoint fs1 [] !!"ck" (Name !!"x") = Ok true /\ has_checkpoint fs1 [!!"w"] !!"ck" (Name !!"x") = Ok false /\ set_checkpoint fs1 [!!"w"] !!"ck" (Name !!"x") = (fs1, Raise FileNotFoundError).
Proof. cbv zeta. split; [|split]; vm_compute; reflexivity. Qed.
(** A name which is that of a subdirectory can be set without error, and is not set. *)
Theorem C93_subdirectory_refuted : let fs := [([!!"ck"], KDir); ([!!"s"; !!"ck"], KDir)] in set_checkpoint fs [] !!"ck" (Name !!"s") = (fs, Ok tt) /\ has_checkpoint fs [] !!"ck" (Name !!"s") = Ok false.
Proof. split; vm_compute; reflexivity. Qed.
(** Resetting a checkpoint directory given as "." deletes what is in it and fails. *)
Theorem C93_reset_here_refuted : reset_checkpoints [([!!"w"], KDir); ([!!"x"; !!"w"], KFile [])] [!!"w"] !!"." = ([([!!"w"], KDir)], Raise AnyError).
Proof. vm_compute. reflexivity. Qed.

(** ** Instances *)
Lemma plain_directory fs c : proper c -> look fs [c] = Some KDir -> (forall n, free fs (n :: [c])) -> checkpoint_directory fs [] c [c].
Proof.
  intros P L F. destruct P as (P1 & P2 & P3 & P4 & P5). assert (E : py_split slash c = [c]) by now apply py_split_no. split; [assumption|]. split; [rewrite E; intros [X|[]]; congruence|]. split; [exists c, [], []; rewrite E; repeat split; auto|]. split; [|auto].
  exists [], [c]. split; [discriminate|]. split; [intros x [<-|[]]; assumption|]. split; [reflexivity|]. split; [right; split; [intros r ->; apply P4; simpl; auto|reflexivity]|]. apply fo_into; auto. constructor.
Qed.
Definition wck : list (list str * fnode) := [([!!"a"], KDir); ([!!"b"], KDir); ([!!"old"; !!"b"], KFile [1%N])].
Example C93_witness : let h := [Set_ !!"a" !!"x"; Set_ !!"b" !!"y"; Reset !!"a"; Set_ !!"a" !!"z"] in
  has_checkpoint (run_calls [] wck h) [] !!"a" (Name !!"x") = Ok false /\ has_checkpoint (run_calls [] wck h) [] !!"a" (Name !!"z") = Ok true /\
  has_checkpoint (run_calls [] wck h) [] !!"b" (Name !!"y") = Ok true /\ has_checkpoint (run_calls [] wck h) [] !!"b" (Name !!"old") = Ok true /\
  wf_fs wck /\ checkpoint_directory wck [] !!"a" [!!"a"] /\ checkpoint_directory wck [] !!"b" [!!"b"] /\ (below [!!"a"] [!!"b"] -> False).
Proof.
  cbv zeta. do 4 (split; [vm_compute; reflexivity|]).
  assert (W : wf_fs wck).
  { intros c q k L. unfold look in L. assert (exists v, In (c :: q, v) wck) as (v & I) by (apply find_path_in; congruence). clear L. cbn [wck In] in I.
    repeat match type of I with _ \/ _ => destruct I as [I|I] end; try contradiction; injection I as <- <- _; reflexivity. }
  split; [assumption|]. assert (Q : forall c, proper c -> look wck [c] = Some KDir -> (forall n, free wck (n :: [c])) -> checkpoint_directory wck [] c [c]). { intros c P L F. now apply plain_directory. }
  assert (F : forall c n, free wck [n; c]). { intros c n. unfold free. destruct (look wck [n; c]) as [k|] eqn:L; [right|auto]. assert (X := L). unfold wck in X. cbn [look find_path] in X. destruct (rpath_eqb_spec [!!"a"] [n; c]) as [Y|_]; [discriminate Y|]. destruct (rpath_eqb_spec [!!"b"] [n; c]) as [Y|_]; [discriminate Y|].
    destruct (rpath_eqb [!!"old"; !!"b"] [n; c]); [|discriminate]. injection X as <-. eauto. }
  split; [apply Q; [repeat split; try discriminate; simpl; intuition discriminate|reflexivity|auto]|]. split; [apply Q; [repeat split; try discriminate; simpl; intuition discriminate|reflexivity|auto]|].
  intros ([|x l] & E); [discriminate|]. apply (f_equal (@length _)) in E. rewrite app_length in E. simpl in E. lia.
Qed.
Print Assumptions C93_open.
Print Assumptions C93_set.
Print Assumptions C93_set_has.
Print Assumptions C93_reset.
Print Assumptions C93_crashed_reset.
Print Assumptions C93_history.
