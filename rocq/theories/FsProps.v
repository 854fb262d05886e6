(** * C80: path-valued parameters and the file system. *)
From Verif Require Import Prelude PyStr Order Range Params ParamsSpec ParamsProofs ParamsGet ParamsGetProps TextLib Fs FsProofs.

(** What a path string denotes when there are no symbolic links: starting at the root (if it begins with a
    slash) or at the current directory, follow its slash-separated components one by one. *)
Inductive follow : list str -> list str -> list str -> Prop :=
| fo_end q : follow q [] q
| fo_stay q c cs q' : c = [] \/ c = !!"." -> follow q cs q' -> follow q (c :: cs) q'
| fo_up_root cs q' : follow [] cs q' -> follow [] (!!".." :: cs) q'
| fo_up d q cs q' : follow q cs q' -> follow (d :: q) (!!".." :: cs) q'
| fo_into q c cs q' : c <> [] -> c <> !!"." -> c <> !!".." -> follow (c :: q) cs q' -> follow q (c :: cs) q'.
Definition denotes (cwd : list str) (s : str) (q : list str) : Prop :=
  exists start cs, cs <> [] /\ (forall c, In c cs -> ~ In slash c) /\ s = py_join [slash] cs /\
    ((exists r, s = slash :: r) /\ start = [] \/ (forall r, s <> slash :: r) /\ start = cwd) /\
    follow start cs q.

Lemma follow_walk q cs q' : walk_comps q cs = q' <-> follow q cs q'.
Proof.
  revert q. induction cs as [|c cs IH]; intros q; cbn [walk_comps].
  - split; [intros ->; constructor|inversion 1; reflexivity].
  - destruct (str_eqb c [] || str_eqb c !!".") eqn:E.
    + apply orb_true_iff in E. rewrite !str_eqb_eq in E. rewrite IH. split; [now apply fo_stay|].
      inversion 1; subst; try assumption; destruct E as [E|E]. all: try congruence. all: simpl in E; discriminate E.
    + apply orb_false_iff in E. destruct E as [E1 E2]. apply str_eqb_neq in E1, E2. destruct (str_eqb c !!"..") eqn:E3.
      * apply str_eqb_eq in E3. subst. rewrite IH. split.
        -- destruct q; [apply fo_up_root|apply fo_up].
        -- inversion 1; subst; try (simpl; assumption); exfalso; simpl in *; intuition congruence.
      * apply str_eqb_neq in E3. rewrite IH. split; [now apply fo_into|].
        inversion 1; subst; try assumption; exfalso; intuition congruence.
Qed.

(** C80: Path(...).resolve() of a string without NUL gives the denoted path, which is absolute,
    normalised, and denotes itself whatever the current directory. *)
Theorem C80_resolution : forall cwd s q, Forall proper cwd ->
  (resolve cwd s = Ok q <-> ~ In 0%N s /\ denotes cwd s q) /\
  (In 0%N s <-> resolve cwd s = Raise ValueError) /\
  (resolve cwd s = Ok q -> Forall proper q /\ forall cwd', resolve cwd' (path_str q) = Ok q).
Proof.
  intros cwd s q C. assert (existsb (N.eqb 0) s = true <-> In 0%N s) as Z.
  { rewrite existsb_exists. split; [intros (x & I & E); apply N.eqb_eq in E; now subst|intros I; exists 0%N; auto]. }
  split; [|split].
  - unfold resolve. destruct (existsb (N.eqb 0) s).
    + split; [discriminate|]. intros [N _]. destruct N. now apply Z.
    + transitivity (denotes cwd s q); [|split; [intros D; split; [|assumption]; intros I; apply Z in I; discriminate|tauto]].
      set (start := match s with c :: _ => if (c =? slash)%N then [] else cwd | [] => cwd end).
      assert ((exists r, s = slash :: r) /\ start = [] \/ (forall r, s <> slash :: r) /\ start = cwd) as H.
      { unfold start. destruct s as [|x s]; [right; split; [discriminate|reflexivity]|]. destruct (N.eqb_spec x slash) as [->|N]; [left; eauto|].
        right. split; [|reflexivity]. intros r E. congruence. }
      split.
      * intros E. injection E as E. exists start, (py_split slash s). split; [apply py_split_nonnil|]. split; [intros c; apply py_split_parts|].
        split; [now rewrite py_split_join|]. split; [assumption|]. now apply follow_walk.
      * intros (st & cs & N & P & E & O & F). f_equal. assert (st = start) as ->.
        { destruct H as [[(r & H1) H2]|[H1 H2]], O as [[(r' & O1) O2]|[O1 O2]]; try congruence; exfalso; eapply O1 || eapply H1; eassumption. }
        subst s. rewrite py_join_split by assumption. now apply follow_walk.
  - unfold resolve. destruct (existsb (N.eqb 0) s); rewrite <- Z; split; congruence.
  - intros R. assert (Forall proper q) by (eapply resolve_proper; eauto). split; [assumption|]. intros. now apply resolve_printed.
Qed.
Print Assumptions C80_resolution.
Example C80_resolution_witness : resolve [!!"home"] !!"a/./b/../c//" = Ok [!!"c"; !!"a"; !!"home"] /\
  resolve [!!"home"] !!"/../x" = Ok [!!"x"] /\ resolve [!!"u"; !!"home"] !!".." = Ok [!!"home"] /\ Forall proper [!!"u"; !!"home"].
Proof. repeat split; repeat constructor; simpl; intuition discriminate. Qed.

(** The parameter [name] is a string denoting the path [q] / does not denote a path, with exception [e]. *)
Definition names_path (cwd : list str) (p : pv) (name : str) (q : list str) : Prop :=
  exists s, Stored p name (PStr s) /\ resolve cwd s = Ok q.
Inductive names_none (p : pv) (name : str) : exn -> Prop :=
| nn_absent : Absent p name -> names_none p name ParameterError
| nn_type v e : Stored p name v -> (forall s, v <> PStr s) -> wrong_type v e -> names_none p name e
| nn_nul s : Stored p name (PStr s) -> In 0%N s -> names_none p name ValueError.

Lemma path_param_spec cwd p name : wf_params p -> Forall proper cwd ->
  (forall q, names_path cwd p name q <-> path_param cwd p name = Ok q) /\ (forall e, names_none p name e <-> path_param cwd p name = Raise e).
Proof.
  intros [W _] C. unfold path_param, string_param, string_. destruct (get_spec p name is_str PNone W) as (G1 & G2 & G3).
  destruct (stored_or_absent p name W) as [(v & Hv)|A].
  - assert (CV : Candidate p name PNone v) by now constructor. destruct (is_str v) eqn:T.
    + rewrite (G1 v CV T). destruct v as [| | | |s| | | | | |]; try discriminate. cbn [bind]. destruct (C80_resolution cwd s [] C) as (_ & R2 & _). split.
      * intros q. split; [|intros E; exists s; auto]. intros (s' & H & E). assert (PStr s' = PStr s) as F by (eapply stored_unique; eauto). injection F as ->. assumption.
      * intros e. split.
        -- intros [A|v e' H N X|s' H Z].
           ++ destruct (A _ Hv).
           ++ assert (v = PStr s) by (eapply stored_unique; eauto). now destruct (N s).
           ++ assert (PStr s' = PStr s) as F by (eapply stored_unique; eauto). injection F as ->. now apply R2.
        -- intros E. assert (e = ValueError) as ->. { unfold resolve in E. destruct (existsb _ _) in E; congruence. }
           apply nn_nul with s; [assumption|]. now apply R2.
    + destruct (G2 v CV T) as (e & -> & X). cbn [bind]. split.
      * intros q. split; [|discriminate]. intros (s & H & _). assert (PStr s = v) by (eapply stored_unique; eauto). subst v. discriminate.
      * intros e'. split.
        -- intros [A|v' e2 H N X'|s H Z].
           ++ destruct (A _ Hv).
           ++ assert (v' = v) by (eapply stored_unique; eauto). subst v'. f_equal. eapply wrong_type_fun; eauto.
           ++ assert (PStr s = v) by (eapply stored_unique; eauto). subst v. discriminate.
        -- intros E. injection E as <-. apply nn_type with v; auto. intros s ->. discriminate.
  - rewrite G3 by (now apply no_candidate). cbn [bind]. split.
    + intros q. split; [|discriminate]. intros (s & H & _). destruct (A _ H).
    + intros e. split; [|intros E; injection E as <-; now constructor].
      intros [_|v e2 H N X|s H Z]; [reflexivity|destruct (A _ H)|destruct (A _ H)].
Qed.
(** Exactly one of the two holds (so the theorems below cover every case). *)
Theorem C80_cases : forall cwd p name, wf_params p -> Forall proper cwd ->
  (exists q, names_path cwd p name q /\ forall q', names_path cwd p name q' -> q' = q) /\ (forall e, ~ names_none p name e) \/
  (exists e, names_none p name e /\ forall e', names_none p name e' -> e' = e) /\ (forall q, ~ names_path cwd p name q).
Proof.
  intros cwd p name W C. destruct (path_param_spec cwd p name W C) as [P N]. destruct (path_param cwd p name) as [q|e].
  - left. split; [exists q; split; [now apply P|]|].
    + intros q' H. apply P in H. congruence.
    + intros e H. apply N in H. discriminate.
  - right. split; [exists e; split; [now apply N|]|].
    + intros e' H. apply N in H. congruence.
    + intros q H. apply P in H. discriminate.
Qed.
Print Assumptions C80_cases.

(** C80: existing_file and existing_directory return the path exactly when it is such an object. *)
Theorem C80_existing : forall cwd p name fs, wf_params p -> Forall proper cwd ->
  (forall q b, names_path cwd p name q -> look fs q = Some (KFile b) -> existing_file cwd p name fs = Ok q) /\
  (forall q, names_path cwd p name q -> (forall b, look fs q <> Some (KFile b)) -> existing_file cwd p name fs = Raise ParameterError) /\
  (forall q, names_path cwd p name q -> look fs q = Some KDir -> existing_directory cwd p name fs = Ok q) /\
  (forall q, names_path cwd p name q -> look fs q <> Some KDir -> existing_directory cwd p name fs = Raise ParameterError) /\
  (forall e, names_none p name e -> existing_file cwd p name fs = Raise e /\ existing_directory cwd p name fs = Raise e).
Proof.
  intros cwd p name fs W C. destruct (path_param_spec cwd p name W C) as [P N]. unfold existing_file, existing_directory, exists_, is_file, is_dir.
  split; [|split; [|split; [|split]]].
  - intros q b H L. apply P in H. rewrite H. simpl. now rewrite L.
  - intros q H L. apply P in H. rewrite H. simpl. destruct (look fs q) as [[b| |]|]; try reflexivity. now destruct (L b).
  - intros q H L. apply P in H. rewrite H. simpl. now rewrite L.
  - intros q H L. apply P in H. rewrite H. simpl. destruct (look fs q) as [[b| |]|]; try reflexivity. now destruct L.
  - intros e H. apply N in H. rewrite H. auto.
Qed.
Print Assumptions C80_existing.

(** A directory-making getter for the directory [d], returning [q]. *)
Definition makes (fs : list (list str * fnode)) (d q : list str) (result : list (list str * fnode) * res (list str)) : Prop :=
  (unblocked fs d -> exists fs', result = (fs', Ok q) /\ made fs fs' d) /\
  (occupied fs d -> result = (fs, Raise FileExistsError)) /\
  (forall a, below a d -> a <> d -> occupied fs a -> result = (fs, Raise NotADirectoryError)).
Lemma makes_mkdir fs d q : wf_fs fs -> makes fs d q (let (fs', r) := mkdir_p fs d in (fs', let* _ := r in Ok q)).
Proof.
  intros W. assert (M := mkdir_p_spec fs d W). destruct (mkdir_p fs d) as [fs' [u|e]]; simpl.
  - destruct M as [U M]. split; [|split].
    + intros _. eauto.
    + intros O. destruct (U d (below_refl d) O).
    + intros a B _ O. destruct (U a B O).
  - destruct M as [-> [[-> O]|[-> (a & B & N & O)]]]; split.
    + intros U. destruct (U d (below_refl d) O).
    + split; [reflexivity|]. intros a B N O'. exfalso. destruct O as (k & L & _). destruct O' as (k' & L' & N').
      rewrite (wf_above _ _ _ _ W L B N) in L'. congruence.
    + intros U. destruct (U a B O).
    + split; [|reflexivity]. intros O'. exfalso. destruct O' as (k & L & _). destruct O as (k' & L' & N').
      rewrite (wf_above _ _ _ _ W L B N) in L'. congruence.
Qed.

(** C80: creatable_directory and creatable_file.  They succeed unless something that is not a directory is in
    the way; then exactly the missing directories on the way are made (for a file: those of its parent),
    everything else is untouched; on failure nothing at all changes. *)
Theorem C80_creatable : forall cwd p name fs, wf_params p -> Forall proper cwd -> wf_fs fs ->
  (forall q, names_path cwd p name q -> makes fs q q (creatable_directory cwd p name fs)) /\
  (forall c d, names_path cwd p name (c :: d) -> makes fs d (c :: d) (creatable_file cwd p name fs)) /\
  (names_path cwd p name [] -> creatable_file cwd p name fs = (fs, Ok [])) /\
  (forall e, names_none p name e -> creatable_directory cwd p name fs = (fs, Raise e) /\ creatable_file cwd p name fs = (fs, Raise e)).
Proof.
  intros cwd p name fs W C F. destruct (path_param_spec cwd p name W C) as [P N]. unfold creatable_directory, creatable_file. split; [|split; [|split]].
  - intros q H. apply P in H. rewrite H. now apply makes_mkdir.
  - intros c d H. apply P in H. rewrite H. now apply makes_mkdir.
  - intros H. apply P in H. rewrite H. reflexivity.
  - intros e H. apply N in H. rewrite H. auto.
Qed.
Print Assumptions C80_creatable.

(** C80: creatable_empty_directory. *)
Theorem C80_creatable_empty : forall cwd p name fs delete, wf_params p -> Forall proper cwd -> wf_fs fs ->
  let empty q := look fs q = Some KDir /\ forall c, look fs (c :: q) = None in
  let result := creatable_empty_directory cwd p name delete fs in
  (forall q, names_path cwd p name q -> empty q -> result = (fs, Ok q)) /\
  (forall q c, names_path cwd p name q -> look fs (c :: q) <> None -> delete = false -> result = (fs, Raise ParameterError)) /\
  (forall q c, names_path cwd p name q -> look fs (c :: q) <> None -> delete = true -> q <> [] ->
     exists fs', result = (fs', Ok q) /\ look fs' q = Some KDir /\
       (forall r, below q r -> r <> q -> look fs' r = None) /\ (forall r, ~ below q r -> same_at fs fs' r)) /\
  (forall q, names_path cwd p name q -> occupied fs q -> result = (fs, Raise ParameterError)) /\
  (forall q, names_path cwd p name q -> look fs q = None -> makes fs q q result) /\
  (forall e, names_none p name e -> result = (fs, Raise e)).
Proof.
  intros cwd p name fs delete W C F empty result. destruct (path_param_spec cwd p name W C) as [P N].
  destruct (C80_creatable cwd p name fs W C F) as (CD & _). unfold result, creatable_empty_directory.
  split; [|split; [|split; [|split; [|split]]]].
  - intros q H E. apply P in H. rewrite H. apply empty_spec in E as E'. rewrite E'. apply proj1, is_dir_true in E. rewrite E. reflexivity.
  - intros q c H L ->. apply P in H. rewrite H. destruct (look fs (c :: q)) as [k|] eqn:K; [|congruence]. apply F in K as K'. apply is_dir_true in K'. rewrite K'.
    destruct (is_empty_directory fs q) eqn:E; [|reflexivity]. apply empty_spec in E. rewrite (proj2 E c) in K. discriminate.
  - intros q c H L -> R. apply P in H. rewrite H. destruct (look fs (c :: q)) as [k|] eqn:K; [|congruence]. apply F in K as K'.
    assert (is_dir fs q = true) as -> by now apply is_dir_true.
    destruct (is_empty_directory fs q) eqn:E; [apply empty_spec in E; rewrite (proj2 E c) in K; discriminate|]. cbn [negb].
    destruct q as [|x q]; [congruence|]. assert (LR := look_rmtree fs x q). unfold rmtree in *. cbn [fst] in LR.
    set (fs1 := filter _ fs) in *. 
    assert (wf_fs fs1) as W1.
    { intros y r k1 L1. rewrite LR in *. destruct (at_or_below (x :: q) (y :: r)) eqn:B; [discriminate|]. apply F in L1.
      destruct (at_or_below (x :: q) r) eqn:B'; [|assumption]. apply at_or_below_spec in B'. apply (below_cons _ y) in B'. apply at_or_below_spec in B'. congruence. }
    assert (M := mkdir_p_spec fs1 (x :: q) W1).
    assert (unblocked fs1 (x :: q)) as U.
    { intros d B (k1 & L1 & N1). rewrite LR in L1. destruct (at_or_below (x :: q) d); [discriminate|]. rewrite (dir_all_above _ _ F K' d B) in L1. congruence. }
    destruct (mkdir_p fs1 (x :: q)) as [fs2 [u|e]].
    + destruct M as [_ [M1 M2]]. exists fs2. split; [reflexivity|]. split; [apply M1, below_refl|]. split.
      * intros r B D. rewrite M2, LR; [apply at_or_below_spec in B; now rewrite B|]. intros B'. apply D. now apply below_antisym.
      * intros r B. unfold same_at. destruct (at_or_below r (x :: q)) eqn:A.
        -- apply at_or_below_spec in A. rewrite M1 by assumption. symmetry. exact (dir_all_above _ _ F K' r A).
        -- rewrite M2, LR; [destruct (at_or_below (x :: q) r) eqn:B2; [apply at_or_below_spec in B2; contradiction|reflexivity]|].
           intros A'. apply at_or_below_spec in A'. congruence.
    + exfalso. destruct M as [_ [[_ O]|[_ (d & B & _ & O)]]]; [exact (U _ (below_refl _) O)|exact (U _ B O)].
  - intros q H (k & L & K). apply P in H. rewrite H. unfold is_dir, exists_. rewrite L. destruct k; try reflexivity. congruence.
  - intros q H L. apply P in H as H'. rewrite H'. unfold is_dir, exists_. rewrite L. now apply CD.
  - intros e H. apply N in H. rewrite H. reflexivity.
Qed.
Print Assumptions C80_creatable_empty.

(** C80: the optional variants return None exactly when the parameter is missing or null, and do what the
    required ones do otherwise. *)
Theorem C80_optional : forall cwd p name fs delete, wf_params p ->
  let some {A} (r : list (list str * fnode) * res A) := (fst r, let* a := snd r in Ok (Some a)) in
  (Absent p name \/ Stored p name PNone ->
     optional_creatable_directory cwd p name fs = (fs, Ok None) /\ optional_creatable_file cwd p name fs = (fs, Ok None) /\
     optional_creatable_empty_directory cwd p name delete fs = (fs, Ok None) /\
     optional_existing_file cwd p name fs = Ok None /\ optional_existing_directory cwd p name fs = Ok None) /\
  (forall v, Stored p name v -> v <> PNone ->
     optional_creatable_directory cwd p name fs = some (creatable_directory cwd p name fs) /\
     optional_creatable_file cwd p name fs = some (creatable_file cwd p name fs) /\
     optional_creatable_empty_directory cwd p name delete fs = some (creatable_empty_directory cwd p name delete fs) /\
     optional_existing_file cwd p name fs = (let* q := existing_file cwd p name fs in Ok (Some q)) /\
     optional_existing_directory cwd p name fs = (let* q := existing_directory cwd p name fs in Ok (Some q))).
Proof.
  intros cwd p name fs delete [W _] some. split.
  - intros H. apply (contains_false _ _ W) in H. unfold optional_creatable_directory, optional_creatable_file, optional_creatable_empty_directory, optional_existing_file, optional_existing_directory, optional_fs, optional_ro. rewrite H. auto.
  - intros v H N. assert (contains p name = true) as E by (apply contains_spec; eauto). unfold some, optional_creatable_directory, optional_creatable_file, optional_creatable_empty_directory, optional_existing_file, optional_existing_directory, optional_fs, optional_ro. rewrite E.
    destruct (creatable_directory cwd p name fs), (creatable_file cwd p name fs), (creatable_empty_directory cwd p name delete fs). auto.
Qed.
Print Assumptions C80_optional.

(** C80: what a caller can rely on after success: the directory exists (and is empty), asking again for an
    existing directory gives it back, repeating the call changes nothing, and the file system stays possible. *)
Theorem C80_after : forall cwd p name fs fs' q, wf_params p -> Forall proper cwd -> wf_fs fs -> q <> [] ->
  (creatable_directory cwd p name fs = (fs', Ok q) ->
     wf_fs fs' /\ existing_directory cwd p name fs' = Ok q /\ creatable_directory cwd p name fs' = (fs', Ok q)) /\
  (creatable_file cwd p name fs = (fs', Ok q) ->
     wf_fs fs' /\ look fs' (tl q) = Some KDir /\ same_at fs fs' q /\ creatable_file cwd p name fs' = (fs', Ok q)) /\
  (forall delete, creatable_empty_directory cwd p name delete fs = (fs', Ok q) ->
     wf_fs fs' /\ look fs' q = Some KDir /\ (forall c, look fs' (c :: q) = None) /\ creatable_empty_directory cwd p name false fs' = (fs', Ok q)).
Proof.
  intros cwd p name fs fs' q W C F NR. destruct (path_param_spec cwd p name W C) as [P N].
  assert (rep : forall d, wf_fs fs' -> look fs' d = Some KDir -> mkdir_p fs' d = (fs', Ok tt)).
  { intros d W' L. rewrite mkdir_p_unfold. destruct d as [|c d]; [reflexivity|]. assert (S1 := search_spec fs' d W'). unfold os_mkdir.
    apply W' in L as L'. destruct (search fs' d) as [u|e]; cbn [bind].
    - rewrite L. unfold is_dir. now rewrite L.
    - exfalso. destruct S1 as [(_ & K & _)|(_ & a & B & (k & K & NK))]; [congruence|]. rewrite (dir_all_above _ _ W' L' a B) in K. congruence. }
  split; [|split].
  - unfold creatable_directory, existing_directory. destruct (path_param cwd p name) as [q0|e]; [|discriminate]. intros E.
    assert (M := mkdir_p_spec fs q0 F). destruct (mkdir_p fs q0) as [fs1 [u|e]]; simpl in E; inversion E; subst; clear E.
    destruct M as [_ M]. assert (W' := made_wf _ _ _ F M). assert (L : look fs' q = Some KDir) by (apply (proj1 M), below_refl).
    split; [assumption|]. split; [simpl; unfold exists_, is_dir; now rewrite L|]. now rewrite rep.
  - unfold creatable_file. destruct (path_param cwd p name) as [q0|e]; [|discriminate]. intros E.
    assert (M := mkdir_p_spec fs (tl q0) F). destruct (mkdir_p fs (tl q0)) as [fs1 [u|e]]; simpl in E; inversion E; subst; clear E.
    destruct M as [_ M]. assert (W' := made_wf _ _ _ F M). assert (L : look fs' (tl q) = Some KDir) by (apply (proj1 M), below_refl).
    split; [assumption|]. split; [assumption|]. split; [|now rewrite rep]. apply (proj2 M). destruct q as [|c q]; [congruence|]. apply not_below_tail.
  - intros delete E. destruct (C80_creatable_empty cwd p name fs delete W C F) as (E1 & E2 & E3 & E4 & E5 & E6).
    destruct (C80_cases cwd p name W C) as [((q0 & H & U) & _)|((e & H & _) & _)]; [|rewrite (E6 e H) in E; discriminate].
    assert (q0 = q) as -> .
    { destruct (look fs q0) as [[b| |]|] eqn:L.
      - rewrite (E4 q0 H) in E; [discriminate|]. exists (KFile b). split; [assumption|discriminate].
      - destruct (is_empty_directory fs q0) eqn:EM.
        + apply empty_spec in EM. rewrite (E1 q0 H EM) in E. inversion E; reflexivity.
        + apply P in H. unfold creatable_empty_directory in E. rewrite H, EM in E. unfold is_dir in E. rewrite L in E. cbn [negb] in E. destruct delete; [|discriminate].
          destruct (rmtree fs q0) as [f1 [u|e]]; [|discriminate]. destruct (mkdir_p f1 q0) as [f2 [u'|e]]; simpl in E; inversion E. reflexivity.
      - rewrite (E4 q0 H) in E; [discriminate|]. exists KOther. split; [assumption|discriminate].
      - apply P in H. unfold creatable_empty_directory, creatable_directory in E. rewrite H in E. unfold is_dir, exists_ in E. rewrite L in E.
        destruct (mkdir_p fs q0) as [f2 [u'|e]]; simpl in E; inversion E. reflexivity. }
    assert (R : wf_fs fs' /\ look fs' q = Some KDir /\ forall c, look fs' (c :: q) = None).
    { destruct (look fs q) as [k|] eqn:L.
      - destruct (is_empty_directory fs q) eqn:EM.
        + apply empty_spec in EM. rewrite (E1 q H EM) in E. inversion E; subst. split; [assumption|exact EM].
        + assert (k = KDir) as ->. { destruct k; try reflexivity; rewrite (E4 q H) in E; try discriminate; eexists; split; try eassumption; discriminate. }
          assert (exists c, look fs (c :: q) <> None) as (c & K).
          { unfold is_empty_directory in EM. apply is_dir_true in L. rewrite L in EM. simpl in EM. apply negb_false_iff in EM. apply existsb_exists in EM.
            destruct EM as ([k v] & I1 & I2). unfold child_of in I2. simpl in I2. destruct k as [|c r]; [discriminate|]. destruct (rpath_eqb_spec r q) as [->|]; [|discriminate].
            exists c. simpl. apply find_path_in. eauto. }
          destruct delete; [|rewrite (E2 q c H K eq_refl) in E; discriminate].
          destruct (E3 q c H K eq_refl NR) as (f & X & Y1 & Y2 & Y3). rewrite X in E. inversion E; subst f; clear E X.
          assert (DA := dir_all_above _ _ F L).
          split; [|split; [assumption|intros c'; apply Y2; [apply below_cons, below_refl|intros Z; apply (f_equal (@length _)) in Z; simpl in Z; lia]]].
          intros y r k1 L1. destruct (at_or_below q (y :: r)) eqn:B.
          * apply at_or_below_spec in B. destruct (list_eq_dec (list_eq_dec N.eq_dec) (y :: r) q) as [Z|Z]; [|rewrite (Y2 _ B Z) in L1; discriminate].
            rewrite (Y3 r); [apply DA; exists [y]; now rewrite <- Z|]. rewrite <- Z. apply not_below_tail.
          * assert (~ below q (y :: r)) as B1 by (intros K1; apply at_or_below_spec in K1; congruence).
            assert (~ below q r) as B2 by (intros K1; apply B1; now apply below_cons). rewrite (Y3 _ B1) in L1. rewrite (Y3 _ B2). eauto.
      - destruct (E5 q H L) as (M1 & M2 & M3). assert (M := mkdir_p_spec fs q F). apply P in H. unfold creatable_empty_directory, creatable_directory in E. rewrite H in E. unfold is_dir, exists_ in E. rewrite L in E.
        destruct (mkdir_p fs q) as [f2 [u'|e]]; simpl in E; inversion E; subst. destruct M as [_ M]. split; [eapply made_wf; eauto|]. split; [apply (proj1 M), below_refl|].
        intros c. rewrite (proj2 M); [|apply not_below_tail]. destruct (look fs (c :: q)) eqn:K; [apply F in K; congruence|reflexivity]. }
    destruct R as (R1 & R2 & R3). split; [assumption|]. split; [assumption|]. split; [assumption|].
    destruct (C80_creatable_empty cwd p name fs' false W C R1) as (X1 & _). apply X1; auto.
Qed.
Print Assumptions C80_after.

(** C80, the limit of creatable_file: nothing checks that the path is not itself a directory. *)
Definition ex_fs : list (list str * fnode) :=
  [([!!"home"], KDir); ([!!"u"; !!"home"], KDir); ([!!"f"; !!"home"], KFile []); ([!!"x"; !!"u"; !!"home"], KFile !!"hello")].
Definition ex_cfg (s : str) : pv := PParams [] [(!!"out", PStr s)].
(** "A file path which can be created": creatable_file accepts a path that is an existing directory. *)
Theorem C80_creatable_file_is_directory_refuted : exists cwd p name fs q, wf_params p /\ Forall proper cwd /\ wf_fs fs /\
  creatable_file cwd p name fs = (fs, Ok q) /\ look fs q = Some KDir.
Proof.
  exists [], (ex_cfg !!"/home/u"), !!"out", ex_fs, [!!"u"; !!"home"]. split.
  { split; [|reflexivity]. simpl. repeat split; repeat constructor; simpl; unfold dotless; simpl; intuition discriminate. }
  split; [constructor|]. split; [|split; reflexivity].
  intros c q k. simpl. destruct q as [|c2 q]; [reflexivity|].
  repeat match goal with |- context [rpath_eqb ?a ?b] => destruct (rpath_eqb_spec a b); [try congruence|] end; try congruence;
  match goal with H : _ = c :: c2 :: q |- _ => injection H as <- <- <-; reflexivity end.
Qed.
Print Assumptions C80_creatable_file_is_directory_refuted.
Example C80_witness :
  snd (creatable_directory [] (ex_cfg !!"home/u/new/deep") !!"out" ex_fs) = Ok [!!"deep"; !!"new"; !!"u"; !!"home"] /\
  creatable_directory [] (ex_cfg !!"home/f/new") !!"out" ex_fs = (ex_fs, Raise NotADirectoryError) /\
  creatable_directory [] (ex_cfg !!"home/f") !!"out" ex_fs = (ex_fs, Raise FileExistsError) /\
  creatable_empty_directory [] (ex_cfg !!"home/u") !!"out" false ex_fs = (ex_fs, Raise ParameterError) /\
  look (fst (creatable_empty_directory [] (ex_cfg !!"home/u") !!"out" true ex_fs)) [!!"x"; !!"u"; !!"home"] = None /\
  existing_file [] (ex_cfg !!"/home/f") !!"out" ex_fs = Ok [!!"f"; !!"home"].
Proof. repeat split. Qed.
