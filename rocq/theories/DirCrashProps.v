(** * C105: what a process that dies leaves of a directory store *)
From Coq Require Import Sorted Permutation.
From Verif Require Import Prelude PyStr SortLib TextLib Utf8 AnnotatedTextProps Params ParamsSpec ParamsProofs Fs FsProofs FsProps PathLists PathListsProps Io IoProps KeyValue KeyValueProps KvParams Mains MainsProofs Load OsPath OsPathProofs LoadFs LoadFsSpec LoadFsProps DirFs DirFsProps DirCrash.

Section DirCrashProps.
Notation fsys := (list (list str * fnode)) (only parsing).
(** The file below the directory [d] with these components. *)
Notation file_of d cs := (rev cs ++ d).
Variable cwd : list str.

(** ** Specification *)
(** [st] is [fs] with some new directories on the way to [q]. *)
Definition grown (fs st : fsys) (q : list str) : Prop :=
  forall a, look st a = look fs a \/ (look fs a = None /\ look st a = Some KDir /\ below a q).
(** The document in the file [cs] after the puts [ran]: nothing if none of them named it, else what the last one put. *)
Definition document (bytes_ : bool) (ran : list (str * value)) (cs : list str) (x : option fnode) : Prop :=
  ((forall k v, In (k, v) ran -> ~ plain_key k cs) -> x = None) /\ (forall v b, last_write cs v ran -> accepts bytes_ v b -> x = Some (KFile b)).
(** [part] is a beginning of [whole]. *)
Definition begins {A} (part whole : list A) : Prop := exists rest, whole = part ++ rest.

(** ** Proofs *)
Lemma states_unfold fs root rp : mkdir_states cwd fs root rp =
  match mkdir_at cwd fs (MkPath root (rev rp)) with
  | Ok fs' => [fs; fs']
  | Raise FileNotFoundError =>
      match rp with
      | [] => [fs]
      | _ :: r =>
          mkdir_states cwd fs root r ++
          match mkdir_parents cwd fs root r with
          | (fs1, Ok _) => match mkdir_at cwd fs1 (MkPath root (rev rp)) with Ok fs2 => [fs2] | Raise _ => [] end
          | _ => []
          end
      end
  | Raise _ => [fs]
  end.
Proof. destruct rp; reflexivity. Qed.
Lemma grown_refl fs q : grown fs fs q.
Proof. intros a. now left. Qed.
Lemma grown_cons fs st c q : grown fs st q -> grown fs st (c :: q).
Proof. intros G a. destruct (G a) as [E|(N & D & B)]; [now left|right]. split; [assumption|]. split; [assumption|]. now apply below_cons. Qed.
Lemma grown_wf fs st q : wf_fs fs -> grown fs st q -> wf_fs st -> wf_fs st.
Proof. auto. Qed.
Lemma made_grown fs fs' q : unblocked fs q -> made fs fs' q -> grown fs fs' q.
Proof.
  intros U (M1 & M2) a. destruct (at_or_below a q) eqn:X.
  - apply at_or_below_spec in X. rewrite (M1 a X). destruct (look fs a) as [k|] eqn:L; [|right; auto]. left. destruct k; try reflexivity; exfalso; apply (U a X); eexists; (split; [exact L|discriminate]).
  - left. apply M2. intros Y. apply at_or_below_spec in Y. congruence.
Qed.
Lemma states_plain fs q : wf_fs fs -> Forall proper q -> forall st, In st (mkdir_states cwd fs 1%N q) -> grown fs st q /\ wf_fs st.
Proof.
  intros W. induction q as [|c q IH]; intros P st; rewrite states_unfold; [cbn; intros [<-|[]]; split; [apply grown_refl|assumption]|].
  change (MkPath 1 (rev (c :: q))) with (abs_path (c :: q)). rewrite mkdir_at_plain by assumption. inversion P as [|? ? P1 P2]; subst.
  assert (One : forall fs1 fs2, wf_fs fs1 -> os_mkdir fs1 (c :: q) = Ok fs2 -> grown fs fs1 q -> grown fs fs2 (c :: q) /\ wf_fs fs2).
  { intros fs1 fs2 W1 E G. unfold os_mkdir in E. assert (S1 := search_spec fs1 q W1). destruct (search fs1 q) as [[]|e]; [|discriminate]. cbn [bind] in E. destruct (look fs1 (c :: q)) as [k|] eqn:L; [discriminate|]. inversion E; subst; clear E.
    assert (Lk : forall a, look ((c :: q, KDir) :: fs1) a = if rpath_eqb (c :: q) a then Some KDir else look fs1 a). { intros [|x a]; [destruct (rpath_eqb_spec (c :: q) []); [discriminate|reflexivity]|]. reflexivity. }
    split.
    - intros a. rewrite Lk. destruct (rpath_eqb_spec (c :: q) a) as [<-|N].
      + right. split; [|split; [reflexivity|apply below_refl]]. destruct (G (c :: q)) as [X|(X & _)]; [now rewrite <- X|assumption].
      + destruct (G a) as [X|(X & Y & B)]; [now left|right]. split; [assumption|]. split; [assumption|]. now apply below_cons.
    - intros x r k' L'. rewrite Lk in L' |- *. destruct (rpath_eqb_spec (c :: q) r) as [_|N]; [reflexivity|]. destruct (rpath_eqb_spec (c :: q) (x :: r)) as [Ex|_]; [|eapply W1; exact L']. injection Ex as <- <-. assumption. }
  destruct (os_mkdir fs (c :: q)) as [fs'|e] eqn:E.
  - intros [<-|[<-|[]]]; [split; [apply grown_refl|assumption]|]. exact (One fs fs' W E (grown_refl fs q)).
  - assert (Same : In st [fs] -> grown fs st (c :: q) /\ wf_fs st) by (intros [<-|[]]; split; [apply grown_refl|assumption]).
    destruct e; try exact Same. intros I. apply in_app_or in I. destruct I as [I|I].
    + destruct (IH P2 st I) as (G & Ws). split; [now apply grown_cons|assumption].
    + rewrite parents_plain in I by assumption. assert (M := mkdir_p_spec fs q W). destruct (mkdir_p fs q) as [fs1 [u|e]]; [|destruct I]. destruct M as (U & M). assert (W1 : wf_fs fs1) by (eapply made_wf; eauto).
      rewrite mkdir_at_plain in I by assumption. destruct (os_mkdir fs1 (c :: q)) as [fs2|e] eqn:E2; [|destruct I]. destruct I as [<-|[]]. exact (One fs1 fs2 W1 E2 (made_grown fs fs1 q U M)).
Qed.
Lemma write_state_plain fs c q data st : wf_fs fs -> Forall proper (c :: q) -> write_state cwd fs (abs_path (c :: q)) data st ->
  wf_fs st /\ (grown fs st q \/ (writable fs (c :: q) /\ exists b, begins b data /\ filed fs st (c :: q) b)).
Proof.
  intros W P H. unfold write_state in H. unfold abs_path in H at 1 2 3 4. cbn [p_root p_parts] in H. rewrite rev_involutive in H. cbn [tl] in H. inversion P as [|? ? P1 P2]; subst.
  destruct H as [H|(fs1 & q' & b & r & M & F & C & -> & ->)].
  - destruct (states_plain fs q W P2 st H) as (G & Ws). auto.
  - assert (Ew : sink_write cwd fs (abs_path (c :: q)) (b, None) = (set_node fs1 q' b, Ok tt)).
    { unfold sink_write. unfold abs_path at 1 2. cbn [p_root p_parts]. rewrite rev_involutive. cbn [tl]. rewrite M, F. cbn [bind]. rewrite C. reflexivity. }
    destruct (write_spec cwd fs c q (b, None) W P) as (fs' & o & E & G1 & G2). rewrite Ew in E. inversion E; subst; clear E. destruct (writable_dec fs c q) as [WR|NW].
    + destruct (G1 WR) as (Fi & _). cbn [fst] in Fi. split; [eapply filed_wf; eauto|]. right. split; [assumption|]. exists b. split; [now exists r|assumption].
    + exfalso. destruct (G2 NW) as (_ & [(X & _)|[(X & _)|(X & _)]]); discriminate.
Qed.
(** C105: while a file [c :: q] is written the file system is as before, but for new directories on the way to it, until the file is opened; from then on the
    file is there with a beginning of the new content - its old content is gone -, below its directories, and nothing else is different. *)
Theorem C105_write : forall fs c q data st, wf_fs fs -> Forall proper (c :: q) -> write_state cwd fs (abs_path (c :: q)) data st ->
  wf_fs st /\ (grown fs st q \/ (writable fs (c :: q) /\ exists b, begins b data /\ filed fs st (c :: q) b)).
Proof. exact write_state_plain. Qed.
(** C105: and all these states are possible: the one before, the one after, and, if the file can be written, any beginning of the content. *)
Theorem C105_write_possible : forall fs c q data, wf_fs fs -> Forall proper (c :: q) ->
  write_state cwd fs (abs_path (c :: q)) data fs /\ (forall e, write_state cwd fs (abs_path (c :: q)) data (fst (sink_write cwd fs (abs_path (c :: q)) (data, e)))) /\
  (writable fs (c :: q) -> forall b, begins b data -> exists st, write_state cwd fs (abs_path (c :: q)) data st /\ filed fs st (c :: q) b).
Proof.
  intros fs c q data W P. inversion P as [|? ? P1 P2]; subst.
  assert (St : forall r, Forall proper r -> In fs (mkdir_states cwd fs 1%N r)).
  { induction r as [|x r IH]; intros Pr; rewrite states_unfold; [simpl; auto|]. destruct (mkdir_at cwd fs (MkPath 1 (rev (x :: r)))) as [f|e]; [simpl; auto|]. destruct e; try (simpl; auto; fail). apply in_or_app. left. apply IH. now inversion Pr. }
  assert (En : forall r, Forall proper r -> forall f o, mkdir_parents cwd fs 1%N r = (f, o) -> In f (mkdir_states cwd fs 1%N r)).
  { induction r as [|x r IH]; intros Pr f o E; rewrite parents_unfold in E; rewrite states_unfold; [cbn in E |- *; inversion E; auto|]. destruct (mkdir_at cwd fs (MkPath 1 (rev (x :: r)))) as [f1|e]; [inversion E; subst; simpl; auto|].
    assert (Pr' : Forall proper r) by now inversion Pr.
    destruct e; try (destruct (dir_at cwd fs (MkPath 1 (rev (x :: r)))); inversion E; subst; simpl; auto; fail).
    destruct (mkdir_parents cwd fs 1 r) as [f1 [u|e1]] eqn:M; [|inversion E; subst; apply in_or_app; left; exact (IH Pr' _ _ eq_refl)].
    assert (I1 := IH Pr' _ _ eq_refl). apply in_or_app. destruct (mkdir_at cwd f1 (MkPath 1 (rev (x :: r)))) as [f2|e2]; [inversion E; subst; right; simpl; auto|].
    left. destruct e2; try (inversion E; subst; assumption); destruct (dir_at cwd f1 (MkPath 1 (rev (x :: r)))); inversion E; subst; assumption. }
  assert (U : forall st, write_state cwd fs (abs_path (c :: q)) data st <-> In st (mkdir_states cwd fs 1%N q) \/
    exists fs1 q' b r, mkdir_parents cwd fs 1%N q = (fs1, Ok tt) /\ os_find cwd fs1 (abs_path (c :: q)) = Ok q' /\ can_write fs1 q' = Ok tt /\ data = b ++ r /\ st = set_node fs1 q' b).
  { intros st. unfold write_state. unfold abs_path at 1 2 3 4. cbn [p_root p_parts]. rewrite rev_involutive. reflexivity. }
  assert (Any : forall b r, data = b ++ r -> forall e, write_state cwd fs (abs_path (c :: q)) data (fst (sink_write cwd fs (abs_path (c :: q)) (b, e)))).
  { intros b r Ed e. assert (Ew : sink_write cwd fs (abs_path (c :: q)) (b, e) = match mkdir_parents cwd fs 1%N q with
      | (fs1, Raise e) => (fs1, Raise e)
      | (fs1, Ok _) => match (let* q' := os_find cwd fs1 (abs_path (c :: q)) in let* _ := can_write fs1 q' in Ok q') with Raise e => (fs1, Raise e) | Ok q' => (set_node fs1 q' b, match e with Some e => Raise e | None => Ok tt end) end
      end). { unfold sink_write. unfold abs_path at 1 2. cbn [p_root p_parts]. rewrite rev_involutive. reflexivity. }
    rewrite Ew. clear Ew. apply U. destruct (mkdir_parents cwd fs 1 q) as [f1 [[]|e1]] eqn:M; [|left; exact (En q P2 _ _ M)].
    destruct (os_find cwd f1 (abs_path (c :: q))) as [q'|e1] eqn:F; cbn [bind]; [|left; exact (En q P2 _ _ M)]. destruct (can_write f1 q') as [[]|e1] eqn:C; cbn [bind fst]; [|left; exact (En q P2 _ _ M)].
    right. exists f1, q', b, r. split; [reflexivity|]. split; [exact F|]. split; [exact C|]. split; [exact Ed|reflexivity]. }
  split; [rewrite U; left; now apply St|]. split; [apply (Any data []); now rewrite app_nil_r|].
  intros WR b (r & Ed). assert (A := Any b r Ed None). destruct (write_spec cwd fs c q (b, None) W P) as (fs' & o & E & G1 & _). rewrite E in A. cbn [fst] in A. exists fs'. split; [assumption|]. apply (G1 WR).
Qed.

Lemma enter_cases d fs st : wf_fs fs -> In st (enter_states d fs) -> (forall a, look st a = look fs a) \/ (look fs d = Some KDir /\ (forall x, look fs (x :: d) = None) /\ look st d = None /\ forall a, a <> d -> look st a = look fs a).
Proof.
  intros W [<-|I]; [left; auto|]. assert (En := C97_enter d fs W). unfold fs_enter in En. destruct (os_rmdir d fs) as [fs1|e] eqn:R; [|destruct I].
  unfold os_rmdir in R. destruct d as [|c r]; [discriminate|]. destruct (search fs r) as [u|e]; [|discriminate]. cbn [bind] in R. destruct (look fs (c :: r)) as [[]|] eqn:D; try discriminate. destruct (is_empty_directory fs (c :: r)) eqn:Em; [|discriminate].
  apply empty_spec in Em. destruct Em as (_ & Em). inversion R as [R1]. destruct I as [<-|[<-|[]]].
  - right. split; [reflexivity|]. split; [exact Em|]. assert (L1 : forall a, look fs1 a = if rpath_eqb a (c :: r) then None else look fs a).
    { intros a. destruct a as [|x a]; [reflexivity|]. cbn [look]. rewrite <- R1. rewrite (find_filter fs (fun k => negb (rpath_eqb k (c :: r)))). destruct (rpath_eqb (x :: a) (c :: r)); reflexivity. }
    split; [rewrite L1; destruct (rpath_eqb_spec (c :: r) (c :: r)); congruence|]. intros a N. rewrite L1. destruct (rpath_eqb_spec a (c :: r)); congruence.
  - left. destruct En as (En & _). destruct (En c r eq_refl eq_refl Em) as (fs' & E & _ & Sm). rewrite E. exact Sm.
Qed.
Lemma enter_ok d fs fs1 : wf_fs fs -> fs_enter d fs = (fs1, Ok tt) -> d <> [] /\ look fs d = Some KDir /\ (forall x, look fs (x :: d) = None) /\ wf_fs fs1 /\ forall a, look fs1 a = look fs a.
Proof.
  intros W E. assert (En := C97_enter d fs W). pose proof E as E'. unfold fs_enter in E'. destruct (os_rmdir d fs) as [f|e] eqn:R; [|discriminate]. unfold os_rmdir in R. destruct d as [|c r]; [discriminate|]. destruct (search fs r) as [u|e]; [|discriminate]. cbn [bind] in R.
  destruct (look fs (c :: r)) as [[]|] eqn:D; try discriminate. destruct (is_empty_directory fs (c :: r)) eqn:Em; [|discriminate]. apply empty_spec in Em. destruct Em as (_ & Em). split; [discriminate|]. split; [reflexivity|]. split; [exact Em|].
  destruct En as (En & _). destruct (En c r eq_refl eq_refl Em) as (fs' & X & W' & Sm). rewrite E in X. inversion X; subst. auto.
Qed.
Lemma enter_wf d fs st : wf_fs fs -> In st (enter_states d fs) -> wf_fs st.
Proof.
  intros W I. destruct (enter_cases d fs st W I) as [Sm|(D & Em & N & Sm)].
  - intros c q k L. rewrite Sm in L |- *. eapply W; eassumption.
  - intros c q k L. destruct (list_eq_dec (list_eq_dec N.eq_dec) (c :: q) d) as [E|Nc]; [rewrite E in L; congruence|]. rewrite (Sm _ Nc) in L. destruct (list_eq_dec (list_eq_dec N.eq_dec) q d) as [->|Nq]; [rewrite Em in L; discriminate|]. rewrite (Sm _ Nq). eapply W; eassumption.
Qed.
(** The states while a file below the directory is written. *)
Lemma inside d fs st c q data : wf_fs fs -> Forall proper (c :: q) -> look fs d = Some KDir -> below d q -> write_state cwd fs (abs_path (c :: q)) data st ->
  wf_fs st /\ forall a, ~ (below d a /\ a <> d) -> look st a = look fs a.
Proof.
  intros W P D B H. destruct (write_state_plain fs c q data st W P H) as (Ws & [G|(WR & b & Bg & (F1 & F2 & F3))]); (split; [exact Ws|]); intros a N.
  - destruct (G a) as [E|(L & _ & Ba)]; [exact E|]. exfalso. destruct (below_linear a d q Ba B) as [Y|Y].
    + assert (look fs a = Some KDir) by (eapply dir_all_above; eauto). congruence.
    + apply N. split; [assumption|]. intros ->. congruence.
  - assert (Bd : below d (c :: q)) by now apply below_cons. destruct (at_or_below a (c :: q)) eqn:X; [|apply F3; intros Y; apply at_or_below_spec in Y; congruence].
    apply at_or_below_spec in X. assert (Dd : below a d -> look fs a = Some KDir) by (intros Y; eapply dir_all_above; eauto). destruct (below_linear a d (c :: q) X Bd) as [Y|Y].
    + rewrite (Dd Y). apply F2; [assumption|]. intros ->. apply (not_below_tail c q). exact (below_trans _ _ _ Y B).
    + destruct (list_eq_dec (list_eq_dec N.eq_dec) a d) as [->|Na]; [|destruct N; auto]. rewrite D. apply F2; [assumption|]. intros ->. now apply (not_below_tail c q).
Qed.
(** C105: wherever a process using the sink dies, nothing outside the directory is different - only, if it dies in __enter__, the directory itself may be missing. *)
Theorem C105_outside : forall bytes_ d fs ops n st, wf_fs fs -> Forall proper d -> (forall k v, In (k, v) ops -> exists cs, plain_key k cs) -> session_state cwd bytes_ d fs ops n st ->
  wf_fs st /\ ((forall a, ~ (below d a /\ a <> d) -> look st a = look fs a) \/ (n = 0 /\ look fs d = Some KDir /\ look st d = None /\ forall a, a <> d -> look st a = look fs a)).
Proof.
  intros bytes_ d fs ops n st W P K H. destruct H as [st I|fs1 ran k v more fs2 m os st E -> Pu Wr|fs1 fs2 m os st E Pu Wr].
  - split; [eapply enter_wf; eauto|]. destruct (enter_cases d fs st W I) as [Sm|(D & _ & N & Sm)]; [left; auto|right; auto].
  - destruct (enter_ok d fs fs1 W E) as (_ & D & _ & W1 & Sm). assert (Q := puts_inside cwd bytes_ d ran fs1 [] (fun k v I => K k v (in_or_app _ _ _ (or_introl I))) W1 P). rewrite Sm in Q. specialize (Q D). rewrite Pu in Q. cbn [fst] in Q. destruct Q as (W2 & D2 & S2).
    destruct (K k v) as (cs & Kc); [apply in_or_app; simpl; auto|]. destruct (file_cons d cs (proj1 (proj2 (proj2 (proj2 Kc)))) (plain_proper k cs Kc) P) as (c & r & Ec & Pr & B). rewrite (out_plain d k cs Kc), Ec in Wr.
    destruct (inside d fs2 st c r _ W2 Pr D2 B Wr) as (Ws & S3). split; [exact Ws|]. left. intros a N. now rewrite S3, S2, Sm.
  - destruct (enter_ok d fs fs1 W E) as (_ & D & _ & W1 & Sm). assert (Q := puts_inside cwd bytes_ d ops fs1 [] K W1 P). rewrite Sm in Q. specialize (Q D). rewrite Pu in Q. cbn [fst] in Q. destruct Q as (W2 & D2 & S2).
    rewrite (out_plain d index_name [index_name] index_plain) in Wr. cbn [rev app] in Wr. destruct (inside d fs2 st index_name d _ W2 (Forall_cons _ index_proper P) D2 (below_refl d) Wr) as (Ws & S3). split; [exact Ws|]. left. intros a N. now rewrite S3, S2, Sm.
Qed.

(** A usable session: an empty directory, keys naming files side by side, values that can be written. *)
Definition ready (bytes_ : bool) (d : list str) (fs : fsys) (ops : list (str * value)) : Prop :=
  wf_fs fs /\ Forall proper d /\ d <> [] /\ look fs d = Some KDir /\ (forall x, look fs (x :: d) = None) /\
  (forall k v, In (k, v) ops -> (exists b, accepts bytes_ v b) /\ exists cs, plain_key k cs) /\ side_by_side ops.
(** the files of the session *)
Definition targets (ops : list (str * value)) (cs : list str) : Prop := cs = [index_name] \/ exists k v, In (k, v) ops /\ plain_key k cs.
Lemma targets_flat ops : side_by_side ops -> forall cs cs' x, targets ops cs -> targets ops cs' -> cs' = cs ++ x -> x = [].
Proof.
  intros (Fl & NI) cs cs' x [->|(k & v & I & K)] [->|(k' & v' & I' & K')] E.
  - apply (f_equal (@length _)) in E. destruct x; [reflexivity|exfalso; simpl in E; lia].
  - exfalso. apply (NI k' v' cs' I' K'). rewrite E. reflexivity.
  - exfalso. assert (NE : cs <> []) by apply K. destruct cs as [|c cs]; [congruence|]. apply (NI k v _ I K). cbn in E. inversion E. reflexivity.
  - exact (Fl k v k' v' cs cs' x I I' K K' E).
Qed.
Lemma targets_named ops cs : targets ops cs -> cs <> [] /\ Forall proper cs.
Proof. intros [->|(k & v & I & K)]; [split; [discriminate|constructor; [apply index_proper|constructor]]|]. split; [apply K|eapply plain_proper; eassumption]. Qed.
Lemma nothing_below d fs : wf_fs fs -> (forall x, look fs (x :: d) = None) -> forall a, below d a -> a <> d -> look fs a = None.
Proof.
  intros W Em a B Na. destruct (look fs a) as [k|] eqn:L; [|reflexivity]. exfalso. destruct B as (l & ->). destruct (exists_last (l := l)) as (l' & x & ->); [intros ->; now apply Na|].
  rewrite <- app_assoc in L. cbn [app] in L. destruct l' as [|y l']; [cbn [app] in L; rewrite Em in L; discriminate|]. assert (look fs (x :: d) = Some KDir) as Z; [|rewrite Em in Z; discriminate].
  eapply wf_above; [exact W|exact L|now exists (y :: l')|]. intros Q. apply (f_equal (@length _)) in Q. rewrite app_length in Q. simpl in Q. lia.
Qed.
(** The directory after some of the puts. *)
Lemma after_puts bytes_ d fs ops ran more : ready bytes_ d fs ops -> ops = ran ++ more -> exists fs1 fs2 m, fs_enter d fs = (fs1, Ok tt) /\ fs_puts cwd bytes_ d fs1 [] ran = (fs2, m, map (fun _ => Ok tt) ran) /\
  tree d (targets ops) fs2 /\ NoDup (keys m) /\ (forall k cs, In k (map fst ran) -> plain_key k cs -> dfind m k = Some (abs_path (file_of d cs))) /\ (forall k, ~ In k (map fst ran) -> dfind m k = None) /\
  (forall cs, targets ops cs -> document bytes_ ran cs (look fs2 (file_of d cs))).
Proof.
  intros (W & P & Nd & D & Em & H & Sb) ->. destruct d as [|c0 d0]; [congruence|]. set (d := c0 :: d0) in *. destruct (C97_enter d fs W) as (En & _). destruct (En c0 d0 eq_refl D Em) as (fs1 & E1 & W1 & S1). clear En.
  assert (Old : forall a, below d a -> a <> d -> look fs1 a = None) by (intros a B Na; rewrite S1; eapply nothing_below; eauto).
  set (T := targets (ran ++ more)). assert (flat := targets_flat _ Sb). assert (named := targets_named (ran ++ more)).
  assert (TR : tree d T fs1). { split; [assumption|now rewrite S1| |]; [intros a B Na (k & K & _)|intros a B Na K]; rewrite (Old a B Na) in K; discriminate. }
  assert (Hops : forall k v, In (k, v) ran -> (exists cs, plain_key k cs /\ T cs) /\ exists b, accepts bytes_ v b).
  { intros k v I. destruct (H k v) as (A & cs & K); [apply in_or_app; auto|]. split; [|assumption]. exists cs. split; [assumption|]. right. exists k, v. split; [apply in_or_app; auto|assumption]. }
  destruct (puts_tree cwd d T flat named P bytes_ ran Hops fs1 [] TR (NoDup_nil _)) as (fs2 & m & E2 & TR2 & ND & M1 & M2 & L1 & L2).
  exists fs1, fs2, m. split; [exact E1|]. split; [exact E2|]. split; [exact TR2|]. split; [exact ND|]. split; [exact M1|]. split; [intros k N; rewrite (M2 k N); reflexivity|].
  intros cs Tc. split; [|intros v b; apply L1]. intros N. rewrite (L2 cs Tc N). destruct (file_not_dir d T flat named cs Tc) as (B & Na). now apply Old.
Qed.
(** The state while the file [cs] of the session is written. *)
Lemma writing bytes_ d ops ran fs cs data st : tree d (targets ops) fs -> side_by_side ops -> Forall proper d -> targets ops cs -> (forall cs', targets ops cs' -> document bytes_ ran cs' (look fs (file_of d cs'))) ->
  write_state cwd fs (abs_path (file_of d cs)) data st -> wf_fs st /\ look st d = Some KDir /\ (forall cs', targets ops cs' -> cs' <> cs -> document bytes_ ran cs' (look st (file_of d cs'))) /\
  (look st (file_of d cs) = look fs (file_of d cs) \/ exists b, begins b data /\ look st (file_of d cs) = Some (KFile b)).
Proof.
  intros TR Sb P Tc Dc H. assert (flat := targets_flat _ Sb). assert (named := targets_named ops). destruct (named cs Tc) as (NE & Pc). destruct (file_cons d cs NE Pc P) as (c & q & E & Pq & B). assert (H0 := H). rewrite E in H0.
  destruct (inside d fs st c q data (tr_wf _ _ _ TR) Pq (tr_dir _ _ _ TR) B H0) as (Ws & Sm). split; [exact Ws|]. split; [rewrite Sm; [apply TR|intros (_ & Z); now apply Z]|].
  destruct (write_state_plain fs c q data st (tr_wf _ _ _ TR) Pq H0) as (_ & [G|(WR & b & Bg & Fi)]).
  - assert (Same : forall cs', targets ops cs' -> look st (file_of d cs') = look fs (file_of d cs')).
    { intros cs' Tc'. destruct (G (file_of d cs')) as [X|(_ & _ & Bq)]; [exact X|]. exfalso. assert (Bc : below (file_of d cs') (c :: q)) by now apply below_cons. rewrite <- E in Bc. apply (below_file d (targets ops) flat cs' cs Tc' Tc) in Bc. subst cs'. rewrite E in Bq. now apply (not_below_tail c q). }
    split; [|left; now apply Same]. intros cs' Tc' _. rewrite (Same cs' Tc'). now apply Dc.
  - rewrite <- E in Fi. destruct (tree_filed d (targets ops) flat named P fs st cs b TR Tc Fi) as (_ & O). split; [|right; exists b; split; [assumption|apply Fi]].
    intros cs' Tc' N. rewrite (O cs' Tc' N). now apply Dc.
Qed.
(** C105: after [n] puts every document is what those puts made it, except that the file of the put at work may hold a beginning of its new value instead;
    before the last put has returned there is no index, after it there may be a beginning of the complete one. *)
Theorem C105_documents : forall bytes_ d fs ops n st, ready bytes_ d fs ops -> session_state cwd bytes_ d fs ops n st ->
  (forall k v cs, In (k, v) ops -> plain_key k cs -> document bytes_ (firstn n ops) cs (look st (file_of d cs)) \/
     exists k' v' b part, nth_error ops n = Some (k', v') /\ plain_key k' cs /\ accepts bytes_ v' b /\ begins part b /\ look st (file_of d cs) = Some (KFile part)) /\
  (n < length ops -> look st (index_name :: d) = None) /\
  (look st (index_name :: d) = None \/ exists st' index part, fst (fs_session cwd bytes_ d fs ops) = st' /\ look st' (index_name :: d) = Some (KFile index) /\ begins part index /\ look st (index_name :: d) = Some (KFile part)).
Proof.
  intros bytes_ d fs ops n st R H. assert (R' := R). destruct R' as (W & P & Nd & D & Em & Hk & Sb).
  assert (Ti : targets ops [index_name]) by now left. assert (Nix : forall ran, (forall k v, In (k, v) ran -> In (k, v) ops) -> forall k v, In (k, v) ran -> ~ plain_key k [index_name]).
  { intros ran Sub k v I K. apply (proj2 Sb k v [index_name] (Sub k v I) K). reflexivity. }
  destruct H as [st I|fs1 ran k v more fs2 m os st E Eo Pu Wr|fs1 fs2 m os st E Pu Wr].
  - assert (Old : forall a, below d a -> a <> d -> look st a = None). { intros a B Na. destruct (enter_cases d fs st W I) as [Sm|(_ & _ & _ & Sm)]; rewrite Sm by assumption; eapply nothing_below; eauto. }
    assert (Oi : look st (index_name :: d) = None). { apply Old; [now exists [index_name]|]. intros X. apply (f_equal (@length _)) in X. simpl in X. lia. }
    split; [|split; [intros _; exact Oi|left; exact Oi]]. intros k v cs J K. left. cbn [firstn]. split; [|intros v' b Lw; inversion Lw]. intros _. apply Old; [now exists (rev cs)|].
    intros X. apply (f_equal (@length _)) in X. rewrite app_length, rev_length in X. assert (cs <> []) by apply K. destruct cs; [congruence|]. simpl in X. lia.
  - destruct (after_puts bytes_ d fs ops ran ((k, v) :: more) R Eo) as (f1 & f2 & m' & E1 & E2 & TR & ND & M1 & M2 & Dc). rewrite E in E1. inversion E1; subst f1; clear E1. rewrite Pu in E2. inversion E2; subst f2 m' os; clear E2.
    destruct (Hk k v) as ((b & A) & cs & K); [rewrite Eo; apply in_or_app; simpl; auto|]. assert (Tc : targets ops cs) by (right; exists k, v; split; [rewrite Eo; apply in_or_app; simpl; auto|assumption]). rewrite (out_plain d k cs K) in Wr.
    destruct (writing bytes_ d ops ran fs2 cs _ st TR Sb P Tc Dc Wr) as (Ws & Ds & Oth & Own). rewrite (content_accepts _ _ _ A) in Own. cbn [fst] in Own.
    assert (Fn : firstn (length ran) ops = ran) by (rewrite Eo, firstn_app, Nat.sub_diag, firstn_all; apply app_nil_r).
    assert (Nth : nth_error ops (length ran) = Some (k, v)) by (rewrite Eo, nth_error_app2, Nat.sub_diag by apply le_n; reflexivity).
    assert (Nc : cs <> [index_name]). { intros ->. apply (proj2 Sb k v [index_name]); [rewrite Eo; apply in_or_app; simpl; auto|assumption|reflexivity]. }
    assert (Oi : look st (index_name :: d) = None). { apply (proj1 (Oth [index_name] Ti (not_eq_sym Nc))). apply Nix. intros k0 v0 J. rewrite Eo. apply in_or_app. auto. }
    split; [|split; [intros _; exact Oi|left; exact Oi]]. intros k0 v0 cs0 J K0. rewrite Fn. destruct (list_eq_dec (list_eq_dec N.eq_dec) cs0 cs) as [->|N].
    + destruct Own as [Ow|(part & Bg & Ow)]; [left; rewrite Ow; now apply Dc|]. right. exists k, v, b, part. auto.
    + left. apply Oth; [right; eauto|assumption].
  - assert (Eo : ops = ops ++ []) by now rewrite app_nil_r. destruct (after_puts bytes_ d fs ops ops [] R Eo) as (f1 & f2 & m' & E1 & E2 & TR & ND & M1 & M2 & Dc). rewrite E in E1. inversion E1; subst f1; clear E1. rewrite Pu in E2. inversion E2; subst f2 m' os; clear E2.
    rewrite (out_plain d index_name [index_name] index_plain) in Wr. destruct (writing bytes_ d ops ops fs2 [index_name] _ st TR Sb P Ti Dc Wr) as (Ws & Ds & Oth & Own). cbn [rev app] in Own.
    split; [|split; [intros X; exfalso; lia|]].
    + intros k v cs J K. left. rewrite firstn_all. apply Oth; [right; eauto|]. intros ->. apply (proj2 Sb k v [index_name] J K). reflexivity.
    + destruct Own as [Ow|(part & Bg & Ow)].
      * left. rewrite Ow. apply (proj1 (Dc [index_name] Ti)). apply Nix. auto.
      * right. destruct (write_spec cwd fs2 index_name d (write_lines (index_lines m)) (tr_wf _ _ _ TR) (Forall_cons _ index_proper P)) as (fs' & o & Ex & G & _). destruct (G (tree_writable d (targets ops) (targets_flat _ Sb) (targets_named ops) fs2 [index_name] TR Ti)) as (Fi & _).
        exists fs', (fst (write_lines (index_lines m))), part. split; [|split; [apply Fi|auto]]. unfold fs_session. rewrite E, Pu. unfold fs_exit. rewrite (out_plain d index_name [index_name] index_plain). cbn [rev app]. now rewrite Ex.
Qed.
(** C105: all these states occur: nothing done yet, the directory missing, any beginning of any value in its file, and any beginning of the index. *)
Theorem C105_possible : forall bytes_ d fs ops, ready bytes_ d fs ops ->
  session_state cwd bytes_ d fs ops 0 fs /\ (exists st, session_state cwd bytes_ d fs ops 0 st /\ look st d = None) /\
  (forall ran k v cs b more part, ops = ran ++ (k, v) :: more -> plain_key k cs -> accepts bytes_ v b -> begins part b ->
     exists st, session_state cwd bytes_ d fs ops (length ran) st /\ look st (file_of d cs) = Some (KFile part)) /\
  (exists index, look (fst (fs_session cwd bytes_ d fs ops)) (index_name :: d) = Some (KFile index) /\
     forall part, begins part index -> exists st, session_state cwd bytes_ d fs ops (length ops) st /\ look st (index_name :: d) = Some (KFile part)) /\
  session_state cwd bytes_ d fs ops (length ops) (fst (fs_session cwd bytes_ d fs ops)).
Proof.
  intros bytes_ d fs ops R. assert (R' := R). destruct R' as (W & P & Nd & D & Em & Hk & Sb). assert (Ti : targets ops [index_name]) by now left. assert (Eo : ops = ops ++ []) by now rewrite app_nil_r.
  destruct (after_puts bytes_ d fs ops ops [] R Eo) as (f1 & f2 & m & E1 & E2 & TR & _). split; [constructor; now left|]. split; [|split; [|assert (Wi := tree_writable d (targets ops) (targets_flat _ Sb) (targets_named ops) f2 [index_name] TR Ti); cbn [rev app] in Wi; split]].
  - destruct (os_rmdir d fs) as [fs1|e] eqn:Er; [|unfold fs_enter in E1; rewrite Er in E1; discriminate]. exists fs1. split; [constructor; right; rewrite Er; now left|].
    unfold os_rmdir in Er. destruct d as [|c r]; [congruence|]. destruct (search fs r) as [u|e]; [|discriminate]. cbn [bind] in Er. rewrite D in Er. destruct (is_empty_directory fs (c :: r)); [|discriminate]. inversion Er; subst fs1.
    cbn [look]. rewrite (find_filter fs (fun k => negb (rpath_eqb k (c :: r)))). destruct (rpath_eqb_spec (c :: r) (c :: r)); [reflexivity|congruence].
  - intros ran k v cs b more part Er K A Bg. destruct (after_puts bytes_ d fs ops ran ((k, v) :: more) R Er) as (g1 & g2 & m' & G1 & G2 & TR' & _). assert (Tc : targets ops cs) by (right; exists k, v; split; [rewrite Er; apply in_or_app; simpl; auto|assumption]).
    assert (Wr := tree_writable d (targets ops) (targets_flat _ Sb) (targets_named ops) g2 cs TR' Tc). destruct (file_cons d cs (proj1 (targets_named ops cs Tc)) (proj2 (targets_named ops cs Tc)) P) as (c & q & Ec & Pq & _). rewrite Ec in Wr |- *.
    destruct (C105_write_possible g2 c q b (tr_wf _ _ _ TR') Pq) as (_ & _ & Any). destruct (Any Wr part Bg) as (st & S1 & F & _). exists st. split; [|exact F]. eapply (in_put cwd bytes_ d fs ops g1 ran k v more); [exact G1|exact Er|exact G2|]. rewrite (out_plain d k cs K), Ec, (content_accepts _ _ _ A). exact S1.
  - destruct (write_spec cwd f2 index_name d (write_lines (index_lines m)) (tr_wf _ _ _ TR) (Forall_cons _ index_proper P)) as (fs' & o & Ex & G & _). destruct (G Wi) as ((F & _) & _). exists (fst (write_lines (index_lines m))). split.
    + unfold fs_session. rewrite E1, E2. unfold fs_exit. rewrite (out_plain d index_name [index_name] index_plain). cbn [rev app]. now rewrite Ex.
    + intros part Bg. destruct (C105_write_possible f2 index_name d (fst (write_lines (index_lines m))) (tr_wf _ _ _ TR) (Forall_cons _ index_proper P)) as (_ & _ & Any). destruct (Any Wi part Bg) as (st & S1 & F1 & _). exists st. split; [|exact F1].
      eapply (in_exit cwd bytes_ d fs ops); [exact E1|exact E2|]. rewrite (out_plain d index_name [index_name] index_plain). exact S1.
  - eapply (in_exit cwd bytes_ d fs ops); [exact E1|exact E2|]. rewrite (out_plain d index_name [index_name] index_plain). cbn [rev app]. destruct (C105_write_possible f2 index_name d (fst (write_lines (index_lines m))) (tr_wf _ _ _ TR) (Forall_cons _ index_proper P)) as (_ & Fin & _).
    specialize (Fin (snd (write_lines (index_lines m)))). rewrite <- surjective_pairing in Fin. unfold fs_session. rewrite E1, E2. unfold fs_exit. rewrite (out_plain d index_name [index_name] index_plain). cbn [rev app]. destruct (sink_write cwd f2 (abs_path (index_name :: d)) (write_lines (index_lines m))) as [fs3 x]. exact Fin.
Qed.

(** ** Starting again *)
(** C105: while the sink was open - also between two puts - there is no store: a source over the index cannot be made.  The sink itself can be entered again if the process died
    before anything was put; once a put has returned it cannot (the directory is not empty), nor if the process died in __enter__ after the directory was removed. *)
Theorem C105_restart : forall (X : Type) bytes_ d fs ops n st, ready bytes_ d fs ops -> Forall proper cwd -> session_state cwd bytes_ d fs ops n st ->
  (n < length ops -> forall p, wf_params p -> names_path cwd p !!"path" (index_name :: d) -> map_source_from_params X cwd st bytes_ p = Raise ParameterError) /\
  (0 < n -> fs_enter d st = (st, Raise IOError)) /\
  (look st d = None -> fs_enter d st = (st, Raise FileNotFoundError)) /\
  ((forall a, look st a = look fs a) -> exists st', fs_enter d st = (st', Ok tt) /\ forall a, look st' a = look fs a).
Proof.
  intros X bytes_ d fs ops n st R Pc H. assert (R' := R). destruct R' as (W & P & Nd & D & Em & Hk & Sb). destruct (C105_documents bytes_ d fs ops n st R H) as (Doc & Ix & _).
  destruct (C105_outside bytes_ d fs ops n st W P (fun k v I => proj2 (Hk k v I)) H) as (Ws & Out). destruct (C97_enter d st Ws) as (En1 & En2 & _ & En4 & _). split; [|split; [|split]].
  - intros L p Wp Np. unfold map_source_from_params. destruct (C80_existing cwd p !!"path" st Wp Pc) as (_ & E & _). rewrite (E _ Np) by (intros b; rewrite (Ix L); discriminate). reflexivity.
  - intros L. assert (Dn : look st d = Some KDir). { destruct Out as [Out|(-> & _)]; [|lia]. rewrite Out; [assumption|intros (_ & Z); now apply Z]. }
    apply En2; [exact Dn|]. destruct ops as [|[k v] ops]; [exfalso; inversion H; subst; try (destruct ran; discriminate); simpl in *; lia|]. destruct n as [|n]; [lia|].
    destruct (Hk k v) as ((b & A) & cs & K); [simpl; auto|]. assert (Some_file : exists x, look st (file_of d cs) = Some (KFile x)).
    { destruct (Doc k v cs (or_introl eq_refl) K) as [(_ & Dc)|(k' & v' & b' & part & _ & _ & _ & _ & E)]; [|eauto].
      assert (Lw : forall l, (forall k v, In (k, v) l -> exists b, accepts bytes_ v b) -> (exists k v, In (k, v) l /\ plain_key k cs) -> exists v b, last_write cs v l /\ accepts bytes_ v b).
      { clear. induction l as [|[k v] l IH]; intros H (k0 & v0 & I & K); [destruct I|]. assert (Dec : (exists k v, In (k, v) l /\ plain_key k cs) \/ ~ exists k v, In (k, v) l /\ plain_key k cs).
        { clear -l. induction l as [|[k v] l IH]; [right; intros (? & ? & [] & _)|]. destruct IH as [(k' & v' & I & K)|N]; [left; exists k', v'; split; [now right|assumption]|].
          destruct (plain_dec k) as [(cs' & K)|Nk]; [destruct (list_eq_dec (list_eq_dec N.eq_dec) cs' cs) as [->|Nc]; [left; exists k, v; split; [now left|assumption]|]|].
          - right. intros (k' & v' & [I|I] & K'); [inversion I; subst; apply Nc; exact (plain_fun _ _ _ K K')|apply N; eauto].
          - right. intros (k' & v' & [I|I] & K'); [inversion I; subst; apply Nk; eauto|apply N; eauto]. }
        destruct Dec as [De|De].
        - destruct (IH (fun k v I => H k v (or_intror I)) De) as (v1 & b1 & L1 & A1). exists v1, b1. split; [now apply lw_later|assumption].
        - destruct I as [I|I]; [inversion I; subst; clear I|destruct De; eauto]. destruct (H k0 v0 (or_introl eq_refl)) as (b & A). exists v0, b. split; [|assumption]. apply lw_here; [assumption|]. intros k' v' I K'. apply De. eauto. }
      destruct (Lw (firstn (S n) ((k, v) :: ops))) as (v1 & b1 & L1 & A1).
      - intros k' v' I. apply (Hk k' v'). rewrite <- (firstn_skipn (S n) ((k, v) :: ops)). apply in_or_app. auto.
      - exists k, v. split; [simpl; auto|assumption].
      - exists b1. exact (Dc v1 b1 L1 A1). }
    destruct Some_file as (x & Lx). assert (NE : cs <> []) by apply K. destruct cs as [|c0 cs]; [congruence|]. cbn [rev] in Lx. rewrite <- app_assoc in Lx. cbn [app] in Lx. destruct (rev cs) as [|y l] eqn:Er; [exists c0, (KFile x); exact Lx|].
    exists c0, KDir. eapply wf_above; [exact Ws|exact Lx|now exists (y :: l)|]. intros Q. apply (f_equal (@length _)) in Q. rewrite app_length in Q. simpl in Q. lia.
  - intros N. apply En4; [exact N|]. intros a B O. destruct Out as [Out|(_ & _ & _ & Out)]; [exfalso; rewrite Out in N by (intros (_ & Z); now apply Z); congruence|].
    destruct (list_eq_dec (list_eq_dec N.eq_dec) a d) as [->|Na]; [destruct O as (k & Lk & _); congruence|]. destruct O as (k & Lk & Nk). rewrite (Out a Na) in Lk. assert (look fs a = Some KDir) by (eapply dir_all_above; eauto). congruence.
  - intros Sm. destruct d as [|c r]; [congruence|]. destruct (En1 c r eq_refl) as (st' & E & _ & S'); [now rewrite Sm|intros x; now rewrite Sm|]. exists st'. split; [exact E|]. intros a. now rewrite S'.
Qed.

(** ** A torn index *)
Lemma torn_line a b t r : field_ok a -> field_ok b -> a ++ [TAB] ++ b ++ [LF] = t ++ r -> r <> [] -> t <> [] ->
  text_lines t = [t] /\ (parse_map_line t = Raise IOError \/ exists s, begins s b /\ parse_map_line t = Ok (a, py_strip s)).
Proof.
  intros (Ta & Na & La & _) (Tb & Nb & Lb & _) E Nr Nt. destruct (exists_last Nr) as (r' & x & ->). rewrite (app_assoc t), !app_assoc in E. apply app_inj_tail in E. destruct E as (E & _). rewrite <- app_assoc in E.
  assert (NL : ~ In LF t). { intros I. assert (J : In LF (a ++ [TAB] ++ b)) by (rewrite E; apply in_or_app; auto). apply in_app_or in J. destruct J as [J|[J|J]]; [auto|discriminate|auto]. }
  split; [now apply text_lines_last|]. assert (C : (exists u, a = t ++ u) \/ exists s, t = a ++ TAB :: s /\ begins s b).
  { clear -E. revert t E. induction a as [|c a IH]; intros t E.
    - destruct t as [|y t]; [left; now exists []|]. cbn in E. inversion E; subst. right. exists t. split; [reflexivity|]. now exists r'.
    - destruct t as [|y t]; [left; now exists (c :: a)|]. cbn in E. inversion E as [[E1 E2]]. destruct (IH t E2) as [(u & ->)|(s & -> & B)]; [left; now exists u|right; exists s; split; [reflexivity|assumption]]. }
  unfold parse_map_line. destruct C as [(u & ->)|(s & -> & B)].
  - left. rewrite py_split_no; [reflexivity|]. intros I. apply Na. apply in_or_app. auto.
  - right. exists s. split; [assumption|]. rewrite py_split_app by assumption. rewrite py_split_no; [now rewrite (strip_trim a Ta)|]. intros I. destruct B as (u & ->). apply Nb. apply in_or_app. auto.
Qed.
Lemma torn_lines kvs : (forall a b, In (a, b) kvs -> field_ok a /\ field_ok b) -> forall t, begins t (flat_map (fun kv => fst kv ++ [TAB] ++ snd kv ++ [LF]) kvs) ->
  mapM parse_map_line (text_lines t) = Raise IOError \/
  exists whole more last, kvs = whole ++ more /\ mapM parse_map_line (text_lines t) = Ok (whole ++ last) /\ (last = [] \/ exists a b r s, more = (a, b) :: r /\ begins s b /\ last = [(a, py_strip s)]).
Proof.
  induction kvs as [|[a b] kvs IH]; intros H t (r & E).
  - cbn in E. symmetry in E. apply app_eq_nil in E. destruct E as (-> & _). right. exists [], [], []. auto.
  - destruct (H a b) as (Fa & Fb); [simpl; auto|]. cbn [flat_map fst snd] in E. set (line := a ++ [TAB] ++ b ++ [LF]) in *.
    assert (C : (exists t', t = line ++ t' /\ begins t' (flat_map (fun kv => fst kv ++ [TAB] ++ snd kv ++ [LF]) kvs)) \/ exists r', line = t ++ r' /\ r' <> []).
    { clear -E. revert t E. induction line as [|c l IHl]; intros t E; [left; exists t; split; [reflexivity|]; now exists r|]. destruct t as [|y t]; [right; exists (c :: l); split; [reflexivity|discriminate]|].
      cbn in E. inversion E as [[E1 E2]]. destruct (IHl t E2) as [(t' & -> & B)|(r' & -> & N)]; [left; exists t'; auto|right; exists r'; auto]. }
    destruct C as [(t' & -> & B)|(r' & El & Nr)].
    + assert (Et : text_lines (line ++ t') = line :: text_lines t').
      { replace (line ++ t') with ((a ++ [TAB] ++ b) ++ LF :: t') by (unfold line; simpl; rewrite <- !app_assoc; simpl; rewrite <- !app_assoc; reflexivity). rewrite text_lines_line.
        - f_equal. unfold line. simpl. rewrite <- !app_assoc. reflexivity.
        - destruct Fa as (_ & _ & La & _), Fb as (_ & _ & Lb & _). intros I. apply in_app_or in I. destruct I as [I|[I|I]]; [auto|discriminate|auto]. }
      rewrite Et. cbn [mapM]. assert (Ep : parse_map_line line = Ok (a, b)) by exact (parse_line_ok a b Fa Fb). rewrite Ep. cbn [bind]. destruct (IH (fun a b I => H a b (or_intror I)) t' B) as [->|(whole & more & last & -> & -> & L)]; [left; reflexivity|right].
      exists ((a, b) :: whole), more, last. auto.
    + destruct t as [|y t]; [right; exists [], ((a, b) :: kvs), []; auto|]. destruct (torn_line a b (y :: t) r' Fa Fb El Nr) as (Et & Pr); [discriminate|]. rewrite Et. cbn [mapM]. destruct Pr as [->|(s & B & ->)]; [left; reflexivity|right].
      exists [], ((a, b) :: kvs), [(a, py_strip s)]. split; [reflexivity|]. split; [reflexivity|]. right. exists a, b, kvs, s. auto.
Qed.
Lemma nodup_front {A} (l r : list A) : NoDup (l ++ r) -> NoDup l.
Proof. induction l as [|x l IH]; intros N; [constructor|]. cbn [app] in N. inversion N as [|? ? N1 N2]; subst. constructor; [|auto]. intros I. apply N1. apply in_or_app. auto. Qed.
Lemma decode_errors b e : decode b = Raise e -> e = UnicodeDecodeError.
Proof.
  remember (length b) as n. assert (L : length b <= n) by lia. clear Heqn. revert b L. induction n as [|n IH]; intros b L E; destruct b as [|x b]; try discriminate; [simpl in L; lia|]. cbn [length] in L.
  assert (B : forall r (f : str -> str), length r <= n -> (let* s := decode r in Ok (f s)) = Raise e -> e = UnicodeDecodeError).
  { intros r f Lr Er. destruct (decode r) as [s|e'] eqn:D; [discriminate|]. cbn [bind] in Er. inversion Er; subst. eapply IH; eassumption. }
  cbn [decode] in E. repeat match type of E with (if ?c then _ else _) = _ => destruct c | match ?l with [] => _ | _ :: _ => _ end = _ => destruct l; cbn [length] in L end;
    try (now inversion E); (eapply B; [|exact E]; lia).
Qed.
(** C105: if the process dies in __exit__, the index may be torn.  Then making a source fails, or it lists the first of the keys put, in order and each with
    its own file, and perhaps one key more, whose path is torn - and may be that of another document (C105_torn_refuted). *)
Theorem C105_torn_index : forall (X : Type) bytes_ d fs ops n st, ready bytes_ d fs ops -> Forall proper cwd ->
  (forall k v cs, In (k, v) ops -> plain_key k cs -> field_ok k /\ field_ok (path_str (file_of d cs))) ->
  session_state cwd bytes_ d fs ops n st ->
  exists index, StronglySorted (fun a b => str_ltb a b = true) (map fst index) /\ (forall k, In k (map fst index) <-> In k (map fst ops)) /\
    (forall k q, In (k, q) index -> exists cs, plain_key k cs /\ q = file_of d cs) /\
    forall p, wf_params p -> names_path cwd p !!"path" (index_name :: d) ->
      (exists e, map_source_from_params X cwd st bytes_ p = Raise e /\ (e = ParameterError \/ e = UnicodeDecodeError \/ e = IOError)) \/
      exists whole more last, index = whole ++ more /\ map_source_from_params X cwd st bytes_ p = Ok (OMapSource bytes_ (map (fun kq => (fst kq, abs_path (snd kq))) whole ++ last)) /\
        (last = [] \/ exists k q rest part s, more = (k, q) :: rest /\ begins part (path_str q) /\ stripped is_space part s /\ last = [(k, parse_path s)]).
Proof.
  intros X bytes_ d fs ops n st R Pc Hf H. assert (R' := R). destruct R' as (W & P & Nd & D & Em & Hk & Sb). assert (Eo : ops = ops ++ []) by now rewrite app_nil_r.
  destruct (after_puts bytes_ d fs ops ops [] R Eo) as (f1 & f2 & m & E1 & E2 & TR & ND & M1 & M2 & Dc).
  assert (Hm : forall k p, In (k, p) m -> In k (map fst ops) /\ exists cs, plain_key k cs /\ p = abs_path (file_of d cs) /\ field_ok k /\ field_ok (path_str (file_of d cs))).
  { intros k p I. apply (in_dfind m k p ND) in I. destruct (in_dec (list_eq_dec N.eq_dec) k (map fst ops)) as [J|J]; [|rewrite (M2 k J) in I; discriminate]. split; [assumption|]. assert (J' := J). apply in_map_iff in J'. destruct J' as ([k' v] & Ek & J'). cbn in Ek. subst k'.
    destruct (Hk k v J') as (_ & cs & K). exists cs. split; [assumption|]. rewrite (M1 k cs J K) in I. inversion I. split; [reflexivity|]. exact (Hf k v cs J' K). }
  set (files := sorted_by str_ltb (fst : str * ppath -> str) m). assert (Pf : Permutation files m) by apply sorted_perm. assert (NDf : NoDup (keys files)) by (apply (Permutation_NoDup (l := keys m)); [apply Permutation_map; now symmetry|assumption]).
  set (index := map (fun kp => (fst kp, rev (p_parts (snd kp)))) files).
  assert (Kx : map fst index = keys files) by (unfold index, keys; rewrite map_map; reflexivity).
  assert (Fx : files = map (fun kq => (fst kq, abs_path (snd kq))) index).
  { unfold index. rewrite map_map. cbn [fst snd]. assert (G : forall l, (forall k p, In (k, p) l -> In (k, p) m) -> l = map (fun x : str * ppath => (fst x, abs_path (rev (p_parts (snd x))))) l); [|apply G; intros k p I; now apply (Permutation_in _ Pf)].
    induction l as [|[k p] l IH]; intros Hl; [reflexivity|]. cbn [map fst snd]. rewrite <- IH by (intros; apply Hl; now right). destruct (Hm k p) as (_ & cs & _ & -> & _); [apply Hl; now left|]. change (p_parts (abs_path (file_of d cs))) with (rev (file_of d cs)). now rewrite rev_involutive. }
  assert (Ix : forall k q, In (k, q) index -> exists cs, plain_key k cs /\ q = file_of d cs /\ field_ok k /\ field_ok (path_str q) /\ Forall proper q /\ q <> []).
  { intros k q I. apply in_map_iff in I. destruct I as ([k' p] & E & I). cbn [fst snd] in E. inversion E; subst; clear E. apply (Permutation_in _ Pf) in I. destruct (Hm _ _ I) as (_ & cs & K & -> & F1 & F2). exists cs. unfold abs_path. cbn [p_parts]. rewrite rev_involutive.
    split; [assumption|]. split; [reflexivity|]. split; [assumption|]. split; [assumption|]. split; [apply Forall_app; split; [apply Forall_rev; eapply plain_proper; eassumption|assumption]|]. intros Q. apply app_eq_nil in Q. destruct Q. contradiction. }
  exists index. split; [|split; [|split]].
  - rewrite Kx. assert (So := sorted_sorted str_ltb (fst : str * ppath -> str) str_ltb_asym str_ltb_ntrans m). change (StronglySorted (kle str_ltb (fst : str * ppath -> str)) files) in So.
    clear -So NDf. induction So as [|x l So IH F]; [constructor|]. cbn [keys map] in *. inversion NDf as [|? ? N1 N2]; subst. constructor; [auto|]. rewrite Forall_forall in *. intros y I. unfold keys in I. apply in_map_iff in I. destruct I as (z & <- & I). specialize (F z I). unfold kle in F.
    destruct (str_ltb (fst x) (fst z)) eqn:Y; [reflexivity|]. exfalso. apply N1. rewrite (str_ltb_total _ _ Y F). now apply in_map.
  - intros k. rewrite Kx. split.
    + intros I. unfold keys in I. apply in_map_iff in I. destruct I as ([k' p] & Ek & I). cbn in Ek. subst k'. apply (Permutation_in _ Pf) in I. apply (Hm k p I).
    + intros I. assert (J := I). apply in_map_iff in J. destruct J as ([k' v] & Ek & J). cbn in Ek. subst k'. destruct (Hk k v J) as (_ & cs & K). apply (Permutation_in _ (Permutation_map fst (Permutation_sym Pf))). change (In k (keys m)). apply dfind_some_key. exists (abs_path (file_of d cs)). now apply M1.
  - intros k q I. destruct (Ix k q I) as (cs & K & E & _). eauto.
  - intros p Wp Np. destruct (C80_existing cwd p !!"path" st Wp Pc) as (Ee1 & Ee2 & _). unfold map_source_from_params.
    destruct (C105_documents bytes_ d fs ops n st R H) as (_ & _ & [No|(st' & ib & part & Es & Li & Bg & Ls)]).
    { left. exists ParameterError. rewrite (Ee2 _ Np) by (intros b; rewrite No; discriminate). auto. }
    rewrite (Ee1 _ _ Np Ls). cbn [bind].
    set (kvs := map (fun kq : str * list str => (fst kq, path_str (snd kq))) index). assert (Fk : forall a b, In (a, b) kvs -> field_ok a /\ field_ok b).
    { intros a b I. apply in_map_iff in I. destruct I as ([k q] & E & I). cbn [fst snd] in E. inversion E; subst; clear E. destruct (Ix _ _ I) as (cs & _ & _ & F1 & F2 & _). auto. }
    set (t := flat_map (fun kv => fst kv ++ [TAB] ++ snd kv ++ [LF]) kvs).
    assert (Et : concat (index_lines m) = t). { unfold t, kvs, index_lines. fold files. rewrite Fx. rewrite flat_map_concat_map, !map_map. reflexivity. }
    assert (Chars : forall c, In c t -> (c = TAB \/ c = LF) \/ exists a s, In (a, s) kvs /\ (In c a \/ In c s)).
    { intros c I. apply in_flat_map in I. destruct I as ([a s] & I & J). cbn [fst snd] in J. apply in_app_or in J. destruct J as [J|J]; [right; eauto|]. apply in_app_or in J. destruct J as [[J|[]]|J]; [left; auto|]. apply in_app_or in J. destruct J as [J|[J|[]]]; [right; eauto|left; auto]. }
    assert (EL : Forall encodable (index_lines m)).
    { apply Forall_forall. intros l I. unfold index_lines in I. apply in_map_iff in I. destruct I as ([k q] & <- & I). apply (Permutation_in _ Pf) in I. destruct (Hm k q I) as (_ & cs & _ & -> & (_ & _ & _ & _ & Ee3) & (_ & _ & _ & _ & Ee4)).
      cbn [fst snd]. rewrite ppath_abs. unfold encodable in *. apply Forall_app. split; [assumption|]. constructor; [vm_compute; intuition discriminate|]. apply Forall_app. split; [assumption|]. repeat constructor; vm_compute; intuition discriminate. }
    destruct (write_lines_ok _ EL) as (ib' & Ew & Eb). assert (ib' = ib) as ->.
    { unfold fs_session in Es. rewrite E1, E2 in Es. unfold fs_exit in Es. rewrite (out_plain d index_name [index_name] index_plain) in Es. cbn [rev app] in Es.
      destruct (write_spec cwd f2 index_name d (write_lines (index_lines m)) (tr_wf _ _ _ TR) (Forall_cons _ index_proper P)) as (fs' & o & Ex & G & _). rewrite Ex in Es. cbn [fst] in Es. subst fs'.
      assert (Ti : targets ops [index_name]) by now left. destruct (G (tree_writable d (targets ops) (targets_flat _ Sb) (targets_named ops) f2 [index_name] TR Ti)) as (Fi & _). rewrite Ew in Fi. destruct Fi as (Fi & _). cbn [fst] in Fi. congruence. }
    rewrite Et in Eb. unfold read_text. rewrite Ls. destruct (decode part) as [u|e] eqn:De; cbn [bind]; [|left; exists e; split; [reflexivity|]; right; left; exact (decode_errors _ _ De)].
    assert (Bu : begins u t). { apply C68_round_trip in De, Eb. destruct Bg as (r & ->). rewrite (decode_encode u part De r) in Eb. destruct (decode r) as [w|]; [|discriminate]. cbn [bind] in Eb. inversion Eb. now exists w. }
    assert (NC : ~ In CR u). { intros I. destruct Bu as (w & Bu). assert (J : In CR t) by (rewrite Bu; apply in_or_app; auto). apply Chars in J. destruct J as [[J|J]|(a & s & J & Q)]; [discriminate|discriminate|]. destruct (Fk a s J) as ((_ & _ & _ & Ca & _) & (_ & _ & _ & Cs & _)). destruct Q; auto. }
    rewrite (universal_id u NC). destruct (torn_lines kvs Fk u Bu) as [->|(whole & more & last & Ek & -> & L)]; [left; exists IOError; auto|right]. cbn [bind].
    unfold kvs in Ek. apply map_eq_app in Ek. destruct Ek as (w0 & m0 & Ei & <- & <-). rewrite Ei in *.
    assert (Kl : forall a, In a (map fst last) -> exists r, map fst m0 = a :: r /\ last = [(a, snd (hd (a, []) last))]).
    { destruct L as [->|(a & b & r & s & Em0 & _ & ->)]; [intros a []|]. intros a' [<-|[]]. destruct m0 as [|[k q] m0]; [discriminate|]. cbn [map fst snd] in Em0 |- *. inversion Em0; subst. eauto. }
    exists w0, m0, (map (fun kv => (fst kv, parse_path (snd kv))) last). split; [reflexivity|]. split.
    + f_equal. f_equal. rewrite fold_files.
      * cbn [app]. rewrite map_app, map_map. f_equal. assert (G : forall l, (forall k q, In (k, q) l -> In (k, q) index) -> map (fun x : str * list str => (fst x, parse_path (path_str (snd x)))) l = map (fun kq => (fst kq, abs_path (snd kq))) l).
        { induction l as [|[k q] l IH]; intros Hl; [reflexivity|]. cbn [map fst snd]. rewrite IH by (intros; apply Hl; now right). destruct (Ix k q) as (cs & _ & _ & _ & _ & Pq & Nq); [rewrite <- Ei; apply Hl; now left|]. now rewrite parse_printed. }
        cbn [fst snd]. apply G. intros k q I. rewrite Ei. apply in_or_app. auto.
      * cbn [keys map app]. rewrite map_app, map_map. cbn [fst]. assert (ND2 : NoDup (map fst w0 ++ map fst m0)) by (rewrite <- map_app, Kx; exact NDf).
        destruct L as [->|(a & b & r & s & Em0 & _ & ->)]; [cbn [map]; rewrite app_nil_r; apply nodup_front in ND2; exact ND2|]. destruct m0 as [|[k q] m0]; [discriminate|]. cbn [map fst snd] in Em0, ND2 |- *. inversion Em0; subst.
        change (a :: map fst m0) with ([a] ++ map fst m0) in ND2. rewrite app_assoc in ND2. apply nodup_front in ND2. exact ND2.
    + destruct L as [->|(a & b & r & s & Em0 & Bs & ->)]; [left; reflexivity|right]. destruct m0 as [|[k q] m0]; [discriminate|]. cbn [map fst snd] in Em0. inversion Em0; subst. exists a, q, m0, s, (py_strip s). split; [reflexivity|]. split; [assumption|]. split; [apply strip_spec|reflexivity].
Qed.
End DirCrashProps.
