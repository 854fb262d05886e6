(** * C97: arbitrary keys, and arbitrary paths in an index *)
From Verif Require Import Prelude PyStr SortLib TextLib Utf8 Params ParamsSpec ParamsProofs Fs FsProofs FsProps PathLists PathListsProps Io IoProps KeyValue KeyValueProps KvParams Mains MainsProofs Load OsPath OsPathProofs LoadFs LoadFsSpec LoadFsProps DirFs DirFsProps.

Section DirFsKeys.
Notation fsys := (list (list str * fnode)) (only parsing).
Variable cwd : list str.

(** ** Specification *)
(** Following components from the directory [q], making the directories that are missing; ".." leads to the directory above, where the root
    is its own.  [way fs q cs fs' q']: one gets to [q'], the file system then being [fs']. *)
Inductive way : fsys -> list str -> list str -> fsys -> list str -> Prop :=
| way_end fs q : way fs q [] fs q
| way_up fs q c r fs' q' : c = !!".." -> way fs (tl q) r fs' q' -> way fs q (c :: r) fs' q'
| way_in fs q c r fs' q' : c <> !!".." -> look fs (c :: q) = Some KDir -> way fs (c :: q) r fs' q' -> way fs q (c :: r) fs' q'
| way_new fs q c r fs' q' : c <> !!".." -> look fs (c :: q) = None -> way ((c :: q, KDir) :: fs) (c :: q) r fs' q' -> way fs q (c :: r) fs' q'.
(** ... or meets an object that is no directory. *)
Definition dead_end (fs : fsys) (q cs : list str) (fs' : fsys) : Prop :=
  exists a c b q', cs = a ++ c :: b /\ c <> !!".." /\ way fs q a fs' q' /\ occupied fs' (c :: q').
(** The place named by the last component. *)
Inductive place (q : list str) : str -> list str -> Prop :=
| pl_up : place q !!".." (tl q)
| pl_name c : c <> !!".." -> place q c (c :: q).

(** ** Proofs *)
Lemma look_made fs c q a : look ((c :: q, KDir) :: fs) a = if rpath_eqb (c :: q) a then Some KDir else look fs a.
Proof. destruct a as [|x a]; [destruct (rpath_eqb_spec (c :: q) []); [discriminate|reflexivity]|]. reflexivity. Qed.
Lemma wf_made fs c q : wf_fs fs -> look fs q = Some KDir -> look fs (c :: q) = None -> wf_fs ((c :: q, KDir) :: fs).
Proof.
  intros W D N x r k L. rewrite look_made in L |- *. destruct (rpath_eqb_spec (c :: q) r) as [|Nr]; [reflexivity|]. destruct (rpath_eqb_spec (c :: q) (x :: r)) as [E|_]; [|eapply W; eassumption]. injection E as <- <-. assumption.
Qed.
Lemma up_dir fs q : wf_fs fs -> look fs q = Some KDir -> look fs (tl q) = Some KDir.
Proof. intros W D. destruct q as [|c q]; [reflexivity|]. eapply W; eassumption. Qed.
(** What the operating system sees before and after. *)
Lemma way_walk fs q cs fs' q' : way fs q cs fs' q' -> wf_fs fs -> look fs q = Some KDir ->
  wf_fs fs' /\ look fs' q' = Some KDir /\ os_walk fs' q cs = Ok q' /\ (forall a k, look fs a = Some k -> look fs' a = Some k) /\
  ((fs' = fs /\ os_walk fs q cs = Ok q') \/ (os_walk fs q cs = Ok q' /\ look fs q' = None) \/ os_walk fs q cs = Raise FileNotFoundError).
Proof.
  induction 1 as [fs q|fs q c r fs' q' U H IH|fs q c r fs' q' N L H IH|fs q c r fs' q' N L H IH]; intros W D.
  - repeat split; auto.
  - destruct (IH W (up_dir fs q W D)) as (W' & D' & E & K & C). split; [assumption|]. split; [assumption|]. cbn [os_walk]. rewrite (K _ _ D), D, U. change (str_eqb !!".." !!"..") with true. cbv iota. auto.
  - destruct (IH W L) as (W' & D' & E & K & C). split; [assumption|]. split; [assumption|]. cbn [os_walk]. apply str_eqb_neq in N. rewrite (K _ _ D), D, N. auto.
  - assert (W1 := wf_made fs c q W D L). assert (D1 : look ((c :: q, KDir) :: fs) (c :: q) = Some KDir) by (rewrite look_made; destruct (rpath_eqb_spec (c :: q) (c :: q)); congruence).
    destruct (IH W1 D1) as (W' & D' & E & K & _). assert (K0 : forall a k, look fs a = Some k -> look fs' a = Some k). { intros a k La. apply K. rewrite look_made. destruct (rpath_eqb_spec (c :: q) a) as [<-|]; [congruence|assumption]. }
    split; [assumption|]. split; [assumption|]. cbn [os_walk]. apply str_eqb_neq in N. rewrite (K0 _ _ D), D, N. split; [assumption|]. split; [assumption|].
    right. destruct r as [|x r]; [left|right; cbn [os_walk]; now rewrite L]. cbn [os_walk]. inversion H; subst. auto.
Qed.
Lemma way_app fs q a fs1 q1 b fs2 q2 : way fs q a fs1 q1 -> way fs1 q1 b fs2 q2 -> way fs q (a ++ b) fs2 q2.
Proof. induction 1; intros H2; cbn [app]; [assumption|apply way_up; auto|apply way_in; auto|apply way_new; auto]. Qed.
Lemma way_fun fs q cs fs1 q1 : way fs q cs fs1 q1 -> forall fs2 q2, way fs q cs fs2 q2 -> fs1 = fs2 /\ q1 = q2.
Proof.
  induction 1 as [fs q|fs q c r fs' q' U H IH|fs q c r fs' q' N L H IH|fs q c r fs' q' N L H IH]; intros fs2 q2 H2; inversion H2; subst; try (split; reflexivity); try congruence; apply IH; assumption.
Qed.
(** From every directory there is a way or a dead end. *)
Lemma way_or_dead cs : forall fs q, (exists fs' q', way fs q cs fs' q') \/ exists fs', dead_end fs q cs fs'.
Proof.
  induction cs as [|c cs IH]; intros fs q; [left; eexists _, _; constructor|]. destruct (list_eq_dec N.eq_dec c !!"..") as [->|N].
  - destruct (IH fs (tl q)) as [(fs' & q' & H)|(fs' & a & c & b & q' & E & Nc & H & O)]; [left; eexists _, _; apply way_up; [reflexivity|eassumption]|right].
    exists fs', (!!".." :: a), c, b, q'. subst. split; [reflexivity|]. split; [assumption|]. split; [now apply way_up|assumption].
  - destruct (look fs (c :: q)) as [[x| |]|] eqn:L.
    + right. exists fs, [], c, cs, q. split; [reflexivity|]. split; [assumption|]. split; [constructor|]. exists (KFile x). split; [assumption|discriminate].
    + destruct (IH fs (c :: q)) as [(fs' & q' & H)|(fs' & a & c' & b & q' & E & Nc & H & O)]; [left; eexists _, _; apply way_in; eassumption|right].
      exists fs', (c :: a), c', b, q'. subst. split; [reflexivity|]. split; [assumption|]. split; [now apply way_in|assumption].
    + right. exists fs, [], c, cs, q. split; [reflexivity|]. split; [assumption|]. split; [constructor|]. exists Fs.KOther. split; [assumption|discriminate].
    + destruct (IH ((c :: q, KDir) :: fs) (c :: q)) as [(fs' & q' & H)|(fs' & a & c' & b & q' & E & Nc & H & O)]; [left; eexists _, _; apply way_new; eassumption|right].
      exists fs', (c :: a), c', b, q'. subst. split; [reflexivity|]. split; [assumption|]. split; [now apply way_new|assumption].
Qed.

Notation from root := (if (root =? 0)%N then cwd else []).
Lemma find_parts fs root ps : existsb has_nul ps = false -> os_find cwd fs (MkPath root ps) = os_walk fs (from root) ps.
Proof. intros N. unfold os_find. cbn [p_parts p_root]. now rewrite N. Qed.
(** One more component, from an existing directory. *)
Lemma mkdir_step fs root ps c q fs2 q2 : existsb has_nul (ps ++ [c]) = false -> os_walk fs (from root) ps = Ok q -> look fs q = Some KDir -> wf_fs fs -> way fs q [c] fs2 q2 ->
  mkdir_at cwd fs (MkPath root (ps ++ [c])) = Ok fs2 \/ (fs2 = fs /\ mkdir_at cwd fs (MkPath root (ps ++ [c])) = Raise FileExistsError /\ dir_at cwd fs (MkPath root (ps ++ [c])) = true).
Proof.
  intros N E D W H. unfold mkdir_at, dir_at. rewrite find_parts by assumption. rewrite os_app, E. cbn [bind os_walk]. rewrite D. inversion H as [|? ? ? ? ? ? U H1|? ? ? ? ? ? Nc L H1|? ? ? ? ? ? Nc L H1]; subst; inversion H1; subst.
  - right. change (str_eqb !!".." !!"..") with true. cbn [bind]. unfold is_dir. rewrite (up_dir _ _ W D). auto.
  - right. apply str_eqb_neq in Nc. rewrite Nc. cbn [bind]. unfold is_dir. rewrite L. auto.
  - left. apply str_eqb_neq in Nc. rewrite Nc. cbn [bind]. rewrite L. reflexivity.
Qed.
Lemma has_nul_app a b : existsb has_nul (a ++ b) = false -> existsb has_nul a = false /\ existsb has_nul b = false.
Proof. rewrite existsb_app. apply orb_false_iff. Qed.
Lemma parents_way root fs : wf_fs fs -> look fs (from root) = Some KDir -> forall ps, existsb has_nul ps = false ->
  (forall fs' q, way fs (from root) ps fs' q -> mkdir_parents cwd fs root (rev ps) = (fs', Ok tt)) /\
  (forall fs', dead_end fs (from root) ps fs' -> exists e, mkdir_parents cwd fs root (rev ps) = (fs', Raise e) /\ (e = FileExistsError \/ e = NotADirectoryError)).
Proof.
  intros W D. induction ps as [|c ps IH] using rev_ind; intros NN.
  - split.
    + intros fs' q H. inversion H; subst. rewrite parents_unfold. cbn [rev]. unfold mkdir_at, dir_at. rewrite find_parts by reflexivity. cbn [os_walk bind]. rewrite D. unfold is_dir. rewrite D. reflexivity.
    + intros fs' (a & c & b & q' & E & _). destruct a; discriminate.
  - destruct (has_nul_app _ _ NN) as (N1 & _). destruct (IH N1) as (IH1 & IH2). rewrite rev_app_distr. cbn [rev app]. rewrite parents_unfold. cbn [rev]. rewrite rev_involutive.
    assert (M : forall e, os_walk fs (from root) (ps ++ [c]) = Raise e -> mkdir_at cwd fs (MkPath root (ps ++ [c])) = Raise e /\ dir_at cwd fs (MkPath root (ps ++ [c])) = false) by (intros e E; unfold mkdir_at, dir_at; rewrite find_parts, E by assumption; auto).
    destruct (way_or_dead ps fs (from root)) as [(fs1 & q1 & H1)|(fs1 & H1)].
    + destruct (way_walk _ _ _ _ _ H1 W D) as (W1 & D1 & E1 & K1 & C).
      assert (Cases : (fs1 = fs /\ os_walk fs (from root) ps = Ok q1) \/ (mkdir_at cwd fs (MkPath root (ps ++ [c])) = Raise FileNotFoundError)).
      { destruct C as [C|[(C & L)|C]]; [left; exact C|right|right]; apply M; rewrite os_app, C; cbn [bind os_walk]; [now rewrite L|reflexivity]. }
      split.
      * intros fs2 q2 H. assert (H2 : way fs1 q1 [c] fs2 q2).
        { destruct (way_or_dead [c] fs1 q1) as [(f & q & Hf)|(f & a & c' & b & q' & E & Nc & Hf & O)].
          - destruct (way_fun _ _ _ _ _ (way_app _ _ _ _ _ _ _ _ H1 Hf) _ _ H) as (-> & ->). exact Hf.
          - exfalso. destruct a as [|? [|]]; try discriminate. injection E as <- <-. inversion Hf; subst. clear -H H1 O Nc. revert H. induction H1; cbn [app]; intros H2; inversion H2; subst; try congruence; auto; destruct O as (k & Kk & NK); congruence. }
        destruct Cases as [(-> & E0)|F].
        -- destruct (mkdir_step fs root ps c q1 fs2 q2 NN E0 D1 W H2) as [->|(-> & -> & ->)]; reflexivity.
        -- rewrite F, (IH1 _ _ H1). destruct (mkdir_step fs1 root ps c q1 fs2 q2 NN E1 D1 W1 H2) as [->|(-> & -> & ->)]; reflexivity.
      * intros fs2 (a & c' & b & q' & E & Nc & H & O). assert (X : fs2 = fs1 /\ c' = c /\ q' = q1).
        { destruct b as [|y b].
          - apply app_inj_tail in E. destruct E as (<- & ->). destruct (way_fun _ _ _ _ _ H1 _ _ H) as (-> & ->). auto.
          - exfalso. destruct (exists_last (l := y :: b)) as (b' & z & Eb); [discriminate|]. rewrite Eb in E. change (c' :: b' ++ [z]) with ((c' :: b') ++ [z]) in E. rewrite app_assoc in E. apply app_inj_tail in E. destruct E as (-> & _).
            clear -H H1 O Nc. revert H1. induction H; cbn [app]; intros H2; inversion H2; subst; try congruence; auto; destruct O as (k & Kk & NK); congruence. }
        destruct X as (-> & -> & ->). assert (B : forall f, os_walk f (from root) ps = Ok q1 -> look f q1 = Some KDir -> occupied f (c :: q1) -> mkdir_at cwd f (MkPath root (ps ++ [c])) = Raise FileExistsError /\ dir_at cwd f (MkPath root (ps ++ [c])) = false).
        { intros f Ef Df (k & Lk & NK). unfold mkdir_at, dir_at. rewrite find_parts by assumption. rewrite os_app, Ef. cbn [bind os_walk]. rewrite Df. apply str_eqb_neq in Nc. rewrite Nc. cbn [bind]. unfold is_dir. rewrite Lk. split; [reflexivity|]. now destruct k. }
        exists FileExistsError. split; [|auto]. destruct Cases as [(-> & E0)|F].
        -- destruct (B fs E0 D1 O) as (-> & ->). reflexivity.
        -- rewrite F, (IH1 _ _ H1). destruct (B fs1 E1 D1 O) as (-> & ->). reflexivity.
    + (* a dead end before *)
      assert (X : exists e, mkdir_at cwd fs (MkPath root (ps ++ [c])) = Raise e /\ dir_at cwd fs (MkPath root (ps ++ [c])) = false /\ ((e = NotADirectoryError /\ fs1 = fs) \/ e = FileNotFoundError)).
      { destruct H1 as (a & c' & b & q' & -> & Nc & H & O). destruct (way_walk _ _ _ _ _ H W D) as (W1 & D1 & E1 & K1 & C). apply str_eqb_neq in Nc.
        assert (Y : exists e, os_walk fs (from root) ((a ++ c' :: b) ++ [c]) = Raise e /\ ((e = NotADirectoryError /\ fs1 = fs) \/ e = FileNotFoundError)).
        { rewrite <- app_assoc, os_app. destruct C as [(-> & ->)|[(-> & L)| ->]]; cbn [bind app os_walk].
          - rewrite D1, Nc. exists NotADirectoryError. split; [|auto]. destruct O as (k & Lk & NK). destruct (b ++ [c]) as [|z l] eqn:Z; [destruct b; discriminate|]. cbn [os_walk]. rewrite Lk. now destruct k.
          - rewrite L. eauto.
          - eauto. }
        destruct Y as (e & Ee & Y). destruct (M e Ee) as (M1 & M2). eauto. }
      destruct X as (e & Xe & Xd & X). assert (Z : exists e', mkdir_parents cwd fs root (c :: rev ps) = (fs1, Raise e') /\ (e' = FileExistsError \/ e' = NotADirectoryError)).
      { rewrite parents_unfold. cbn [rev]. rewrite rev_involutive, Xe, Xd. destruct X as [(-> & ->)| ->]; [eauto|]. destruct (IH2 fs1 H1) as (e' & -> & He). eauto. }
      rewrite parents_unfold in Z. cbn [rev] in Z. rewrite rev_involutive in Z. split.
      * intros fs2 q2 H. exfalso. destruct H1 as (a & c' & b & q' & -> & Nc & H1 & O). rewrite <- app_assoc in H. clear -H H1 O Nc. revert H. induction H1; cbn [app]; intros H2; inversion H2; subst; try congruence; auto; destruct O as (k & Kk & NK); congruence.
      * intros fs2 H2. assert (fs2 = fs1) as ->; [|exact Z]. destruct H1 as (a & c' & b & q' & -> & Nc & H1 & O), H2 as (a2 & c2 & b2 & q2 & E2 & Nc2 & H2 & O2).
        rewrite <- app_assoc in E2. cbn [app] in E2. clear -E2 H1 H2 O O2 Nc Nc2. revert a2 E2 H2. induction H1; intros a2 E2 H2.
        -- destruct a2 as [|z a2]; cbn [app] in E2; injection E2 as <- E2; [inversion H2; reflexivity|]. exfalso. inversion H2; subst; try congruence; destruct O as (k & Kk & NK); congruence.
        -- destruct a2 as [|z a2]; cbn [app] in E2; injection E2 as <- E2; [congruence|]. inversion H2; subst; try congruence. eapply IHway; eauto.
        -- destruct a2 as [|z a2]; cbn [app] in E2; injection E2 as <- E2; [exfalso; inversion H2; subst; destruct O2 as (k & Kk & NK); congruence|]. inversion H2; subst; try congruence. eapply IHway; eauto.
        -- destruct a2 as [|z a2]; cbn [app] in E2; injection E2 as <- E2; [exfalso; inversion H2; subst; destruct O2 as (k & Kk & NK); congruence|]. inversion H2; subst; try congruence. eapply IHway; eauto.
Qed.
(** Where the way of a key begins: at the root if it begins with a slash, else at the directory. *)
Inductive origin (d : list str) : str -> list str -> Prop :=
| or_abs r : origin d (slash :: r) []
| or_rel k : (forall r, k <> slash :: r) -> origin d k d.
Lemma way_plain fs d : wf_fs fs -> Forall proper d -> look fs d = Some KDir -> way fs [] (rev d) fs d.
Proof.
  intros W P D. induction d as [|c d IH]; [constructor|]. cbn [rev]. inversion P as [|? ? (_ & _ & NU & _) P']; subst. eapply way_app; [apply IH; [assumption|eapply W; eassumption]|]. apply way_in; [assumption|assumption|constructor].
Qed.
Lemma key_path d k s fs : wf_fs fs -> Forall proper d -> look fs d = Some KDir -> origin d k s ->
  exists root pre, out_file d k = MkPath root (pre ++ p_parts (parse_path k)) /\ (root =? 0)%N = false /\ way fs [] pre fs s /\ existsb has_nul pre = false /\ (s = [] /\ pre = [] \/ s = d /\ pre = rev d).
Proof.
  intros W P D H. inversion H as [r E|k' N]; subst.
  - exists (root_of (slash :: r)), []. assert (R : (root_of (slash :: r) =? 0)%N = false). { unfold root_of. rewrite N.eqb_refl. destruct r as [|b r]; [reflexivity|]. destruct (b =? slash)%N; [|reflexivity]. destruct r as [|x r]; [reflexivity|]. now destruct (x =? slash)%N. }
    split; [|split; [exact R|split; [constructor|split; [reflexivity|auto]]]]. unfold out_file, join_path, parse_path. cbn [p_root p_parts app]. now rewrite R.
  - exists 1%N, (rev s). split; [|split; [reflexivity|split; [now apply way_plain|split; [now apply nul_plain|auto]]]]. unfold out_file, join_path, abs_path. replace (p_root (parse_path k)) with 0%N by (symmetry; now apply root_rel). reflexivity.
Qed.
(** C97: any key, read as a path, absolute or relative to the directory: the directories on its way are made where they are missing, and the
    file where the way ends is written - wherever that is -, or an OSError comes out, the directories already made staying. *)
Theorem C97_any_key : forall bytes_ d fs m k v s ps c, wf_fs fs -> Forall proper d -> look fs d = Some KDir -> ~ In 0%N k -> spells k (ps ++ [c]) -> origin d k s ->
  (forall fs1 q t, way fs s ps fs1 q -> place q c t -> exists fs' m' o, fs_put cwd bytes_ d fs m k v = (fs', m', o) /\
     (free fs1 t -> (forall a, a <> t -> look fs' a = look fs1 a) /\
        (forall b, accepts bytes_ v b -> o = Ok tt /\ look fs' t = Some (KFile b) /\ exists p, updated m m' k p) /\
        (forall e, rejects bytes_ v e -> o = Raise e /\ look fs' t = Some (KFile []) /\ m' = m)) /\
     (~ free fs1 t -> o = Raise IOError /\ fs' = fs1 /\ m' = m)) /\
  (forall fs1, dead_end fs s ps fs1 -> exists e, fs_put cwd bytes_ d fs m k v = (fs1, m, Raise e) /\ (e = FileExistsError \/ e = NotADirectoryError)).
Proof.
  intros bytes_ d fs m k v s ps c W P D Z S1 Or. apply spells_spec in S1. destruct (key_path d k s fs W P D Or) as (root & pre & Eo & R & Wp & Np & _). rewrite S1 in Eo.
  assert (NN : existsb has_nul (pre ++ ps ++ [c]) = false) by (rewrite existsb_app, Np, <- S1, key_nul by assumption; reflexivity).
  assert (NP : existsb has_nul (pre ++ ps) = false) by (rewrite app_assoc in NN; now apply has_nul_app in NN).
  assert (Fr : look fs (if (root =? 0)%N then cwd else []) = Some KDir) by now rewrite R. destruct (parents_way root fs W Fr (pre ++ ps) NP) as (A & B). rewrite R in A, B.
  assert (Et : tl (rev (p_parts (out_file d k))) = rev (pre ++ ps)) by (rewrite Eo; cbn [p_parts]; rewrite app_assoc, rev_app_distr; reflexivity).
  unfold fs_put, sink_write. rewrite Et, Eo. cbn [p_root]. split.
  - intros fs1 q t Hw Hp. assert (Hw' := way_app _ _ _ _ _ _ _ _ Wp Hw). rewrite (A _ _ Hw'). destruct (way_walk _ _ _ _ _ Hw' W eq_refl) as (W1 & D1 & E1 & _).
    assert (Ft : os_find cwd fs1 (MkPath root (pre ++ ps ++ [c])) = Ok t).
    { rewrite find_parts by assumption. rewrite R, app_assoc, os_app, E1. cbn [bind os_walk]. rewrite D1. inversion Hp as [E|c' N]; subst; [reflexivity|]. apply str_eqb_neq in N. now rewrite N. }
    rewrite Ft. cbn [bind]. destruct (can_write fs1 t) as [[]|e] eqn:Cw; cbn [bind].
    + assert (F : free fs1 t) by (apply can_write_inv in Cw; [destruct Cw as (_ & _ & _ & _ & F); exact F|assumption]). assert (Nt : t <> []) by (intros ->; destruct F as [F|(b & F)]; discriminate).
      destruct (accepts_or_rejects bytes_ v) as [(b & Ac)|(e & Rj)].
      * rewrite (content_accepts _ _ _ Ac). cbn [fst snd]. eexists _, _, _. split; [reflexivity|]. split; [intros _|intros NF; contradiction]. split; [intros a Na; apply look_set_other; congruence|]. split.
        -- intros b' Ac'. assert (b' = b) as -> by (apply content_accepts in Ac, Ac'; congruence). split; [reflexivity|]. split; [now apply look_set_same|]. exists (MkPath root (pre ++ ps ++ [c])). split; [rewrite dfind_dput, str_eqb_refl; reflexivity|].
           intros k' N. rewrite dfind_dput. destruct (str_eqb k k') eqn:X; [apply str_eqb_eq in X; congruence|reflexivity].
        -- intros e Rj. apply content_accepts in Ac. apply content_rejects in Rj. congruence.
      * rewrite (content_rejects _ _ _ Rj). cbn [fst snd]. eexists _, _, _. split; [reflexivity|]. split; [intros _|intros NF; contradiction]. split; [intros a Na; apply look_set_other; congruence|]. split.
        -- intros b' Ac'. apply content_accepts in Ac'. apply content_rejects in Rj. congruence.
        -- intros e' Rj'. assert (e' = e) as -> by (apply content_rejects in Rj, Rj'; congruence). split; [reflexivity|]. split; [now apply look_set_same|reflexivity].
    + eexists _, _, _. split; [reflexivity|]. assert (G : forall x y, t = x :: y -> look fs1 y = Some KDir).
      { intros x y E. rewrite E in Hp. inversion Hp as [Ec Et'|c' N Ec Et']; [|congruence]. assert (U := up_dir fs1 q W1 D1). rewrite Et' in U. eapply W1; eassumption. }
      destruct t as [|x y]; [split; [intros [F|(b & F)]; discriminate|intros _; injection Cw as <-; auto]|]. specialize (G x y eq_refl). split; [intros F; rewrite (can_write_ok fs1 x y W1 G F) in Cw; discriminate|].
      intros _. unfold can_write in Cw. rewrite (search_dir fs1 y W1 G) in Cw. cbn [bind] in Cw. destruct (look fs1 (x :: y)) as [[b| |]|]; try discriminate; injection Cw as <-; auto.
  - intros fs1 (a & c' & b & q' & -> & Nc & Hw & O). destruct (B fs1) as (e & -> & He); [|eauto]. exists (pre ++ a), c', b, q'. split; [now rewrite app_assoc|]. split; [assumption|]. split; [eapply way_app; eassumption|assumption].
Qed.
(** C97: a key without components, such as "" or ".", and one with a NUL. *)
Theorem C97_no_file : forall bytes_ d fs m k v, wf_fs fs -> Forall proper d -> look fs d = Some KDir ->
  (~ In 0%N k -> spells k [] -> fs_put cwd bytes_ d fs m k v = (fs, m, Raise IOError)) /\
  (In 0%N k -> exists fs' e, fs_put cwd bytes_ d fs m k v = (fs', m, Raise e)).
Proof.
  intros bytes_ d fs m k v W P D. assert (exists s, origin d k s) as (s & Or). { destruct k as [|a k]; [exists d; apply or_rel; discriminate|]. destruct (N.eqb_spec a slash) as [->|N]; [eexists; constructor|exists d; apply or_rel; congruence]. }
  destruct (key_path d k s fs W P D Or) as (root & pre & Eo & R & Wp & Np & Pr). split.
  - intros Z S1. apply spells_spec in S1. rewrite S1, app_nil_r in Eo. unfold fs_put, sink_write. rewrite Eo. cbn [p_root p_parts].
    assert (Fr : look fs (if (root =? 0)%N then cwd else []) = Some KDir) by now rewrite R.
    assert (X : exists q, way fs [] (rev (tl (rev pre))) fs q). { destruct Pr as [(_ & ->)|(_ & ->)]; [eexists; constructor|]. rewrite rev_involutive. destruct d as [|x d]; [eexists; constructor|]. cbn [tl]. exists d. inversion P; subst. apply way_plain; [assumption|assumption|eapply W; eassumption]. }
    destruct X as (q & X). assert (N' : existsb has_nul (rev (tl (rev pre))) = false). { destruct Pr as [(_ & ->)|(_ & ->)]; [reflexivity|]. rewrite rev_involutive. destruct d as [|x d]; [reflexivity|]. inversion P; subst. now apply nul_plain. }
    destruct (parents_way root fs W Fr _ N') as (A & _). rewrite R in A. specialize (A _ _ X). rewrite rev_involutive in A. rewrite A.
    rewrite find_parts, R by assumption. destruct (way_walk _ _ _ _ _ Wp W eq_refl) as (_ & Ds & E1 & _). rewrite E1. cbn [bind].
    assert (can_write fs s = Raise IOError) as ->; [|reflexivity]. destruct s as [|x y]; [reflexivity|]. unfold can_write. rewrite (search_dir fs y W) by (eapply W; eassumption). cbn [bind]. rewrite Ds. reflexivity.
  - intros Z. unfold fs_put, sink_write. destruct (mkdir_parents cwd fs (p_root (out_file d k)) (tl (rev (p_parts (out_file d k))))) as [fs1 [[]|e]]; [|eauto].
    assert (os_find cwd fs1 (out_file d k) = Raise ValueError) as ->; [|cbn [bind]; eauto]. unfold os_find. assert (existsb has_nul (p_parts (out_file d k)) = true) as ->; [|reflexivity].
    rewrite Eo. cbn [p_parts]. rewrite existsb_app. apply orb_true_iff. right. apply existsb_exists. assert (X : exists c, In c (py_split slash k) /\ In 0%N c).
    { clear -Z. rewrite <- (py_split_join slash k) in Z. induction (py_split slash k) as [|c [|c2 l] IH]; [destruct Z|exists c; simpl in *; auto|]. change (py_join [slash] (c :: c2 :: l)) with (c ++ slash :: py_join [slash] (c2 :: l)) in Z. apply in_app_or in Z. destruct Z as [Z|[Z|Z]]; [exists c; simpl; auto|discriminate|]. destruct (IH Z) as (x & I & J). exists x. split; [now right|assumption]. }
    destruct X as (c & I & J). exists c. split; [|destruct (has_nul c) eqn:H; [reflexivity|]; apply has_nul_spec in H; contradiction]. unfold parse_path. cbn [p_parts]. apply filter_In. split; [assumption|]. apply negb_true_iff, orb_false_iff. split; apply str_eqb_neq; intros ->; [destruct J|]. destruct J as [J|[]]; discriminate.
Qed.

(** ** Reading through an index with arbitrary paths *)
(** C97: the map sources give, for a key listed with the path [s], the content of the file that [s] leads to from the current directory. *)
Theorem C97_map_source : forall fs files k s, dfind files k = Some (parse_path s) ->
  let bs := byte_map_source cwd fs files in let cs := char_map_source cwd fs files in
  (forall q b, leads fs cwd s q -> look fs q = Some (KFile b) ->
     src_item bs k = Ok b /\ src_get bs k = Ok (Some b) /\
     (forall t u, encode t = Ok b -> newlines_read t u -> src_item cs k = Ok u /\ src_get cs k = Ok (Some u)) /\
     ((forall t, encode t <> Ok b) -> src_item cs k = Raise UnicodeDecodeError /\ src_get cs k = Raise UnicodeDecodeError)) /\
  (forall q, leads fs cwd s q -> look fs q = None -> src_item bs k = Raise FileNotFoundError /\ src_item cs k = Raise FileNotFoundError /\ src_get bs k = Raise FileNotFoundError /\ src_get cs k = Raise FileNotFoundError) /\
  ((forall q, ~ leads fs cwd s q) -> exists e, src_item bs k = Raise e /\ src_item cs k = Raise e /\ src_get bs k = Raise e /\ src_get cs k = Raise e).
Proof.
  intros fs files k s Df. cbn [src_item src_get byte_map_source char_map_source]. rewrite Df.
  assert (Fd : forall q, os_find cwd fs (parse_path s) = Ok q <-> leads fs cwd s q) by (intros q; apply find_leads).
  unfold read_at. split; [|split].
  - intros q b L F. apply Fd in L. rewrite L. cbn [bind]. rewrite F. cbn [bind]. split; [reflexivity|]. split; [reflexivity|]. split.
    + intros t u En Nl. apply C68_round_trip in En. rewrite En. cbn [bind]. assert (U := universal_spec t). assert (universal_newlines t = u) as -> by (eapply newlines_read_fun; eassumption). auto.
    + intros N. destruct (decode b) as [t|e] eqn:X; [exfalso; apply C68_round_trip in X; exact (N t X)|]. cbn [bind]. assert (e = UnicodeDecodeError) as -> by (eapply C68_decode_error; eassumption). auto.
  - intros q L F. apply Fd in L. rewrite L. cbn [bind]. rewrite F. repeat split.
  - intros N. destruct (os_find cwd fs (parse_path s)) as [q|e] eqn:X; [exfalso; apply (N q); now apply Fd|]. exists e. repeat split.
Qed.
End DirFsKeys.
Print Assumptions C97_any_key. Print Assumptions C97_no_file. Print Assumptions C97_map_source.
