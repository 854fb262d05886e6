(** * C97: directory key-value stores on the file system *)
From Coq Require Import Sorted.
From Verif Require Import Prelude PyStr SortLib TextLib Utf8 AnnotatedTextProps Params ParamsSpec ParamsProofs Fs FsProofs FsProps PathLists PathListsProps Io IoProps KeyValue KeyValueProps KvParams Mains MainsProofs OsPath OsPathProofs LoadFs LoadFsProps DirFs.

Section DirFsProps.
Notation fsys := (list (list str * fnode)) (only parsing).
Variable cwd : list str.

(** ** Specification *)
(** The key, read as a relative path: its slash-separated components, without the empty ones and ".". *)
Inductive component : str -> list str -> Prop :=
| comp_skip c : c = [] \/ c = !!"." -> component c []
| comp_keep c : c <> [] -> c <> !!"." -> component c [c].
Inductive spells : str -> list str -> Prop :=
| sp_last c l : ~ In slash c -> component c l -> spells c l
| sp_more c l r cs : ~ In slash c -> component c l -> spells r cs -> spells (c ++ slash :: r) (l ++ cs).
(** A key naming a file below the directory: no absolute path, no "..", no NUL, at least one component. *)
Definition plain_key (k : str) (cs : list str) : Prop :=
  spells k cs /\ (forall r, k <> slash :: r) /\ ~ In 0%N k /\ cs <> [] /\ ~ In !!".." cs.
(** The file a key names (paths have the last component first). *)
Notation file_of d cs := (rev cs ++ d).

Lemma component_fun c l : component c l <-> filter (fun c => negb (str_eqb c [] || str_eqb c !!".")) [c] = l.
Proof.
  cbn [filter]. destruct (str_eqb c [] || str_eqb c !!".") eqn:E; cbn [negb].
  - apply orb_true_iff in E. rewrite !str_eqb_eq in E. split; [intros H; inversion H; subst; [reflexivity|]; intuition|intros <-; now constructor].
  - apply orb_false_iff in E. destruct E as [E1 E2]. apply str_eqb_neq in E1, E2. split; [intros H; inversion H as [? [H1|H1]|]; subst; intuition|intros <-; now constructor].
Qed.
Lemma spells_spec k cs : spells k cs <-> p_parts (parse_path k) = cs.
Proof.
  unfold parse_path. cbn [p_parts]. split.
  - induction 1 as [c l N C|c l r cs N C S1 IH].
    + rewrite py_split_no by assumption. now apply component_fun.
    + rewrite py_split_app by assumption. apply component_fun in C. change (c :: py_split slash r) with ([c] ++ py_split slash r). rewrite filter_app. exact (f_equal2 (@app str) C IH).
  - intros <-. assert (G : forall ls, ls <> [] -> (forall p, In p ls -> ~ In slash p) -> spells (py_join [slash] ls) (filter (fun c => negb (str_eqb c [] || str_eqb c !!".")) ls)).
    { induction ls as [|c [|c2 ls] IH]; intros NE P; [congruence| |].
      - simpl py_join. apply sp_last; [apply P; simpl; auto|now apply component_fun].
      - change (py_join [slash] (c :: c2 :: ls)) with (c ++ slash :: py_join [slash] (c2 :: ls)). change (c :: c2 :: ls) with ([c] ++ c2 :: ls). rewrite filter_app.
        apply sp_more; [apply P; simpl; auto|now apply component_fun|]. apply IH; [discriminate|]. intros p I. apply P. now right. }
    assert (P := G (py_split slash k) (py_split_nonnil slash k) (fun p => py_split_parts slash k p)). now rewrite py_split_join in P.
Qed.
Lemma root_rel k : (forall r, k <> slash :: r) -> root_of k = 0%N.
Proof. intros H. destruct k as [|a k]; [reflexivity|]. simpl. destruct (N.eqb_spec a slash) as [->|]; [now destruct (H k)|reflexivity]. Qed.
Lemma plain_proper k cs : plain_key k cs -> Forall proper cs.
Proof.
  intros (S1 & _ & Z & _ & U). apply spells_spec in S1. unfold parse_path in S1. cbn [p_parts] in S1. apply Forall_forall. intros c I. assert (I' := I). rewrite <- S1 in I'. apply filter_In in I'. destruct I' as (I1 & K).
  apply negb_true_iff, orb_false_iff in K. destruct K as [K1 K2]. apply str_eqb_neq in K1, K2. split; [assumption|]. split; [assumption|]. split; [intros ->; now apply U|]. split; [now apply (py_split_parts slash k)|].
  intros J. apply Z. now apply (in_split_in slash k c 0%N).
Qed.
Lemma out_plain d k cs : plain_key k cs -> out_file d k = abs_path (file_of d cs).
Proof.
  intros (S1 & R & _). unfold out_file, join_path, abs_path. replace (p_root (parse_path k)) with 0%N by (symmetry; now apply root_rel). cbn [N.eqb p_root p_parts]. apply spells_spec in S1. rewrite S1. now rewrite rev_app_distr, rev_involutive.
Qed.
Lemma plain_fun k cs cs' : plain_key k cs -> plain_key k cs' -> cs = cs'.
Proof. intros (A & _) (B & _). apply spells_spec in A, B. congruence. Qed.
Lemma plain_dec k : (exists cs, plain_key k cs) \/ ~ exists cs, plain_key k cs.
Proof.
  destruct (p_parts (parse_path k)) as [|c cs] eqn:P.
  - right. intros (cs & S1 & _ & _ & N & _). apply spells_spec in S1. congruence.
  - destruct (root_of k =? 0)%N eqn:R.
    + destruct (in_dec N.eq_dec 0%N k) as [Z|Z]; [right; intros (? & _ & _ & H & _); auto|]. destruct (in_dec (list_eq_dec N.eq_dec) !!".." (c :: cs)) as [U|U].
      * right. intros (cs' & S1 & _ & _ & _ & H). apply spells_spec in S1. rewrite P in S1. subst. auto.
      * left. exists (c :: cs). split; [now apply spells_spec|]. split; [intros r ->|split; [assumption|split; [discriminate|assumption]]].
        simpl in R. destruct r as [|b r]; [discriminate|]. destruct (b =? slash)%N; [|discriminate]. destruct r as [|x r]; [discriminate|]. destruct (x =? slash)%N; discriminate.
    + right. intros (cs' & _ & H & _). rewrite (root_rel k H) in R. discriminate.
Qed.

(** ** The operating system's view of a normalised path *)
Lemma walk_plain fs q : Forall proper q -> os_walk fs [] (rev q) = match q with [] => Ok [] | _ :: r => let* _ := search fs r in Ok q end.
Proof.
  induction q as [|c q IH]; intros P; [reflexivity|]. inversion P as [|? ? (_ & _ & NU & _) P']; subst. cbn [rev]. rewrite os_app, IH by assumption. apply str_eqb_neq in NU.
  destruct q as [|c' q].
  - cbn [bind os_walk look search]. now rewrite NU.
  - cbn [search]. destruct (search fs q) as [u|e]; cbn [bind]; [|reflexivity]. cbn [os_walk]. destruct (look fs (c' :: q)) as [[]|]; cbn [bind]; try reflexivity. now rewrite NU.
Qed.
Lemma nul_plain q : Forall proper q -> existsb has_nul (rev q) = false.
Proof.
  intros P. apply Forall_rev in P. induction P as [|c l (_ & _ & _ & _ & Z) P IH]; [reflexivity|]. cbn [existsb]. rewrite IH. apply has_nul_spec in Z. now rewrite Z.
Qed.
Lemma find_plain fs q : Forall proper q -> os_find cwd fs (abs_path q) = match q with [] => Ok [] | _ :: r => let* _ := search fs r in Ok q end.
Proof. intros P. unfold os_find, abs_path. cbn [p_parts p_root]. rewrite nul_plain by assumption. change (1 =? 0)%N with false. now apply walk_plain. Qed.
Lemma mkdir_at_plain fs q : Forall proper q -> mkdir_at cwd fs (abs_path q) = os_mkdir fs q.
Proof.
  intros P. unfold mkdir_at, os_mkdir. rewrite find_plain by assumption. destruct q as [|c q]; [reflexivity|]. destruct (search fs q); reflexivity.
Qed.
Lemma search_dir fs q : wf_fs fs -> look fs q = Some KDir -> search fs q = Ok tt.
Proof.
  intros W L. assert (S1 := search_spec fs q W). destruct (search fs q) as [[]|e]; [reflexivity|]. exfalso. destruct S1 as [(_ & N & _)|(_ & a & B & k & K & NK)]; [congruence|].
  assert (look fs a = Some KDir) by (eapply dir_all_above; eauto). congruence.
Qed.
Lemma dir_at_plain fs q : wf_fs fs -> Forall proper q -> dir_at cwd fs (abs_path q) = is_dir fs q.
Proof.
  intros W P. unfold dir_at. rewrite find_plain by assumption. destruct q as [|c q]; [reflexivity|]. destruct (search fs q) as [u|e] eqn:S1; [reflexivity|]. cbn [bind].
  unfold is_dir. destruct (look fs (c :: q)) as [[]|] eqn:L; try reflexivity. apply W in L. rewrite (search_dir fs q W L) in S1. discriminate.
Qed.
Lemma parents_unfold fs root rp : mkdir_parents cwd fs root rp =
  match mkdir_at cwd fs (MkPath root (rev rp)) with
  | Ok fs' => (fs', Ok tt)
  | Raise FileNotFoundError =>
      match rp with
      | [] => (fs, Raise FileNotFoundError)
      | _ :: r =>
          match mkdir_parents cwd fs root r with
          | (fs1, Raise e) => (fs1, Raise e)
          | (fs1, Ok _) =>
              match mkdir_at cwd fs1 (MkPath root (rev rp)) with
              | Ok fs2 => (fs2, Ok tt)
              | Raise FileNotFoundError => (fs1, Raise FileNotFoundError)
              | Raise e => if dir_at cwd fs1 (MkPath root (rev rp)) then (fs1, Ok tt) else (fs1, Raise e)
              end
          end
      end
  | Raise e => if dir_at cwd fs (MkPath root (rev rp)) then (fs, Ok tt) else (fs, Raise e)
  end.
Proof. destruct rp; reflexivity. Qed.
Lemma parents_plain fs q : wf_fs fs -> Forall proper q -> mkdir_parents cwd fs 1%N q = mkdir_p fs q.
Proof.
  intros W. induction q as [|c q IH]; intros P; [reflexivity|]. rewrite parents_unfold, mkdir_p_unfold. change (MkPath 1 (rev (c :: q))) with (abs_path (c :: q)). rewrite mkdir_at_plain by assumption.
  rewrite dir_at_plain by assumption. destruct (os_mkdir fs (c :: q)) as [fs'|e]; [reflexivity|]. inversion P as [|? ? P1 P2]; subst.
  rewrite IH by assumption. assert (M := mkdir_p_spec fs q W). destruct (mkdir_p fs q) as [fs1 [u|e1]]; [|reflexivity]. destruct M as (_ & M). assert (W1 : wf_fs fs1) by (eapply made_wf; eauto).
  rewrite mkdir_at_plain by assumption. rewrite dir_at_plain by assumption. reflexivity.
Qed.
Lemma write_plain fs c q data : wf_fs fs -> Forall proper (c :: q) -> sink_write cwd fs (abs_path (c :: q)) data =
  match mkdir_p fs q with
  | (fs1, Raise e) => (fs1, Raise e)
  | (fs1, Ok _) => match can_write fs1 (c :: q) with
                   | Raise e => (fs1, Raise e)
                   | Ok _ => (set_node fs1 (c :: q) (fst data), match snd data with Some e => Raise e | None => Ok tt end)
                   end
  end.
Proof.
  intros W P. unfold sink_write. unfold abs_path at 1 2. cbn [p_root p_parts]. rewrite rev_involutive. cbn [tl]. inversion P as [|? ? P1 P2]; subst. rewrite parents_plain by assumption.
  destruct (mkdir_p fs q) as [fs1 [u|e]]; [|reflexivity]. rewrite find_plain by assumption. unfold can_write. destruct (search fs1 q) as [u'|e] eqn:S1; cbn [bind]; rewrite ?S1; [|reflexivity].
  cbn [bind]. destruct (look fs1 (c :: q)) as [[b| |]|]; reflexivity.
Qed.

(** ** Writing one file, with the directories above it *)
(** Nothing but directories on the way to [q], and at [q] nothing or a regular file. *)
Definition writable (fs : fsys) (q : list str) : Prop := (forall a, below a q -> a <> q -> ~ occupied fs a) /\ free fs q.
(** [fs'] is [fs] with the file [q], content [b], and the directories above it. *)
Definition filed (fs fs' : fsys) (q : list str) (b : bytes) : Prop :=
  look fs' q = Some (KFile b) /\ (forall a, below a q -> a <> q -> look fs' a = Some KDir) /\ (forall a, ~ below a q -> look fs' a = look fs a).
Lemma below_cons_iff a c q : below a q <-> below a (c :: q) /\ a <> c :: q.
Proof.
  split.
  - intros B. split; [now apply below_cons|]. intros ->. now apply (not_below_tail c q).
  - intros (B & N). apply below_inv in B. destruct B; [congruence|assumption].
Qed.
Lemma filed_wf fs fs' c q b : wf_fs fs -> writable fs (c :: q) -> filed fs fs' (c :: q) b -> wf_fs fs'.
Proof.
  intros W (U & F) (F1 & F2 & F3) x r k L. destruct (at_or_below r (c :: q)) eqn:B.
  - apply at_or_below_spec in B. destruct (rpath_eqb_spec r (c :: q)) as [->|N]; [|auto]. exfalso. rewrite F3 in L by apply not_below_tail. apply W in L. destruct F as [F|(b' & F)]; congruence.
  - assert (~ below r (c :: q)) as B' by (intros K; apply at_or_below_spec in K; congruence). rewrite F3 by assumption. rewrite F3 in L; [eapply W; eassumption|]. intros K. apply B'. apply (below_trans r (x :: r)); [now exists [x]|assumption].
Qed.
Lemma write_spec fs c q data : wf_fs fs -> Forall proper (c :: q) -> exists fs' o, sink_write cwd fs (abs_path (c :: q)) data = (fs', o) /\
  (writable fs (c :: q) -> filed fs fs' (c :: q) (fst data) /\ o = match snd data with Some e => Raise e | None => Ok tt end) /\
  (~ writable fs (c :: q) -> (forall a, look fs' a = look fs a) /\
     ((o = Raise FileExistsError /\ occupied fs q) \/ (o = Raise NotADirectoryError /\ exists a, below a q /\ a <> q /\ occupied fs a) \/
      (o = Raise IOError /\ unblocked fs q /\ (look fs (c :: q) = Some KDir \/ look fs (c :: q) = Some KOther)))).
Proof.
  intros W P. rewrite write_plain by assumption. assert (M := mkdir_p_spec fs q W). destruct (mkdir_p fs q) as [fs1 [u|e]].
  - destruct M as (U & M). assert (W1 : wf_fs fs1) by (eapply made_wf; eauto). destruct M as (M1 & M2). assert (Sm : look fs1 (c :: q) = look fs (c :: q)) by (apply M2; apply not_below_tail).
    assert (D1 : look fs1 q = Some KDir) by (apply M1; apply below_refl).
    assert (US : forall a, below a (c :: q) -> a <> c :: q -> ~ occupied fs a) by (intros a B N; apply U; apply (below_cons_iff a c); auto).
    destruct (can_write fs1 (c :: q)) as [u'|e] eqn:E.
    + destruct u'. apply can_write_inv in E; [|assumption]. destruct E as (c0 & d0 & E0 & _ & F). injection E0 as <- <-.
      assert (WR : writable fs (c :: q)) by (split; [assumption|]; unfold free in *; now rewrite <- Sm).
      eexists _, _. split; [reflexivity|]. split; [|intros; contradiction]. intros _. split; [|reflexivity]. split; [apply look_set_same; discriminate|]. split.
      * intros a B N. rewrite look_set_other; [|discriminate|congruence]. apply M1. apply (below_cons_iff a c); auto.
      * intros a N. rewrite look_set_other; [|discriminate|intros Ea; apply N; rewrite <- Ea; apply below_refl]. apply M2. intros B. apply N. now apply below_cons.
    + assert (NF : ~ free fs (c :: q)). { intros F. rewrite (can_write_ok fs1 c q W1 D1) in E; [discriminate|]. unfold free in *. now rewrite Sm. }
      eexists _, _. split; [reflexivity|]. split; [intros (_ & F); contradiction|]. intros _.
      assert (K : look fs (c :: q) = Some KDir \/ look fs (c :: q) = Some KOther). { unfold free in NF. destruct (look fs (c :: q)) as [[b| |]|]; auto; destruct NF; eauto. }
      assert (Dq : look fs q = Some KDir) by (destruct K as [K|K]; eapply W; eassumption).
      split.
      * intros a. destruct (at_or_below a q) eqn:B; [apply at_or_below_spec in B; rewrite M1 by assumption; symmetry; eapply dir_all_above; eauto|]. apply M2. intros B'. apply at_or_below_spec in B'. congruence.
      * right. right. split; [|split; assumption]. f_equal. unfold can_write in E. rewrite (search_dir fs1 q W1 D1) in E. cbn [bind] in E. rewrite Sm in E. destruct K as [K|K]; rewrite K in E; now injection E as <-.
  - destruct M as (-> & M). exists fs, (Raise e). split; [reflexivity|]. split.
    + intros (U & _). exfalso. destruct M as [(_ & O)|(_ & a & B & _ & O)]; [apply (U q); [now exists [c]|intros Ec; exact (not_below_tail c q (eq_rect _ (fun x => below x q) (below_refl q) _ Ec))|assumption]|].
      apply (below_cons_iff a c) in B. apply (U a); tauto.
    + intros _. split; [reflexivity|]. destruct M as [(-> & O)|(-> & O)]; [left; auto|right; left; auto].
Qed.

(** ** C97: one put *)
(** What a sink accepts: text that can be encoded in UTF-8, or bytes. *)
Inductive accepts : bool -> value -> bytes -> Prop :=
| acc_text s b : encode s = Ok b -> accepts false (VStr s) b
| acc_bytes b : accepts true (VBytes b) b.
Inductive rejects : bool -> value -> exn -> Prop :=
| rej_text s : ~ encodable s -> rejects false (VStr s) UnicodeEncodeError
| rej_type bytes_ v : (forall s, bytes_ = false -> v <> VStr s) -> (forall b, bytes_ = true -> v <> VBytes b) -> rejects bytes_ v TypeError.
Lemma content_accepts bytes_ v b : accepts bytes_ v b -> content bytes_ v = (b, None).
Proof. intros H. inversion H; subst; cbn [content]; [|reflexivity]. match goal with H : encode _ = _ |- _ => now rewrite H end. Qed.
Lemma content_rejects bytes_ v e : rejects bytes_ v e -> content bytes_ v = ([], Some e).
Proof.
  intros H. inversion H as [s N|b' v' N1 N2]; subst.
  - cbn [content]. rewrite (proj2 (C68_encodable s) N); reflexivity.
  - destruct bytes_, v; cbn [content]; try reflexivity; exfalso; [eapply N2|eapply N1]; reflexivity.
Qed.
Lemma accepts_or_rejects bytes_ v : (exists b, accepts bytes_ v b) \/ (exists e, rejects bytes_ v e).
Proof.
  destruct bytes_, v as [|s|b|]; try (right; exists TypeError; constructor; discriminate); try (left; eexists; constructor; fail).
  destruct (encode s) as [b|e] eqn:E; [left; exists b; now constructor|]. right. exists UnicodeEncodeError. constructor. intros N. destruct (encodable_ok s N) as (b & Eb). congruence.
Qed.
Lemma above_dec fs q : (forall a, below a q -> ~ occupied fs a) \/ exists a, below a q /\ occupied fs a.
Proof.
  induction q as [|c q [IH|(a & B & O)]].
  - left. intros a B. apply below_nil in B. subst. intros (k & K & N). simpl in K. congruence.
  - destruct (look fs (c :: q)) as [k|] eqn:L.
    + destruct k as [b0| |].
      * right. exists (c :: q). split; [apply below_refl|]. exists (KFile b0). split; [assumption|discriminate].
      * left. intros a B. apply below_inv in B. destruct B as [->|B]; [|auto]. intros (k & K & N). congruence.
      * right. exists (c :: q). split; [apply below_refl|]. exists KOther. split; [assumption|discriminate].
    + left. intros a B. apply below_inv in B. destruct B as [->|B]; [|auto]. intros (k & K & N). congruence.
  - right. exists a. split; [now apply below_cons|assumption].
Qed.
Lemma writable_dec fs c q : writable fs (c :: q) \/ ~ writable fs (c :: q).
Proof.
  destruct (above_dec fs q) as [U|(a & B & O)].
  - destruct (look fs (c :: q)) as [[b| |]|] eqn:L; [left|right|right|left].
    + split; [intros a B N; apply U; apply (below_cons_iff a c); auto|right; eauto].
    + intros (_ & [F|(b & F)]); congruence.
    + intros (_ & [F|(b & F)]); congruence.
    + split; [intros a B N; apply U; apply (below_cons_iff a c); auto|left; assumption].
  - right. intros (U & _). apply (below_cons_iff a c) in B. now apply (U a).
Qed.
(** Writing below a directory leaves the rest alone. *)
Lemma write_inside fs d c q data : wf_fs fs -> Forall proper (c :: q) -> look fs d = Some KDir -> below d q ->
  let fs' := fst (sink_write cwd fs (abs_path (c :: q)) data) in
  wf_fs fs' /\ look fs' d = Some KDir /\ (forall a, ~ (below d a /\ a <> d) -> look fs' a = look fs a).
Proof.
  intros W P D B. destruct (write_spec fs c q data W P) as (fs' & o & E & G1 & G2). rewrite E. cbn [fst]. destruct (writable_dec fs c q) as [WR|NW].
  - destruct (G1 WR) as (F & _). split; [eapply filed_wf; eauto|]. destruct F as (F1 & F2 & F3).
    assert (Dd : forall a, below a d -> look fs' a = Some KDir). { intros a Ba. apply F2; [apply below_cons; eapply below_trans; eauto|]. intros ->. apply (not_below_tail c q). eapply below_trans; eauto. }
    split; [apply Dd, below_refl|]. intros a N. destruct (at_or_below a (c :: q)) eqn:X.
    + apply at_or_below_spec in X. assert (Bd : below d (c :: q)) by now apply below_cons. destruct (below_linear a d (c :: q) X Bd) as [Ba|Ba].
      * rewrite Dd by assumption. symmetry. eapply dir_all_above; eauto.
      * destruct (list_eq_dec (list_eq_dec N.eq_dec) a d) as [->|Na]; [rewrite Dd by apply below_refl; now symmetry|]. destruct N. auto.
    + apply F3. intros Y. apply at_or_below_spec in Y. congruence.
  - destruct (G2 NW) as (Sm & _). split; [|split; [now rewrite Sm|auto]]. intros x r k L. rewrite Sm in L |- *. eapply W; eassumption.
Qed.
Lemma file_cons d cs : cs <> [] -> Forall proper cs -> Forall proper d -> exists c q, rev cs ++ d = c :: q /\ Forall proper (c :: q) /\ below d q.
Proof.
  intros N P Pd. destruct (rev cs) as [|c l] eqn:R; [apply (f_equal (@rev _)) in R; rewrite rev_involutive in R; simpl in R; congruence|]. exists c, (l ++ d). split; [reflexivity|]. split; [|now exists l].
  change (c :: l ++ d) with ((c :: l) ++ d). apply Forall_app. split; [|assumption]. rewrite <- R. now apply Forall_rev.
Qed.
(** The entry [k] of a table becomes [x], the others stay. *)
Definition updated {A} (m m' : list (str * A)) (k : str) (x : A) : Prop :=
  dfind m' k = Some x /\ forall k', k' <> k -> dfind m' k' = dfind m k'.
(** C97: putting a value under a key that names a file below the directory writes that file, making directories as needed, and enters it
    in the index; a value that cannot be written leaves an empty file and no new entry; if the way is blocked by a file, or a directory
    is in the file's place, nothing happens but an OSError. *)
Theorem C97_put : forall bytes_ d fs m k v cs, wf_fs fs -> look fs d = Some KDir -> Forall proper d -> plain_key k cs ->
  let q := file_of d cs in exists fs' m' o, fs_put cwd bytes_ d fs m k v = (fs', m', o) /\
  (writable fs q -> (forall b, accepts bytes_ v b -> o = Ok tt /\ filed fs fs' q b /\ updated m m' k (abs_path q)) /\
                    (forall e, rejects bytes_ v e -> o = Raise e /\ filed fs fs' q [] /\ m' = m)) /\
  (~ writable fs q -> (forall a, look fs' a = look fs a) /\ m' = m /\
     ((o = Raise FileExistsError /\ occupied fs (tl q)) \/ (o = Raise NotADirectoryError /\ exists a, below a (tl q) /\ a <> tl q /\ occupied fs a) \/
      (o = Raise IOError /\ unblocked fs (tl q) /\ (look fs q = Some KDir \/ look fs q = Some KOther)))).
Proof.
  intros bytes_ d fs m k v cs W D P K q. assert (Pc := plain_proper k cs K). assert (NE : cs <> []) by apply K.
  destruct (file_cons d cs NE Pc P) as (c & r & E & Pr & B). unfold fs_put. rewrite (out_plain d k cs K). subst q. rewrite E. cbn [tl].
  destruct (write_spec fs c r (content bytes_ v) W Pr) as (fs' & o & -> & G1 & G2). destruct o as [[]|e].
  - exists fs', (dput m k (abs_path (c :: r))), (Ok tt). split; [reflexivity|]. split.
    + intros WR. destruct (G1 WR) as (F & O). split.
      * intros b A. rewrite (content_accepts _ _ _ A) in F. split; [reflexivity|]. split; [exact F|]. split; [rewrite dfind_dput, str_eqb_refl; reflexivity|].
        intros k' N. rewrite dfind_dput. destruct (str_eqb k k') eqn:X; [apply str_eqb_eq in X; congruence|reflexivity].
      * intros e R. rewrite (content_rejects _ _ _ R) in O. discriminate.
    + intros NW. exfalso. destruct (G2 NW) as (_ & [(X & _)|[(X & _)|(X & _)]]); discriminate.
  - exists fs', m, (Raise e). split; [reflexivity|]. split.
    + intros WR. destruct (G1 WR) as (F & O). split.
      * intros b A. rewrite (content_accepts _ _ _ A) in O. discriminate.
      * intros e' R. rewrite (content_rejects _ _ _ R) in F, O. split; [assumption|]. split; [exact F|reflexivity].
    + intros NW. destruct (G2 NW) as (Sm & X). auto.
Qed.
(** C97: entering the sink needs an existing, empty directory (not the root), and changes nothing. *)
Theorem C97_enter : forall d fs, wf_fs fs ->
  (forall c r, d = c :: r -> look fs d = Some KDir -> (forall x, look fs (x :: d) = None) ->
     exists fs', fs_enter d fs = (fs', Ok tt) /\ wf_fs fs' /\ forall a, look fs' a = look fs a) /\
  (look fs d = Some KDir -> (exists x k, look fs (x :: d) = Some k) -> fs_enter d fs = (fs, Raise IOError)) /\
  (d = [] -> fs_enter d fs = (fs, Raise IOError)) /\
  (look fs d = None -> unblocked fs d -> fs_enter d fs = (fs, Raise FileNotFoundError)) /\
  (~ unblocked fs d -> fs_enter d fs = (fs, Raise NotADirectoryError)).
Proof.
  intros d fs W. unfold fs_enter. repeat split.
  - intros c r -> D C. unfold os_rmdir. rewrite (search_dir fs r W) by (eapply W; eassumption). cbn [bind]. rewrite D. rewrite (proj2 (empty_spec fs (c :: r)) (conj D C)).
    set (fs1 := filter _ fs). assert (L1 : forall a, look fs1 a = if rpath_eqb a (c :: r) then None else look fs a).
    { intros a. destruct a as [|x a]; [reflexivity|]. cbn [look]. unfold fs1. rewrite (find_filter fs (fun k => negb (rpath_eqb k (c :: r)))). destruct (rpath_eqb (x :: a) (c :: r)); reflexivity. }
    assert (W1 : wf_fs fs1). { intros x a k L. rewrite L1 in L |- *. destruct (rpath_eqb_spec (x :: a) (c :: r)); [discriminate|]. destruct (rpath_eqb_spec a (c :: r)) as [->|]; [rewrite C in L; discriminate|]. eapply W; eassumption. }
    assert (M := mkdir_p_spec fs1 (c :: r) W1). assert (U : unblocked fs1 (c :: r)).
    { intros a B (k & K & N). rewrite L1 in K. destruct (rpath_eqb_spec a (c :: r)) as [->|Na]; [discriminate|]. assert (look fs a = Some KDir) by exact (wf_above fs a (c :: r) KDir W D B Na). congruence. }
    destruct (mkdir_p fs1 (c :: r)) as [fs2 [[]|e]].
    + exists fs2. split; [reflexivity|]. destruct M as (_ & M). split; [eapply made_wf; eauto|]. destruct M as (M1 & M2). intros a. destruct (at_or_below a (c :: r)) eqn:X.
      * apply at_or_below_spec in X. rewrite M1 by assumption. symmetry. eapply dir_all_above; eauto.
      * rewrite M2 by (intros Y; apply at_or_below_spec in Y; congruence). rewrite L1. destruct (rpath_eqb_spec a (c :: r)) as [->|]; [|reflexivity]. rewrite (proj2 (at_or_below_spec _ _) (below_refl _)) in X. discriminate.
    + exfalso. destruct M as (_ & [(_ & O)|(_ & a & B & _ & O)]); [apply (U (c :: r) (below_refl _) O)|apply (U a B O)].
  - intros D (x & k & L). unfold os_rmdir. destruct d as [|c r]; [reflexivity|]. rewrite (search_dir fs r W) by (eapply W; eassumption). cbn [bind]. rewrite D.
    destruct (is_empty_directory fs (c :: r)) eqn:Em; [|reflexivity]. apply empty_spec in Em. destruct Em as (_ & Em). rewrite Em in L. discriminate.
  - intros ->. reflexivity.
  - intros N U. destruct d as [|c r]; [discriminate|]. unfold os_rmdir. assert (S1 := search_spec fs r W). destruct (search fs r) as [[]|e]; cbn [bind]; [rewrite N; reflexivity|].
    destruct S1 as [(-> & _)|(-> & a & B & O)]; [reflexivity|]. exfalso. apply (U a); [now apply below_cons|assumption].
  - intros NU. destruct (above_dec fs d) as [U|(a & B & O)]; [now destruct NU|]. destruct d as [|c r]; [apply below_nil in B; subst; destruct O as (k & K & N); simpl in K; congruence|].
    unfold os_rmdir. assert (S1 := search_spec fs r W). apply below_inv in B. destruct B as [->|B].
    + destruct O as (k & K & N). assert (Dr : look fs r = Some KDir) by (eapply W; eassumption). rewrite (search_dir fs r W Dr). cbn [bind]. rewrite K. destruct k; [reflexivity|congruence|reflexivity].
    + destruct (search fs r) as [[]|e]; cbn [bind].
      * exfalso. destruct O as (k & K & N). assert (look fs a = Some KDir) by (eapply dir_all_above; eauto). congruence.
      * destruct S1 as [(_ & _ & U)|(-> & _)]; [exfalso; eapply U; eauto|reflexivity].
Qed.
Lemma index_plain : plain_key index_name [index_name].
Proof.
  split; [|repeat split; try discriminate; vm_compute; intuition discriminate]. apply sp_last; [vm_compute; intuition discriminate|]. constructor; vm_compute; discriminate.
Qed.
Lemma index_proper : proper index_name.
Proof. assert (P := plain_proper _ _ index_plain). now inversion P. Qed.
Lemma puts_inside bytes_ d ops : forall fs m, (forall k v, In (k, v) ops -> exists cs, plain_key k cs) -> wf_fs fs -> Forall proper d -> look fs d = Some KDir ->
  let fs' := fst (fst (fs_puts cwd bytes_ d fs m ops)) in
  wf_fs fs' /\ look fs' d = Some KDir /\ (forall a, ~ (below d a /\ a <> d) -> look fs' a = look fs a).
Proof.
  induction ops as [|[k v] ops IH]; intros fs m H W P D; [cbn; auto|]. cbn [fs_puts]. destruct (H k v) as (cs & K); [simpl; auto|].
  destruct (file_cons d cs (proj1 (proj2 (proj2 (proj2 K)))) (plain_proper k cs K) P) as (c & r & E & Pr & B).
  assert (G := write_inside fs d c r (content bytes_ v) W Pr D B). unfold fs_put. rewrite (out_plain d k cs K), E. destruct (sink_write cwd fs (abs_path (c :: r)) (content bytes_ v)) as [fs1 o]. cbn [fst] in G.
  destruct G as (W1 & D1 & S1). set (m1 := match o with Ok _ => dput m k (abs_path (c :: r)) | Raise _ => m end).
  assert (Q := IH fs1 m1 (fun k v I => H k v (or_intror I)) W1 P D1). replace (match o with Ok _ => (fs1, dput m k (abs_path (c :: r)), Ok tt) | Raise e => (fs1, m, Raise e) end) with (fs1, m1, match o with Ok _ => Ok tt | Raise e => Raise e end) by (destruct o; reflexivity).
  destruct (fs_puts cwd bytes_ d fs1 m1 ops) as [[fs2 m2] os]. cbn [fst] in *. destruct Q as (W2 & D2 & S2). split; [assumption|]. split; [assumption|]. intros a N. now rewrite S2, S1.
Qed.
(** C97: whatever is put, whether it succeeds or not, a session with such keys changes nothing outside the directory. *)
Theorem C97_confined : forall bytes_ d fs ops, wf_fs fs -> Forall proper d -> (forall k v, In (k, v) ops -> exists cs, plain_key k cs) ->
  let fs' := fst (fs_session cwd bytes_ d fs ops) in wf_fs fs' /\ forall a, ~ (below d a /\ a <> d) -> look fs' a = look fs a.
Proof.
  intros bytes_ d fs ops W P H. unfold fs_session. destruct (C97_enter d fs W) as (E1 & E2 & E3 & E4 & E5).
  destruct (above_dec fs d) as [U|(a & B & O)]; [|rewrite E5 by (intros U; exact (U a B O)); cbn [fst]; auto].
  destruct (look fs d) as [k|] eqn:D; [|rewrite E4 by auto; cbn [fst]; auto].
  assert (k = KDir) as -> by (destruct k; [exfalso|reflexivity|exfalso]; apply (U d (below_refl d)); eexists; (split; [eassumption|discriminate])).
  destruct d as [|c r]; [rewrite E3 by auto; cbn [fst]; auto|]. destruct (is_empty_directory fs (c :: r)) eqn:Em.
  - apply empty_spec in Em. destruct (E1 c r eq_refl eq_refl (proj2 Em)) as (fs1 & -> & W1 & S1). assert (D1 : look fs1 (c :: r) = Some KDir) by (rewrite S1; exact D).
    assert (Q := puts_inside bytes_ (c :: r) ops fs1 [] H W1 P D1). destruct (fs_puts cwd bytes_ (c :: r) fs1 [] ops) as [[fs2 m] os]. cbn [fst] in Q. destruct Q as (W2 & D2 & S2).
    assert (X := write_inside fs2 (c :: r) index_name (c :: r) (write_lines (index_lines m)) W2 (Forall_cons _ index_proper P) D2 (below_refl _)).
    unfold fs_exit. rewrite (out_plain (c :: r) index_name [index_name] index_plain). cbn [rev app]. destruct (sink_write cwd fs2 (abs_path (index_name :: c :: r)) (write_lines (index_lines m))) as [fs3 o]. cbn [fst] in *.
    destruct X as (W3 & D3 & S3). split; [assumption|]. intros a N. now rewrite S3, S2, S1.
  - rewrite E2; [cbn [fst]; auto|reflexivity|]. assert (Z : exists x, look fs (x :: c :: r) <> None).
    { unfold is_empty_directory in Em. rewrite (proj2 (is_dir_true fs (c :: r)) D) in Em. simpl andb in Em. apply negb_false_iff in Em. apply existsb_exists in Em. destruct Em as ([q v] & I & C1). unfold child_of in C1. cbn [fst] in C1. destruct q as [|x q]; [discriminate|].
      destruct (rpath_eqb_spec q (c :: r)) as [->|]; [|discriminate]. exists x. cbn [look]. apply find_path_in. eauto. }
    destruct Z as (x & Z). destruct (look fs (x :: c :: r)) as [k|] eqn:L; [exists x, k; assumption|congruence].
Qed.

(** ** C97: round trip *)
(** [v] is what was last put under a key naming the file [cs]. *)
Inductive last_write (cs : list str) (v : value) : list (str * value) -> Prop :=
| lw_here k r : plain_key k cs -> (forall k' v', In (k', v') r -> ~ plain_key k' cs) -> last_write cs v ((k, v) :: r)
| lw_later x r : last_write cs v r -> last_write cs v (x :: r).
Section Tree.
Variable d : list str.
Variable T : list str -> Prop.
Hypothesis flat : forall cs cs' x, T cs -> T cs' -> cs' = cs ++ x -> x = [].
Hypothesis named_ok : forall cs, T cs -> cs <> [] /\ Forall proper cs.
Hypothesis Pd : Forall proper d.
(** Below [d] there are only files of [T] and directories on the way to them. *)
Record tree (fs : fsys) : Prop := {
  tr_wf : wf_fs fs;
  tr_dir : look fs d = Some KDir;
  tr_file : forall a, below d a -> a <> d -> occupied fs a -> (exists cs, T cs /\ a = file_of d cs) /\ exists b, look fs a = Some (KFile b);
  tr_sub : forall a, below d a -> a <> d -> look fs a = Some KDir -> exists cs, T cs /\ below a (file_of d cs) /\ a <> file_of d cs }.
Lemma below_file cs cs' : T cs -> T cs' -> below (file_of d cs) (file_of d cs') -> cs = cs'.
Proof using flat.
  intros H H' (l & E). rewrite app_assoc in E. apply app_inv_tail in E. apply (f_equal (@rev _)) in E. rewrite rev_involutive, rev_app_distr, rev_involutive in E.
  assert (X := flat cs cs' (rev l) H H' E). rewrite X, app_nil_r in E. now symmetry.
Qed.
Lemma file_not_dir cs : T cs -> below d (file_of d cs) /\ file_of d cs <> d.
Proof using flat named_ok.
  intros H. split; [now exists (rev cs)|]. intros E. destruct (named_ok cs H) as (NE & _). apply (f_equal (@length _)) in E. rewrite app_length, rev_length in E. destruct cs; [congruence|]. simpl in E. lia.
Qed.
Lemma tree_writable fs cs : tree fs -> T cs -> writable fs (file_of d cs).
Proof using flat named_ok.
  intros TR H. destruct (file_not_dir cs H) as (Bd & Nd). split.
  - intros a B N O. destruct (below_linear a d _ B Bd) as [Ba|Ba].
    + assert (look fs a = Some KDir) by (eapply dir_all_above; [apply TR|apply TR|assumption]). destruct O as (k & K & NK). congruence.
    + destruct (list_eq_dec (list_eq_dec N.eq_dec) a d) as [->|Na]; [destruct O as (k & K & NK); rewrite (tr_dir _ TR) in K; congruence|].
      destruct (tr_file _ TR a Ba Na O) as ((cs' & H' & ->) & _). apply (below_file cs' cs H' H) in B. congruence.
  - unfold free. destruct (look fs (file_of d cs)) as [k|] eqn:L; [|auto]. right. destruct k as [b| |]; [eauto| |].
    + exfalso. destruct (tr_sub _ TR _ Bd Nd L) as (cs' & H' & B' & N'). apply (below_file cs cs' H H') in B'. congruence.
    + exfalso. destruct (tr_file _ TR _ Bd Nd) as (_ & b & Lb); [exists KOther; split; [assumption|discriminate]|]. congruence.
Qed.
Lemma tree_filed fs fs' cs b : tree fs -> T cs -> filed fs fs' (file_of d cs) b -> tree fs' /\ (forall cs', T cs' -> cs' <> cs -> look fs' (file_of d cs') = look fs (file_of d cs')).
Proof using flat named_ok Pd.
  intros TR H F. assert (WR := tree_writable fs cs TR H). destruct (file_not_dir cs H) as (Bd & Nd). assert (W' : wf_fs fs').
  { destruct (named_ok cs H) as (NE & Pc). destruct (file_cons d cs NE Pc Pd) as (c & q & E & _). rewrite E in *. eapply filed_wf; [apply TR|eassumption|eassumption]. }
  destruct F as (F1 & F2 & F3). split; [split|].
  - assumption.
  - apply F2; [assumption|congruence].
  - intros a Ba Na (k & K & NK). destruct (list_eq_dec (list_eq_dec N.eq_dec) a (file_of d cs)) as [->|Nq]; [split; [eauto|]; eauto|].
    destruct (at_or_below a (file_of d cs)) eqn:X; [apply at_or_below_spec in X; rewrite F2 in K by assumption; congruence|].
    assert (N : ~ below a (file_of d cs)) by (intros Y; apply at_or_below_spec in Y; congruence). rewrite F3 in K |- * by assumption. apply (tr_file _ TR a Ba Na). exists k. auto.
  - intros a Ba Na L. destruct (list_eq_dec (list_eq_dec N.eq_dec) a (file_of d cs)) as [->|Nq]; [congruence|].
    destruct (at_or_below a (file_of d cs)) eqn:X; [apply at_or_below_spec in X; eauto|].
    assert (N : ~ below a (file_of d cs)) by (intros Y; apply at_or_below_spec in Y; congruence). rewrite F3 in L by assumption. now apply (tr_sub _ TR a Ba Na).
  - intros cs' H' N. apply F3. intros B. apply (below_file cs' cs H' H) in B. congruence.
Qed.
Variable bytes_ : bool.
Lemma puts_tree ops : (forall k v, In (k, v) ops -> (exists cs, plain_key k cs /\ T cs) /\ exists b, accepts bytes_ v b) ->
  forall fs m, tree fs -> NoDup (keys m) -> exists fs' m', fs_puts cwd bytes_ d fs m ops = (fs', m', map (fun _ => Ok tt) ops) /\ tree fs' /\ NoDup (keys m') /\
    (forall k cs, In k (map fst ops) -> plain_key k cs -> dfind m' k = Some (abs_path (file_of d cs))) /\ (forall k, ~ In k (map fst ops) -> dfind m' k = dfind m k) /\
    (forall cs v b, last_write cs v ops -> accepts bytes_ v b -> look fs' (file_of d cs) = Some (KFile b)) /\
    (forall cs, T cs -> (forall k v, In (k, v) ops -> ~ plain_key k cs) -> look fs' (file_of d cs) = look fs (file_of d cs)).
Proof using flat named_ok Pd.
  induction ops as [|[k v] ops IH]; intros H fs m TR ND.
  - exists fs, m. split; [reflexivity|]. split; [assumption|]. split; [assumption|]. split; [intros k cs []|]. split; [reflexivity|]. split; [intros cs v b L; inversion L|reflexivity].
  - destruct (H k v) as ((cs & K & Tcs) & b & A); [simpl; auto|].
    destruct (C97_put bytes_ d fs m k v cs (tr_wf _ TR) (tr_dir _ TR) Pd K) as (fs1 & m1 & o & E & G & _). destruct (G (tree_writable fs cs TR Tcs)) as (G1 & _). destruct (G1 b A) as (-> & F & U1 & U2). clear G G1.
    destruct (tree_filed fs fs1 cs b TR Tcs F) as (TR1 & O1).
    assert (ND1 : NoDup (keys m1)). { unfold fs_put in E. destruct (sink_write cwd fs (out_file d k) (content bytes_ v)) as [f [x|x]]; inversion E; subst. now apply dput_nodup. }
    destruct (IH (fun k v I => H k v (or_intror I)) fs1 m1 TR1 ND1) as (fs' & m' & E' & TR' & ND' & M1 & M2 & L & O).
    exists fs', m'. split; [cbn [fs_puts]; rewrite E, E'; reflexivity|]. split; [assumption|]. split; [assumption|]. split; [|split; [|split]].
    + intros k' cs' I K'. destruct (in_dec (list_eq_dec N.eq_dec) k' (map fst ops)) as [J|J]; [now apply M1|]. destruct I as [I|I]; [|contradiction]. cbn [fst] in I. subst k'. rewrite M2 by assumption. rewrite (plain_fun _ _ _ K' K). exact U1.
    + intros k' N. rewrite M2 by (intros I; apply N; now right). apply U2. intros ->. apply N. now left.
    + intros cs' v' b' Lw A'. inversion Lw as [k0 r K0 N0 E0|x r L1 E0]; subst; [|eapply L; eassumption].
      assert (cs' = cs) as -> by (eapply plain_fun; eassumption). rewrite O by assumption. assert (b' = b) as ->. { apply content_accepts in A, A'. congruence. } apply F.
    + intros cs' T' N. rewrite O; [|assumption|intros k' v' I; apply (N k' v'); now right]. apply O1; [assumption|]. intros ->. apply (N k v); [now left|assumption].
Qed.
End Tree.
(** The text of an index, written line by line. *)
Lemma write_lines_ok ls : Forall encodable ls -> exists b, write_lines ls = (b, None) /\ encode (concat ls) = Ok b.
Proof.
  induction 1 as [|l ls E F (b & IH & Eb)]; [exists []; split; reflexivity|]. destruct (encodable_ok l E) as (bl & El). cbn [write_lines concat]. rewrite El, IH. exists (bl ++ b). split; [reflexivity|]. now apply encode_app.
Qed.
Lemma fold_files kvs : forall acc : list (str * ppath), NoDup (keys acc ++ map fst kvs) ->
  fold_left (fun d kv => dput d (fst kv) (to_path None (snd kv))) kvs acc = acc ++ map (fun kv => (fst kv, parse_path (snd kv))) kvs.
Proof.
  induction kvs as [|[k s] kvs IH]; intros acc N; [simpl; now rewrite app_nil_r|]. cbn [fold_left map fst snd] in *.
  assert (F : ~ In k (keys acc)). { intros I. apply NoDup_remove_2 in N. apply N. apply in_or_app. auto. }
  rewrite dput_fresh by assumption. rewrite IH; [rewrite <- app_assoc; reflexivity|]. unfold keys in *. rewrite map_app. cbn [map fst]. rewrite <- app_assoc. exact N.
Qed.
Lemma ppath_abs q : ppath_str (abs_path q) = path_str q.
Proof. reflexivity. Qed.
(** Reading the index back gives the table, in the order of the keys. *)
Lemma index_read fs q m b : NoDup (keys m) -> (forall k p, In (k, p) m -> exists r, p = abs_path r /\ r <> [] /\ Forall proper r /\ field_ok k /\ field_ok (path_str r)) ->
  write_lines (index_lines m) = (b, None) -> look fs q = Some (KFile b) ->
  (let* t := read_text fs q in mapM parse_map_line (text_lines t)) = Ok (map (fun kv => (fst kv, ppath_str (snd kv))) (sorted_by str_ltb fst m)).
Proof.
  intros ND H E L. set (kvs := map (fun kv => (fst kv, ppath_str (snd kv))) (sorted_by str_ltb fst m)).
  assert (F : forall a s, In (a, s) kvs -> field_ok a /\ field_ok s).
  { intros a s I. apply in_map_iff in I. destruct I as ([k p] & E1 & I). cbn [fst snd] in E1. inversion E1; subst; clear E1. apply (Permutation_in _ (sorted_perm str_ltb fst m)) in I. destruct (H _ _ I) as (r & -> & _ & _ & F1 & F2). split; [assumption|]. rewrite ppath_abs. assumption. }
  set (t := flat_map (fun kv => fst kv ++ [TAB] ++ snd kv ++ [LF]) kvs).
  assert (Et : concat (index_lines m) = t). { unfold t, kvs, index_lines. rewrite flat_map_concat_map, map_map. reflexivity. }
  assert (Chars : forall c, In c t -> (c = TAB \/ c = LF) \/ exists a s, In (a, s) kvs /\ (In c a \/ In c s)).
  { intros c I. apply in_flat_map in I. destruct I as ([a s] & I & J). cbn [fst snd] in J. apply in_app_or in J. destruct J as [J|J]; [right; eauto|]. apply in_app_or in J. destruct J as [[J|[]]|J]; [left; auto|]. apply in_app_or in J. destruct J as [J|[J|[]]]; [right; eauto|left; auto]. }
  assert (EL : Forall encodable (index_lines m)).
  { apply Forall_forall. intros l I. unfold index_lines in I. apply in_map_iff in I. destruct I as ([k p] & <- & I). destruct (F k (ppath_str p)) as ((_ & _ & _ & _ & E1) & (_ & _ & _ & _ & E2)); [apply in_map_iff; exists (k, p); auto|].
    cbn [fst snd]. unfold encodable in *. apply Forall_app. split; [assumption|]. constructor; [vm_compute; intuition discriminate|]. apply Forall_app. split; [assumption|]. repeat constructor; vm_compute; intuition discriminate. }
  destruct (write_lines_ok _ EL) as (b' & E' & Eb). rewrite E in E'. inversion E'; subst b'; clear E'. rewrite Et in Eb. unfold read_text. rewrite L. rewrite (proj2 (C68_round_trip t b) Eb). cbn [bind].
  rewrite universal_id; [exact (read_lines_ok kvs F)|]. intros I. apply Chars in I. destruct I as [[I|I]|(a & s & I & J)]; [discriminate|discriminate|]. destruct (F a s I) as ((_ & _ & _ & Ca & _) & (_ & _ & _ & Cs & _)). destruct J; auto.
Qed.
(** No file of a key lies below the file of another, and none is the index or lies below it. *)
Definition side_by_side (ops : list (str * value)) : Prop :=
  (forall k v k' v' cs cs' x, In (k, v) ops -> In (k', v') ops -> plain_key k cs -> plain_key k' cs' -> cs' = cs ++ x -> x = []) /\
  (forall k v cs, In (k, v) ops -> plain_key k cs -> hd [] cs <> index_name).
(** C97: a session on an empty directory - keys may be put repeatedly, and several keys may name the same file - and reading back through the
    index: the source has exactly the keys put, in increasing order, and gives for each what was last put into its file. *)
Theorem C97_round_trip : forall (X : Type) bytes_ d fs ops, wf_fs fs -> Forall proper d -> Forall proper cwd -> d <> [] -> look fs d = Some KDir -> (forall x, look fs (x :: d) = None) ->
  (forall k v, In (k, v) ops -> (exists b, accepts bytes_ v b) /\ field_ok k /\ exists cs, plain_key k cs /\ field_ok (path_str (file_of d cs))) -> side_by_side ops ->
  exists fs', fs_session cwd bytes_ d fs ops = (fs', (Ok tt, map (fun _ => Ok tt) ops, Ok tt)) /\ wf_fs fs' /\ (forall a, ~ (below d a /\ a <> d) -> look fs' a = look fs a) /\
  forall p, wf_params p -> names_path cwd p !!"path" (index_name :: d) -> exists files, map_source_from_params X cwd fs' bytes_ p = Ok (OMapSource bytes_ files) /\
    let bs := byte_map_source cwd fs' files in let cs := char_map_source cwd fs' files in
    (exists ks, src_keys bs = Ok (Some ks) /\ src_keys cs = Ok (Some ks) /\ StronglySorted (fun a b => str_ltb a b = true) ks /\ forall k, In k ks <-> In k (map fst ops)) /\
    (forall k l b, In k (map fst ops) -> plain_key k l -> last_write l (VBytes b) ops -> bytes_ = true -> src_item bs k = Ok b /\ src_get bs k = Ok (Some b)) /\
    (forall k l s, In k (map fst ops) -> plain_key k l -> last_write l (VStr s) ops -> bytes_ = false ->
       exists t, newlines_read s t /\ src_item cs k = Ok t /\ src_get cs k = Ok (Some t)) /\
    (forall k, ~ In k (map fst ops) -> src_item bs k = Raise KeyError /\ src_get bs k = Ok None /\ src_item cs k = Raise KeyError /\ src_get cs k = Ok None).
Proof.
  intros X bytes_ d fs ops W Pd Pc Nd D Em H (Fl & NI).
  set (T := fun cs => cs = [index_name] \/ exists k v, In (k, v) ops /\ plain_key k cs).
  assert (flat : forall cs cs' x, T cs -> T cs' -> cs' = cs ++ x -> x = []).
  { intros cs cs' x [->|(k & v & I & K)] [->|(k' & v' & I' & K')] E.
    - apply (f_equal (@length _)) in E. destruct x; [reflexivity|exfalso; simpl in E; lia].
    - exfalso. apply (NI k' v' cs' I' K'). rewrite E. reflexivity.
    - exfalso. assert (NE : cs <> []) by apply K. destruct cs as [|c cs]; [congruence|]. apply (NI k v _ I K). cbn in E. inversion E. reflexivity.
    - exact (Fl k v k' v' cs cs' x I I' K K' E). }
  assert (named_ok : forall cs, T cs -> cs <> [] /\ Forall proper cs).
  { intros cs [->|(k & v & I & K)]; [split; [discriminate|constructor; [apply index_proper|constructor]]|]. split; [apply K|eapply plain_proper; eassumption]. }
  destruct d as [|c0 d0]; [congruence|]. set (d := c0 :: d0) in *.
  destruct (C97_enter d fs W) as (En & _). destruct (En c0 d0 eq_refl D Em) as (fs0 & E0 & W0 & S0). clear En.
  assert (Old : forall a, below d a -> a <> d -> look fs0 a = None).
  { intros a B Na. rewrite S0. destruct (look fs a) as [k|] eqn:L; [|reflexivity]. exfalso. destruct B as (l & ->). destruct (exists_last (l := l)) as (l' & x & ->); [intros ->; now apply Na|].
    rewrite <- app_assoc in L. cbn [app] in L. destruct l' as [|y l']; [cbn [app] in L; rewrite Em in L; discriminate|]. assert (look fs (x :: d) = Some KDir) as Z; [|rewrite Em in Z; discriminate].
    eapply wf_above; [exact W|exact L|now exists (y :: l')|]. intros Q. apply (f_equal (@length _)) in Q. rewrite app_length in Q. simpl in Q. lia. }
  assert (TR0 : tree d T fs0).
  { split; [assumption|now rewrite S0| |].
    - intros a B Na (k & K & _). rewrite (Old a B Na) in K. discriminate.
    - intros a B Na L. rewrite (Old a B Na) in L. discriminate. }
  assert (Hops : forall k v, In (k, v) ops -> (exists cs, plain_key k cs /\ T cs) /\ exists b, accepts bytes_ v b).
  { intros k v I. destruct (H k v I) as (A & _ & cs & K & _). split; [|assumption]. exists cs. split; [assumption|]. right. eauto. }
  destruct (puts_tree d T flat named_ok Pd bytes_ ops Hops fs0 [] TR0 (NoDup_nil _)) as (fs1 & m & E1 & TR1 & ND & M1 & M2 & L1 & _).
  assert (Hm : forall k p, In (k, p) m -> exists cs, In k (map fst ops) /\ plain_key k cs /\ p = abs_path (file_of d cs) /\ field_ok k /\ field_ok (path_str (file_of d cs)) /\ T cs).
  { intros k p I. destruct (in_dec (list_eq_dec N.eq_dec) k (map fst ops)) as [J|J].
    - assert (J' := J). apply in_map_iff in J'. destruct J' as ([k' v] & Ek & J'). cbn in Ek. subst k'. destruct (H k v J') as (_ & Fk & cs & K & Fp). exists cs. split; [assumption|]. split; [assumption|]. split; [|split; [assumption|split; [assumption|right; eauto]]].
      assert (Q := M1 k cs J K). rewrite (in_dfind m k p ND I) in Q. congruence.
    - exfalso. assert (Q := M2 k J). rewrite (in_dfind m k p ND I) in Q. discriminate. }
  assert (EL : Forall encodable (index_lines m)).
  { apply Forall_forall. intros l I. unfold index_lines in I. apply in_map_iff in I. destruct I as ([k p] & <- & I). apply (Permutation_in _ (sorted_perm str_ltb fst m)) in I. destruct (Hm k p I) as (cs & _ & _ & -> & (_ & _ & _ & _ & Ee1) & (_ & _ & _ & _ & Ee2) & _).
    cbn [fst snd]. rewrite ppath_abs. unfold encodable in *. apply Forall_app. split; [assumption|]. constructor; [vm_compute; intuition discriminate|]. apply Forall_app. split; [assumption|]. repeat constructor; vm_compute; intuition discriminate. }
  destruct (write_lines_ok _ EL) as (ib & Eib & _).
  assert (Ti : T [index_name]) by (now left). assert (WRi := tree_writable d T flat named_ok fs1 [index_name] TR1 Ti). cbn [rev app] in WRi.
  destruct (write_spec fs1 index_name d (write_lines (index_lines m)) (tr_wf _ _ _ TR1) (Forall_cons _ index_proper Pd)) as (fs' & o & Ex & G & _). destruct (G WRi) as (Fi & Eo). rewrite Eib in Fi, Eo. cbn [fst snd] in Fi, Eo. subst o. clear G.
  destruct (tree_filed d T flat named_ok Pd fs1 fs' [index_name] ib TR1 Ti Fi) as (TR' & O').
  assert (Es : fs_session cwd bytes_ d fs ops = (fs', (Ok tt, map (fun _ => Ok tt) ops, Ok tt))).
  { unfold fs_session. rewrite E0, E1. unfold fs_exit. rewrite (out_plain d index_name [index_name] index_plain). cbn [rev app]. rewrite Ex. reflexivity. }
  exists fs'. split; [exact Es|]. split; [apply TR'|]. split.
  { assert (Q := C97_confined bytes_ d fs ops W Pd). rewrite Es in Q. cbn [fst] in Q. apply Q. intros k v I. destruct (H k v I) as (_ & _ & cs & K & _). eauto. }
  intros p Wp Np. assert (Li : look fs' (index_name :: d) = Some (KFile ib)) by apply Fi.
  assert (Hix : forall k q, In (k, q) m -> exists r, q = abs_path r /\ r <> [] /\ Forall proper r /\ field_ok k /\ field_ok (path_str r)).
  { intros k q I. destruct (Hm k q I) as (cs & _ & K & -> & Fk & Fp & Tc). exists (file_of d cs). split; [reflexivity|]. split; [intros Q; apply app_eq_nil in Q; destruct Q as (_ & Q); discriminate|]. split; [apply Forall_app; split; [apply Forall_rev; eapply plain_proper; eassumption|assumption]|auto]. }
  assert (R := index_read fs' (index_name :: d) m ib ND Hix Eib Li). set (kvs := map (fun kv => (fst kv, ppath_str (snd kv))) (sorted_by str_ltb fst m)) in *.
  set (files := sorted_by str_ltb (fst : str * ppath -> str) m). assert (Pf : Permutation files m) by apply sorted_perm.
  assert (NDf : NoDup (keys files)) by (apply (Permutation_NoDup (l := keys m)); [apply Permutation_map; now symmetry|assumption]).
  assert (Kf : map fst kvs = keys files) by (unfold kvs, keys; rewrite map_map; reflexivity).
  exists files. split.
  { unfold map_source_from_params. destruct (C80_existing cwd p !!"path" fs' Wp Pc) as (Ee & _). rewrite (Ee _ _ Np Li). cbn [bind]. destruct (read_text fs' (index_name :: d)) as [t|]; [|discriminate]. cbn [bind] in R |- *. rewrite R. cbn [bind].
    f_equal. f_equal. rewrite fold_files; [|cbn [keys map app]; rewrite Kf; exact NDf]. cbn [app]. unfold kvs, files. rewrite map_map. assert (G : forall l : list (str * ppath), (forall k q, In (k, q) l -> In (k, q) m) -> map (fun x => (fst x, parse_path (ppath_str (snd x)))) l = l).
    { induction l as [|[k q] l IHl]; intros Hl; [reflexivity|]. cbn [map fst snd]. rewrite IHl by (intros; apply Hl; now right). destruct (Hix k q) as (r & -> & Nr & Pr & _); [apply Hl; now left|]. rewrite ppath_abs, parse_printed by assumption. reflexivity. }
    cbn [fst snd]. apply G. intros k q I. now apply (Permutation_in _ Pf). }
  assert (Df : forall k, dfind files k = dfind m k).
  { intros k. destruct (dfind m k) as [q|] eqn:Q; [apply in_dfind; [assumption|]; apply (Permutation_in _ (Permutation_sym Pf)); now apply dfind_in|]. apply dfind_none. apply dfind_none in Q. intros I. apply Q. apply (Permutation_in _ (Permutation_map fst Pf)). exact I. }
  assert (In_keys : forall k, In k (keys files) <-> In k (map fst ops)).
  { intros k. split.
    - intros I. apply dfind_some_key in I. destruct I as (q & I). rewrite Df in I. apply dfind_in in I. destruct (Hm k q I) as (cs & J & _). exact J.
    - intros I. assert (J := I). apply in_map_iff in J. destruct J as ([k' v] & Ek & J). cbn in Ek. subst k'. destruct (H k v J) as (_ & _ & cs & K & _). apply dfind_some_key. exists (abs_path (file_of d cs)). rewrite Df. now apply M1. }
  assert (Rd : forall k l v b, In k (map fst ops) -> plain_key k l -> last_write l v ops -> accepts bytes_ v b -> dfind files k = Some (abs_path (file_of d l)) /\ read_at cwd fs' (abs_path (file_of d l)) = Ok b).
  { intros k l v b I K Lw A. split; [rewrite Df; now apply M1|]. assert (Tl : T l). { right. apply in_map_iff in I. destruct I as ([k' v'] & Ek & I). cbn in Ek. subst k'. eauto. }
    assert (Nl : l <> [index_name]). { intros ->. apply in_map_iff in I. destruct I as ([k' v'] & Ek & I). cbn in Ek. subst k'. apply (NI k v' _ I K). reflexivity. }
    assert (Lk : look fs' (file_of d l) = Some (KFile b)) by (rewrite O' by assumption; eapply L1; eassumption).
    destruct (file_cons d l (proj1 (named_ok l Tl)) (proj2 (named_ok l Tl)) Pd) as (c & q & Eq & Pq & _). unfold read_at. rewrite Eq in Lk |- *. rewrite find_plain by assumption.
    rewrite (search_dir fs' q (tr_wf _ _ _ TR')) by (eapply (tr_wf _ _ _ TR'); eassumption). cbn [bind]. now rewrite Lk. }
  cbv zeta. split; [|split; [|split]].
  - exists (keys files). split; [reflexivity|]. split; [reflexivity|]. split; [|assumption]. assert (So := sorted_sorted str_ltb (fst : str * ppath -> str) str_ltb_asym str_ltb_ntrans m). change (StronglySorted (kle str_ltb (fst : str * ppath -> str)) files) in So.
    clear -So NDf. induction So as [|x l So IH F]; [constructor|]. cbn [keys map] in *. inversion NDf as [|? ? N1 N2]; subst. constructor; [auto|]. rewrite Forall_forall in *. intros y I. unfold keys in I. apply in_map_iff in I. destruct I as (z & <- & I). specialize (F z I). unfold kle in F.
    destruct (str_ltb (fst x) (fst z)) eqn:Y; [reflexivity|]. exfalso. apply N1. rewrite (str_ltb_total _ _ Y F). now apply in_map.
  - intros k l b I K Lw ->. destruct (Rd k l (VBytes b) b I K Lw (acc_bytes b)) as (Q1 & Q2). cbn [src_item src_get byte_map_source]. rewrite Q1, Q2. split; reflexivity.
  - intros k l s I K Lw ->. assert (A : exists b, accepts false (VStr s) b). { assert (J : exists k', In (k', VStr s) ops). { clear -Lw. induction Lw as [k r _ _|x r _ (k' & IH)]; [exists k; now left|exists k'; now right]. } destruct J as (k' & J). apply (H k' _ J). }
    destruct A as (b & A). assert (Eb : encode s = Ok b) by (now inversion A). destruct (Rd k l (VStr s) b I K Lw A) as (Q1 & Q2). exists (universal_newlines s). split; [apply universal_spec|].
    cbn [src_item src_get char_map_source]. rewrite Q1, Q2. cbn [bind]. rewrite (proj2 (C68_round_trip s b) Eb). split; reflexivity.
  - intros k N. assert (Q : dfind files k = None) by (apply dfind_none; now rewrite In_keys). cbn [src_item src_get byte_map_source char_map_source]. rewrite Q. repeat split.
Qed.
(** ** C97: what the index lists *)
Lemma index_source (X : Type) bytes_ fs q m ib p : NoDup (keys m) -> Forall proper cwd ->
  (forall k r, In (k, r) m -> exists a, r = abs_path a /\ a <> [] /\ Forall proper a /\ field_ok k /\ field_ok (path_str a)) ->
  write_lines (index_lines m) = (ib, None) -> look fs q = Some (KFile ib) -> wf_params p -> names_path cwd p !!"path" q ->
  map_source_from_params X cwd fs bytes_ p = Ok (OMapSource bytes_ (sorted_by str_ltb fst m)).
Proof.
  intros ND Pc Hix Eib Li Wp Np. assert (R := index_read fs q m ib ND Hix Eib Li). set (kvs := map (fun kv => (fst kv, ppath_str (snd kv))) (sorted_by str_ltb fst m)) in *.
  set (files := sorted_by str_ltb (fst : str * ppath -> str) m). assert (Pf : Permutation files m) by apply sorted_perm.
  assert (NDf : NoDup (keys files)) by (apply (Permutation_NoDup (l := keys m)); [apply Permutation_map; now symmetry|assumption]).
  assert (Kf : map fst kvs = keys files) by (unfold kvs, keys; rewrite map_map; reflexivity).
  unfold map_source_from_params. destruct (C80_existing cwd p !!"path" fs Wp Pc) as (Ee & _). rewrite (Ee _ _ Np Li). cbn [bind]. destruct (read_text fs q) as [t|]; [|discriminate]. cbn [bind] in R |- *. rewrite R. cbn [bind].
  f_equal. f_equal. rewrite fold_files; [|cbn [keys map app]; rewrite Kf; exact NDf]. cbn [app]. unfold kvs, files. rewrite map_map. assert (G : forall l : list (str * ppath), (forall k q, In (k, q) l -> In (k, q) m) -> map (fun x => (fst x, parse_path (ppath_str (snd x)))) l = l).
  { induction l as [|[k r] l IHl]; intros Hl; [reflexivity|]. cbn [map fst snd]. rewrite IHl by (intros; apply Hl; now right). destruct (Hix k r) as (a & -> & Na & Pa & _); [apply Hl; now left|]. rewrite ppath_abs, parse_printed by assumption. reflexivity. }
  cbn [fst snd]. apply G. intros k r I. now apply (Permutation_in _ Pf).
Qed.
(** [k] was put successfully. *)
Definition put_ok (k : str) (ops : list (str * value)) (os : list (res unit)) : Prop := exists v, In ((k, v), Ok tt) (combine ops os).
Lemma puts_table bytes_ d ops : (forall k v, In (k, v) ops -> exists cs, plain_key k cs) -> forall fs m fs' m' os, fs_puts cwd bytes_ d fs m ops = (fs', m', os) -> NoDup (keys m) ->
  NoDup (keys m') /\ (forall k, put_ok k ops os -> exists cs, plain_key k cs /\ dfind m' k = Some (abs_path (file_of d cs))) /\ (forall k, ~ put_ok k ops os -> dfind m' k = dfind m k).
Proof.
  intros H. induction ops as [|[k v] ops IH]; intros fs m fs' m' os E ND.
  - cbn in E. inversion E; subst. split; [assumption|]. split; [intros k (v & [])|reflexivity].
  - cbn [fs_puts] in E. destruct (H k v) as (cs & K); [simpl; auto|]. unfold fs_put in E. rewrite (out_plain d k cs K) in E. destruct (sink_write cwd fs (abs_path (file_of d cs)) (content bytes_ v)) as [fs1 [[]|e]].
    + destruct (fs_puts cwd bytes_ d fs1 (dput m k (abs_path (file_of d cs))) ops) as [[fs2 m2] os2] eqn:E2. inversion E; subst; clear E.
      destruct (IH (fun k v I => H k v (or_intror I)) _ _ _ _ _ E2 (dput_nodup _ _ _ ND)) as (N' & A & B). split; [assumption|].
      assert (D : put_ok k ops os2 \/ ~ put_ok k ops os2).
      { assert (Q : {v0 | In (k, v0, Ok tt) (combine ops os2)} + {~ exists v0, In (k, v0, Ok tt) (combine ops os2)}).
        { clear. generalize (combine ops os2). induction l as [|[[k0 v0] o] l IHl]; [right; intros (? & [])|]. destruct IHl as [(x & X)|N]; [left; exists x; now right|].
          destruct (list_eq_dec N.eq_dec k0 k) as [->|Nk]; [destruct o as [[]|e]; [left; exists v0; now left|]|]; right; intros (x & [Q|Q]); try congruence; apply N; eauto. }
        destruct Q as [(x & X)|N]; [left; exists x; exact X|right; exact N]. }
      split.
      * intros k' (v' & I). cbn [combine] in I. destruct I as [I|I]; [|apply A; exists v'; exact I]. inversion I; subst. destruct D as [D|D]; [now apply A|]. exists cs. split; [assumption|]. rewrite B by assumption. now rewrite dfind_dput, str_eqb_refl.
      * intros k' N. rewrite B by (intros (v' & I); apply N; exists v'; now right). rewrite dfind_dput. destruct (str_eqb k k') eqn:X; [|reflexivity]. apply str_eqb_eq in X. subst k'. exfalso. apply N. exists v. now left.
    + destruct (fs_puts cwd bytes_ d fs1 m ops) as [[fs2 m2] os2] eqn:E2. inversion E; subst; clear E.
      destruct (IH (fun k v I => H k v (or_intror I)) _ _ _ _ _ E2 ND) as (N' & A & B). split; [assumption|]. split.
      * intros k' (v' & I). cbn [combine] in I. destruct I as [I|I]; [inversion I|]. apply A. exists v'. exact I.
      * intros k' N. apply B. intros (v' & I). apply N. exists v'. now right.
Qed.
(** C97: whatever happens to the puts, once the sink has been left without an exception the index lists exactly the keys put successfully,
    each with its file. *)
Theorem C97_index : forall (X : Type) bytes_ d fs ops fs' os, wf_fs fs -> Forall proper d -> Forall proper cwd ->
  (forall k v, In (k, v) ops -> field_ok k /\ exists cs, plain_key k cs /\ field_ok (path_str (file_of d cs))) ->
  fs_session cwd bytes_ d fs ops = (fs', (Ok tt, os, Ok tt)) -> length os = length ops /\
  forall p, wf_params p -> names_path cwd p !!"path" (index_name :: d) -> exists files, map_source_from_params X cwd fs' bytes_ p = Ok (OMapSource bytes_ files) /\
    NoDup (map fst files) /\ (forall k, In k (map fst files) <-> put_ok k ops os) /\ (forall k q, In (k, q) files -> exists cs, plain_key k cs /\ q = abs_path (file_of d cs)).
Proof.
  intros X bytes_ d fs ops fs' os W Pd Pc H E. assert (C := C97_confined bytes_ d fs ops W Pd). assert (Hp : forall k v, In (k, v) ops -> exists cs, plain_key k cs) by (intros k v I; destruct (H k v I) as (_ & cs & K & _); eauto). specialize (C Hp). rewrite E in C. cbn [fst] in C. destruct C as (W' & _).
  unfold fs_session in E. destruct (fs_enter d fs) as [fs1 [[]|e]] eqn:En; [|discriminate].
  assert (D1 : wf_fs fs1 /\ look fs1 d = Some KDir).
  { destruct (C97_enter d fs W) as (E1 & E2 & E3 & E4 & E5). destruct (above_dec fs d) as [U|(a & B & O)]; [|rewrite E5 in En by (intros U; exact (U a B O)); discriminate].
    destruct (look fs d) as [k|] eqn:D; [|rewrite E4 in En by auto; discriminate]. assert (k = KDir) as -> by (destruct k; [exfalso|reflexivity|exfalso]; apply (U d (below_refl d)); eexists; (split; [eassumption|discriminate])).
    destruct d as [|c r]; [rewrite E3 in En by auto; discriminate|]. destruct (is_empty_directory fs (c :: r)) eqn:Em.
    - apply empty_spec in Em. destruct (E1 c r eq_refl eq_refl (proj2 Em)) as (f & Ef & Wf & Sf). rewrite En in Ef. inversion Ef; subst f. split; [assumption|]. now rewrite Sf.
    - unfold fs_enter, os_rmdir in En. rewrite (search_dir fs r W) in En by (eapply W; eassumption). cbn [bind] in En. rewrite D, Em in En. discriminate. }
  destruct D1 as (W1 & D1). destruct (fs_puts cwd bytes_ d fs1 [] ops) as [[fs2 m] os'] eqn:E2. destruct (fs_exit cwd d fs2 m) as [fs3 x] eqn:E3. inversion E; subst fs3 os' x; clear E.
  assert (LO : length os = length ops).
  { clear -E2. revert fs1 fs2 m os E2. generalize (@nil (str * ppath)). induction ops as [|[k v] ops IH]; intros m0 fs1 fs2 m os E2; cbn [fs_puts] in E2; [inversion E2; reflexivity|].
    destruct (fs_put cwd bytes_ d fs1 m0 k v) as [[f1 m1] o]. destruct (fs_puts cwd bytes_ d f1 m1 ops) as [[f2 m2] os2] eqn:Q. inversion E2; subst. cbn [length]. f_equal. eapply IH. eassumption. }
  split; [exact LO|]. destruct (puts_table bytes_ d ops Hp _ _ _ _ _ E2 (NoDup_nil _)) as (ND & A & B).
  assert (I2 := puts_inside bytes_ d ops fs1 [] Hp W1 Pd D1). rewrite E2 in I2. cbn [fst] in I2. destruct I2 as (W2 & D2 & _).
  unfold fs_exit in E3. rewrite (out_plain d index_name [index_name] index_plain) in E3. cbn [rev app] in E3.
  destruct (write_spec fs2 index_name d (write_lines (index_lines m)) W2 (Forall_cons _ index_proper Pd)) as (f & o & Ex & G1 & G2). rewrite E3 in Ex. inversion Ex; subst f o; clear Ex.
  destruct (writable_dec fs2 index_name d) as [WR|NW]; [|exfalso; destruct (G2 NW) as (_ & [(Z & _)|[(Z & _)|(Z & _)]]); discriminate]. destruct (G1 WR) as (Fi & Eo).
  destruct (write_lines (index_lines m)) as [ib [e|]] eqn:Eib; [discriminate|]. cbn [fst] in Fi.
  assert (Hm : forall k r, In (k, r) m -> put_ok k ops os /\ exists cs, plain_key k cs /\ r = abs_path (file_of d cs) /\ field_ok k /\ field_ok (path_str (file_of d cs)) /\ cs <> []).
  { intros k r I. apply (in_dfind m k r ND) in I. assert (Dc : put_ok k ops os \/ ~ put_ok k ops os).
    { destruct (existsb (fun x => str_eqb (fst (fst x)) k && match snd x with Ok _ => true | Raise _ => false end) (combine ops os)) eqn:Q; [left|right].
      - apply existsb_exists in Q. destruct Q as ([[k0 v0] o0] & J & Q). cbn [fst snd] in Q. apply andb_true_iff in Q. destruct Q as (Q1 & Q2). apply str_eqb_eq in Q1. subst k0. destruct o0 as [[]|]; [|discriminate]. now exists v0.
      - intros (v0 & J). rewrite <- not_true_iff_false in Q. apply Q. apply existsb_exists. exists (k, v0, Ok tt). split; [assumption|]. cbn [fst snd]. now rewrite str_eqb_refl. }
    destruct Dc as [Dc|Dc]; [|rewrite (B k Dc) in I; discriminate]. split; [assumption|]. destruct (A k Dc) as (cs & K & Q). rewrite Q in I. exists cs. split; [assumption|]. split; [congruence|].
    destruct Dc as (v & J). apply in_combine_l in J. destruct (H k v J) as (Fk & cs' & K' & Fp). rewrite (plain_fun k cs cs' K K'). split; [assumption|]. split; [assumption|]. apply K'. }
  assert (NDd : d <> []) by (intros ->; unfold fs_enter in En; cbn in En; discriminate).
  intros p Wp Np. eexists. split.
  - eapply (index_source X bytes_ fs' (index_name :: d) m ib); [assumption|assumption| |eassumption|apply Fi|assumption|assumption].
    intros k r I. destruct (Hm k r I) as (_ & cs & K & -> & Fk & Fp & NE). exists (file_of d cs). split; [reflexivity|]. split; [intros Q; apply app_eq_nil in Q; destruct Q as (_ & Q); congruence|]. split; [apply Forall_app; split; [apply Forall_rev; eapply plain_proper; eassumption|assumption]|auto].
  - assert (Pf := sorted_perm str_ltb (fst : str * ppath -> str) m). split; [apply (Permutation_NoDup (l := keys m)); [apply Permutation_map; now symmetry|assumption]|]. split.
    + intros k. split.
      * intros I. apply in_map_iff in I. destruct I as ([k0 r] & <- & I). apply (Permutation_in _ Pf) in I. now destruct (Hm _ _ I).
      * intros I. destruct (A k I) as (cs & K & Q). apply dfind_in in Q. apply (Permutation_in _ (Permutation_map fst (Permutation_sym Pf))). now apply (in_map fst) in Q.
    + intros k q I. apply (Permutation_in _ Pf) in I. destruct (Hm _ _ I) as (_ & cs & K & Q & _). eauto.
Qed.
(** ** C97, limits: what other keys do *)
Lemma path_key q : q <> [] -> Forall proper q -> forall d, out_file d (path_str q) = abs_path q.
Proof. intros N P d. unfold out_file, join_path. rewrite parse_printed by assumption. reflexivity. Qed.
(** C97 refuted: a put stays inside the sink's directory.  A key that is an absolute path writes that file, wherever it is. *)
Theorem C97_absolute_refuted : forall bytes_ d fs m c q v b, wf_fs fs -> Forall proper (c :: q) -> writable fs (c :: q) -> accepts bytes_ v b ->
  exists fs' m', fs_put cwd bytes_ d fs m (path_str (c :: q)) v = (fs', m', Ok tt) /\ filed fs fs' (c :: q) b.
Proof.
  intros bytes_ d fs m c q v b W P WR A. unfold fs_put. rewrite path_key by (assumption || discriminate). destruct (write_spec fs c q (content bytes_ v) W P) as (fs' & o & -> & G & _).
  destruct (G WR) as (F & ->). rewrite (content_accepts _ _ _ A) in *. cbn [snd fst] in *. eauto.
Qed.
Lemma walk_up fs d n : wf_fs fs -> look fs d = Some KDir -> os_walk fs d (repeat !!".." n) = Ok (skipn n d) /\ look fs (skipn n d) = Some KDir.
Proof.
  intros W. revert d. induction n as [|n IH]; intros d D; [split; [reflexivity|exact D]|]. cbn [repeat os_walk]. rewrite D. change (str_eqb !!".." !!"..") with true. cbv iota.
  assert (Dt : look fs (tl d) = Some KDir) by (destruct d as [|c d]; [reflexivity|]; cbn [tl]; eapply W; eassumption). destruct (IH _ Dt) as (A & B). rewrite A. destruct d as [|c d]; [|split; [reflexivity|exact B]]. cbn [tl] in *. rewrite skipn_nil in *. split; [reflexivity|exact B].
Qed.
(** C97 refuted: a relative key without NUL stays inside the sink's directory.  "../" n times followed by a name writes the file of that name
    n levels above. *)
Theorem C97_parent_refuted : forall bytes_ d fs m k n c v b, wf_fs fs -> Forall proper d -> look fs d = Some KDir -> ~ In 0%N k -> (forall r, k <> slash :: r) ->
  spells k (repeat !!".." n ++ [c]) -> c <> !!".." -> free fs (c :: skipn n d) -> accepts bytes_ v b ->
  exists fs' m', fs_put cwd bytes_ d fs m k v = (fs', m', Ok tt) /\ look fs' (c :: skipn n d) = Some (KFile b) /\ forall a, a <> c :: skipn n d -> look fs' a = look fs a.
Proof.
  intros bytes_ d fs m k n c v b W Pd D Z R S1 Nc F A. apply spells_spec in S1.
  assert (EO : out_file d k = MkPath 1 (rev d ++ repeat !!".." n ++ [c])). { unfold out_file, join_path, abs_path. replace (p_root (parse_path k)) with 0%N by (symmetry; now apply root_rel). cbn [N.eqb p_root p_parts]. now rewrite S1. }
  assert (NUL : forall l, (forall x, In x l -> In x (repeat !!".." n ++ [c])) -> existsb has_nul (rev d ++ l) = false).
  { intros l Hl. rewrite existsb_app, nul_plain by assumption. cbn [orb]. rewrite <- not_true_iff_false. intros E. apply existsb_exists in E. destruct E as (x & I & E). apply Hl in I. rewrite <- S1 in I. unfold parse_path in I. cbn [p_parts] in I. apply filter_In in I. destruct I as (I & _).
    assert (has_nul x = false) by (apply has_nul_spec; intros J; apply Z; now apply (in_split_in slash k x 0%N)). congruence. }
  destruct (walk_up fs d n W D) as (U & Du).
  assert (Wd : os_walk fs [] (rev d) = Ok d). { rewrite walk_plain by assumption. destruct d as [|x r]; [reflexivity|]. rewrite (search_dir fs r W) by (eapply W; eassumption). reflexivity. }
  assert (FP : os_find cwd fs (MkPath 1 (rev d ++ repeat !!".." n)) = Ok (skipn n d)).
  { unfold os_find. cbn [p_parts p_root]. rewrite NUL by (intros x I; apply in_or_app; now left). change (1 =? 0)%N with false. cbv iota. rewrite os_app, Wd. exact U. }
  assert (FF : os_find cwd fs (MkPath 1 (rev d ++ repeat !!".." n ++ [c])) = Ok (c :: skipn n d)).
  { unfold os_find. cbn [p_parts p_root]. rewrite NUL by auto. change (1 =? 0)%N with false. cbv iota. rewrite app_assoc, os_app, os_app, Wd. cbn [bind]. rewrite U. cbn [bind os_walk]. rewrite Du. apply str_eqb_neq in Nc. now rewrite Nc. }
  unfold fs_put. rewrite EO. unfold sink_write. cbn [p_root p_parts]. rewrite app_assoc, rev_app_distr. cbn [rev app tl]. rewrite parents_unfold. rewrite rev_involutive. unfold mkdir_at. rewrite FP. cbn [bind]. rewrite Du. unfold dir_at. rewrite FP. unfold is_dir. rewrite Du.
  rewrite <- app_assoc, FF. cbn [bind]. rewrite (can_write_ok fs c (skipn n d) W Du F). cbn [bind]. rewrite (content_accepts _ _ _ A). cbn [fst snd].
  eexists _, _. split; [reflexivity|]. split; [apply look_set_same; discriminate|]. intros a N. apply look_set_other; [discriminate|congruence].
Qed.
(** C97 refuted: any two different keys can be put.  When one key's file lies below the other's, the second put - in whichever order - is an
    OSError that changes nothing, whatever its value. *)
Theorem C97_nested_refuted : forall bytes_ d fs m k k' cs x v v' b, wf_fs fs -> look fs d = Some KDir -> Forall proper d -> plain_key k cs -> plain_key k' (cs ++ x) -> x <> [] -> accepts bytes_ v b ->
  (writable fs (file_of d cs) -> exists fs1 m1 o, fs_put cwd bytes_ d fs m k v = (fs1, m1, Ok tt) /\
     fs_put cwd bytes_ d fs1 m1 k' v' = (fs1, m1, o) /\ (o = Raise FileExistsError \/ o = Raise NotADirectoryError)) /\
  (writable fs (file_of d (cs ++ x)) -> exists fs1 fs2 m1, fs_put cwd bytes_ d fs m k' v = (fs1, m1, Ok tt) /\
     fs_put cwd bytes_ d fs1 m1 k v' = (fs2, m1, Raise IOError) /\ forall a, look fs2 a = look fs1 a).
Proof.
  intros bytes_ d fs m k k' cs x v v' b W D Pd K K' Nx A.
  assert (Bq : below (file_of d cs) (file_of d (cs ++ x)) /\ file_of d cs <> file_of d (cs ++ x)).
  { rewrite rev_app_distr. split; [exists (rev x); now rewrite app_assoc|]. intros E. apply (f_equal (@length _)) in E. rewrite !app_length, !rev_length in E. destruct x; [congruence|]. simpl in E. lia. }
  assert (N1 : cs <> []) by apply K. assert (N2 : cs ++ x <> []) by apply K'.
  destruct (file_cons d cs N1 (plain_proper _ _ K) Pd) as (c & q & E & P1 & B1). destruct (file_cons d (cs ++ x) N2 (plain_proper _ _ K') Pd) as (c' & q' & E' & P2 & B2).
  split; intros WR.
  - destruct (C97_put bytes_ d fs m k v cs W D Pd K) as (fs1 & m1 & o & E1 & G & _). destruct (G WR) as (G1 & _). destruct (G1 b A) as (-> & F & _). clear G G1.
    assert (W1 : wf_fs fs1) by (rewrite E in F, WR; eapply filed_wf; eassumption). exists fs1, m1. unfold fs_put at 2. rewrite (out_plain d k' _ K'), E'. rewrite write_plain by assumption.
    assert (M := mkdir_p_spec fs1 q' W1). assert (NU : ~ unblocked fs1 q'). { intros U. apply (U (file_of d cs)); [rewrite E' in Bq; now apply (below_cons_iff _ c')|]. exists (KFile b). split; [apply F|discriminate]. }
    destruct (mkdir_p fs1 q') as [fs2 [u|e]]; [exfalso; now apply NU|]. destruct M as (-> & M). exists (Raise e). split; [exact E1|]. split; [reflexivity|]. destruct M as [(-> & _)|(-> & _)]; auto.
  - destruct (C97_put bytes_ d fs m k' v _ W D Pd K') as (fs1 & m1 & o & E1 & G & _). destruct (G WR) as (G1 & _). destruct (G1 b A) as (-> & F & _). clear G G1.
    assert (W1 : wf_fs fs1) by (rewrite E' in F, WR; eapply filed_wf; eassumption). assert (Dq : look fs1 (file_of d cs) = Some KDir) by (apply F; apply Bq).
    assert (D1 : look fs1 d = Some KDir) by (eapply dir_all_above; [exact W1|exact Dq|now exists (rev cs)]).
    destruct (C97_put bytes_ d fs1 m1 k v' cs W1 D1 Pd K) as (fs2 & m2 & o & E2 & _ & G). destruct G as (Sm & -> & G); [intros (_ & [Q|(b' & Q)]); rewrite Q in Dq; discriminate|].
    assert (U : unblocked fs1 (tl (file_of d cs))). { intros a B (kk & Kk & NK). assert (look fs1 a = Some KDir); [|congruence]. eapply dir_all_above; [exact W1|exact Dq|]. rewrite E in B |- *. cbn [tl] in B. now apply below_cons. }
    exists fs1, fs2, m1. split; [exact E1|]. split; [|exact Sm]. rewrite E2. destruct G as [(_ & O)|[(_ & a & B & _ & O)|(-> & _)]]; [destruct (U _ (below_refl _) O)|destruct (U a B O)|reflexivity].
Qed.
(** C97 refuted: leaving the sink after successful puts writes the index.  After a put under a key "_index/..." the index cannot be written. *)
Theorem C97_index_directory_refuted : forall bytes_ d fs k x v b, wf_fs fs -> Forall proper d -> d <> [] -> look fs d = Some KDir -> (forall c, look fs (c :: d) = None) ->
  plain_key k (index_name :: x) -> x <> [] -> accepts bytes_ v b ->
  exists fs', fs_session cwd bytes_ d fs [(k, v)] = (fs', (Ok tt, [Ok tt], Raise IOError)) /\ look fs' (index_name :: d) = Some KDir.
Proof.
  intros bytes_ d fs k x v b W Pd Nd D Em K Nx A. destruct d as [|c0 d0]; [congruence|]. set (d := c0 :: d0) in *.
  destruct (C97_enter d fs W) as (En & _). destruct (En c0 d0 eq_refl D Em) as (fs0 & E0 & W0 & S0). clear En.
  assert (D0 : look fs0 d = Some KDir) by now rewrite S0.
  assert (Bq : below (index_name :: d) (file_of d (index_name :: x)) /\ index_name :: d <> file_of d (index_name :: x)).
  { change (index_name :: x) with ([index_name] ++ x). rewrite rev_app_distr, <- app_assoc. cbn [rev app]. split; [now exists (rev x)|]. intros E. apply (f_equal (@length _)) in E. rewrite app_length, rev_length in E. destruct x; [congruence|]. simpl in E. lia. }
  assert (WR : writable fs0 (file_of d (index_name :: x))).
  { assert (Old : forall a, below (index_name :: d) a -> look fs0 a = None).
    { intros a B. rewrite S0. destruct (look fs a) as [kk|] eqn:L; [|reflexivity]. exfalso. destruct (rpath_eqb_spec (index_name :: d) a) as [<-|Na]; [rewrite Em in L; discriminate|].
      assert (Q := wf_above fs (index_name :: d) a kk W L B Na). rewrite Em in Q. discriminate. }
    split; [|left; apply Old, Bq]. intros a B N O. destruct (below_linear a (index_name :: d) _ B (proj1 Bq)) as [Ba|Ba].
    - apply below_inv in Ba. destruct Ba as [->|Ba]; [destruct O as (kk & Kk & _); rewrite Old in Kk by apply below_refl; discriminate|]. assert (look fs0 a = Some KDir) by (eapply dir_all_above; eassumption). destruct O as (kk & Kk & NK). congruence.
    - destruct O as (kk & Kk & _). rewrite (Old a Ba) in Kk. discriminate. }
  destruct (C97_put bytes_ d fs0 [] k v _ W0 D0 Pd K) as (fs1 & m1 & o & E1 & G & _). destruct (G WR) as (G1 & _). destruct (G1 b A) as (-> & F & _). clear G G1.
  assert (NE : index_name :: x <> []) by discriminate. destruct (file_cons d (index_name :: x) NE (plain_proper _ _ K) Pd) as (c & q & E & P1 & B1).
  assert (W1 : wf_fs fs1) by (rewrite E in F, WR; eapply filed_wf; eassumption).
  assert (Li : look fs1 (index_name :: d) = Some KDir) by (apply F; apply Bq).
  assert (D1 : look fs1 d = Some KDir) by (eapply W1; eassumption).
  destruct (write_spec fs1 index_name d (write_lines (index_lines m1)) W1 (Forall_cons _ index_proper Pd)) as (fs' & o & Ex & _ & G). destruct G as (Sm & G); [intros (_ & [Q|(b' & Q)]); rewrite Q in Li; discriminate|].
  assert (U : unblocked fs1 d). { intros a B (kk & Kk & NK). assert (look fs1 a = Some KDir); [|congruence]. eapply dir_all_above; eassumption. }
  exists fs'. split; [|now rewrite Sm]. unfold fs_session. rewrite E0. cbn [fs_puts]. rewrite E1. unfold fs_exit. rewrite (out_plain d index_name [index_name] index_plain). cbn [rev app]. rewrite Ex.
  f_equal. f_equal. destruct G as [(_ & O)|[(_ & a & B & _ & O)|(-> & _)]]; [destruct (U _ (below_refl _) O)|destruct (U a B O)|reflexivity].
Qed.
(** C97 refuted: what was put can be read.  What is put under the key "_index" is replaced by the index, which lists itself. *)
Theorem C97_index_key_refuted : forall bytes_ d fs v b, wf_fs fs -> Forall proper d -> d <> [] -> look fs d = Some KDir -> (forall c, look fs (c :: d) = None) -> encodable (path_str (index_name :: d)) -> accepts bytes_ v b ->
  exists fs' ib, fs_session cwd bytes_ d fs [(index_name, v)] = (fs', (Ok tt, [Ok tt], Ok tt)) /\ look fs' (index_name :: d) = Some (KFile ib) /\
    decode ib = Ok (index_name ++ [TAB] ++ path_str (index_name :: d) ++ [LF]).
Proof.
  intros bytes_ d fs v b W Pd Nd D Em EP A. destruct d as [|c0 d0]; [congruence|]. set (d := c0 :: d0) in *.
  destruct (C97_enter d fs W) as (En & _). destruct (En c0 d0 eq_refl D Em) as (fs0 & E0 & W0 & S0). clear En.
  assert (D0 : look fs0 d = Some KDir) by now rewrite S0.
  assert (WRx : forall f, wf_fs f -> look f d = Some KDir -> free f (index_name :: d) -> writable f (index_name :: d)).
  { intros f Wf Df Ff. split; [|exact Ff]. intros a B N (kk & Kk & NK). assert (look f a = Some KDir); [|congruence]. eapply dir_all_above; [exact Wf|exact Df|]. apply (below_cons_iff a index_name). auto. }
  destruct (C97_put bytes_ d fs0 [] index_name v _ W0 D0 Pd index_plain) as (fs1 & m1 & o & E1 & G & _). cbn [rev app] in G. assert (WR0 : writable fs0 (index_name :: d)) by (apply WRx; [assumption|assumption|left; now rewrite S0]).
  destruct (G WR0) as (G1 & _). destruct (G1 b A) as (-> & F & U). clear G G1.
  assert (W1 : wf_fs fs1) by (eapply filed_wf; eassumption). assert (D1 : look fs1 d = Some KDir) by (apply F; [now exists [index_name]|intros Q; apply (not_below_tail index_name d); rewrite <- Q; apply below_refl]).
  assert (m1 = [(index_name, abs_path (index_name :: d))]) as ->. { unfold fs_put in E1. rewrite (out_plain d index_name [index_name] index_plain) in E1. cbn [rev app] in E1. destruct (sink_write cwd fs0 (abs_path (index_name :: d)) (content bytes_ v)) as [f1 [u|e]]; inversion E1. reflexivity. }
  assert (EL : Forall encodable (index_lines [(index_name, abs_path (index_name :: d))])).
  { constructor; [|constructor]. cbn [fst snd]. rewrite ppath_abs. unfold encodable in *. apply Forall_app. split; [apply Forall_forall; intros x I; assert (x < 55296)%N by (vm_compute in I; decompose [or] I; subst; try reflexivity; contradiction); unfold scalar; lia|]. constructor; [vm_compute; intuition discriminate|]. apply Forall_app. split; [assumption|]. repeat constructor; vm_compute; intuition discriminate. }
  destruct (write_lines_ok _ EL) as (ib & Eib & Ed).
  destruct (write_spec fs1 index_name d (write_lines (index_lines [(index_name, abs_path (index_name :: d))])) W1 (Forall_cons _ index_proper Pd)) as (fs' & o & Ex & G & _).
  destruct G as (Fi & ->); [apply WRx; [assumption|assumption|right; exists b; apply F]|]. rewrite Eib in Fi, Ex. cbn [fst snd] in Fi, Ex.
  exists fs', ib. split; [unfold fs_session; rewrite E0; cbn [fs_puts]; rewrite E1; unfold fs_exit; rewrite (out_plain d index_name [index_name] index_plain); cbn [rev app]; rewrite Eib, Ex; reflexivity|]. split; [apply Fi|].
  apply C68_round_trip. etransitivity; [|exact Ed]. f_equal. unfold index_lines. change (sorted_by str_ltb fst [(index_name, abs_path (index_name :: d))]) with [(index_name, abs_path (index_name :: d))]. cbn [map fst snd concat]. rewrite app_nil_r, ppath_abs. reflexivity.
Qed.
End DirFsProps.
