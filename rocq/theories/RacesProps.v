(** * C103: processes using the same file system at once *)
From Verif Require Import Prelude PyStr TextLib Params Fs FsProofs Mains MainsProofs Races.

Notation fsys := (list (list str * fnode)) (only parsing).
(** ** Specification *)
(** The file or directory a call is about, and the directory it needs *)
Definition target (c : call) : list str := match c with DirCall q | EmptyCall q | FileCall q _ | SetCall q => q end.
Definition folder (c : call) : list str := match c with DirCall q | EmptyCall q => q | FileCall q _ | SetCall q => tl q end.
Definition makes_file (c : call) : Prop := match c with FileCall _ _ | SetCall _ => True | _ => False end.
Definition finished (p : proc) : Prop := p = Running [].
Definition failed (p : proc) : Prop := exists e, p = Failed e.
(** What a call leaves behind: its directory, or its file (with some content). *)
Definition done (fs : fsys) (c : call) : Prop :=
  look fs (folder c) = Some KDir /\ (makes_file c -> exists k, look fs (target c) = Some k /\ match c with FileCall _ _ => exists b, k = KFile b | _ => True end).
(** The number of system calls a call may need. *)
Definition steps (c : call) : nat :=
  match c with DirCall q => 3 * length q + 2 | EmptyCall q => 3 * length q + 4 | FileCall q _ | SetCall q => 3 * length (tl q) + 4 end.
(** The calls do not get in each other's way: nothing but directories is where directories are needed; the places for files are free or hold files, and no
    directory is needed there or below; directories which are to be empty are absent or empty, and no other process, and no earlier call of the same process,
    has to do with them or anything in them. *)
Record peaceful (fs : fsys) (programs : list (list call)) : Prop := {
  peace_ways : forall p c, In p programs -> In c p -> unblocked fs (folder c);
  peace_files : forall p c, In p programs -> In c p -> makes_file c -> target c <> [] /\ free fs (target c);
  peace_apart : forall p c p' c', In p programs -> In c p -> In p' programs -> In c' p' -> makes_file c -> ~ below (target c) (folder c');
  peace_empty : forall p q, In p programs -> In (EmptyCall q) p -> forall x, look fs (x :: q) = None;
  peace_earlier : forall p l q r c, In p programs -> p = l ++ EmptyCall q :: r -> In c l -> ~ below q (target c);
  peace_others : forall i j p p' q c, i <> j -> nth_error programs i = Some p -> nth_error programs j = Some p' -> In (EmptyCall q) p -> In c p' -> ~ below q (target c) }.

(** ** Single system calls *)
Definition full (a : act) : list str :=
  match a with Mk _ q | Chk _ q | EIsDir q | EIsDir2 q | EList q | EExists q | Open q _ | Fill q _ | Utime q | Create q => q end.
Definition filey (a : act) : Prop := match a with Open _ _ | Fill _ _ | Utime _ | Create _ => True | _ => False end.
Definition dirpath (a : act) : list str := match a with Open q _ | Fill q _ | Utime q | Create q => tl q | _ => full a end.
Definition tests (a : act) : Prop := match a with EIsDir _ | EIsDir2 _ | EList _ | EExists _ => True | _ => False end.

Lemma below_tl d q : below d (tl q) -> below d q.
Proof. destruct q as [|c q]; [auto|]. apply below_cons. Qed.
Lemma tl_below q : below (tl q) q.
Proof. destruct q as [|c q]; [apply below_refl|]. apply below_cons, below_refl. Qed.
Lemma os_mkdir_spec fs q : wf_fs fs ->
  match os_mkdir fs q with
  | Ok fs' => exists c d, q = c :: d /\ look fs d = Some KDir /\ look fs q = None /\ fs' = (q, KDir) :: fs
  | Raise FileNotFoundError => exists c d, q = c :: d /\ look fs d = None
  | Raise _ => look fs q <> None \/ ~ unblocked fs q
  end.
Proof.
  intros W. destruct q as [|c d]; [left; discriminate|]. unfold os_mkdir. assert (S := search_spec fs d W). destruct (search fs d) as [u|e]; cbn [bind].
  - destruct (look fs (c :: d)) as [k|] eqn:L; [left; discriminate|]. exists c, d. auto.
  - destruct S as [(-> & L & _)|(-> & x & B & O)]; [exists c, d; auto|]. right. intros U. apply (U x (below_cons _ _ _ B) O).
Qed.
Lemma mkdir_wf fs c d : wf_fs fs -> look fs d = Some KDir -> look fs (c :: d) = None -> wf_fs ((c :: d, KDir) :: fs).
Proof. intros W D L. exact (made_wf _ _ _ W (mkdir_one _ _ _ W D L)). Qed.

(** What one system call does: at most one path changes, the one it is about; nothing is deleted; directories stay directories. *)
Definition change (fs fs' : fsys) (a : act) : Prop :=
  wf_fs fs' /\ (forall d, d <> full a -> look fs' d = look fs d) /\
  (look fs' (full a) = look fs (full a) \/
   look fs (full a) = None /\ look fs' (full a) = Some KDir /\ look fs (tl (full a)) = Some KDir /\ full a <> [] /\ (exists p, a = Mk p (full a)) \/
   free fs (full a) /\ look fs (tl (full a)) = Some KDir /\ full a <> [] /\ ((exists b, a = Open (full a) b) \/ (exists b, a = Fill (full a) b) \/ a = Create (full a) /\ look fs (full a) = None) /\ exists b, look fs' (full a) = Some (KFile b)).
Lemma effect fs a fs' r : wf_fs fs -> perform fs a = (fs', r) -> change fs fs' a.
Proof.
  intros W E. assert (Keep : fs' = fs -> change fs fs' a) by (intros ->; split; [assumption|]; split; [auto|now left]). unfold change in *.
  destruct a as [p q|e q|q|q|q|q|q b|q b|q|q]; cbn [perform] in E; cbn [full] in Keep |- *.
  - assert (S := os_mkdir_spec fs q W). destruct (os_mkdir fs q) as [fs1|e] eqn:M.
    + injection E as <- _. destruct S as (c & d & -> & D & L & ->). clear Keep. split; [now apply mkdir_wf|]. split.
      * intros x N. rewrite look_cons. destruct (rpath_eqb_spec (c :: d) x); [congruence|reflexivity].
      * right. left. split; [assumption|]. split; [rewrite look_cons; destruct (rpath_eqb_spec (c :: d) (c :: d)); [reflexivity|congruence]|]. split; [assumption|]. split; [discriminate|eauto].
    + apply Keep. destruct e; try (now injection E). destruct q; [now injection E|]. destruct p; now injection E.
  - apply Keep. now injection E.
  - apply Keep. now injection E.
  - apply Keep. now injection E.
  - apply Keep. now injection E.
  - apply Keep. now injection E.
  - destruct (can_write fs q) as [[]|e] eqn:C; [|apply Keep; now injection E]. injection E as <- _. destruct (can_write_inv _ _ W C) as (c & d & -> & D & F). split; [now apply set_wf|]. split.
    + intros x N. apply look_set_other; [discriminate|congruence].
    + right. right. split; [assumption|]. split; [assumption|]. split; [discriminate|]. split; [left; eauto|]. exists []. now apply look_set_same.
  - unfold is_file in E. destruct (look fs q) as [[x| |]|] eqn:L; try (apply Keep; now injection E). injection E as <- _.
    destruct q as [|c d]; [discriminate|]. assert (D : look fs d = Some KDir) by (eapply W; eassumption). assert (F : free fs (c :: d)) by (right; eauto). split; [now apply set_wf|]. split.
    + intros y N. apply look_set_other; [discriminate|congruence].
    + right. right. split; [assumption|]. split; [assumption|]. split; [discriminate|]. split; [right; left; eauto|]. exists b. now apply look_set_same.
  - apply Keep. now injection E.
  - destruct (can_write fs q) as [[]|e] eqn:C; [|apply Keep; now injection E]. unfold exists_ in E. destruct (look fs q) as [k|] eqn:L; [apply Keep; now injection E|]. injection E as <- _.
    destruct (can_write_inv _ _ W C) as (c & d & -> & D & F). split; [now apply set_wf|]. split.
    + intros x N. apply look_set_other; [discriminate|congruence].
    + right. right. split; [assumption|]. split; [assumption|]. split; [discriminate|]. split; [right; right; auto|]. exists []. now apply look_set_same.
Qed.

(** ** All processes *)
Definition todo_of (p : proc) : list act := match p with Running l => l | Failed _ => [] end.
Definition todo (ps : list proc) (i : nat) : list act := match nth_error ps i with Some p => todo_of p | None => [] end.

Lemma step_out fs ps : forall i, nth_error ps i = None -> step fs ps i = (fs, ps).
Proof. induction ps as [|p ps IH]; intros [|i] H; try reflexivity; [discriminate|]. simpl in *. now rewrite IH. Qed.
Lemma step_in fs : forall ps i p fs' p', nth_error ps i = Some p -> step_proc fs p = (fs', p') ->
  exists ps', step fs ps i = (fs', ps') /\ nth_error ps' i = Some p' /\ (forall j, j <> i -> nth_error ps' j = nth_error ps j) /\ length ps' = length ps.
Proof.
  induction ps as [|x ps IH]; intros [|i] p fs' p' H E; try discriminate.
  - injection H as ->. simpl. rewrite E. eexists. split; [reflexivity|]. split; [reflexivity|]. split; [|reflexivity]. intros [|j] N; [congruence|reflexivity].
  - simpl in H. destruct (IH i p fs' p' H E) as (ps' & S & A & B & L). simpl. rewrite S. eexists. split; [reflexivity|]. split; [assumption|]. split; [|simpl; congruence]. intros [|j] N; [reflexivity|]. apply B. congruence.
Qed.
(** A step either changes nothing, or one process does one system call. *)
Lemma step_cases fs ps i : (step fs ps i = (fs, ps) /\ todo ps i = []) \/
  exists a rest fs' r ps', nth_error ps i = Some (Running (a :: rest)) /\ perform fs a = (fs', r) /\ step fs ps i = (fs', ps') /\
    nth_error ps' i = Some (match r with Ok new => Running (new ++ rest) | Raise e => Failed e end) /\ (forall j, j <> i -> nth_error ps' j = nth_error ps j) /\ length ps' = length ps.
Proof.
  destruct (nth_error ps i) as [p|] eqn:N; [|left; unfold todo; rewrite N; split; [now apply step_out|reflexivity]].
  assert (Stay : step_proc fs p = (fs, p) -> step fs ps i = (fs, ps)).
  { intros E. clear - N E. revert i N. induction ps as [|x ps IH]; intros [|i] N; try discriminate; simpl in *.
    - injection N as ->. now rewrite E.
    - now rewrite (IH i N). }
  destruct p as [[|a rest]|e]; [left; unfold todo; rewrite N; split; [now apply Stay|reflexivity]| |left; unfold todo; rewrite N; split; [now apply Stay|reflexivity]]. right. destruct (perform fs a) as [fs' r] eqn:P.
  assert (E : step_proc fs (Running (a :: rest)) = (fs', match r with Ok new => Running (new ++ rest) | Raise e => Failed e end)) by (simpl; rewrite P; now destruct r).
  destruct (step_in fs ps i _ _ _ N E) as (ps' & S & A & B & L). exists a, rest, fs', r, ps'. auto 10.
Qed.
Lemma run_app fs ps s1 s2 : run fs ps (s1 ++ s2) = let (fs', ps') := run fs ps s1 in run fs' ps' s2.
Proof. revert fs ps. induction s1 as [|i s1 IH]; intros fs ps; [reflexivity|]. simpl. destruct (step fs ps i). apply IH. Qed.
(** Invariants of steps are invariants of runs. *)
Lemma run_inv (P : fsys -> list proc -> Prop) : (forall fs ps i fs' ps', P fs ps -> step fs ps i = (fs', ps') -> P fs' ps') ->
  forall s fs ps fs' ps', P fs ps -> run fs ps s = (fs', ps') -> P fs' ps'.
Proof.
  intros H. induction s as [|i s IH]; intros fs ps fs' ps' I E; [now inversion E; subst|]. simpl in E. destruct (step fs ps i) as [fs1 ps1] eqn:S. eapply IH; [|exact E]. eapply H; eassumption.
Qed.
Lemma launch_nth programs i : nth_error (launch programs) i = option_map (fun p => Running (flat_map compile p)) (nth_error programs i).
Proof. unfold launch. revert i. induction programs as [|p r IH]; intros [|i]; try reflexivity. apply IH. Qed.

(** ** Nothing is lost, whatever the processes do *)
(** What is there stays, and stays what it is; files may get another content. *)
Definition kept (fs fs' : fsys) : Prop := forall q k, look fs q = Some k -> exists k', look fs' q = Some k' /\ match k with KFile _ => exists b, k' = KFile b | _ => k' = k end.
Lemma kept_refl fs : kept fs fs.
Proof. intros q k L. exists k. split; [assumption|]. destruct k; eauto. Qed.
Lemma kept_trans a b c : kept a b -> kept b c -> kept a c.
Proof. intros H1 H2 q k L. destruct (H1 q k L) as (k1 & L1 & K1). destruct (H2 q k1 L1) as (k2 & L2 & K2). exists k2. split; [assumption|]. destruct k as [x| |]; [destruct K1 as (y & ->); assumption|subst k1; exact K2|subst k1; exact K2]. Qed.
Lemma kept_dir fs fs' q : kept fs fs' -> look fs q = Some KDir -> look fs' q = Some KDir.
Proof. intros K L. destruct (K q KDir L) as (k' & L' & E). congruence. Qed.
Lemma perform_kept fs a fs' r : wf_fs fs -> perform fs a = (fs', r) -> kept fs fs'.
Proof.
  intros W E q k L. destruct (effect _ _ _ _ W E) as (_ & O & F). destruct (list_eq_dec (list_eq_dec N.eq_dec) q (full a)) as [->|N].
  - destruct F as [F|[(F & _)|(F & _ & _ & _ & b & F')]].
    + rewrite F, L. exists k. split; [reflexivity|]. destruct k; eauto.
    + congruence.
    + exists (KFile b). split; [assumption|]. destruct F as [F|(x & F)]; [congruence|]. assert (k = KFile x) as -> by congruence. eauto.
  - rewrite (O q N), L. exists k. split; [reflexivity|]. destruct k; eauto.
Qed.
Lemma step_kept fs ps i fs' ps' : wf_fs fs -> step fs ps i = (fs', ps') -> wf_fs fs' /\ kept fs fs'.
Proof.
  intros W E. destruct (step_cases fs ps i) as [(S & _)|(a & rest & fs1 & r & ps1 & _ & P & S & _)]; rewrite S in E; inversion E; subst; clear E; [split; [assumption|apply kept_refl]|].
  split; [eapply effect; eassumption|eapply perform_kept; eassumption].
Qed.
Lemma run_kept s fs ps fs' ps' : wf_fs fs -> run fs ps s = (fs', ps') -> wf_fs fs' /\ kept fs fs'.
Proof.
  intros W E. apply (run_inv (fun f _ => wf_fs f /\ kept fs f)) with (3 := E); [|split; [assumption|apply kept_refl]].
  intros f p i f' p' (W1 & K1) S. destruct (step_kept _ _ _ _ _ W1 S) as (W2 & K2). split; [assumption|]. eapply kept_trans; eassumption.
Qed.
Theorem C103_nothing_lost : forall fs programs schedule fs' ps, wf_fs fs -> run fs (launch programs) schedule = (fs', ps) ->
  wf_fs fs' /\ forall q k, look fs q = Some k -> exists k', look fs' q = Some k' /\ match k with KFile _ => exists b, k' = KFile b | _ => k' = k end.
Proof. intros fs programs schedule fs' ps W E. exact (run_kept _ _ _ _ _ W E). Qed.

(** ** What has been done is done, whatever the processes do *)
(** The acts which will make the directory [q], or the file at [q]. *)
Definition promises_dir (q : list str) (a : act) : Prop := match a with Mk _ r | Chk _ r | EIsDir r | EExists r => r = q | _ => False end.
Definition promises_file (q : list str) (a : act) : Prop := match a with Open r _ => r = q | _ => False end.
Definition promises_mark (q : list str) (a : act) : Prop := match a with Utime r | Create r => r = q | _ => False end.
Lemma perform_dir fs a fs' new q : wf_fs fs -> perform fs a = (fs', Ok new) -> promises_dir q a -> look fs' q = Some KDir \/ exists x, In x new /\ promises_dir q x.
Proof.
  intros W E P. destruct a as [p r|e r|r|r|r|r|r b|r b|r|r]; simpl in P; try contradiction; subst r; cbn [perform] in E.
  - assert (S := os_mkdir_spec fs q W). destruct (os_mkdir fs q) as [fs1|e].
    + injection E as <- <-. left. destruct S as (c & d & -> & _ & _ & ->). rewrite look_cons. destruct (rpath_eqb_spec (c :: d) (c :: d)); [reflexivity|congruence].
    + right. destruct e; try (injection E as <- <-; eexists; split; [now left|reflexivity]). destruct q as [|c d]; [discriminate|]. destruct p; [|discriminate]. injection E as <- <-. exists (Mk false (c :: d)). simpl; auto.
  - destruct (is_dir fs q) eqn:D; [|discriminate]. injection E as <- <-. left. now apply is_dir_true.
  - destruct (is_dir fs q) eqn:D; injection E as <- <-; [left; now apply is_dir_true|right]. exists (EExists q). simpl; auto.
  - destruct (exists_ fs q); [discriminate|]. injection E as <- <-. right. exists (Mk true q). simpl; auto.
Qed.
Lemma perform_file fs a fs' new q : wf_fs fs -> perform fs a = (fs', Ok new) -> promises_file q a -> exists b, look fs' q = Some (KFile b).
Proof.
  intros W E P. destruct a as [p r|e r|r|r|r|r|r b|r b|r|r]; simpl in P; try contradiction; subst r; cbn [perform] in E.
  destruct (can_write fs q) as [[]|e] eqn:C; [|discriminate]. injection E as <- <-. destruct (can_write_inv _ _ W C) as (c & d & -> & _). exists []. now apply look_set_same.
Qed.
Lemma perform_mark fs a fs' new q : wf_fs fs -> perform fs a = (fs', Ok new) -> promises_mark q a -> look fs' q <> None \/ exists x, In x new /\ promises_mark q x.
Proof.
  intros W E P. destruct a as [p r|e r|r|r|r|r|r b|r b|r|r]; simpl in P; try contradiction; subst r; cbn [perform] in E; unfold exists_ in E; destruct (look fs q) eqn:L.
  - injection E as <- <-. left. congruence.
  - injection E as <- <-. right. exists (Create q). simpl; auto.
  - destruct (can_write fs q) as [[]|e] eqn:C; [|discriminate]. injection E as <- <-. left. congruence.
  - destruct (can_write fs q) as [[]|e] eqn:C; [|discriminate]. injection E as <- <-. destruct (can_write_inv _ _ W C) as (c & d & -> & _). left. rewrite look_set_same; discriminate.
Qed.
(** For process [i], something is the case or is promised by what it still has to do. *)
Definition pending (P : act -> Prop) (p : proc) : Prop := failed p \/ exists a, In a (todo_of p) /\ P a.
Lemma step_pending (G : fsys -> Prop) (P : act -> Prop) :
  (forall fs fs', kept fs fs' -> G fs -> G fs') ->
  (forall fs a fs' new, wf_fs fs -> perform fs a = (fs', Ok new) -> P a -> G fs' \/ exists x, In x new /\ P x) ->
  forall s i fs ps fs' ps' p p', wf_fs fs -> nth_error ps i = Some p -> (G fs \/ pending P p) -> run fs ps s = (fs', ps') -> nth_error ps' i = Some p' -> G fs' \/ pending P p'.
Proof.
  intros HK HP s i fs ps fs' ps' p p' W N I E N'.
  assert (J : wf_fs fs' /\ exists x, nth_error ps' i = Some x /\ (G fs' \/ pending P x)).
  { apply (run_inv (fun f l => wf_fs f /\ exists x, nth_error l i = Some x /\ (G f \/ pending P x))) with (3 := E); [|eauto]. clear - HK HP.
    intros fs ps j fs' ps' (W & x & N & I) S. destruct (step_cases fs ps j) as [(S' & _)|(a & rest & fs1 & r & ps1 & Nj & Pf & S' & Nj' & Oth & _)]; rewrite S' in S; inversion S; subst; clear S; [eauto|].
    split; [eapply effect; eassumption|]. assert (K := perform_kept _ _ _ _ W Pf). destruct (Nat.eq_dec i j) as [->|D].
    - exists (match r with Ok new => Running (new ++ rest) | Raise e => Failed e end). split; [assumption|]. destruct I as [I|[(e & F)|(y & In_ & Py)]]; [left; eauto|congruence|]. rewrite Nj in N. injection N as <-.
      destruct r as [new|e]; [|right; left; eexists; reflexivity]. destruct In_ as [<-|In_].
      + destruct (HP _ _ _ _ W Pf Py) as [H|(z & Hz & Pz)]; [now left|]. right. right. exists z. split; [apply in_or_app; auto|assumption].
      + right. right. exists y. split; [apply in_or_app; auto|assumption].
    - exists x. split; [rewrite Oth; assumption|]. destruct I as [I|I]; [left; eauto|now right]. }
  destruct J as (_ & x & Nx & J). congruence.
Qed.
Theorem C103_returned_means_done : forall fs programs schedule fs' ps i p c, wf_fs fs -> run fs (launch programs) schedule = (fs', ps) ->
  nth_error programs i = Some p -> In c p -> nth_error ps i = Some (Running []) -> done fs' c.
Proof.
  intros fs programs schedule fs' ps i p c W E Np Ic Ni.
  assert (L : nth_error (launch programs) i = Some (Running (flat_map compile p))) by (rewrite launch_nth, Np; reflexivity).
  assert (Init : forall P : act -> Prop, (exists a, In a (compile c) /\ P a) -> pending P (Running (flat_map compile p))).
  { intros P (a & Ia & Pa). right. exists a. split; [|assumption]. apply in_flat_map. eauto. }
  assert (End : forall P, ~ pending P (Running [])) by (intros P [(e & F)|(a & [] & _)]; discriminate).
  split.
  - assert (G : look fs' (folder c) = Some KDir \/ pending (promises_dir (folder c)) (Running [])); [|destruct G as [G|G]; [assumption|now apply End in G]].
    refine (step_pending (fun f => look f (folder c) = Some KDir) _ _ _ schedule i fs _ fs' ps _ _ W L _ E Ni).
    + intros f f' K H. exact (kept_dir _ _ _ K H).
    + intros f a f' new. apply perform_dir.
    + right. apply Init. destruct c; eexists; (split; [left; reflexivity|reflexivity]).
  - intros MF. destruct c as [q|q|q b|q]; try contradiction; cbn [target].
    + assert (G : (exists b, look fs' q = Some (KFile b)) \/ pending (promises_file q) (Running [])).
      { refine (step_pending (fun f => exists b, look f q = Some (KFile b)) _ _ _ schedule i fs _ fs' ps _ _ W L _ E Ni).
        - intros f f' K (x & H). destruct (K q _ H) as (k & Lk & y & ->). eauto.
        - intros f a f' new Wf Pf Pa. left. eapply perform_file; eassumption.
        - right. apply Init. exists (Open q b). simpl; auto. }
      destruct G as [(x & G)|G]; [eauto|now apply End in G].
    + assert (G : look fs' q <> None \/ pending (promises_mark q) (Running [])).
      { refine (step_pending (fun f => look f q <> None) _ _ _ schedule i fs _ fs' ps _ _ W L _ E Ni).
        - intros f f' K H. destruct (look f q) as [k|] eqn:Lk; [|congruence]. destruct (K q _ Lk) as (k' & -> & _). discriminate.
        - intros f a f' new. apply perform_mark.
        - right. apply Init. exists (Utime q). simpl; auto. }
      destruct G as [G|G]; [|now apply End in G]. destruct (look fs' q) as [k|]; [eauto|congruence].
Qed.

(** ** Every process finishes by itself *)
Definition cost (a : act) : nat :=
  match a with
  | Mk true q => 3 * length q + 2 | Mk false _ => 2 | Chk _ _ => 1 | EIsDir q => 3 * length q + 4 | EIsDir2 _ => 2 | EList _ => 1
  | EExists q => 3 * length q + 3 | Open _ _ => 2 | Fill _ _ => 1 | Utime _ => 2 | Create _ => 1
  end.
Definition costs (l : list act) : nat := list_sum (map cost l).
Lemma costs_app l r : costs (l ++ r) = costs l + costs r.
Proof. unfold costs. now rewrite map_app, list_sum_app. Qed.
Lemma perform_cost fs a fs' new : perform fs a = (fs', Ok new) -> costs new < cost a.
Proof.
  intros E. destruct a as [p r|e r|r|r|r|r|r b|r b|r|r]; cbn [perform] in E.
  - destruct (os_mkdir fs r) as [fs1|e].
    + injection E as <- <-. destruct p; unfold costs; simpl; lia.
    + destruct e; try (injection E as <- <-; destruct p; unfold costs; simpl; lia). destruct r as [|c d]; [discriminate|]. destruct p; [|discriminate]. injection E as <- <-. unfold costs; simpl; lia.
  - destruct (is_dir fs r); [|discriminate]. injection E as <- <-. unfold costs; simpl; lia.
  - injection E as <- <-. destruct (is_dir fs r); unfold costs; simpl; lia.
  - destruct (is_dir fs r); [|discriminate]. injection E as <- <-. unfold costs; simpl; lia.
  - destruct (existsb (child_of r) fs); [discriminate|]. injection E as <- <-. unfold costs; simpl; lia.
  - destruct (exists_ fs r); [discriminate|]. injection E as <- <-. unfold costs; simpl; lia.
  - destruct (can_write fs r); [|discriminate]. injection E as <- <-. unfold costs; simpl; lia.
  - injection E as <- <-. unfold costs; simpl; lia.
  - injection E as <- <-. destruct (exists_ fs r); unfold costs; simpl; lia.
  - destruct (can_write fs r); [|discriminate]. injection E as <- <-. unfold costs; simpl; lia.
Qed.
Lemma cost_pos a : 0 < cost a.
Proof. destruct a as [[] ?|? ?|?|?|?|?|? ?|? ?|?|?]; simpl; lia. Qed.
Lemma costs_call c : costs (compile c) = steps c.
Proof. destruct c as [q|q|q b|q]; unfold costs; simpl; lia. Qed.
Lemma costs_program p : costs (flat_map compile p) = list_sum (map steps p).
Proof. induction p as [|c p IH]; [reflexivity|]. simpl. now rewrite costs_app, costs_call, IH. Qed.
Lemma costs_nil l : costs l = 0 -> l = [].
Proof. destruct l as [|a l]; [reflexivity|]. unfold costs. simpl. assert (C := cost_pos a). lia. Qed.
Lemma run_cost i s : forall fs ps fs' ps' p, run fs ps s = (fs', ps') -> nth_error ps i = Some p ->
  exists p', nth_error ps' i = Some p' /\ (todo_of p' = [] \/ count_occ Nat.eq_dec s i + costs (todo_of p') <= costs (todo_of p)).
Proof.
  induction s as [|j s IH]; intros fs ps fs' ps' p E N.
  - inversion E; subst; clear E. exists p. split; [assumption|]. right. simpl. lia.
  - simpl in E. destruct (step fs ps j) as [fs1 ps1] eqn:S. destruct (step_cases fs ps j) as [(S' & Q)|(a & rest & f & r & l & Nj & Pf & S' & Nj' & Oth & _)]; rewrite S' in S; inversion S; subst; clear S.
    + destruct (IH _ _ _ _ p E N) as (p' & N' & H). exists p'. split; [assumption|]. destruct H as [H|H]; [now left|]. cbn [count_occ]. destruct (Nat.eq_dec j i) as [->|D]; [|auto].
      unfold todo in Q. rewrite N in Q. rewrite Q in H. left. apply costs_nil. change (costs []) with 0 in H. lia.
    + cbn [count_occ]. destruct (Nat.eq_dec j i) as [->|D].
      * destruct (IH _ _ _ _ _ E Nj') as (p' & N' & H). exists p'. split; [assumption|]. destruct H as [H|H]; [now left|]. rewrite Nj in N. injection N as <-. right. destruct r as [new|e]; cbn [todo_of] in *.
        -- rewrite costs_app in H. apply perform_cost in Pf. change (costs (a :: rest)) with (cost a + costs rest). lia.
        -- change (costs (a :: rest)) with (cost a + costs rest). change (costs []) with 0 in H. assert (C := cost_pos a). lia.
      * rewrite <- (Oth i) in N by congruence. exact (IH _ _ _ _ _ E N).
Qed.
Theorem C103_own_steps : forall fs programs schedule fs' ps i p, run fs (launch programs) schedule = (fs', ps) -> nth_error programs i = Some p ->
  list_sum (map steps p) <= count_occ Nat.eq_dec schedule i -> exists p', nth_error ps i = Some p' /\ (finished p' \/ failed p').
Proof.
  intros fs programs schedule fs' ps i p E Np C. assert (L : nth_error (launch programs) i = Some (Running (flat_map compile p))) by (rewrite launch_nth, Np; reflexivity).
  destruct (run_cost i _ _ _ _ _ _ E L) as (p' & N' & H). exists p'. split; [assumption|]. assert (T : todo_of p' = []).
  { destruct H as [H|H]; [assumption|]. apply costs_nil. cbn [todo_of] in H. rewrite costs_program in H. lia. }
  destruct p' as [l|e]; [left|right; exists e; reflexivity]. cbn [todo_of] in T. now subst.
Qed.

(** ** Processes which keep out of each other's way do not fail *)
Definition needs_dir (a : act) : Prop := match a with Mk false _ | Open _ _ | Utime _ | Create _ => True | _ => False end.
Record inv (fs : fsys) (T : nat -> list act) : Prop := {
  inv_way : forall i a, In a (T i) -> unblocked fs (dirpath a);
  inv_file : forall i a, In a (T i) -> filey a -> full a <> [] /\ free fs (full a);
  inv_apart : forall i j a b, In a (T i) -> In b (T j) -> filey a -> ~ below (full a) (dirpath b);
  inv_chk : forall i e q, In (Chk e q) (T i) -> look fs q = Some KDir;
  inv_dir2 : forall i q, In (EIsDir2 q) (T i) -> look fs q = Some KDir;
  inv_none : forall i q, In (EExists q) (T i) -> look fs q = None;
  inv_bare : forall i a x, In a (T i) -> tests a -> look fs (x :: full a) = None;
  inv_order : forall i l a r, T i = l ++ a :: r -> needs_dir a -> look fs (tl (full a)) = Some KDir \/ exists b, In b l /\ promises_dir (tl (full a)) b;
  inv_earlier : forall i l a r b, T i = l ++ a :: r -> tests a -> In b l -> ~ below (full a) (full b);
  inv_others : forall i j a b, i <> j -> In a (T i) -> tests a -> In b (T j) -> ~ below (full a) (full b) }.

Lemma app_split {A} (new rest : list A) : forall l b r, new ++ rest = l ++ b :: r ->
  (exists l', l = new ++ l' /\ rest = l' ++ b :: r) \/ (exists r', new = l ++ b :: r' /\ r = r' ++ rest).
Proof.
  induction new as [|x new IH]; intros l b r E; [left; exists l; auto|]. destruct l as [|y l]; simpl in E.
  - injection E as -> <-. right. exists new. auto.
  - injection E as -> E. destruct (IH l b r E) as [(l' & -> & ->)|(r' & -> & ->)]; [left; exists l'; auto|right; exists r'; auto].
Qed.
Lemma not_dir_none fs q : unblocked fs q -> is_dir fs q = false -> look fs q = None.
Proof. intros U D. destruct (look fs q) as [k|] eqn:L; [|reflexivity]. exfalso. apply (U q (below_refl q)). exists k. split; [assumption|]. intros ->. apply is_dir_true in L. congruence. Qed.
Lemma no_child fs q : (forall x, look fs (x :: q) = None) -> existsb (child_of q) fs = false.
Proof.
  intros H. destruct (existsb (child_of q) fs) eqn:E; [|reflexivity]. exfalso. apply existsb_exists in E. destruct E as ([k v] & I & C). unfold child_of in C. simpl in C.
  destruct k as [|c r]; [discriminate|]. destruct (rpath_eqb_spec r q) as [->|]; [|discriminate]. specialize (H c). change (find_path fs (c :: q) = None) in H. assert (find_path fs (c :: q) <> None) by (apply find_path_in; eauto). contradiction.
Qed.

Lemma no_error fs T i a rest fs' r : wf_fs fs -> inv fs T -> T i = a :: rest -> perform fs a = (fs', r) -> exists new, r = Ok new.
Proof.
  intros W I E P. assert (Ia : In a (T i)) by (rewrite E; now left). assert (Or := inv_order _ _ I i [] a rest E).
  assert (Or' : needs_dir a -> look fs (tl (full a)) = Some KDir) by (intros N; destruct (Or N) as [H|(b & [] & _)]; assumption). clear Or.
  destruct a as [p q|e q|q|q|q|q|q b|q b|q|q]; cbn [perform] in P; cbn [full] in Or'.
  - assert (S := os_mkdir_spec fs q W). destruct (os_mkdir fs q) as [fs1|e]; [inversion P; eauto|]. destruct e; try (inversion P; eauto; fail). destruct S as (c & d & -> & L). destruct p; [inversion P; eauto|]. exfalso. specialize (Or' Logic.I). cbn [tl] in Or'. congruence.
  - assert (is_dir fs q = true) as D by (apply is_dir_true; exact (inv_chk _ _ I i e q Ia)). rewrite D in P. inversion P; eauto.
  - inversion P; eauto.
  - assert (is_dir fs q = true) as D by (apply is_dir_true; exact (inv_dir2 _ _ I i q Ia)). rewrite D in P. inversion P; eauto.
  - rewrite no_child in P; [inversion P; eauto|]. intros x. exact (inv_bare _ _ I i _ x Ia Logic.I).
  - unfold exists_ in P. rewrite (inv_none _ _ I i q Ia) in P. inversion P; eauto.
  - destruct (inv_file _ _ I i _ Ia Logic.I) as (NE & F). cbn [full] in *. destruct q as [|c d]; [congruence|]. rewrite (can_write_ok fs c d W (Or' Logic.I) F) in P. inversion P; eauto.
  - inversion P; eauto.
  - inversion P; eauto.
  - destruct (inv_file _ _ I i _ Ia Logic.I) as (NE & F). cbn [full] in *. destruct q as [|c d]; [congruence|]. rewrite (can_write_ok fs c d W (Or' Logic.I) F) in P. inversion P; eauto.
Qed.
(** The acts which an act leads to are about the same file or directory, or a directory above it. *)
Lemma pushed fs a fs' new n : perform fs a = (fs', Ok new) -> In n new -> below (dirpath n) (dirpath a) /\ below (full n) (full a) /\ (filey n -> filey a /\ full n = full a) /\ (tests n -> tests a /\ full n = full a /\ new = [n]).
Proof.
  intros P Hn. destruct a as [p q|e q|q|q|q|q|q b|q b|q|q]; cbn [perform] in P.
  - destruct (os_mkdir fs q) as [fs1|e]; [inversion P; subst; destruct Hn|]. destruct e; try (inversion P; subst; destruct Hn as [<-|[]]; simpl; repeat split; auto using below_refl; contradiction).
    destruct q as [|c d]; [discriminate|]. destruct p; [|discriminate]. inversion P; subst. destruct Hn as [<-|[<-|[]]]; simpl; repeat split; auto using below_refl, below_cons; contradiction.
  - destruct (is_dir fs q); inversion P; subst. destruct Hn.
  - inversion P; subst. destruct Hn as [<-|[]]. destruct (is_dir fs' q); simpl; repeat split; auto using below_refl; contradiction.
  - destruct (is_dir fs q); inversion P; subst. destruct Hn as [<-|[]]. simpl; repeat split; auto using below_refl; contradiction.
  - destruct (existsb (child_of q) fs); inversion P; subst. destruct Hn.
  - destruct (exists_ fs q); inversion P; subst. destruct Hn as [<-|[]]. simpl; repeat split; auto using below_refl; contradiction.
  - destruct (can_write fs q); inversion P; subst. destruct Hn as [<-|[]]. simpl; repeat split; auto using below_refl; contradiction.
  - inversion P; subst. destruct Hn.
  - inversion P; subst. destruct (exists_ fs' q); [destruct Hn|destruct Hn as [<-|[]]]. simpl; repeat split; auto using below_refl; contradiction.
  - destruct (can_write fs q); inversion P; subst. destruct Hn.
Qed.

Ltac unpush P En l := injection P as _ P; rewrite <- P in En; clear P; destruct l as [|? [|? [|? ?]]]; cbn [app] in En; try discriminate En; inversion En; subst.
Lemma keeps_inv fs T T' i a rest fs' new : wf_fs fs -> inv fs T -> T i = a :: rest -> perform fs a = (fs', Ok new) -> T' i = new ++ rest -> (forall j, j <> i -> T' j = T j) -> inv fs' T'.
Proof.
  intros W I E P E' Oth. assert (Ia : In a (T i)) by (rewrite E; now left). destruct (effect _ _ _ _ W P) as (W' & Same & Ch). assert (K := perform_kept _ _ _ _ W P).
  (* what is to be done comes from something which was to be done by the same process *)
  assert (From : forall j b, In b (T' j) -> exists b0, In b0 (T j) /\ below (dirpath b) (dirpath b0) /\ below (full b) (full b0) /\ (filey b -> filey b0 /\ full b = full b0) /\ (tests b -> tests b0 /\ full b = full b0)).
  { intros j b Hb. destruct (Nat.eq_dec j i) as [->|N]; [|rewrite (Oth j N) in Hb; exists b; repeat split; auto using below_refl].
    rewrite E' in Hb. apply in_app_or in Hb. destruct Hb as [Hb|Hb]; [|exists b; rewrite E; repeat split; auto using below_refl; now right].
    exists a. destruct (pushed _ _ _ _ _ P Hb) as (A & B & C & D). split; [assumption|]. split; [assumption|]. split; [assumption|]. split; [assumption|]. intros Tb. destruct (D Tb) as (D1 & D2 & _). auto. }
  (* new things other than directories are only files in the places for files *)
  assert (Way : forall q, unblocked fs q -> (filey a -> ~ below (full a) q) -> unblocked fs' q).
  { intros q U A d B (k & L & NK). destruct (list_eq_dec (list_eq_dec N.eq_dec) d (full a)) as [->|N]; [|rewrite (Same d N) in L; apply (U d B); exists k; auto].
    destruct Ch as [Ch|[(_ & Ch & _)|(_ & _ & _ & Wh & _)]]; [rewrite Ch in L; apply (U (full a) B); exists k; auto|congruence|].
    apply A; [|assumption]. destruct Wh as [(b & ->)|[(b & ->)|(-> & _)]]; exact Logic.I. }
  assert (Ways : forall j b, In b (T' j) -> unblocked fs' (dirpath b)).
  { intros j b Hb. destruct (From j b Hb) as (b0 & H0 & B & _). apply Way.
    - intros d Bd. apply (inv_way _ _ I j b0 H0). eapply below_trans; eassumption.
    - intros Fa Bd. apply (inv_apart _ _ I i j a b0 Ia H0 Fa). eapply below_trans; eassumption. }
  (* what is tested is left alone by the others, and by what comes first *)
  assert (Alone : forall j l b r, T' j = l ++ b :: r -> tests b -> (forall d, below (full b) d -> look fs' d = look fs d) ).
  { intros j l b r Eb Tb d Bd. destruct (list_eq_dec (list_eq_dec N.eq_dec) d (full a)) as [->|N]; [|now apply Same]. destruct (Nat.eq_dec j i) as [->|Nj].
    - rewrite E' in Eb. destruct (app_split _ _ _ _ _ Eb) as [(l' & -> & ->)|(r' & En & ->)].
      + exfalso. apply (inv_earlier _ _ I i (a :: l') b r a); [exact E|assumption|now left|assumption].
      + destruct (pushed _ _ _ _ b P) as (_ & _ & _ & D); [rewrite En; apply in_or_app; right; now left|]. destruct (D Tb) as (Ta & _). destruct Ch as [Ch|[(_ & _ & _ & _ & p & Ea)|(_ & _ & _ & [(x & Ea)|[(x & Ea)|(Ea & _)]] & _)]]; [assumption| | | |]; rewrite Ea in Ta; destruct Ta.
    - exfalso. rewrite (Oth j Nj) in Eb. apply (inv_others _ _ I j i b a Nj); [rewrite Eb; apply in_or_app; right; now left|assumption|assumption|assumption]. }
  split.
  - exact Ways.
  - intros j b Hb Fb. destruct (From j b Hb) as (b0 & H0 & _ & _ & C & _). destruct (C Fb) as (F0 & ->). destruct (inv_file _ _ I j b0 H0 F0) as (NE & F). split; [assumption|].
    destruct (list_eq_dec (list_eq_dec N.eq_dec) (full b0) (full a)) as [Eq|N]; [|unfold free; rewrite (Same _ N); exact F]. rewrite Eq in *.
    destruct Ch as [Ch|[(_ & _ & _ & _ & p & Ea)|(_ & _ & _ & _ & x & Ch)]]; [unfold free; rewrite Ch; exact F| |right; eauto].
    exfalso. apply (inv_apart _ _ I j i b0 a H0 Ia F0). rewrite Eq. rewrite Ea. simpl. apply below_refl.
  - intros j k b b' Hb Hb' Fb Bl. destruct (From j b Hb) as (b0 & H0 & _ & _ & C & _). destruct (From k b' Hb') as (b1 & H1 & B1 & _). destruct (C Fb) as (F0 & Eq). rewrite Eq in Bl. apply (inv_apart _ _ I j k b0 b1 H0 H1 F0). eapply below_trans; eassumption.
  - intros j e q Hb. destruct (Nat.eq_dec j i) as [->|N]; [|rewrite (Oth j N) in Hb; eapply kept_dir; [exact K|]; exact (inv_chk _ _ I j e q Hb)].
    rewrite E' in Hb. apply in_app_or in Hb. destruct Hb as [Hb|Hb]; [|eapply kept_dir; [exact K|]; apply (inv_chk _ _ I i e q); rewrite E; now right].
    destruct a as [p r|x r|r|r|r|r|r b|r b|r|r]; cbn [perform] in P.
    + assert (S := os_mkdir_spec fs r W). assert (U := inv_way _ _ I i _ Ia). cbn [dirpath full] in U. destruct (os_mkdir fs r) as [fs1|x]; [inversion P; subst; destruct Hb|].
      assert (L : x <> FileNotFoundError -> look fs r <> None) by (intros NX; destruct x; try congruence; (destruct S as [S|S]; [exact S|contradiction])).
      destruct x; try (inversion P; subst; destruct Hb as [Hb|[]]; inversion Hb; subst; destruct (is_dir fs' q) eqn:D; [now apply is_dir_true|]; exfalso; apply L; [discriminate|now apply not_dir_none]).
      destruct r as [|c d]; [discriminate|]. destruct p; [|discriminate]. inversion P; subst. destruct Hb as [Hb|[Hb|[]]]; discriminate.
    + destruct (is_dir fs r); inversion P; subst. destruct Hb.
    + inversion P; subst. destruct Hb as [Hb|[]]. destruct (is_dir fs' r); discriminate.
    + destruct (is_dir fs r); inversion P; subst. destruct Hb as [Hb|[]]. discriminate.
    + destruct (existsb (child_of r) fs); inversion P; subst. destruct Hb.
    + destruct (exists_ fs r); inversion P; subst. destruct Hb as [Hb|[]]. discriminate.
    + destruct (can_write fs r); inversion P; subst. destruct Hb as [Hb|[]]. discriminate.
    + inversion P; subst. destruct Hb.
    + inversion P; subst. destruct (exists_ fs' r); [destruct Hb|destruct Hb as [Hb|[]]]. discriminate.
    + destruct (can_write fs r); inversion P; subst. destruct Hb.
  - intros j q Hb. destruct (Nat.eq_dec j i) as [->|N]; [|rewrite (Oth j N) in Hb; eapply kept_dir; [exact K|]; exact (inv_dir2 _ _ I j q Hb)].
    rewrite E' in Hb. apply in_app_or in Hb. destruct Hb as [Hb|Hb]; [|eapply kept_dir; [exact K|]; apply (inv_dir2 _ _ I i q); rewrite E; now right].
    destruct (pushed _ _ _ _ _ P Hb) as (_ & _ & _ & D). destruct (D Logic.I) as (Ta & Eq & En). destruct a as [p r|x r|r|r|r|r|r b|r b|r|r]; destruct Ta; simpl in Eq; subst r; cbn [perform] in P.
    + destruct (is_dir fs q) eqn:Di; inversion P; subst; [now apply is_dir_true|discriminate].
    + destruct (is_dir fs q); inversion P; subst. discriminate.
    + destruct (existsb (child_of q) fs); inversion P; subst. discriminate.
    + destruct (exists_ fs q); inversion P; subst. discriminate.
  - intros j q Hb. assert (Sp : exists l r, T' j = l ++ EExists q :: r) by now apply in_split. destruct Sp as (l & r & Sp).
    rewrite (Alone j l _ r Sp Logic.I q (below_refl q)). destruct (Nat.eq_dec j i) as [->|N]; [|rewrite (Oth j N) in Hb; exact (inv_none _ _ I j q Hb)].
    rewrite E' in Hb. apply in_app_or in Hb. destruct Hb as [Hb|Hb]; [|apply (inv_none _ _ I i q); rewrite E; now right].
    destruct (pushed _ _ _ _ _ P Hb) as (_ & _ & _ & D). destruct (D Logic.I) as (Ta & Eq & En). assert (U := inv_way _ _ I i _ Ia). destruct a as [p z|x z|z|z|z|z|z b|z b|z|z]; destruct Ta; simpl in Eq; subst z; cbn [perform] in P.
    + destruct (is_dir fs q) eqn:Di; inversion P; subst; [discriminate|]. now apply not_dir_none.
    + destruct (is_dir fs q); inversion P; subst. discriminate.
    + destruct (existsb (child_of q) fs); inversion P; subst. discriminate.
    + destruct (exists_ fs q); inversion P; subst. discriminate.
  - intros j b x Hb Tb. assert (Sp : exists l r, T' j = l ++ b :: r) by now apply in_split. destruct Sp as (l & r & Sp).
    rewrite (Alone j l b r Sp Tb) by (apply below_cons, below_refl). destruct (From j b Hb) as (b0 & H0 & _ & _ & _ & D). destruct (D Tb) as (T0 & ->). exact (inv_bare _ _ I j b0 x H0 T0).
  - intros j l b r Eb Nb. destruct (Nat.eq_dec j i) as [->|N].
    + rewrite E' in Eb. destruct (app_split _ _ _ _ _ Eb) as [(l' & -> & ->)|(r' & En & ->)].
      * destruct (inv_order _ _ I i (a :: l') b r E Nb) as [L|(c & [<-|Hc] & Pc)]; [left; eapply kept_dir; eassumption| |right; exists c; split; [apply in_or_app; auto|assumption]].
        destruct (perform_dir _ _ _ _ _ W P Pc) as [L|(x & Hx & Px)]; [now left|]. right. exists x. split; [apply in_or_app; auto|assumption].
      * clear Eb. assert (Or : needs_dir a -> look fs (tl (full a)) = Some KDir) by (intros Na; destruct (inv_order _ _ I i [] a rest E Na) as [H|(c & [] & _)]; assumption).
        destruct a as [p z|x z|z|z|z|z|z y|z y|z|z]; cbn [perform] in P.
        -- destruct (os_mkdir fs z) as [fs1|x]; [unpush P En l|]. destruct x; try (unpush P En l; destruct Nb; fail).
           destruct z as [|c d]; [discriminate|]. destruct p; [|discriminate]. unpush P En l; [destruct Nb|]. right. exists (Mk true d). simpl; auto.
        -- destruct (is_dir fs z); [|discriminate]. unpush P En l.
        -- destruct (is_dir fs z); unpush P En l; destruct Nb.
        -- destruct (is_dir fs z); [|discriminate]. unpush P En l. destruct Nb.
        -- destruct (existsb (child_of z) fs); [discriminate|]. unpush P En l.
        -- destruct (exists_ fs z); [discriminate|]. unpush P En l. destruct Nb.
        -- destruct (can_write fs z); [|discriminate]. unpush P En l. destruct Nb.
        -- unpush P En l.
        -- destruct (exists_ fs z); unpush P En l. left. eapply kept_dir; [exact K|]. exact (Or Logic.I).
        -- destruct (can_write fs z); [|discriminate]. unpush P En l.
    + rewrite (Oth j N) in Eb. destruct (inv_order _ _ I j l b r Eb Nb) as [L|H]; [left; eapply kept_dir; eassumption|now right].
  - intros j l b r c Eb Tb Hc Bl. destruct (Nat.eq_dec j i) as [->|N]; [|rewrite (Oth j N) in Eb; exact (inv_earlier _ _ I j l b r c Eb Tb Hc Bl)].
    rewrite E' in Eb. destruct (app_split _ _ _ _ _ Eb) as [(l' & -> & ->)|(r' & En & ->)].
    + apply in_app_or in Hc. destruct Hc as [Hc|Hc]; [|apply (inv_earlier _ _ I i (a :: l') b r c E Tb); [now right|assumption]].
      destruct (pushed _ _ _ _ _ P Hc) as (_ & B & _). apply (inv_earlier _ _ I i (a :: l') b r a E Tb); [now left|]. eapply below_trans; eassumption.
    + destruct (pushed _ _ _ _ b P) as (_ & _ & _ & D); [rewrite En; apply in_or_app; right; now left|]. destruct (D Tb) as (_ & _ & E1). rewrite E1 in En. destruct l as [|y [|z l]]; [destruct Hc|discriminate|discriminate].
  - intros j k b c N Hb Tb Hc Bl. destruct (From j b Hb) as (b0 & H0 & _ & _ & _ & D). destruct (D Tb) as (T0 & Eq). destruct (From k c Hc) as (c0 & Hc0 & _ & B & _). rewrite Eq in Bl. apply (inv_others _ _ I j k b0 c0 N H0 T0 Hc0). eapply below_trans; eassumption.
Qed.

Lemma compile_split p : forall l a r, flat_map compile p = l ++ a :: r -> exists p1 c p2 l' r', p = p1 ++ c :: p2 /\ l = flat_map compile p1 ++ l' /\ compile c = l' ++ a :: r'.
Proof.
  induction p as [|c p IH]; intros l a r E; [destruct l; discriminate|]. simpl in E. destruct (app_split _ _ _ _ _ E) as [(l' & -> & E')|(r' & E' & _)].
  - destruct (IH l' a r E') as (p1 & c' & p2 & l2 & r2 & -> & -> & H). exists (c :: p1), c', p2, l2, r2. simpl. rewrite app_assoc. auto.
  - exists [], c, p, l, r'. auto.
Qed.
Lemma in_compile c a : In a (compile c) -> below (dirpath a) (folder c) /\ below (full a) (target c) /\ (filey a -> makes_file c /\ full a = target c) /\ (tests a -> c = EmptyCall (full a)) /\ (forall e q, a <> Chk e q) /\ (forall q, a <> EIsDir2 q /\ a <> EExists q).
Proof.
  intros H. destruct c as [q|q|q b|q]; simpl in H.
  - destruct H as [<-|[]]; simpl; repeat split; try discriminate; try contradiction; apply below_refl.
  - destruct H as [<-|[]]; simpl; repeat split; try discriminate; try contradiction; apply below_refl.
  - destruct H as [<-|[<-|[]]]; simpl; repeat split; try discriminate; try contradiction; auto using below_refl, tl_below.
  - destruct H as [<-|[<-|[]]]; simpl; repeat split; try discriminate; try contradiction; auto using below_refl, tl_below.
Qed.
Lemma todo_launch programs i : todo (launch programs) i = match nth_error programs i with Some p => flat_map compile p | None => [] end.
Proof. unfold todo. rewrite launch_nth. now destruct (nth_error programs i). Qed.
Lemma in_launch programs i a : In a (todo (launch programs) i) -> exists p c, nth_error programs i = Some p /\ In p programs /\ In c p /\ In a (compile c).
Proof.
  rewrite todo_launch. destruct (nth_error programs i) as [p|] eqn:N; [|intros []]. intros H. apply in_flat_map in H. destruct H as (c & Hc & Ha). exists p, c. split; [reflexivity|]. split; [eapply nth_error_In; eassumption|auto].
Qed.
Lemma inv_launch fs programs : peaceful fs programs -> inv fs (todo (launch programs)).
Proof.
  intros Pe. split.
  - intros i a H. destruct (in_launch _ _ _ H) as (p & c & _ & Hp & Hc & Ha). destruct (in_compile c a Ha) as (B & _). intros d Bd. apply (peace_ways _ _ Pe p c Hp Hc). eapply below_trans; eassumption.
  - intros i a H Fa. destruct (in_launch _ _ _ H) as (p & c & _ & Hp & Hc & Ha). destruct (in_compile c a Ha) as (_ & _ & F & _). destruct (F Fa) as (M & ->). exact (peace_files _ _ Pe p c Hp Hc M).
  - intros i j a b H H' Fa Bl. destruct (in_launch _ _ _ H) as (p & c & _ & Hp & Hc & Ha). destruct (in_launch _ _ _ H') as (p' & c' & _ & Hp' & Hc' & Ha').
    destruct (in_compile c a Ha) as (_ & _ & F & _). destruct (F Fa) as (M & Eq). destruct (in_compile c' b Ha') as (B & _). rewrite Eq in Bl. apply (peace_apart _ _ Pe p c p' c' Hp Hc Hp' Hc' M). eapply below_trans; eassumption.
  - intros i e q H. destruct (in_launch _ _ _ H) as (p & c & _ & Hp & Hc & Ha). destruct (in_compile c _ Ha) as (_ & _ & _ & _ & N & _). now destruct (N e q).
  - intros i q H. destruct (in_launch _ _ _ H) as (p & c & _ & Hp & Hc & Ha). destruct (in_compile c _ Ha) as (_ & _ & _ & _ & _ & N). destruct (N q) as (N1 & _). congruence.
  - intros i q H. destruct (in_launch _ _ _ H) as (p & c & _ & Hp & Hc & Ha). destruct (in_compile c _ Ha) as (_ & _ & _ & _ & _ & N). destruct (N q) as (_ & N1). congruence.
  - intros i a x H Ta. destruct (in_launch _ _ _ H) as (p & c & _ & Hp & Hc & Ha). destruct (in_compile c _ Ha) as (_ & _ & _ & T & _). rewrite (T Ta) in Hc. exact (peace_empty _ _ Pe p _ Hp Hc x).
  - intros i l a r E Na. rewrite todo_launch in E. destruct (nth_error programs i) as [p|] eqn:N; [|destruct l; discriminate]. destruct (compile_split _ _ _ _ E) as (p1 & c & p2 & l' & r' & _ & -> & Ec). right.
    destruct c as [q|q|q b|q]; (destruct l' as [|? [|? [|? ?]]]; cbn [compile app] in Ec; try discriminate Ec; inversion Ec; subst; try contradiction); exists (Mk true (tl q)); (split; [apply in_or_app; right; now left|reflexivity]).
  - intros i l a r b E Ta Hb Bl. rewrite todo_launch in E. destruct (nth_error programs i) as [p|] eqn:N; [|destruct l; discriminate]. destruct (compile_split _ _ _ _ E) as (p1 & c & p2 & l' & r' & -> & -> & Ec).
    assert (Ia : In a (compile c)) by (rewrite Ec; apply in_or_app; right; now left). destruct (in_compile c a Ia) as (_ & _ & _ & T & _). assert (T' := T Ta). subst c. destruct l' as [|? [|? ?]]; cbn [compile app] in Ec; try discriminate Ec. rewrite app_nil_r in Hb.
    apply in_flat_map in Hb. destruct Hb as (c1 & Hc1 & Hb). destruct (in_compile c1 b Hb) as (_ & B & _). apply (peace_earlier _ _ Pe _ p1 (full a) p2 c1 (nth_error_In _ _ N) eq_refl Hc1). eapply below_trans; eassumption.
  - intros i j a b Nij H Ta H' Bl. destruct (in_launch _ _ _ H) as (p & c & N & Hp & Hc & Ha). destruct (in_launch _ _ _ H') as (p' & c' & N' & Hp' & Hc' & Ha').
    destruct (in_compile c a Ha) as (_ & _ & _ & T & _). rewrite (T Ta) in Hc. destruct (in_compile c' b Ha') as (_ & B & _). apply (peace_others _ _ Pe i j p p' _ c' Nij N N' Hc Hc'). eapply below_trans; eassumption.
Qed.
Lemma inv_ext fs T T' : (forall i, T i = T' i) -> inv fs T -> inv fs T'.
Proof.
  intros H I. split.
  - intros i a. rewrite <- H. apply (inv_way _ _ I).
  - intros i a. rewrite <- H. apply (inv_file _ _ I).
  - intros i j a b. rewrite <- !H. apply (inv_apart _ _ I).
  - intros i e q. rewrite <- H. apply (inv_chk _ _ I).
  - intros i q. rewrite <- H. apply (inv_dir2 _ _ I).
  - intros i q. rewrite <- H. apply (inv_none _ _ I).
  - intros i a x. rewrite <- H. apply (inv_bare _ _ I).
  - intros i l a r. rewrite <- H. apply (inv_order _ _ I).
  - intros i l a r b. rewrite <- H. apply (inv_earlier _ _ I).
  - intros i j a b. rewrite <- !H. apply (inv_others _ _ I).
Qed.
Theorem C103_no_failure : forall fs programs schedule fs' ps, wf_fs fs -> peaceful fs programs -> run fs (launch programs) schedule = (fs', ps) -> forall i e, nth_error ps i <> Some (Failed e).
Proof.
  intros fs programs schedule fs' ps W Pe E.
  assert (J : wf_fs fs' /\ inv fs' (todo ps) /\ forall i e, nth_error ps i <> Some (Failed e)).
  { apply (run_inv (fun f l => wf_fs f /\ inv f (todo l) /\ forall i e, nth_error l i <> Some (Failed e))) with (3 := E).
    - clear. intros fs ps i fs' ps' (W & I & NF) S. destruct (step_cases fs ps i) as [(S' & _)|(a & rest & fs1 & r & ps1 & N & P & S' & N' & Oth & _)]; rewrite S' in S; inversion S; subst; clear S; [auto|].
      assert (Et : todo ps i = a :: rest) by (unfold todo; now rewrite N). destruct (no_error _ _ _ _ _ _ _ W I Et P) as (new & ->). split; [eapply effect; eassumption|]. split.
      + eapply keeps_inv; [exact W|exact I|exact Et|exact P|unfold todo; now rewrite N'|]. intros j Nj. unfold todo. now rewrite Oth.
      + intros j e. destruct (Nat.eq_dec j i) as [->|Nj]; [rewrite N'; discriminate|rewrite Oth by assumption; apply NF].
    - split; [assumption|]. split; [now apply inv_launch|]. intros i e. rewrite launch_nth. destruct (nth_error programs i); discriminate. }
  apply J.
Qed.
(** So, with enough steps of its own, each process gets through, whatever the others do, and its directories and files are there. *)
Theorem C103_completes : forall fs programs schedule fs' ps i p, wf_fs fs -> peaceful fs programs -> run fs (launch programs) schedule = (fs', ps) -> nth_error programs i = Some p ->
  list_sum (map steps p) <= count_occ Nat.eq_dec schedule i -> nth_error ps i = Some (Running []) /\ forall c, In c p -> done fs' c.
Proof.
  intros fs programs schedule fs' ps i p W Pe E Np C. destruct (C103_own_steps _ _ _ _ _ _ _ E Np C) as (p' & N' & [F|(e & F)]).
  - rewrite F in N'. split; [assumption|]. intros c Hc. exact (C103_returned_means_done _ _ _ _ _ _ _ _ W E Np Hc N').
  - exfalso. rewrite F in N'. exact (C103_no_failure _ _ _ _ _ W Pe E i e N').
Qed.

(** ** Nothing else changes, whatever the processes do *)
Theorem C103_frame : forall fs programs schedule fs' ps r, wf_fs fs -> run fs (launch programs) schedule = (fs', ps) ->
  look fs' r = look fs r \/
  (look fs r = None /\ look fs' r = Some KDir /\ exists p c, In p programs /\ In c p /\ below r (folder c)) \/
  (free fs r /\ (exists b, look fs' r = Some (KFile b)) /\ exists p c, In p programs /\ In c p /\ makes_file c /\ target c = r).
Proof.
  intros fs programs schedule fs' ps r W E.
  set (G := fun f : fsys => look f r = look fs r \/ (look fs r = None /\ look f r = Some KDir /\ exists p c, In p programs /\ In c p /\ below r (folder c)) \/
    (free fs r /\ (exists b, look f r = Some (KFile b)) /\ exists p c, In p programs /\ In c p /\ makes_file c /\ target c = r)).
  assert (J : wf_fs fs' /\ (forall i a, In a (todo ps i) -> exists p c, In p programs /\ In c p /\ below (dirpath a) (folder c) /\ (filey a -> makes_file c /\ full a = target c)) /\ G fs').
  { apply (run_inv (fun f l => wf_fs f /\ (forall i a, In a (todo l i) -> exists p c, In p programs /\ In c p /\ below (dirpath a) (folder c) /\ (filey a -> makes_file c /\ full a = target c)) /\ G f)) with (3 := E).
    - clear. intros f ps i f' ps' (W & I & Gf) S. destruct (step_cases f ps i) as [(S' & _)|(a & rest & f1 & x & ps1 & N & P & S' & N' & Oth & _)]; rewrite S' in S; inversion S; subst; clear S; [auto|].
      destruct (effect _ _ _ _ W P) as (W' & Same & Ch). assert (Ia : In a (todo ps i)) by (unfold todo; rewrite N; now left). destruct (I i a Ia) as (p & c & Hp & Hc & B & F). split; [assumption|]. split.
      + intros j b Hb. destruct (Nat.eq_dec j i) as [->|Nj]; [|apply (I j b); unfold todo in *; now rewrite <- Oth]. unfold todo in Hb. rewrite N' in Hb. destruct x as [new|e]; [|destruct Hb]. cbn [todo_of] in Hb. apply in_app_or in Hb.
        destruct Hb as [Hb|Hb]; [|apply (I i b); unfold todo; rewrite N; now right]. destruct (pushed _ _ _ _ _ P Hb) as (B1 & _ & F1 & _). exists p, c. split; [assumption|]. split; [assumption|]. split; [eapply below_trans; eassumption|].
        intros Fb. destruct (F1 Fb) as (Fa & ->). auto.
      + destruct (list_eq_dec (list_eq_dec N.eq_dec) r (full a)) as [->|D]; [|unfold G in *; rewrite (Same _ D); exact Gf].
        destruct Ch as [Ch|[(L & L' & _ & _ & q & Ea)|(Fr & _ & _ & Wh & b & L')]].
        * unfold G in *. rewrite Ch. exact Gf.
        * rewrite Ea in B. cbn [dirpath full] in B. unfold G in *. destruct Gf as [Gf|[(_ & Gf & _)|(_ & (b & Gf) & _)]]; [|congruence|congruence]. right. left. split; [congruence|]. split; [assumption|]. exists p, c. auto.
        * assert (Fa : filey a) by (destruct Wh as [(b' & ->)|[(b' & ->)|(-> & _)]]; exact Logic.I). destruct (F Fa) as (M & Eq). unfold G in *. right. right. split; [|split; [eauto|exists p, c; auto]].
          destruct Gf as [Gf|[(Gf & _)|(Gf & _)]]; [unfold free in *; rewrite Gf in Fr; exact Fr|now left|assumption].
    - split; [assumption|]. split; [|now left]. intros i a H. destruct (in_launch _ _ _ H) as (p & c & _ & Hp & Hc & Ha). destruct (in_compile c a Ha) as (B & _ & F & _). exists p, c. auto. }
  apply J.
Qed.

(** ** Files hold what was written *)
Theorem C103_content : forall fs programs schedule fs' ps q b, wf_fs fs -> run fs (launch programs) schedule = (fs', ps) ->
  (forall p b', In p programs -> In (FileCall q b') p -> b' = b) -> (exists p, In p programs /\ In (FileCall q b) p) ->
  (forall i p, nth_error programs i = Some p -> In (FileCall q b) p -> nth_error ps i = Some (Running [])) -> look fs' q = Some (KFile b).
Proof.
  intros fs programs schedule fs' ps q b W E All Ex Fin.
  set (writes := fun a => match a with Open r _ | Fill r _ => r = q | _ => False end).
  set (data := fun a => match a with Open _ x | Fill _ x => x = b | _ => True end).
  set (writer := fun i => exists p, nth_error programs i = Some p /\ In (FileCall q b) p).
  assert (J : wf_fs fs' /\ (forall i a, In a (todo ps i) -> writes a -> data a /\ writer i) /\ (forall i x, In (Fill q x) (todo ps i) -> exists y, look fs' q = Some (KFile y)) /\
    (look fs' q = Some (KFile b) \/ (exists i a, In a (todo ps i) /\ writes a) \/ exists i e, writer i /\ nth_error ps i = Some (Failed e))).
  { apply (run_inv (fun f l => wf_fs f /\ (forall i a, In a (todo l i) -> writes a -> data a /\ writer i) /\ (forall i x, In (Fill q x) (todo l i) -> exists y, look f q = Some (KFile y)) /\
      (look f q = Some (KFile b) \/ (exists i a, In a (todo l i) /\ writes a) \/ exists i e, writer i /\ nth_error l i = Some (Failed e)))) with (3 := E).
    - clear - W. clear W. intros f ps i f' ps' (W & D & K & H) S. destruct (step_cases f ps i) as [(S' & _)|(a & rest & f1 & x & ps1 & N & P & S' & N' & Oth & _)]; rewrite S' in S; inversion S; subst; clear S; [auto|].
      destruct (effect _ _ _ _ W P) as (W' & Same & Ch). assert (Kp := perform_kept _ _ _ _ W P). assert (Ia : In a (todo ps i)) by (unfold todo; rewrite N; now left).
      assert (Np : forall new y, x = Ok new -> In y new -> writes y -> exists z, y = Fill q z /\ a = Open q z).
      { intros new y -> Hy Wy. destruct (pushed _ _ _ _ _ P Hy) as (_ & _ & F & _). destruct a as [p r|e r|r|r|r|r|r z|r z|r|r]; cbn [perform] in P; try (destruct y; try contradiction; simpl in F; exfalso; now apply F).
        - destruct (can_write f r); inversion P; subst. destruct Hy as [<-|[]]. simpl in Wy. subst r. eauto.
        - inversion P; subst. destruct Hy.
        - inversion P; subst. destruct (exists_ f' r); [destruct Hy|destruct Hy as [<-|[]]]. destruct Wy.
        - destruct (can_write f r); inversion P; subst. destruct Hy. }
      assert (Todo : forall j y, In y (todo ps' j) -> In y (todo ps j) \/ j = i /\ exists new, x = Ok new /\ In y new).
      { intros j y Hy. destruct (Nat.eq_dec j i) as [->|Nj]; [|left; unfold todo in *; now rewrite <- Oth]. unfold todo in Hy. rewrite N' in Hy. destruct x as [new|e]; [|destruct Hy]. cbn [todo_of] in Hy. apply in_app_or in Hy.
        destruct Hy as [Hy|Hy]; [right; eauto|left]. unfold todo. rewrite N. now right. }
      split; [assumption|]. split; [|split].
      + intros j y Hy Wy. destruct (Todo j y Hy) as [Ho|(-> & new & Ex & Hn)]; [auto|]. destruct (Np new y Ex Hn Wy) as (z & -> & ->). destruct (D i _ Ia) as (D1 & D2); [reflexivity|]. auto.
      + intros j z Hz. destruct (Todo j _ Hz) as [Ho|(-> & new & Ex & Hn)]; [destruct (K j z Ho) as (y & Ly); destruct (Kp q _ Ly) as (k & Lk & w & ->); eauto|].
        destruct (Np new _ Ex Hn eq_refl) as (w & _ & ->). subst x. eapply perform_file; [exact W|exact P|reflexivity].
      + destruct H as [H|[(j & y & Hy & Wy)|(j & e & Wj & Fj)]].
        * destruct (list_eq_dec (list_eq_dec N.eq_dec) q (full a)) as [Eq|Nq]; [|left; rewrite (Same _ Nq); assumption]. destruct Ch as [Ch|[(L & _)|(_ & _ & _ & Wh & z & L)]]; [left; congruence|congruence|].
          destruct Wh as [(w & Ea)|[(w & Ea)|(_ & L')]]; [| |congruence]; rewrite <- Eq in Ea; subst a.
          -- destruct (D i _ Ia) as (Dw & Wi); [reflexivity|]. cbn [perform] in P. destruct (can_write f q); inversion P; subst; [|left; assumption].
             right. left. exists i, (Fill q w). split; [|reflexivity]. unfold todo. rewrite N'. now left.
          -- destruct (D i _ Ia) as (Dw & Wi); [reflexivity|]. simpl in Dw. subst w. left. cbn [perform] in P. unfold is_file in P. rewrite H in P. inversion P; subst. destruct q as [|c d]; [discriminate|]. now apply look_set_same.
        * destruct (Nat.eq_dec j i) as [->|Nj]; [|right; left; exists j, y; split; [unfold todo in *; now rewrite Oth|assumption]].
          unfold todo in Hy. rewrite N in Hy. cbn [todo_of] in Hy. destruct x as [new|e]; [|right; right; exists i, e; split; [|assumption]; destruct Hy as [<-|Hy]; [exact (proj2 (D i _ Ia Wy))|apply (D i y); [unfold todo; rewrite N; now right|assumption]]].
          destruct Hy as [<-|Hy]; [|right; left; exists i, y; split; [unfold todo; rewrite N'; apply in_or_app; now right|assumption]].
          destruct (D i _ Ia Wy) as (Dy & _). destruct a as [p r|e r|r|r|r|r|r z|r z|r|r]; try (exfalso; exact Wy); simpl in Wy, Dy; subst r z; cbn [perform] in P.
          -- destruct (can_write f q); inversion P; subst. right. left. exists i, (Fill q b). split; [unfold todo; rewrite N'; now left|reflexivity].
          -- left. destruct (K i b Ia) as (w & Lw). unfold is_file in P. rewrite Lw in P. inversion P; subst. destruct q as [|c d]; [discriminate|]. now apply look_set_same.
        * right. right. exists j, e. split; [assumption|]. destruct (Nat.eq_dec j i) as [->|Nj]; [congruence|]. now rewrite Oth.
    - split; [assumption|]. split; [|split].
      + intros i a H Wa. destruct (in_launch _ _ _ H) as (p & c & N & Hp & Hc & Ha). destruct c as [r|r|r x|r]; simpl in Ha; repeat (destruct Ha as [<-|Ha]; try contradiction). simpl in Wa. subst r. assert (x = b) as -> by (eapply All; eassumption). split; [reflexivity|]. exists p. auto.
      + intros i x H. destruct (in_launch _ _ _ H) as (p & c & N & Hp & Hc & Ha). exfalso. destruct c as [r|r|r y|r]; simpl in Ha; intuition discriminate.
      + right. left. destruct Ex as (p & Hp & Hc). apply In_nth_error in Hp. destruct Hp as (i & Hi). exists i, (Open q b). split; [|reflexivity]. rewrite todo_launch, Hi. apply in_flat_map. exists (FileCall q b). simpl; auto. }
  destruct J as (_ & D & _ & [H|[(i & a & Ha & Wa)|(i & e & (p & Np & Hp) & F)]]); [assumption| |].
  - exfalso. destruct (D i a Ha Wa) as (_ & p & Np & Hp). unfold todo in Ha. rewrite (Fin i p Np Hp) in Ha. destruct Ha.
  - exfalso. rewrite (Fin i p Np Hp) in F. discriminate.
Qed.
