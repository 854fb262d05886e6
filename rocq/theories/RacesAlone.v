(** * C103: a process which is alone does what the sequential models say (Fs.v, CheckFs.v) *)
From Verif Require Import Prelude PyStr TextLib Params Fs FsProofs Mains MainsProofs Races RacesProps CheckFs.
From Verif Require Checkpoints.

Notation fsys := (list (list str * fnode)) (only parsing).
Lemma run_one fs p n : Races.run fs [p] (repeat 0 (S n)) = let (fs', p') := step_proc fs p in Races.run fs' [p'] (repeat 0 n).
Proof. simpl. destruct (step_proc fs p). reflexivity. Qed.
(** [n] steps lead from one state of the process to the other. *)
Definition goes (fs : fsys) (p : proc) (fs' : fsys) (p' : proc) : Prop := exists n, Races.run fs [p] (repeat 0 n) = (fs', [p']).
Lemma goes_refl fs p : goes fs p fs p.
Proof. now exists 0. Qed.
Lemma goes_trans fs p fs1 p1 fs2 p2 : goes fs p fs1 p1 -> goes fs1 p1 fs2 p2 -> goes fs p fs2 p2.
Proof. intros (n & H) (m & H'). exists (n + m). rewrite repeat_app, run_app, H. exact H'. Qed.
Lemma goes_step fs p fs2 p2 : goes (fst (step_proc fs p)) (snd (step_proc fs p)) fs2 p2 -> goes fs p fs2 p2.
Proof. intros (n & H). exists (S n). rewrite run_one. destruct (step_proc fs p). exact H. Qed.
Ltac one_step := apply goes_step; cbn [step_proc perform app].
Definition after (r : res unit) (rest : list act) : proc := match r with Ok _ => Running rest | Raise e => Failed e end.
Lemma goes_mkdir q : forall fs rest, goes fs (Running (Mk true q :: rest)) (fst (mkdir_p fs q)) (after (snd (mkdir_p fs q)) rest).
Proof.
  induction q as [|c q IH]; intros fs rest; rewrite mkdir_p_unfold; one_step.
  - cbn [os_mkdir fst snd app]. one_step. apply goes_refl.
  - destruct (os_mkdir fs (c :: q)) as [fs'|e] eqn:M; [apply goes_refl|].
    assert (HC : forall e, goes fs (Running ([Chk e (c :: q)] ++ rest)) (fst (if is_dir fs (c :: q) then (fs, Ok tt) else (fs, Raise e))) (after (snd (if is_dir fs (c :: q) then (fs, Ok tt) else (fs, Raise e))) rest)).
    { intros x. one_step. destruct (is_dir fs (c :: q)); apply goes_refl. }
    destruct e; try apply HC. clear HC. cbn [app fst snd]. specialize (IH fs (Mk false (c :: q) :: rest)). destruct (mkdir_p fs q) as [fs1 [u|e]]; cbn [fst snd after] in *; [|exact IH].
    eapply goes_trans; [exact IH|]. one_step. destruct (os_mkdir fs1 (c :: q)) as [fs2|e]; [apply goes_refl|].
    destruct e; try apply goes_refl; (cbn [fst snd]; one_step; destruct (is_dir fs1 (c :: q)); apply goes_refl).
Qed.
(** Getting a directory *)
Theorem C103_alone_directory : forall fs cwd p name q, path_param cwd p name = Ok q ->
  exists n, Races.run fs (launch [[DirCall q]]) (repeat 0 n) =
    (fst (creatable_directory cwd p name fs), [match snd (creatable_directory cwd p name fs) with Ok _ => Running [] | Raise e => Failed e end]).
Proof.
  intros fs cwd p name q E. unfold creatable_directory. rewrite E. destruct (goes_mkdir q fs []) as (n & H). exists n. change (launch [[DirCall q]]) with [Running [Mk true q]]. rewrite H.
  destruct (mkdir_p fs q) as [fs' [u|e]]; reflexivity.
Qed.
(** Getting an empty directory *)
Theorem C103_alone_empty : forall fs cwd p name q, path_param cwd p name = Ok q ->
  exists n, Races.run fs (launch [[EmptyCall q]]) (repeat 0 n) =
    (fst (creatable_empty_directory cwd p name false fs), [match snd (creatable_empty_directory cwd p name false fs) with Ok _ => Running [] | Raise e => Failed e end]).
Proof.
  intros fs cwd p name q E. unfold creatable_empty_directory, creatable_directory. rewrite E. change (launch [[EmptyCall q]]) with [Running [EIsDir q]].
  match goal with |- exists n, _ = (?f, [?x]) => change (goes fs (Running [EIsDir q]) f x) end.
  one_step. destruct (is_dir fs q) eqn:D; cbn [fst snd].
  - one_step. rewrite D. cbn [fst snd app]. one_step. unfold is_empty_directory. rewrite D. destruct (existsb (child_of q) fs); apply goes_refl.
  - one_step. destruct (exists_ fs q); [apply goes_refl|]. assert (H := goes_mkdir q fs []). cbn [app]. destruct (mkdir_p fs q) as [fs' [u|e]]; exact H.
Qed.
(** Getting a file and writing it *)
Theorem C103_alone_file : forall fs cwd p name q b, path_param cwd p name = Ok q ->
  exists n, Races.run fs (launch [[FileCall q b]]) (repeat 0 n) =
    match creatable_file cwd p name fs with
    | (fs1, Raise e) => (fs1, [Failed e])
    | (fs1, Ok q') => match can_write fs1 q' with Raise e => (fs1, [Failed e]) | Ok _ => (set_node (set_node fs1 q' []) q' b, [Running []]) end
    end.
Proof.
  intros fs cwd p name q b E. unfold creatable_file. rewrite E. change (launch [[FileCall q b]]) with [Running [Mk true (tl q); Open q b]]. destruct (goes_mkdir (tl q) fs [Open q b]) as (n & H).
  destruct (mkdir_p fs (tl q)) as [fs1 [u|e]]; cbn [fst snd after bind] in *; [|exists n; exact H]. exists (n + 2). rewrite repeat_app, run_app, H. cbn. destruct (can_write fs1 q) as [[]|e] eqn:C; [|reflexivity].
  cbn. assert (is_file (set_node fs1 q []) q = true) as ->; [|reflexivity]. destruct q as [|c d]; [discriminate|]. unfold is_file. rewrite look_set_same by discriminate. reflexivity.
Qed.
(** Opening a checkpoint directory and setting a checkpoint in it *)
Theorem C103_alone_checkpoint : forall fs cwd dir n fs1 u d c, wf_fs fs -> resolve cwd dir = Ok d -> open_directory fs cwd dir = (fs1, Ok u) -> place fs1 cwd dir n = Ok (c :: d) ->
  exists k, Races.run fs (launch [[SetCall (c :: d)]]) (repeat 0 k) = (fst (set_checkpoint fs1 cwd dir (Checkpoints.Name n)), [Running []]).
Proof.
  intros fs cwd dir n fs1 u d c W R O P. unfold open_directory in O. rewrite R in O. change (launch [[SetCall (c :: d)]]) with [Running [Mk true d; Utime (c :: d)]]. destruct (goes_mkdir d fs [Utime (c :: d)]) as (k & H).
  assert (M := mkdir_p_spec fs d W). rewrite O in H, M. cbn [fst snd after] in H. exists (k + 2). rewrite repeat_app, run_app, H. cbn [set_checkpoint]. rewrite P. cbn [repeat Races.run Races.step step_proc perform].
  destruct (exists_ fs1 (c :: d)) eqn:X; [reflexivity|]. cbn [app Races.step step_proc perform].
  destruct M as (_ & M). assert (W1 := made_wf _ _ _ W M). assert (look fs1 d = Some KDir) by (apply (proj1 M), below_refl). rewrite (can_write_ok fs1 c d W1); [rewrite X; reflexivity|assumption|]. left. unfold exists_ in X. destruct (look fs1 (c :: d)); [discriminate|reflexivity].
Qed.
