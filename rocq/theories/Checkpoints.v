(** * Model of checkpoints.py and its theorems (C72) *)
From Verif Require Import Prelude PyStr TextLib.

(** What Path(directory, name) denotes, for a relative path without "..": pathlib splits at slashes and drops empty and "." components.
    Absolute names and names with ".." lead outside the directory and are not modelled further. *)
Inductive target := Self | Entry (c : str) | Nested (c : str) | Outside.
(** the path separator used by pathlib's "/" in checkpoints.py:53-59 *)
Definition SLASH : N := 47%N.
(** how pathlib splits a name (checkpoints.py:53-59, self._directory / name): empty and "." components vanish *)
Definition components (name : str) : list str := filter (fun c => negb (str_eqb c []) && negb (str_eqb c !!".")) (py_split SLASH name).
(** checkpoints.py:53-59: what self._directory / name denotes *)
Definition resolve (name : str) : target :=
  if match name with c :: _ => (c =? SLASH)%N | [] => false end then Outside
  else if existsb (str_eqb !!"..") (components name) then Outside
  else match components name with [] => Self | [c] => Entry c | c :: _ => Nested c end.

Section Checkpoints.
(** Errors of the operating system for a file name (too long, not encodable, ...), for touch and for is_file *)
Variable touch_error stat_error : str -> option exn.
(** What happens for names outside the directory *)
Variable outside_set : str -> res unit.
Variable outside_has : str -> res bool.

(** The files in the directory (there are no subdirectories: only touch creates anything in it). *)
Notation dir := (list str) (only parsing).
(** Arguments: a string or something else *)
Inductive arg := Name (s : str) | NotStr.
(** set, checkpoints.py:53-55 *)
Definition ck_set (d : dir) (a : arg) : dir * res unit :=
  match a with
  | NotStr => (d, Raise TypeError)
  | Name n =>
      match resolve n with
      | Self => (d, Ok tt)
      | Entry c => match touch_error c with Some e => (d, Raise e) | None => ((if existsb (str_eqb c) d then d else d ++ [c]), Ok tt) end
      | Nested c => (d, Raise (if existsb (str_eqb c) d then NotADirectoryError else FileNotFoundError))
      | Outside => (d, outside_set n)
      end
  end.
(** __contains__, 57-59 *)
Definition ck_has (d : dir) (a : arg) : res bool :=
  match a with
  | NotStr => Raise TypeError
  | Name n =>
      match resolve n with
      | Self => Ok false
      | Entry c => match stat_error c with Some e => Raise e | None => Ok (existsb (str_eqb c) d) end
      | Nested _ => Ok false
      | Outside => outside_has n
      end
  end.
(** reset_all, 61-63: rmtree deletes the files one by one, in the order [listing] in which they are listed, and then the directory, which mkdir then creates again.
    The states after each step; None: the directory does not exist. *)
Fixpoint deletions (listing : list str) : list (list str) := match listing with [] => [] | _ :: r => r :: deletions r end.
(** checkpoints.py:61-63: the directory's states during reset_all (None: absent) *)
Definition reset_steps (listing : list str) : list (option dir) := Some listing :: map Some (deletions listing) ++ [None; Some []].
(** checkpoints.py:61-63, run to completion *)
Definition ck_reset (listing : list str) : dir := match last (reset_steps listing) None with Some d => d | None => [] end.
(** from_directory, 28-39: mkdir(parents=True, exist_ok=True) *)
Definition ck_open (d : option dir) : dir := match d with Some l => l | None => [] end.

(** What can happen to a checkpoint directory.  In a reset, [order] says in which order the directory is listed.  A process may die in a reset, after
    [k] steps of it; the next one opens the directory again. *)
Inductive event := Set_ (a : arg) | Reset (order : list str -> list str) | CrashInReset (order : list str -> list str) (k : nat) | Restart.
(** one event: a call of checkpoints.py:53-55 or 61-63, completed or cut short *)
Definition step (d : dir) (e : event) : dir :=
  match e with
  | Set_ a => fst (ck_set d a)
  | Reset order => ck_reset (order d)
  | CrashInReset order k => ck_open (nth k (reset_steps (order d)) (Some []))
  | Restart => ck_open (Some d)
  end.
(** a history of calls of checkpoints.py:53-63 *)
Definition run (d : dir) (h : list event) : dir := fold_left step h d.

(** ** Theorems *)
Definition is_order (order : list str -> list str) : Prop := forall l, Permutation (order l) l.
(** the order in which rmtree (checkpoints.py:62) lists a directory is a permutation of its content *)
Definition orders_ok (h : list event) : Prop := forall e, In e h -> match e with Reset o | CrashInReset o _ => is_order o | _ => True end.
(** [n] was successfully set in [h] after the last reset: the event is there, and no reset (for [crashes = true], not even a part of one) follows. *)
Definition set_since_reset (crashes : bool) (h : list event) (c : str) : Prop :=
  exists h1 m h2, h = h1 ++ Set_ (Name m) :: h2 /\ resolve m = Entry c /\ touch_error c = None /\
    forall e, In e h2 -> match e with Reset _ => False | CrashInReset _ _ => crashes = false | _ => True end.

Lemma last_app2 {A} (l : list A) x y d : last (l ++ [x; y]) d = y.
Proof using. induction l as [|a l IH]; [reflexivity|]. simpl. destruct (l ++ [x; y]) eqn:E; [destruct l; discriminate|]. exact IH. Qed.
Lemma reset_empty listing : ck_reset listing = [].
Proof using. unfold ck_reset, reset_steps. rewrite app_comm_cons, last_app2. reflexivity. Qed.
Lemma deletions_incl listing : forall l, In l (deletions listing) -> incl l listing.
Proof using. induction listing as [|x r IH]; intros l H; [destruct H|]. destruct H as [<-|H]; intros y Hy; [now right|right; now apply (IH l H)]. Qed.
Lemma steps_incl listing k : incl (ck_open (nth k (reset_steps listing) (Some []))) listing.
Proof using.
  unfold reset_steps. match goal with |- context [nth k ?l (Some [])] => set (steps := l) end. assert (D := nth_in_or_default k steps (Some [])). destruct D as [H|E]; [|rewrite E; intros x []].
  set (x0 := nth k steps (Some [])) in *. clearbody x0. unfold steps in H. destruct H as [<-|H]; [intros x Hx; exact Hx|]. apply in_app_or in H. destruct H as [H|[<-|[<-|[]]]]; try (intros x []).
  apply in_map_iff in H. destruct H as (l & <- & H). simpl. now apply deletions_incl.
Qed.
Lemma set_in d a c : In c (fst (ck_set d a)) <-> In c d \/ exists m, a = Name m /\ resolve m = Entry c /\ touch_error c = None.
Proof using.
  destruct a as [m|]; simpl; [|split; [auto|intros [H|(x & E & _)]; [assumption|discriminate]]].
  destruct (resolve m) as [|x|x|] eqn:R; simpl; try (split; [auto|intros [H|(y & E & E' & _)]; [assumption|injection E as <-; congruence]]).
  destruct (touch_error x) as [e|] eqn:T; simpl.
  - split; [auto|]. intros [H|(y & E & E' & T')]; [assumption|]. injection E as <-. rewrite R in E'. injection E' as <-. congruence.
  - destruct (existsb (str_eqb x) d) eqn:X.
    + apply existsb_str in X. split; [auto|]. intros [H|(y & E & E' & T')]; [assumption|]. injection E as <-. rewrite R in E'. injection E' as <-. assumption.
    + rewrite in_app_iff. split; [intros [H|[<-|[]]]; [auto|right; eauto]|]. intros [H|(y & E & E' & T')]; [auto|]. injection E as <-. rewrite R in E'. injection E' as <-. simpl. auto.
Qed.
(** Without crashes, from an empty directory, a checkpoint is there iff it was set since the last reset. *)
Lemma run_spec : forall h c, orders_ok h -> (In c (run [] h) -> set_since_reset false h c) /\ (set_since_reset true h c -> In c (run [] h)).
Proof using.
  intros h c. induction h as [|e h IH] using rev_ind; intros OK; [split; [intros []|intros (h1 & m & h2 & E & _); destruct h1; discriminate]|].
  destruct IH as (I1 & I2); [intros x Hx; apply OK; apply in_or_app; auto|]. unfold run in *. rewrite fold_left_app. cbn [fold_left].
  assert (Oe : match e with Reset o | CrashInReset o _ => is_order o | _ => True end) by (apply OK; apply in_or_app; simpl; auto).
  assert (Keep : forall b, set_since_reset b h c -> (match e with Reset _ => False | CrashInReset _ _ => b = false | _ => True end) -> set_since_reset b (h ++ [e]) c).
  { intros b (h1 & m & h2 & -> & R & T & H) He. exists h1, m, (h2 ++ [e]). rewrite <- app_assoc. split; [reflexivity|]. split; [assumption|]. split; [assumption|]. intros x Hx. apply in_app_or in Hx. destruct Hx as [Hx|[<-|[]]]; [now apply H|assumption]. }
  assert (Drop : forall b, set_since_reset b (h ++ [e]) c -> (exists m, e = Set_ (Name m) /\ resolve m = Entry c /\ touch_error c = None) \/ (set_since_reset b h c /\ match e with Reset _ => False | CrashInReset _ _ => b = false | _ => True end)).
  { intros b (h1 & m & h2 & E & R & T & H). destruct h2 as [|x h2] using rev_ind.
    - apply app_inj_tail in E. destruct E as (-> & ->). left; eauto.
    - clear IHh2. rewrite app_comm_cons, app_assoc in E. apply app_inj_tail in E. destruct E as (-> & ->). right. split; [exists h1, m, h2; split; [reflexivity|split; [assumption|split; [assumption|intros y Hy; apply H; apply in_or_app; auto]]]|]. apply H. apply in_or_app. simpl. auto. }
  split.
  - intros J. destruct e as [a|o|o k|]; cbn [step] in J.
    + apply set_in in J. destruct J as [J|(m & -> & R & T)]; [apply Keep; auto|]. exists h, m, []. split; [reflexivity|]. repeat split; auto. intros x [].
    + rewrite reset_empty in J. destruct J.
    + apply steps_incl in J. apply (Permutation_in _ (Oe _)) in J. apply Keep; auto.
    + apply Keep; auto.
  - intros J. apply Drop in J. destruct J as [(m & -> & R & T)|(J & He)]; [cbn [step]; apply set_in; right; eauto|].
    destruct e as [a|o|o k|]; cbn [step]; [apply set_in; auto|destruct He|discriminate|auto].
Qed.
Theorem C72_history : forall h n c, orders_ok h -> (forall o k, ~ In (CrashInReset o k) h) -> resolve n = Entry c -> stat_error c = None ->
  exists b, ck_has (run [] h) (Name n) = Ok b /\ (b = true <-> set_since_reset true h c).
Proof using.
  intros h n c OK NC R T. simpl. rewrite R, T. eexists. split; [reflexivity|]. rewrite existsb_str. destruct (run_spec h c OK) as (A & B). split; [|exact B]. intros H. destruct (A H) as (h1 & m & h2 & -> & R' & T' & H').
  exists h1, m, h2. repeat split; auto. intros e He. specialize (H' e He). destruct e as [| |o k|]; auto. exfalso. apply (NC o k). apply in_or_app. simpl. auto.
Qed.
(** With crashes: what is there was set after the last complete reset; what was set after the last reset or beginning of one is there. *)
Theorem C72_crash : forall h n c, orders_ok h -> resolve n = Entry c -> stat_error c = None ->
  exists b, ck_has (run [] h) (Name n) = Ok b /\ (b = true -> set_since_reset false h c) /\ (set_since_reset true h c -> b = true).
Proof using.
  intros h n c OK R T. simpl. rewrite R, T. eexists. split; [reflexivity|]. rewrite existsb_str. apply run_spec. assumption.
Qed.
(** Simple names are legal checkpoint names, each a checkpoint of its own. *)
Theorem C72_plain_names : forall n, n <> [] -> ~ In SLASH n -> n <> !!"." -> n <> !!".." -> resolve n = Entry n.
Proof using.
  intros n NE NS N1 N2. unfold resolve, components. rewrite py_split_no by assumption. destruct n as [|c n]; [congruence|]. destruct (N.eqb_spec c SLASH) as [->|D]; [exfalso; apply NS; simpl; auto|].
  cbn [filter]. destruct (str_eqb (c :: n) []) eqn:E0; [apply str_eqb_eq in E0; discriminate|]. destruct (str_eqb (c :: n) !!".") eqn:E1; [apply str_eqb_eq in E1; contradiction|]. cbn [negb andb existsb].
  destruct (str_eqb !!".." (c :: n)) eqn:E2; [apply str_eqb_eq in E2; congruence|]. reflexivity.
Qed.
(** Which names stand for which checkpoint: relative ones whose only piece between slashes is the checkpoint, up to empty and "." pieces. *)
Theorem C72_names : forall n c, resolve n = Entry c <->
  (forall r, n <> SLASH :: r) /\ c <> [] /\ c <> !!"." /\ c <> !!".." /\ exists l1 l2, py_split SLASH n = l1 ++ c :: l2 /\ forall x, In x (l1 ++ l2) -> x = [] \/ x = !!".".
Proof using.
  clear touch_error stat_error outside_set outside_has. intros n c. unfold resolve, components. set (keep := fun c : str => negb (str_eqb c []) && negb (str_eqb c !!".")).
  assert (K : forall x, keep x = false <-> x = [] \/ x = !!".") by (intros x; unfold keep; rewrite andb_false_iff, !negb_false_iff, !str_eqb_eq; tauto).
  assert (K1 : forall x, keep x = true <-> x <> [] /\ x <> !!".") by (intros x; destruct (keep x) eqn:E; [|apply K in E; split; [discriminate|tauto]]; split; [intros _|auto]; split; intros ->; discriminate E).
  assert (Nil : forall l, filter keep l = [] <-> forall x, In x l -> x = [] \/ x = !!".").
  { induction l as [|x l IH]; [split; [intros _ x []|auto]|]. cbn [filter]. destruct (keep x) eqn:E.
    - split; [discriminate|]. intros H. specialize (H x (or_introl eq_refl)). apply K in H. congruence.
    - rewrite IH. apply K in E. split; [intros H y [<-|I]; auto|intros H y I; apply H; now right]. }
  assert (One : forall l, filter keep l = [c] <-> c <> [] /\ c <> !!"." /\ exists l1 l2, l = l1 ++ c :: l2 /\ forall x, In x (l1 ++ l2) -> x = [] \/ x = !!".").
  { induction l as [|x l IH]; [split; [discriminate|]; intros (_ & _ & l1 & l2 & E & _); destruct l1; discriminate|]. cbn [filter]. destruct (keep x) eqn:E.
    - split.
      + intros H. injection H as -> H. apply K1 in E. split; [tauto|]. split; [tauto|]. exists [], l. split; [reflexivity|]. now apply Nil.
      + intros (_ & _ & l1 & l2 & H & A). destruct l1 as [|y l1]; injection H as -> ->; [now rewrite (proj2 (Nil l2) A)|]. specialize (A y (or_introl eq_refl)). apply K in A. congruence.
    - rewrite IH. apply K in E. split.
      + intros (N1 & N2 & l1 & l2 & -> & A). split; [assumption|]. split; [assumption|]. exists (x :: l1), l2. split; [reflexivity|]. intros y [<-|I]; auto.
      + intros (N1 & N2 & l1 & l2 & H & A). split; [assumption|]. split; [assumption|]. destruct l1 as [|y l1]; injection H as -> ->; [tauto|]. exists l1, l2. split; [reflexivity|]. intros z I. apply A. now right. }
  assert (Abs : (if match n with c0 :: _ => (c0 =? SLASH)%N | [] => false end then true else false) = true <-> exists r, n = SLASH :: r).
  { destruct n as [|a r]; [split; [discriminate|intros (r & E); discriminate]|]. destruct (N.eqb_spec a SLASH) as [->|D]; split; eauto; [discriminate|]. intros (r' & E). congruence. }
  destruct (match n with c0 :: _ => (c0 =? SLASH)%N | [] => false end).
  { split; [discriminate|]. intros (H & _). destruct (proj1 Abs eq_refl) as (r & E). now destruct (H r). }
  assert (Rel : forall r, n <> SLASH :: r) by (intros r E; assert (false = true) by (apply Abs; eauto); discriminate). clear Abs.
  specialize (One (py_split SLASH n)). destruct (existsb (str_eqb !!"..") (filter keep (py_split SLASH n))) eqn:X.
  - split; [discriminate|]. intros (_ & N1 & N2 & N3 & H). assert (filter keep (py_split SLASH n) = [c]) as Y by (apply One; auto). rewrite Y in X. cbn [existsb] in X. rewrite orb_false_r in X. apply str_eqb_eq in X. congruence.
  - split.
    + intros H. assert (filter keep (py_split SLASH n) = [c]) as Y by (destruct (filter keep (py_split SLASH n)) as [|a [|b l]]; congruence). destruct (proj1 One Y) as (N1 & N2 & H'). repeat (split; [assumption|]). split; [|assumption].
      rewrite Y in X. cbn [existsb] in X. intros ->. discriminate X.
    + intros (_ & N1 & N2 & N3 & H). assert (filter keep (py_split SLASH n) = [c]) as -> by (apply One; auto). reflexivity.
Qed.
(** Setting a checkpoint raises nothing, and afterwards it is there, for simple names the operating system accepts; all other checkpoints are as before. *)
Theorem C72_set : forall d n m, n <> [] -> ~ In SLASH n -> n <> !!"." -> n <> !!".." -> touch_error n = None -> stat_error n = None ->
  m <> [] -> ~ In SLASH m -> m <> !!"." -> m <> !!".." -> m <> n ->
  let (d', r) := ck_set d (Name n) in r = Ok tt /\ ck_has d' (Name n) = Ok true /\ ck_has d' (Name m) = ck_has d (Name m).
Proof using.
  intros d n m A1 A2 A3 A4 T S B1 B2 B3 B4 NE. assert (Rn := C72_plain_names n A1 A2 A3 A4). assert (Rm := C72_plain_names m B1 B2 B3 B4). assert (I := set_in d (Name n) n).
  destruct (ck_set d (Name n)) as [d' r] eqn:E. simpl fst in I. split; [|split].
  - unfold ck_set in E. rewrite Rn, T in E. congruence.
  - simpl. rewrite Rn, S. f_equal. apply existsb_str. apply I. right. eauto.
  - simpl. rewrite Rm. destruct (stat_error m); [reflexivity|]. f_equal. assert (I2 := set_in d (Name n) m). rewrite E in I2. simpl in I2.
    destruct (existsb (str_eqb m) d) eqn:X; [apply existsb_str in X; apply existsb_str; apply I2; auto|]. apply existsb_str_false in X. apply existsb_str_false. intros H. apply I2 in H. destruct H as [H|(y & Ey & Ry & _)]; [contradiction|]. injection Ey as <-. rewrite Rn in Ry. congruence.
Qed.
(** Not every name is: the empty name can be "set" without effect or error, and different strings can be the same checkpoint. *)
Theorem C72_names_refuted : forall d, ck_set d (Name []) = (d, Ok tt) /\ ck_has d (Name []) = Ok false /\
  ck_set d (Name !!"./a") = ck_set d (Name !!"a") /\ ck_set d (Name !!"a/") = ck_set d (Name !!"a").
Proof using. intros d. repeat split. Qed.
End Checkpoints.

Example C72_witness : let none := fun _ : str => @None exn in let run := run none (fun _ => Ok tt) in let has := ck_has none (fun _ => Ok false) in
  let h1 := [Set_ (Name !!"a"); Set_ (Name !!"b"); Restart; Set_ (Name !!"a")] in let h2 := h1 ++ [CrashInReset (@rev str) 1; Set_ (Name !!"c")] in
  has (run [] h1) (Name !!"a") = Ok true /\ has (run [] h2) (Name !!"b") = Ok false /\ has (run [] h2) (Name !!"a") = Ok true /\ has (run [] (h2 ++ [Reset (fun l => l)])) (Name !!"a") = Ok false /\
  orders_ok h2 /\ ck_set none (fun _ => Ok tt) [!!"a"] (Name !!"a/b") = ([!!"a"], Raise NotADirectoryError).
Proof.
  cbv zeta. repeat split. intros e. simpl. intros [<-|[<-|[<-|[<-|[<-|[<-|[]]]]]]]; try exact Logic.I. intros l. apply Permutation_sym, Permutation_rev.
Qed.
Print Assumptions C72_names.
Print Assumptions C72_history.
Print Assumptions C72_crash.
Print Assumptions C72_set.
