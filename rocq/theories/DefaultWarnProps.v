(** * C100: defaults given to optional getters are reported, and what this does to the logging of the program *)
From Verif Require Import Prelude PyStr Order Range Params ParamsSpec ParamsProofs ParamsGet ParamsGetProps Fs FsProps Entry EntryProps DefaultWarn.

(** How many warnings a call gives: none without a default; with one, one, except that optional_boolean and optional_arbitrary_list (with a list that is not empty)
    give two and optional_boolean_with_default three. *)
Definition one_if (default : pv) (n : nat) : nat := if is_none default then 0 else n.
Definition warnings_of (k : call) : nat :=
  match k with
  | OptString _ d | OptInteger d | OptPositive d | OptFloating _ d | GetOptional _ d => one_if d 1
  | OptFloat _ => 0
  | OptBoolean d => one_if d 2
  | OptBooleanDefault d => one_if d 3
  | OptList None => 0
  | OptList (Some []) => 1
  | OptList (Some (_ :: _)) => 2
  end.
Definition warnings_in (h : list (pv * str * call)) : nat := list_sum (map (fun x => warnings_of (snd x)) h).
Definition with_default (k : call) : bool := negb (warnings_of k =? 0).

(** n warnings. *)
Fixpoint warn_times (n : nat) (c : console) : console := match n with 0 => c | S n => warn_times n (warn c) end.
Lemma warn_times_add n m c : warn_times (n + m) c = warn_times m (warn_times n c).
Proof. revert c. induction n; intros c; simpl; auto. Qed.
Lemma warn_for_times d c n : warn_times n (warn_for d c) = warn_times (one_if d 1 + n) c.
Proof. unfold warn_for, one_if. destruct (is_none d); reflexivity. Qed.
Lemma run_call_console ft p name k c : fst (run_call ft p name k c) = warn_times (warnings_of k) c.
Proof.
  destruct k; simpl; unfold optional_boolean_with_default_c, optional_boolean_c, optional_arbitrary_list_c, get_optional_c, warn_for, one_if; simpl;
    try (destruct (is_none default); reflexivity); try reflexivity.
  destruct default as [[|x l]|]; reflexivity.
Qed.
Lemma run_calls_console ft h c : run_calls ft h c = warn_times (warnings_in h) c.
Proof.
  revert c. induction h as [|[[p name] k] h IH]; intros c; [reflexivity|]. simpl. unfold warnings_in. simpl. rewrite warn_times_add, <- (run_call_console ft p name k c). apply IH.
Qed.
Lemma basic_twice lg : basic_config (basic_config lg) = basic_config lg.
Proof. unfold basic_config. destruct lg as [r [|h hs]]; reflexivity. Qed.
Lemma warn_times_spec n c : warn_times (S n) c = MkConsole (basic_config (c_log c)) (c_written c + S n * printed (basic_config (c_log c)) 30).
Proof.
  revert c. induction n as [|n IH]; intros c.
  - simpl. unfold warn. now rewrite Nat.add_0_r.
  - change (warn_times (S (S n)) c) with (warn_times (S n) (warn c)). rewrite IH. unfold warn. cbn [c_log c_written]. rewrite basic_twice. f_equal. lia.
Qed.

(** C100: logging has no influence on what the getters return; the deprecated getters return what the others do. *)
Theorem C100_results : forall ft p name c, wf_params p ->
  (forall v d, snd (run_call ft p name (OptString v d) c) = optional_string p name v d) /\
  (forall d, snd (run_call ft p name (OptInteger d) c) = optional_integer p name d) /\
  (forall d, snd (run_call ft p name (OptPositive d) c) = optional_positive_integer p name d) /\
  (forall v d, snd (run_call ft p name (OptFloating v d) c) = optional_floating_point ft p name v d) /\
  (forall v, snd (run_call ft p name (OptFloat v) c) = optional_floating_point ft p name v PNone) /\
  (forall d, snd (run_call ft p name (OptBoolean d) c) = optional_boolean p name d) /\
  (forall d, snd (run_call ft p name (OptList d) c) = optional_arbitrary_list p name d) /\
  (forall d, optional_table p name (Ok d) acc_bool (snd (run_call ft p name (OptBooleanDefault d) c))).
Proof.
  intros ft p name c W. repeat split.
  1: intros [[|x l]|]; reflexivity.
  all: destruct (C46_optional_getters ft p name W) as (_ & _ & B & _); destruct (B d) as (B1 & B2 & B3); simpl; unfold optional_boolean_with_default_c, optional_boolean_c, get_optional_c; simpl;
    change (get_optional p name is_bool d) with (optional_boolean p name d).
  - intros v S N A. rewrite (B1 v S N A). simpl. destruct A as [b ->]. reflexivity.
  - intros v S N A. destruct (B2 v S N A) as (e & -> & K). exists e. auto.
  - intros A. rewrite (B3 A). simpl. destruct (is_none d) eqn:E; [apply is_none_eq in E; now subst|reflexivity].
Qed.
Print Assumptions C100_results.

(** C100: after any history of calls: if none had a default, nothing has happened to the logging; otherwise the root logger has a handler (one for all levels is added if
    there was none), and each warning was written once by each handler that accepts warnings. *)
Theorem C100_history : forall ft h lg n,
  (warnings_in h = 0 -> run_calls ft h (MkConsole lg n) = MkConsole lg n) /\
  (warnings_in h <> 0 -> run_calls ft h (MkConsole lg n) = MkConsole (basic_config lg) (n + warnings_in h * printed (basic_config lg) 30)) /\
  (warnings_in h = 0 <-> forall p name k, In (p, name, k) h -> with_default k = false).
Proof.
  intros ft h lg n. rewrite run_calls_console. split; [|split].
  - intros ->. reflexivity.
  - intros N. destruct (warnings_in h) as [|m]; [congruence|]. apply warn_times_spec.
  - unfold warnings_in, with_default. induction h as [|[[p name] k] h IH]; simpl; [split; [intros _ ? ? ? []|reflexivity]|]. split.
    + intros E p' name' k' [Q|Q]; [injection Q as <- <- <-; apply negb_false_iff, Nat.eqb_eq; lia|]. apply (proj1 IH) with p' name'; [lia|exact Q].
    + intros H. pose proof (H _ _ _ (or_introl eq_refl)) as H0. apply negb_false_iff, Nat.eqb_eq in H0. rewrite H0. simpl. apply IH. intros p' n' k' Q. exact (H p' n' k' (or_intror Q)).
Qed.
Print Assumptions C100_history.

(** C100: once logging is configured, such calls do not change what is printed of other messages, and each warning is printed once, if the level asked for admits warnings. *)
Theorem C100_after_configuring : forall ft file_config cwd fs p r s l h lg, wf_params p -> Absent p !!"logging.config_file" -> asked_level p s -> level_of s l ->
  configure_logging_from file_config cwd fs p false (MkLogger r []) = (lg, Ok tt) ->
  c_log (run_calls ft h (MkConsole lg 0)) = lg /\ c_written (run_calls ft h (MkConsole lg 0)) = if (l <=? 30)%Z then warnings_in h else 0.
Proof.
  intros ft fc cwd fs p r s l h lg W A AL LV E. destruct (C74_levels fc cwd fs p (MkLogger r []) W (or_introl A)) as (T & _). rewrite (T s l AL LV) in E. injection E as <-.
  destruct (C100_history ft h (MkLogger l [l]) 0) as (Q & N & _). destruct (warnings_in h) as [|m] eqn:M.
  - simpl in *. rewrite (Q eq_refl). simpl. split; [reflexivity|]. now destruct (l <=? 30)%Z.
  - simpl app. rewrite (N ltac:(discriminate)). unfold basic_config. cbn [handlers c_log c_written]. split; [reflexivity|]. unfold printed. cbn [handlers root_level filter]. destruct (l <=? 30)%Z; simpl; lia.
Qed.
Print Assumptions C100_after_configuring.

(** C100 refuted: configure_logging_from makes every message be printed exactly once (C74).  After any call of an optional getter with a default, in a program without
    handlers so far, every message is printed twice. *)
Theorem C100_before_configuring_refuted : forall ft file_config cwd fs p r s l h, wf_params p -> Absent p !!"logging.config_file" -> asked_level p s -> level_of s l ->
  (exists q name k, In (q, name, k) h /\ with_default k = true) ->
  exists lg, configure_logging_from file_config cwd fs p false (c_log (run_calls ft h (MkConsole (MkLogger r []) 0))) = (lg, Ok tt) /\
    forall m, ((l <= m)%Z -> printed lg m = 2) /\ ((m < l)%Z -> printed lg m = 0).
Proof.
  intros ft fc cwd fs p r s l h W A AL LV (q & name & k & I & D).
  destruct (C100_history ft h (MkLogger r []) 0) as (_ & N & Z). rewrite N by (intros E; apply Z with q name k in E; [congruence|assumption]).
  unfold basic_config. cbn [handlers c_log root_level]. destruct (C74_levels fc cwd fs p (MkLogger r [0%Z]) W (or_introl A)) as (T & _).
  exists (MkLogger l ([0%Z] ++ [l])). split; [exact (T s l AL LV)|]. intros m. assert (0 <= l)%Z by (destruct LV; discriminate).
  unfold printed. cbn [root_level handlers app filter]. destruct (Z.leb_spec l m) as [L|L]; [|split; lia]. destruct (Z.leb_spec 0 m); [|lia]. split; [reflexivity|lia].
Qed.
Print Assumptions C100_before_configuring_refuted.

(** The hypotheses are met: an empty configuration; optional_boolean("x", default=False) before configuring. *)
Definition none_given : pv := PParams [] [].
Example C100_witness : wf_params none_given /\ Absent none_given !!"logging.config_file" /\ asked_level none_given !!"INFO" /\ level_of !!"INFO" 20 /\
  let h := [(none_given, !!"x", OptBoolean (PBool false)); (none_given, !!"y", OptInteger PNone)] in
  warnings_in h = 2 /\ run_calls (fun _ => true) h (MkConsole (MkLogger 30 []) 0) = MkConsole (MkLogger 30 [0%Z]) 2 /\
  (exists q name k, In (q, name, k) h /\ with_default k = true) /\
  run_calls (fun _ => true) h (MkConsole (MkLogger 20 [20%Z]) 0) = MkConsole (MkLogger 20 [20%Z]) 2.
Proof.
  assert (W : wf_params none_given) by (repeat split; constructor).
  assert (A : forall n, Absent none_given n). { intros n. apply (absent_walk _ _ (proj1 W)). simpl. destruct (py_split dot n) eqn:E; [|reflexivity]. now apply py_split_nonnil in E. }
  split; [exact W|]. split; [apply A|]. split; [apply al_default; left; apply A|]. split; [constructor|]. repeat split.
  exists none_given, !!"x", (OptBoolean (PBool false)). split; [left; reflexivity|reflexivity].
Qed.
