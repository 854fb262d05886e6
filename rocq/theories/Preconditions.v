(** * Model of preconditions.py, of the checks of WithId and Scored (misc_utils.py) and of attrutils.non_empty; theorems (C73) *)
From Verif Require Import Prelude PyStr.

Section Preconditions.
(** Python values and classes *)
Context {V C : Type}.
Variable none : V.
Variable is_none : V -> bool.
(** bool(x) *)
Variable truthy : V -> bool.
Variable isinstance : V -> C -> bool.
Variable issubclass : V -> C -> bool.
(** x == y (or x is y), as "in" uses it *)
Variable same : V -> V -> bool.
(** msg % args: formatting may itself fail *)
Variable format : str -> res str.

(** The exceptions: only their class is modelled; [fmt] is the message, None if none is given. *)
(** check_not_none, preconditions.py:14-29 *)
Definition check_not_none (x : V) : res V := if is_none x then Raise ValueError else Ok x.
(** check_arg, 32-37: an empty message counts as none *)
Definition check_arg (result : bool) (msg : option str) : res unit :=
  if result then Ok tt
  else match msg with
       | Some (c :: m) => let* _ := format (c :: m) in Raise ValueError
       | _ => Raise ValueError
       end.
(** check_state, 40-45 *)
Definition check_state (result : bool) : res unit := if result then Ok tt else Raise AssertionError.
(** check_args_are_none, 48-50; check_args_not_none, 53-55 *)
Fixpoint check_args_are_none (args : list V) (msg : option str) : res unit :=
  match args with [] => Ok tt | a :: r => let* _ := check_arg (is_none a) msg in check_args_are_none r msg end.
(** preconditions.py:53-55 *)
Fixpoint check_args_not_none (args : list V) (msg : option str) : res unit :=
  match args with [] => Ok tt | a :: r => let* _ := check_arg (negb (is_none a)) msg in check_args_not_none r msg end.
(** check_isinstance, 58-65 *)
Definition check_isinstance (item : V) (c : C) : res V := if negb (isinstance item c) then Raise TypeError else Ok item.
(** check_opt_isinstance, 68-80 *)
Definition check_opt_isinstance (item : V) (c : C) : res V := if truthy item && negb (isinstance item c) then Raise TypeError else Ok item.
(** check_all_isinstance, 83-85 *)
Fixpoint check_all_isinstance (items : list V) (c : C) : res unit :=
  match items with [] => Ok tt | x :: r => let* _ := check_isinstance x c in check_all_isinstance r c end.
(** check_issubclass, 88-93 *)
Definition check_issubclass (item : V) (c : C) : res V := if negb (issubclass item c) then Raise TypeError else Ok item.
(** check_in, 96-108 *)
Definition check_in (item : V) (legal : list V) : res unit := if negb (existsb (same item) legal) then Raise ValueError else Ok tt.
(** WithId, misc_utils.py:116-133 *)
Definition with_id (is_string : V -> bool) (id item : V) : res (V * V) :=
  let* _ := check_arg (negb (is_none item)) None in
  let* _ := check_arg (is_string id) (Some !!"Id must be a string") in
  let* _ := check_arg (truthy id) (Some !!"Doc IDs may not be empty") in
  Ok (id, item).
(** Scored, misc_utils.py:136-147: the attrs validator runs before __attrs_post_init__ *)
Definition scored (is_float : V -> bool) (item score : V) : res (V * V) :=
  if negb (is_float score) then Raise TypeError
  else
    let* _ := check_arg (negb (is_none item)) (Some !!"Item of a scored may not be None") in
    let* _ := check_arg (is_float score) None in
    Ok (item, score).
(** non_empty, attrutils.py:140-143, as attrs uses it: a validator's result is ignored *)
Definition non_empty (len : nat) : bool := (0 <? len)%nat.
(** attrs ignores what a validator returns (attrutils.py:140-143) *)
Definition validate_non_empty (len : nat) : res unit := let _ := non_empty len in Ok tt.

(** ** Theorems *)
Hypothesis none_spec : forall x, is_none x = true <-> x = none.
(** Each check passes (and returns its argument) iff its condition holds, and otherwise raises the given exception. *)
Theorem C73_not_none : forall x, (x <> none -> check_not_none x = Ok x) /\ (x = none -> check_not_none x = Raise ValueError).
Proof using none_spec.
  intros x. unfold check_not_none. destruct (is_none x) eqn:E; split; intros H; auto; [apply none_spec in E; contradiction|apply none_spec in H; congruence].
Qed.
(** check_arg: passes iff the condition holds; otherwise ValueError, unless a message was given whose formatting fails. *)
Theorem C73_arg : forall b msg, (check_arg b msg = Ok tt <-> b = true) /\
  (b = false -> (forall m, msg = Some m -> exists s, format m = Ok s) -> check_arg b msg = Raise ValueError).
Proof using.
  intros b msg. unfold check_arg. split.
  - destruct b; [split; reflexivity|]. split; [|discriminate]. destruct msg as [[|c m]|]; try discriminate. destruct (format (c :: m)); discriminate.
  - intros -> F. destruct msg as [[|c m]|]; auto. destruct (F _ eq_refl) as (s & E). now rewrite E.
Qed.
(** A message with a percent sign and no arguments need not give a ValueError. *)
Theorem C73_arg_message_refuted : forall m e, m <> [] -> format m = Raise e -> check_arg false (Some m) = Raise e.
Proof using. intros [|c m] e NE E; [congruence|]. unfold check_arg. now rewrite E. Qed.
Theorem C73_state : forall b, (b = true -> check_state b = Ok tt) /\ (b = false -> check_state b = Raise AssertionError).
Proof using. intros []; split; auto; discriminate. Qed.
Theorem C73_args_are_none : forall args msg, (check_args_are_none args msg = Ok tt <-> forall x, In x args -> x = none) /\
  ((exists x, In x args /\ x <> none) -> (forall m, msg = Some m -> exists s, format m = Ok s) -> check_args_are_none args msg = Raise ValueError).
Proof using none_spec.
  induction args as [|a args IH]; intros msg; cbn [check_args_are_none]; [split; [split; [intros _ x []|reflexivity]|intros (x & [] & _)]|].
  destruct (C73_arg (is_none a) msg) as (A1 & A2). destruct (is_none a) eqn:E.
  - rewrite (proj2 A1 eq_refl). cbn [bind]. apply none_spec in E. destruct (IH msg) as (I1 & I2). split.
    + rewrite I1. split; [intros H x [<-|J]; auto|intros H x J; apply H; simpl; auto].
    + intros (x & [<-|J] & N) F; [contradiction|]. apply I2; eauto.
  - assert (a <> none) by (intros H; apply none_spec in H; congruence). split.
    + split; [|intros H'; exfalso; apply H, H'; simpl; auto]. intros H'. destruct (check_arg false msg) as [[]|] eqn:X; [|discriminate]. discriminate (proj1 A1 eq_refl).
    + intros _ F. now rewrite (A2 eq_refl F).
Qed.
Theorem C73_args_not_none : forall args msg, (check_args_not_none args msg = Ok tt <-> ~ In none args) /\
  (In none args -> (forall m, msg = Some m -> exists s, format m = Ok s) -> check_args_not_none args msg = Raise ValueError).
Proof using none_spec.
  induction args as [|a args IH]; intros msg; cbn [check_args_not_none]; [split; [split; [intros _ []|reflexivity]|intros []]|].
  destruct (C73_arg (negb (is_none a)) msg) as (A1 & A2). destruct (is_none a) eqn:E; cbn [negb] in *.
  - apply none_spec in E. split.
    + split; [|intros H; exfalso; apply H; simpl; auto]. intros H. destruct (check_arg false msg) as [[]|] eqn:X; [|discriminate]. discriminate (proj1 A1 eq_refl).
    + intros _ F. now rewrite (A2 eq_refl F).
  - assert (a <> none) by (intros H; apply none_spec in H; congruence). rewrite (proj2 A1 eq_refl). cbn [bind]. destruct (IH msg) as (I1 & I2). split.
    + rewrite I1. simpl. split; [intros H1 [H2|H2]; [now apply H|now apply H1]|intros H1 H2; apply H1; now right].
    + intros [->|J] F; [contradiction|auto].
Qed.
Theorem C73_isinstance : forall x c, (isinstance x c = true -> check_isinstance x c = Ok x) /\ (isinstance x c = false -> check_isinstance x c = Raise TypeError).
Proof using. intros x c. unfold check_isinstance. split; intros ->; reflexivity. Qed.
Theorem C73_all_isinstance : forall items c, (check_all_isinstance items c = Ok tt <-> forall x, In x items -> isinstance x c = true) /\
  ((exists x, In x items /\ isinstance x c = false) -> check_all_isinstance items c = Raise TypeError).
Proof using.
  induction items as [|a items IH]; intros c; cbn [check_all_isinstance]; [split; [split; [intros _ x []|reflexivity]|intros (x & [] & _)]|].
  unfold check_isinstance at 1 2. destruct (isinstance a c) eqn:E; cbn [negb bind].
  - destruct (IH c) as (I1 & I2). split; [rewrite I1; split; [intros H x [<-|J]; auto|intros H x J; apply H; simpl; auto]|]. intros (x & [<-|J] & N); [congruence|eauto].
  - split; [split; [discriminate|intros H; specialize (H a (or_introl eq_refl)); congruence]|auto].
Qed.
(** check_opt_isinstance accepts None and the instances; it rejects every other value that counts as true ... *)
Theorem C73_opt_isinstance : forall x c, truthy none = false ->
  (x = none \/ isinstance x c = true -> check_opt_isinstance x c = Ok x) /\ (isinstance x c = false -> truthy x = true -> check_opt_isinstance x c = Raise TypeError).
Proof using.
  intros x c TN. unfold check_opt_isinstance. split; [intros [->|H]; [now rewrite TN|rewrite H; now rewrite Bool.andb_false_r]|]. intros -> ->. reflexivity.
Qed.
(** ... but, contrary to its documentation, accepts anything that counts as false: 0, "", [] ... *)
Theorem C73_opt_isinstance_refuted : forall x c, x <> none -> isinstance x c = false -> truthy x = false -> check_opt_isinstance x c = Ok x.
Proof using. intros x c _ _ T. unfold check_opt_isinstance. now rewrite T. Qed.
Theorem C73_issubclass : forall x c, (issubclass x c = true -> check_issubclass x c = Ok x) /\ (issubclass x c = false -> check_issubclass x c = Raise TypeError).
Proof using. intros x c. unfold check_issubclass. split; intros ->; reflexivity. Qed.
Theorem C73_in : forall x legal, ((exists y, In y legal /\ same x y = true) -> check_in x legal = Ok tt) /\ ((forall y, In y legal -> same x y = false) -> check_in x legal = Raise ValueError).
Proof using.
  intros x legal. unfold check_in. split.
  - intros H. rewrite (proj2 (existsb_exists (same x) legal) H). reflexivity.
  - intros H. destruct (existsb (same x) legal) eqn:E; [|reflexivity]. apply existsb_exists in E. destruct E as (y & J & S). rewrite (H y J) in S. discriminate.
Qed.
Lemma arg_plain b m : (forall m, ~ In 37%N m -> format m = Ok m) -> existsb (N.eqb 37) m = false -> check_arg b (Some m) = if b then Ok tt else Raise ValueError.
Proof using. intros F H0. assert (~ In 37%N m) as H by (intros J; rewrite (proj2 (existsb_exists (N.eqb 37) m)) in H0; [discriminate|exists 37%N; split; [assumption|reflexivity]]). clear H0. unfold check_arg. destruct b; [reflexivity|]. destruct m; [reflexivity|]. now rewrite F. Qed.
(** A WithId or Scored object can be built iff its fields are as documented (the messages are plain text). *)
Theorem C73_with_id : forall is_string id item, (forall m, ~ In 37%N m -> format m = Ok m) ->
  (with_id is_string id item = Ok (id, item) <-> item <> none /\ is_string id = true /\ truthy id = true) /\
  (with_id is_string id item = Ok (id, item) \/ with_id is_string id item = Raise ValueError).
Proof using none_spec.
  intros is_string id item F. unfold with_id. rewrite !arg_plain by (exact F || reflexivity). unfold check_arg. destruct (is_none item) eqn:E; cbn [negb bind].
  - apply none_spec in E. split; [split; [discriminate|intros (H & _); contradiction]|now right].
  - assert (item <> none) by (intros H; apply none_spec in H; congruence). destruct (is_string id), (truthy id); cbn [bind]; (split; [split; [try discriminate; auto|intros (_ & A & B); congruence || auto]|auto]).
Qed.
Theorem C73_scored : forall is_float item score, (forall m, ~ In 37%N m -> format m = Ok m) ->
  (scored is_float item score = Ok (item, score) <-> item <> none /\ is_float score = true) /\
  (is_float score = false -> scored is_float item score = Raise TypeError) /\ (is_float score = true -> item = none -> scored is_float item score = Raise ValueError).
Proof using none_spec.
  intros is_float item score F. unfold scored. rewrite !arg_plain by (exact F || reflexivity). unfold check_arg. destruct (is_float score); cbn [negb bind].
  - destruct (is_none item) eqn:E; cbn [negb bind].
    + apply none_spec in E. split; [split; [discriminate|intros (H & _); contradiction]|split; [discriminate|reflexivity]].
    + assert (item <> none) by (intros H; apply none_spec in H; congruence). repeat split; auto; try discriminate. contradiction.
  - repeat split; auto; try discriminate. intros (_ & X). discriminate.
Qed.
(** The attrs validator non_empty never rejects anything. *)
Theorem C73_non_empty_refuted : validate_non_empty 0 = Ok tt /\ non_empty 0 = false.
Proof using. split; reflexivity. Qed.
End Preconditions.

(** Values: None, integers and strings; classes: 0 for int, 1 for str *)
Inductive ex_value := ENone | EInt (z : Z) | EStr (s : str).
Example C73_witness : let is_none v := match v with ENone => true | _ => false end in let truthy v := match v with ENone => false | EInt z => negb (z =? 0)%Z | EStr s => match s with [] => false | _ => true end end in
  let isinstance v c := match v, c with EInt _, 0%nat => true | EStr _, 1%nat => true | _, _ => false end in
  (forall x, is_none x = true <-> x = ENone) /\ check_opt_isinstance truthy isinstance (EInt 0) 1%nat = Ok (EInt 0) /\ check_opt_isinstance truthy isinstance (EInt 5) 1%nat = Raise TypeError /\
  check_all_isinstance isinstance [EInt 1; EStr []] 0%nat = Raise TypeError /\ check_arg (fun m => if existsb (N.eqb 37) m then Raise TypeError else Ok m) false (Some !!"50% s") = Raise TypeError.
Proof. cbv zeta. split; [intros []; split; congruence|]. repeat split. Qed.
Print Assumptions C73_arg.
Print Assumptions C73_args_are_none.
Print Assumptions C73_all_isinstance.
Print Assumptions C73_opt_isinstance.
Print Assumptions C73_with_id.
