(** * Property C136: pathify *)
From Verif Require Import Prelude PyStr SortLib TextLib Params ParamsProofs Fs FsProofs PathLists PathListsProps OsPath OsPathProofs DirFsProps Pathify.

(** ** Specification *)
(** How many slashes a text begins with, as far as POSIX tells the cases apart: none; exactly two; one, or three and more. *)
Inductive rooted : str -> N -> Prop :=
| ro_none s : (forall r, s <> slash :: r) -> rooted s 0
| ro_one s : (forall r, s <> slash :: r) -> rooted (slash :: s) 1
| ro_two s : (forall r, s <> slash :: r) -> rooted (slash :: slash :: s) 2
| ro_more s : rooted (slash :: slash :: slash :: s) 1.
(** The two texts are the same path: they begin alike and have the same components (without empty ones and "."). *)
Definition same_path (s s' : str) : Prop := exists n cs, rooted s n /\ rooted s' n /\ spells s cs /\ spells s' cs.
(** A Path object: a root, and components that are neither empty nor "." and have no slash. *)
Definition valid_path (p : ppath) : Prop := (p_root p <= 2)%N /\ forall c, In c (p_parts p) -> c <> [] /\ c <> !!"." /\ ~ In slash c.

Lemma root_spec s n : rooted s n <-> root_of s = n.
Proof.
  split.
  - intros H. inversion H; subst; unfold root_of; rewrite ?N.eqb_refl.
    + destruct s as [|a r]; [reflexivity|]. destruct (N.eqb_spec a slash) as [->|]; [|reflexivity]. now destruct (H0 r).
    + destruct s0 as [|a r]; [reflexivity|]. destruct (N.eqb_spec a slash) as [->|]; [|reflexivity]. now destruct (H0 r).
    + destruct s0 as [|a r]; [reflexivity|]. destruct (N.eqb_spec a slash) as [->|]; [|reflexivity]. now destruct (H0 r).
    + reflexivity.
  - intros <-. unfold root_of. destruct s as [|a r]; [apply ro_none; discriminate|]. destruct (N.eqb_spec a slash) as [->|Na]; [|apply ro_none; congruence].
    destruct r as [|b r]; [apply ro_one; discriminate|]. destruct (N.eqb_spec b slash) as [->|Nb]; [|apply ro_one; congruence].
    destruct r as [|c r]; [apply ro_two; discriminate|]. destruct (N.eqb_spec c slash) as [->|Nc]; [apply ro_more|apply ro_two; congruence].
Qed.
Lemma path_ext p p' : p_root p = p_root p' -> p_parts p = p_parts p' -> p = p'.
Proof. destruct p, p'. simpl. congruence. Qed.
Lemma parse_valid s : valid_path (parse_path s).
Proof.
  split.
  - cbn [parse_path p_root]. assert (R := proj2 (root_spec s _) eq_refl). revert R. generalize (root_of s). intros n R. destruct R; lia.
  - intros c I. cbn [parse_path p_parts] in I. apply filter_In in I. destruct I as (I & K). apply negb_true_iff, orb_false_iff in K. destruct K as (K1 & K2). apply str_eqb_neq in K1, K2. split; [assumption|]. split; [assumption|]. exact (py_split_parts _ _ _ I).
Qed.

(** ** C136 *)
(** A Path is returned unchanged; what pathify returns is a Path, so that a second pathify changes nothing. *)
Theorem C136_path : forall p x, pathify (IsPath p) = p /\ pathify (IsPath (pathify x)) = pathify x.
Proof. split; reflexivity. Qed.
(** Two strings become the same Path exactly if they begin with as many slashes (POSIX: two are special) and have the same components. *)
Theorem C136_same : forall s s', pathify (IsStr s) = pathify (IsStr s') <-> same_path s s'.
Proof.
  intros s s'. cbn [pathify]. split.
  - intros E. exists (root_of s), (p_parts (parse_path s)). split; [now apply root_spec|]. split; [apply root_spec; exact (f_equal p_root (eq_sym E))|]. split; apply spells_spec; [reflexivity|now rewrite E].
  - intros (n & cs & R & R' & S & S'). apply root_spec in R, R'. apply spells_spec in S, S'. apply path_ext; [cbn [parse_path p_root]; congruence|congruence].
Qed.
Lemma join_head l a r : (forall c, In c l -> c <> [] /\ c <> !!"." /\ ~ In slash c) -> py_join [slash] l = a :: r -> a <> slash.
Proof.
  intros V E ->. destruct l as [|c l]; [discriminate|]. destruct (V c (or_introl eq_refl)) as (N1 & _ & N2). destruct c as [|x c]; [congruence|].
  assert (x = slash) by (destruct l; simpl in E; congruence). subst x. apply N2. now left.
Qed.
Lemma join_filter f (l : list str) : length (py_join [slash] (filter f l)) <= length (py_join [slash] l).
Proof.
  assert (L : forall l : list str, length (py_join [slash] l) = pred (fold_right (fun c n => S (length c) + n) 0 l)).
  { induction l0 as [|c l0 IH]; [reflexivity|]. destruct l0 as [|c2 l0]; [simpl; lia|]. change (py_join [slash] (c :: c2 :: l0)) with (c ++ slash :: py_join [slash] (c2 :: l0)). rewrite app_length. cbn [length]. rewrite IH. simpl. lia. }
  rewrite !L. apply Nat.pred_le_mono. induction l as [|c l IH]; [simpl; lia|]. cbn [filter]. destruct (f c); simpl in *; lia.
Qed.
Lemma shorter s : s <> [] -> length (path_text (parse_path s)) <= length s.
Proof.
  intros N. set (f := fun c => negb (str_eqb c [] || str_eqb c !!".")).
  assert (A : forall t, length (py_join [slash] (filter f (py_split slash t))) <= length t) by (intros t; rewrite <- (py_split_join slash t) at 2; apply join_filter).
  assert (H : rooted s (root_of s)) by now apply root_spec. unfold path_text, parse_path. cbn [p_root p_parts]. fold f. revert H. generalize (root_of s). intros n H. destruct H as [t Ht|t Ht|t Ht|t].
  - specialize (A t). destruct (filter f (py_split slash t)) as [|c l]; [destruct t; [congruence|simpl; lia]|exact A].
  - specialize (A t). rewrite split_slash_cons. cbn [filter]. change (f []) with false. cbv iota. simpl length. lia.
  - specialize (A t). rewrite !split_slash_cons. cbn [filter]. change (f []) with false. cbv iota. simpl length. lia.
  - specialize (A t). rewrite !split_slash_cons. cbn [filter]. change (f []) with false. cbv iota. simpl length. lia.
Qed.
(** str(p) is no detour: the text of a Path becomes that Path again. *)
Theorem C136_printed : forall p, valid_path p -> pathify (IsStr (path_text p)) = p.
Proof.
  intros [n l] (R & V). cbn [p_root p_parts] in R, V. cbn [pathify]. assert (F := filter_split_join l V).
  assert (H : forall r, py_join [slash] l <> slash :: r) by (intros r E; now apply (join_head l slash r V E)).
  unfold path_text. cbn [p_root p_parts]. assert (C : n = 0%N \/ n = 1%N \/ n = 2%N) by lia. destruct C as [->|[-> | ->]].
  - destruct l as [|c l]; [reflexivity|]. apply path_ext; cbn [parse_path p_root p_parts]; [apply root_spec; now apply ro_none|exact F].
  - apply path_ext; cbn [parse_path p_root p_parts]; [apply root_spec; now apply ro_one|]. rewrite split_slash_cons. exact F.
  - apply path_ext; cbn [parse_path p_root p_parts]; [apply root_spec; now apply ro_two|]. rewrite !split_slash_cons. exact F.
Qed.
(** These are all Paths there are: those made from strings, and those made from them by "/". *)
Theorem C136_all : forall p, (valid_path p <-> exists s, p = pathify (IsStr s)) /\ (forall s, valid_path p -> valid_path (join_path p s)).
Proof.
  intros p. split; [split|].
  - intros V. exists (path_text p). symmetry. now apply C136_printed.
  - intros (s & ->). apply parse_valid.
  - intros s (R & V). unfold join_path. assert (P := parse_valid s). destruct (p_root (parse_path s) =? 0)%N eqn:E; [|exact P]. split; [exact R|]. cbn [p_parts]. intros c I. apply in_app_iff in I. destruct I as [I|I]; [now apply V|now apply P].
Qed.
(** So a caller may give a Path or its text: pathify, and whatever is done with the file, cannot tell them apart. *)
Theorem C136_either : forall {R} (f : ppath -> R) s, f (pathify (IsStr (path_text (pathify (IsStr s))))) = f (pathify (IsPath (pathify (IsStr s)))).
Proof. intros R f s. cbn [pathify]. f_equal. apply C136_printed. apply parse_valid. Qed.

(** The text of a Path is a normal form: never empty, the same for two strings exactly if they are the same path, and no longer than the string (but for the empty one, whose text is "."). *)
Theorem C136_text : forall s, path_text (pathify (IsStr s)) <> [] /\ same_path s (path_text (pathify (IsStr s))) /\ (s <> [] -> length (path_text (pathify (IsStr s))) <= length s) /\
  forall s', path_text (pathify (IsStr s)) = path_text (pathify (IsStr s')) <-> same_path s s'.
Proof.
  intros s. assert (J : forall s, pathify (IsStr (path_text (pathify (IsStr s)))) = pathify (IsStr s)) by (intros t; apply C136_printed; apply parse_valid). split; [|split; [|split]].
  - destruct (parse_valid s) as (R & V). revert R V. cbn [pathify]. generalize (parse_path s). intros [n l] R V. unfold path_text. cbn [p_root p_parts] in *.
    destruct n as [|[n|n|]]; [|discriminate|discriminate|discriminate]. destruct l as [|c l]; [discriminate|]. destruct (V c (or_introl eq_refl)) as (N & _). destruct l as [|c2 l]; [exact N|]. destruct c; [congruence|discriminate].
  - apply C136_same. symmetry. apply J.
  - intros N. cbn [pathify]. apply shorter. exact N.
  - intros s'. rewrite <- C136_same. split; [|now intros ->]. intros E. rewrite <- (J s), <- (J s'). now rewrite E.
Qed.

(** Concrete cases *)
Example C136_same_hypotheses : same_path !!"a//b/./" !!"a/b" /\ same_path !!"///a" !!"/a" /\ ~ same_path !!"//a" !!"/a" /\ ~ same_path !!"a/../b" !!"b" /\ ~ same_path !!"./a" !!"/a" /\ same_path !!"" !!".".
Proof. rewrite <- !C136_same. cbn [pathify]. repeat split; try reflexivity; discriminate. Qed.
Example C136_printed_hypotheses : valid_path (MkPath 2 [!!"a"; !!".."; !!" b"]) /\ path_text (MkPath 2 [!!"a"; !!".."; !!" b"]) = !!"//a/../ b" /\ path_text (pathify (IsStr !!"x//./y/")) = !!"x/y" /\ path_text (pathify (IsStr !!"")) = !!".".
Proof.
  repeat split; try (vm_compute; discriminate); intros; simpl in *; intuition (subst; try discriminate); simpl in *; intuition discriminate.
Qed.
Print Assumptions C136_same.
Print Assumptions C136_printed.
Print Assumptions C136_all.
Print Assumptions C136_either.
Print Assumptions C136_text.
