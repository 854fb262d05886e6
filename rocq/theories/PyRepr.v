(** * repr of a Python str (unicode_repr in CPython), with which str(list) prints the items of a list of strings *)
From Verif Require Import Prelude PyStr.

(** A lower-case hexadecimal digit; the last [w] digits of a number, most significant first. *)
Definition hex_digit (d : N) : N := (if d <? 10 then 48 + d else 87 + d)%N.
(** the number in base 16 *)
Fixpoint hex (w : nat) (n : N) : str := match w with 0 => [] | S w => hex w (n / 16) ++ [hex_digit (n mod 16)] end.

Section Repr.
Variable printable : N -> bool.                    (* chr(c).isprintable(), for the characters beyond ASCII *)
(** Double quotes only if there are single quotes and no double ones. *)
Definition quote_for (s : str) : N := if existsb (N.eqb 39) s && negb (existsb (N.eqb 34) s) then 34%N else 39%N.
(** One character within the quotes [q]. *)
Definition esc (q c : N) : str :=
  (if c =? q then [92; c]
   else if c =? 92 then [92; 92]
   else if c =? 9 then [92; 116]
   else if c =? 10 then [92; 110]
   else if c =? 13 then [92; 114]
   else if (c <? 32) || (c =? 127) then 92 :: 120 :: hex 2 c
   else if c <? 127 then [c]
   else if printable c then [c]
   else if c <? 256 then 92 :: 120 :: hex 2 c
   else if c <? 65536 then 92 :: 117 :: hex 4 c
   else 92 :: 85 :: hex 8 c)%N.
(** repr(s) *)
Definition repr_str (s : str) : str := let q := quote_for s in [q] ++ flat_map (esc q) s ++ [q].
End Repr.

(** ** Reading it back *)
(** What Python strings consist of. *)
Definition code_points (s : str) : Prop := Forall (fun c => c < 1114112)%N s.

Lemma hex_digit_inj a b : (a < 16)%N -> (b < 16)%N -> hex_digit a = hex_digit b -> a = b.
Proof. unfold hex_digit. intros A B. destruct (N.ltb_spec a 10), (N.ltb_spec b 10); lia. Qed.
Lemma hex_length w n : length (hex w n) = w.
Proof. revert n. induction w; intros n; [reflexivity|]. simpl. rewrite app_length, IHw. simpl. lia. Qed.
Lemma hex_inj w a b : (a < 16 ^ N.of_nat w)%N -> (b < 16 ^ N.of_nat w)%N -> hex w a = hex w b -> a = b.
Proof.
  revert a b. induction w as [|w IH]; intros a b A B E; [simpl in A, B; lia|]. rewrite Nat2N.inj_succ, N.pow_succ_r' in A, B. simpl in E. apply app_inj_tail in E. destruct E as (E1 & E2).
  assert (a / 16 = b / 16)%N as D by (apply IH; [apply N.div_lt_upper_bound; lia|apply N.div_lt_upper_bound; lia|exact E1]). apply hex_digit_inj in E2; [|apply N.mod_lt; lia|apply N.mod_lt; lia].
  rewrite (N.div_mod a 16), (N.div_mod b 16) by lia. now rewrite D, E2.
Qed.
Lemma hex_app w a b (r r' : str) : (a < 16 ^ N.of_nat w)%N -> (b < 16 ^ N.of_nat w)%N -> hex w a ++ r = hex w b ++ r' -> a = b /\ r = r'.
Proof.
  intros A B E. assert (hex w a = hex w b /\ r = r') as (E1 & E2).
  { assert (L : length (hex w a) = length (hex w b)) by now rewrite !hex_length. revert L E. generalize (hex w a) as x, (hex w b) as y. clear. induction x as [|c x IH]; destruct y as [|d y]; simpl; intros L E; try discriminate; [auto|]. injection E as -> E. destruct (IH y) as (-> & ->); auto. }
  split; [exact (hex_inj w a b A B E1)|exact E2].
Qed.

Section ReprProofs.
Variable printable : N -> bool.
(** What one printed character looks like. *)
Inductive shape (q c : N) : str -> Prop :=
| sh_plain : c <> q -> c <> 92%N -> shape q c [c]
| sh_self : c = q \/ c = 92%N -> shape q c [92; c]%N
| sh_name x : (c = 9 /\ x = 116 \/ c = 10 /\ x = 110 \/ c = 13 /\ x = 114)%N -> shape q c [92; x]%N
| sh_2 : (c < 256)%N -> shape q c (92 :: 120 :: hex 2 c)%N
| sh_4 : (256 <= c < 65536)%N -> shape q c (92 :: 117 :: hex 4 c)%N
| sh_8 : (65536 <= c < 4294967296)%N -> shape q c (92 :: 85 :: hex 8 c)%N.
Lemma esc_shape q c : (c < 1114112)%N -> shape q c (esc printable q c).
Proof.
  intros C. unfold esc. destruct (N.eqb_spec c q) as [->|Q]; [apply sh_self; auto|]. destruct (N.eqb_spec c 92) as [->|B]; [apply (sh_self q 92); auto|].
  destruct (N.eqb_spec c 9) as [->|]; [apply sh_name; auto|]. destruct (N.eqb_spec c 10) as [->|]; [apply sh_name; auto|]. destruct (N.eqb_spec c 13) as [->|]; [apply sh_name; auto|].
  destruct (N.ltb_spec c 32); cbn [orb]; [apply sh_2; lia|]. destruct (N.eqb_spec c 127) as [->|]; [apply sh_2; lia|]. destruct (N.ltb_spec c 127); [now apply sh_plain|].
  destruct (printable c); [now apply sh_plain|]. destruct (N.ltb_spec c 256); [now apply sh_2|]. destruct (N.ltb_spec c 65536); [apply sh_4; lia|apply sh_8; lia].
Qed.
Lemma shape_app q c d x y (r r' : str) : q = 39%N \/ q = 34%N -> shape q c x -> shape q d y -> x ++ r = y ++ r' -> c = d /\ r = r'.
Proof.
  intros Q X Y E. assert (T : forall a b (t t' : str), a :: b :: t = a :: b :: t' -> t = t') by (intros; congruence).
  destruct X as [X1 X2|X1|u X1|X1|X1|X1]; destruct Y as [Y1 Y2|Y1|v Y1|Y1|Y1|Y1]; cbn [app] in E; try (apply T in E; apply hex_app in E; [exact E| |]; match goal with |- (_ < ?b)%N => let v := eval vm_compute in b in change b with v end; lia);
    clear T; injection E; clear E; intros; subst; try congruence; try (exfalso; lia); auto; split; lia || reflexivity.
Qed.
Lemma shape_end q c x (r : str) : q = 39%N \/ q = 34%N -> shape q c x -> forall r', x ++ r <> q :: r'.
Proof. intros Q X r' E. destruct X as [X1 X2|X1|u X1|X1|X1|X1]; cbn [app] in E; injection E as E0 E; try congruence; destruct Q; subst; discriminate. Qed.
Lemma body_app q s s' (r r' : str) : q = 39%N \/ q = 34%N -> code_points s -> code_points s' -> flat_map (esc printable q) s ++ [q] ++ r = flat_map (esc printable q) s' ++ [q] ++ r' -> s = s' /\ r = r'.
Proof.
  intros Q. revert s'. induction s as [|c s IH]; intros s' C C' E.
  - destruct s' as [|d s']; cbn [flat_map app] in E; [injection E as ->; auto|]. rewrite <- app_assoc in E. inversion C' as [|? ? Cd Cs']; subst. symmetry in E. destruct (shape_end q d _ _ Q (esc_shape q d Cd) _ E).
  - inversion C as [|? ? Cc Cs]; subst. destruct s' as [|d s']; cbn [flat_map] in E; rewrite <- ?app_assoc in E; [cbn [app] in E; destruct (shape_end q c _ _ Q (esc_shape q c Cc) _ E)|]. inversion C' as [|? ? Cd Cs']; subst.
    destruct (shape_app q c d _ _ _ _ Q (esc_shape q c Cc) (esc_shape q d Cd) E) as (-> & E'). destruct (IH s' Cs Cs' E') as (-> & ->). auto.
Qed.
Lemma quote_or s : quote_for s = 39%N \/ quote_for s = 34%N.
Proof. unfold quote_for. destruct (_ && _); auto. Qed.
(** The repr of a string ends where it ends, and tells the string. *)
Lemma repr_str_app s s' (r r' : str) : code_points s -> code_points s' -> repr_str printable s ++ r = repr_str printable s' ++ r' -> s = s' /\ r = r'.
Proof.
  intros C C' E. unfold repr_str in E. cbn [app] in E. injection E as Eq E. rewrite <- !app_assoc, <- Eq in E. exact (body_app _ s s' r r' (quote_or s) C C' E).
Qed.
Lemma repr_str_head s : exists r, repr_str printable s = 39%N :: r \/ repr_str printable s = 34%N :: r.
Proof. unfold repr_str. cbn [app]. destruct (quote_or s) as [-> | ->]; eexists; [left|right]; reflexivity. Qed.
End ReprProofs.
