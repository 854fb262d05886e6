(** * Decimal representation of natural numbers: str(int) and int(str) *)
From Verif Require Import Prelude PyStr.

(** str(n) for a non-negative integer *)
Fixpoint dec (fuel : nat) (n : N) : str :=
  match fuel with
  | O => []
  | S f => (if (n <? 10)%N then [] else dec f (n / 10)%N) ++ [(48 + n mod 10)%N]
  end.
(** Python's str(n) for n >= 0, used by misc_utils.py:29-37 and split_key_value_store.py:68 *)
Definition decimal (n : N) : str := dec (S (N.size_nat n)) n.
(** The number with the given decimal digits (most significant first) *)
Definition digits_value (ds : list N) : N := fold_left (fun acc d => 10 * acc + d)%N ds 0%N.

Lemma digits_value_snoc ds d : digits_value (ds ++ [d]) = (10 * digits_value ds + d)%N.
Proof. unfold digits_value. now rewrite fold_left_app. Qed.
Lemma dec_value fuel : forall n, (n < 2 ^ N.of_nat fuel)%N -> (0 < fuel)%nat -> digits_value (map (fun c => c - 48)%N (dec fuel n)) = n.
Proof.
  induction fuel as [|f IH]; intros n L P; [lia|]. cbn [dec]. rewrite map_app. cbn [map]. rewrite digits_value_snoc. replace (48 + n mod 10 - 48)%N with (n mod 10)%N by lia.
  destruct (N.ltb_spec n 10) as [S|G].
  - simpl map. unfold digits_value. cbn [fold_left]. rewrite N.mod_small by assumption. lia.
  - assert (D := N.div_mod n 10 ltac:(discriminate)). rewrite IH; [lia| |].
    + apply N.div_lt_upper_bound; [discriminate|]. rewrite Nat2N.inj_succ, N.pow_succ_r' in L. lia.
    + destruct f; [|lia]. simpl in L. lia.
Qed.
Lemma size_nat_bound n : (n < 2 ^ N.of_nat (S (N.size_nat n)))%N.
Proof.
  destruct n as [|p]; [reflexivity|]. simpl N.size_nat. assert (H := Pos.size_gt p). apply N.lt_trans with (2 ^ N.pos (Pos.size p))%N; [exact H|].
  rewrite Nat2N.inj_succ. replace (N.of_nat (Pos.size_nat p)) with (N.pos (Pos.size p)).
  - apply N.pow_lt_mono_r; lia.
  - clear. induction p as [p IH|p IH|]; simpl Pos.size; simpl Pos.size_nat; try reflexivity; rewrite Nat2N.inj_succ, <- IH; lia.
Qed.
Lemma decimal_value n : digits_value (map (fun c => c - 48)%N (decimal n)) = n.
Proof. apply dec_value; [apply size_nat_bound|lia]. Qed.
Lemma dec_digits fuel : forall n c, In c (dec fuel n) -> (48 <= c <= 57)%N.
Proof.
  induction fuel as [|f IH]; intros n c H; [destruct H|]. cbn [dec] in H. apply in_app_or in H. destruct H as [H|[<-|[]]]; [destruct (n <? 10)%N; [destruct H|eapply IH; eassumption]|].
  assert (n mod 10 < 10)%N by (apply N.mod_lt; discriminate). lia.
Qed.
Lemma decimal_digits n c : In c (decimal n) -> (48 <= c <= 57)%N.
Proof. apply dec_digits. Qed.
Lemma decimal_nonempty n : decimal n <> [].
Proof. unfold decimal. cbn [dec]. destruct (_ ++ _) eqn:E; [|discriminate]. apply app_eq_nil in E. destruct E; discriminate. Qed.
Lemma decimal_inj n m : decimal n = decimal m -> n = m.
Proof. intros E. rewrite <- (decimal_value n), <- (decimal_value m). now rewrite E. Qed.
Example decimal_ex : decimal 120 = !!"120" /\ decimal 0 = !!"0".
Proof. split; reflexivity. Qed.
