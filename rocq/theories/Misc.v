(** * Model of misc_utils.py (str_list_limited, strip_extension, flatten_once_to_list) and its theorems (C70, C71) *)
From Verif Require Import Prelude PyStr Decimals.

Section Limited.
Context {A : Type}.
Variable repr : A -> str.
(** str(list) *)
Definition str_list (l : list A) : str := !!"[" ++ py_join !!", " (map repr l) ++ !!"]".
(** str_list_limited, misc_utils.py:11-37; [l] is the list of the items of the iterable *)
Definition str_list_limited (l : list A) (limit : Z) : res str :=
  if (limit <? 0)%Z then Raise ValueError
  else if (Z.of_nat (length l) <=? limit)%Z then Ok (str_list l)
  else Ok (!!"[" ++ py_join !!", " (map repr (py_slice l 0 limit)) ++ !!" and " ++ decimal (Z.to_N (Z.of_nat (length l) - limit)) ++ !!" more" ++ !!"]").
End Limited.

(** strip_extension, misc_utils.py:96-104; [rfind] is str.rfind for one character *)
Fixpoint rfind (c : N) (s : str) : Z :=
  match s with
  | [] => -1
  | x :: r => let i := rfind c r in if (0 <=? i)%Z then (i + 1)%Z else if (x =? c)%N then 0%Z else -1
  end.
(** misc_utils.py:96-104 *)
Definition strip_extension (name : str) : str :=
  let i := rfind 46 name in
  if (-1 <? i)%Z then py_slice name 0 i else name.
(** flatten_once_to_list, misc_utils.py:107-113: chain.from_iterable yields the items of the first iterable, then those of the next, ... *)
Fixpoint chain_from {A} (current : list A) (rest : list (list A)) : list A :=
  match current with
  | x :: xs => x :: chain_from xs rest
  | [] => (fix next (rest : list (list A)) : list A := match rest with [] => [] | c :: r => (fix emit (c : list A) : list A := match c with x :: xs => x :: emit xs | [] => next r end) c end) rest
  end.
(** misc_utils.py:107-113 *)
Definition flatten_once_to_list {A} (l : list (list A)) : list A := chain_from [] l.

(** ** C70 *)
(** At most [limit] items: exactly str(list). *)
Theorem C70_short : forall A (repr : A -> str) l limit, (Z.of_nat (length l) <= limit)%Z -> str_list_limited repr l limit = Ok (str_list repr l).
Proof.
  intros A repr l limit H. unfold str_list_limited. assert (limit <? 0 = false)%Z as -> by (apply Z.ltb_ge; lia). assert (Z.of_nat (length l) <=? limit = true)%Z as -> by (apply Z.leb_le; lia). reflexivity.
Qed.
(** More: what str shows for the list of the first [limit] items, but for the closing bracket, then " and N more]", N the number of items left out. *)
Theorem C70_long : forall A (repr : A -> str) shown hidden, hidden <> [] ->
  exists p, str_list repr shown = p ++ !!"]" /\
    str_list_limited repr (shown ++ hidden) (Z.of_nat (length shown)) = Ok (p ++ !!" and " ++ decimal (N.of_nat (length hidden)) ++ !!" more]").
Proof.
  intros A repr shown hidden NE. exists (!!"[" ++ py_join !!", " (map repr shown)). unfold str_list. rewrite <- !app_assoc. split; [reflexivity|]. unfold str_list_limited. rewrite app_length.
  assert (Z.of_nat (length shown) <? 0 = false)%Z as -> by (apply Z.ltb_ge; lia). assert (0 < length hidden)%nat by (destruct hidden; [congruence|simpl; lia]). assert (Z.of_nat (length shown + length hidden) <=? Z.of_nat (length shown) = false)%Z as -> by (apply Z.leb_gt; lia).
  assert (py_slice (shown ++ hidden) 0 (Z.of_nat (length shown)) = shown) as ->.
  { unfold py_slice, py_index. rewrite app_length. assert (0 <? 0 = false)%Z as -> by reflexivity. assert (Z.of_nat (length shown) <? 0 = false)%Z as -> by (apply Z.ltb_ge; lia).
    rewrite (Z.min_r _ 0), (Z.max_r 0 0), (Z.min_r _ (Z.of_nat (length shown))), Z.max_r by lia. rewrite Z.sub_0_r. simpl skipn. rewrite Nat2Z.id, firstn_app, Nat.sub_diag, firstn_all. apply app_nil_r. }
  replace (Z.to_N (Z.of_nat (length shown + length hidden) - Z.of_nat (length shown))) with (N.of_nat (length hidden)) by lia. reflexivity.
Qed.
(** A negative limit is a ValueError, and nothing else raises. *)
Theorem C70_error : forall A (repr : A -> str) l limit, (str_list_limited repr l limit = Raise ValueError <-> (limit < 0)%Z) /\ (forall e, str_list_limited repr l limit = Raise e -> e = ValueError).
Proof.
  intros A repr l limit. unfold str_list_limited. destruct (Z.ltb_spec limit 0) as [L|G]; [split; [split; auto|congruence]|]. split; [split; [|lia]; destruct (_ <=? _)%Z; discriminate|]. intros e. destruct (_ <=? _)%Z; discriminate.
Qed.

(** ** C71 *)
Lemma rfind_spec c s : match rfind c s with
  | -1 => ~ In c s
  | i => exists a b, s = a ++ [c] ++ b /\ ~ In c b /\ i = Z.of_nat (length a)
  end%Z.
Proof.
  assert (G : (rfind c s = (-1)%Z /\ ~ In c s) \/ exists a b, s = a ++ [c] ++ b /\ ~ In c b /\ rfind c s = Z.of_nat (length a)).
  { induction s as [|x s IH]; simpl; [left; auto|]. destruct IH as [(E & N)|(a & b & -> & N & E)].
    - rewrite E. simpl. destruct (N.eqb_spec x c) as [->|D]; [right; exists [], s; auto|left; intuition].
    - rewrite E. assert (0 <=? Z.of_nat (length a) = true)%Z as -> by (apply Z.leb_le; lia). right. exists (x :: a), b. simpl length. repeat split; auto. lia. }
  destruct G as [(-> & N)|(a & b & Es & N & E)]; [assumption|]. rewrite E. destruct a; simpl; eauto.
Qed.
(** The text from the last dot on is removed; without a dot nothing is. *)
Theorem C71_strip_extension : forall name, (forall base ext, name = base ++ !!"." ++ ext -> ~ In 46%N ext -> strip_extension name = base) /\ (~ In 46%N name -> strip_extension name = name).
Proof.
  intros name. assert (S := rfind_spec 46 name). unfold strip_extension.
  assert (U : forall a b a' b' : str, a ++ [46%N] ++ b = a' ++ [46%N] ++ b' -> ~ In 46%N b -> ~ In 46%N b' -> a = a').
  { induction a as [|x a IH]; intros b [|y a'] b' E N N'; simpl in E; auto.
    - injection E as <- ->. exfalso. apply N. apply in_or_app. simpl. auto.
    - injection E as -> <-. exfalso. apply N'. apply in_or_app. simpl. auto.
    - injection E as <- E. f_equal. exact (IH b a' b' E N N'). }
  split.
  - intros base ext -> N. assert (H : exists a b, base ++ !!"." ++ ext = a ++ [46%N] ++ b /\ ~ In 46%N b /\ rfind 46 (base ++ !!"." ++ ext) = Z.of_nat (length a)).
    { destruct (rfind 46 _) as [|p|p]; [exact S|exact S|]. destruct p; try exact S. exfalso. apply S. apply in_or_app. simpl. auto. }
    destruct H as (a & b & E & Nb & R). rewrite R. assert (base = a) as <- by (eapply U; eauto). assert (-1 <? Z.of_nat (length base) = true)%Z as -> by (apply Z.ltb_lt; lia).
    unfold py_slice, py_index. rewrite app_length. assert (0 <? 0 = false)%Z as -> by reflexivity. assert (Z.of_nat (length base) <? 0 = false)%Z as -> by (apply Z.ltb_ge; lia).
    rewrite (Z.min_r _ 0), (Z.max_r 0 0), (Z.min_r _ (Z.of_nat (length base))), Z.max_r by lia. rewrite Z.sub_0_r. simpl skipn. rewrite Nat2Z.id, firstn_app, Nat.sub_diag, firstn_all. apply app_nil_r.
  - intros N. destruct (rfind 46 name) as [|p|p]; try (destruct S as (a & b & -> & _); exfalso; apply N; apply in_or_app; simpl; auto; fail). destruct p; try (destruct S as (a & b & -> & _); exfalso; apply N; apply in_or_app; simpl; auto; fail). reflexivity.
Qed.
(** ... also if the dot is in a directory name, or the first character. *)
Theorem C71_path_refuted : strip_extension !!"v1.2/data" = !!"v1" /\ strip_extension !!".bashrc" = [].
Proof. split; reflexivity. Qed.
Theorem C71_flatten : forall A (l : list (list A)), flatten_once_to_list l = concat l.
Proof.
  intros A l. unfold flatten_once_to_list. simpl. induction l as [|c l IH]; [reflexivity|]. simpl. induction c as [|x c IHc]; [exact IH|]. simpl. f_equal. exact IHc.
Qed.

Example C70_witness : str_list_limited decimal [1; 22; 3]%N 1 = Ok !!"[1 and 2 more]" /\ str_list_limited decimal [1; 22; 3]%N 3 = Ok !!"[1, 22, 3]" /\ str_list_limited decimal [1; 22; 3]%N 0 = Ok !!"[ and 3 more]".
Proof. repeat split. Qed.
Example C71_witness : strip_extension !!"a.b.txt" = !!"a.b" /\ flatten_once_to_list [[1; 2]; []; [3]] = [1; 2; 3].
Proof. split; reflexivity. Qed.
Print Assumptions C70_long.
Print Assumptions C71_strip_extension.
Print Assumptions C71_flatten.
