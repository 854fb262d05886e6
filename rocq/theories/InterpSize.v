(** * C130: how long the texts of a loaded parameter file can get (parameters.py:1556-1731) *)
From Coq Require Import Relations.
From Verif Require Import Prelude PyStr Params ParamsSpec ParamsProofs Interp InterpSpec InterpProofs InterpLoop InterpProps.
Local Open Scope nat_scope.

(** ** The bound *)
Section Bound.
Variable is_word : N -> bool.
Variable ft : N -> bool.
Variable m : data_t.
Variable ctx : pv.
Let file := PMap m.
Variables L C : nat.
Hypothesis short : forall q s, view file q = Some (Leaf (PStr s)) -> length s <= L.
Hypothesis short_ctx : forall n s, Stored ctx n (PStr s) -> length s <= C.
Hypothesis L1 : 1 <= L.
Hypothesis C1 : 1 <= C.
Notation refers := (refers is_word ft file).

(** a chain of references *)
Fixpoint chain (a : str) (l : list str) : Prop := match l with [] => True | b :: r => refers a b /\ chain b r end.
(** [a] names a string parameter of the file. *)
Definition is_text (a : str) : Prop := exists s, view file (py_split dot a) = Some (Leaf (PStr s)).
(** the length of a text is bounded in terms of a chain of string parameters that begins with [a] *)
Definition bounded (a : str) (x : nat) : Prop := exists l, chain a l /\ (forall b, In b (a :: l) -> is_text b) /\ x <= L ^ S (length l) * C.

Lemma tokens_le : forall s ts, tokenized is_word s ts -> length ts <= length s.
Proof. induction 1; cbn [length]; [apply Nat.le_refl| |]; try rewrite app_length; cbn [length]; lia. Qed.
Lemma pow_pos : forall n, 1 <= L ^ n.
Proof using L1. clear -L1. induction n as [|n IH]; cbn; [apply Nat.le_refl|]. clear -L1 IH. nia. Qed.
Lemma raw_nonempty q x : Den is_word ft file ctx q (VLeaf (PStr x)) -> truthy ft (PStr x) = true -> exists s, view file q = Some (Leaf (PStr s)) /\ truthy ft (PStr s) = true.
Proof.
  intros D T. inversion D as [|? v V NS|? s n ? V TK LK|? s ts y V TK NW TX]; subst.
  - now destruct (NS x).
  - exists s. split; [assumption|]. destruct s; [inversion TK|reflexivity].
  - exists s. split; [assumption|]. destruct s; [|reflexivity]. inversion TK; subst. inversion TX; subst. exact T.
Qed.

Lemma text_lengths :
  (forall q w, Den is_word ft file ctx q w -> forall a x, py_split dot a = q -> w = VLeaf (PStr x) -> bounded a (length x)) /\
  (forall n w, Lookup is_word ft file ctx n w -> forall x, w = VLeaf (PStr x) -> length x <= C \/ present ft file n /\ bounded n (length x)) /\
  (forall ts x, Text is_word ft file ctx ts x -> length x <= length ts * C \/
     exists n y, In (TRef n) ts /\ present ft file n /\ bounded n y /\ length x <= length ts * y).
Proof using short short_ctx L1 C1.
  apply Den_all.
  - intros q V a x _ E. discriminate E.
  - intros q v V NS a x _ E. injection E as ->. now destruct (NS x).
  - intros q s n w V TK LK IH a x <- ->. destruct (IH x eq_refl) as [B|[P (l & CH & T & B)]].
    + exists []. split; [exact I|]. split; [intros b [<-|[]]; exists s; assumption|]. cbn. nia.
    + exists (n :: l). split; [split; [|assumption]|]. { exists s. split; [assumption|]. split; [exists [TRef n]; split; [assumption|now left]|assumption]. }
      split; [intros b [<-|J]; [exists s; assumption|exact (T b J)]|]. cbn [length]. pose proof (pow_pos (S (length l))). change (L ^ S (S (length l))) with (L * L ^ S (length l)). nia.
  - intros q s ts x V TK NW TX IH a x' <- E. injection E as <-. pose proof (tokens_le _ _ TK) as K. pose proof (short _ _ V) as K2. destruct IH as [B|(n & y & J & P & (l & CH & T & B) & B2)].
    + exists []. split; [exact I|]. split; [intros b [<-|[]]; exists s; assumption|]. cbn [length]. rewrite Nat.pow_1_r. nia.
    + exists (n :: l). split; [split; [|assumption]|]. { exists s. split; [assumption|]. split; [exists ts; split; assumption|assumption]. }
      split; [intros b [<-|J2]; [exists s; assumption|exact (T b J2)]|]. cbn [length]. change (L ^ S (S (length l))) with (L * L ^ S (length l)). nia.
  - intros n w D IH TV x ->. right. split; [|exact (IH n x eq_refl eq_refl)]. destruct (raw_nonempty _ _ D TV) as (s & V & T). unfold present. rewrite V. exact T.
  - intros n w v D IH NT ST x E. injection E as ->. left. exact (short_ctx n x ST).
  - intros n v V ST x E. injection E as ->. left. exact (short_ctx n x ST).
  - left. apply Nat.le_0_l.
  - intros c ts x TX IH. destruct IH as [B|(n & y & J & P & BD & B)]; cbn [length].
    + left. nia.
    + destruct (Nat.leb_spec y C) as [Y|Y].
      * left. nia.
      * right. exists n, y. split; [now right|]. split; [assumption|]. split; [assumption|]. nia.
  - intros n y ts x LK IHL TX IH. rewrite app_length. cbn [length].
    assert (B1 : exists k, length y <= k /\ (k <= C \/ present ft file n /\ bounded n k)). { destruct (IHL y eq_refl) as [B|PB]; [exists (length y); split; [apply Nat.le_refl|now left]|exists (length y); split; [apply Nat.le_refl|now right]]. }
    destruct B1 as (k & Bk & Hk). destruct IH as [B|(n' & y' & J & P & BD & B)].
    + destruct Hk as [Hk|[P BD]]; [left; nia|]. destruct (Nat.leb_spec k C) as [Y|Y]; [left; nia|]. right. exists n, k. split; [now left|]. split; [assumption|]. split; [assumption|]. nia.
    + destruct (Nat.leb_spec k y') as [Y|Y].
      * right. exists n', y'. split; [now right|]. split; [assumption|]. split; [assumption|]. nia.
      * destruct Hk as [Hk|[P2 BD2]].
        -- left. nia.
        -- right. exists n, k. split; [now left|]. split; [assumption|]. split; [assumption|]. nia.
Qed.
Lemma chain_nodup : ~ circular is_word ft file -> forall l a, chain a l -> NoDup (a :: l).
Proof using.
  intros NC l. 
  assert (RE : forall l a b, chain a l -> In b l -> clos_trans str refers a b).
  { clear. induction l as [|c l IH]; intros a b CH J; [destruct J|]. destruct CH as [R CH]. destruct J as [<-|J]; [now apply t_step|]. eapply t_trans; [apply t_step; exact R|exact (IH _ _ CH J)]. }
  induction l as [|b l IH]; intros a CH; (constructor; [|try constructor]).
  - intros [].
  - intros J. apply NC. exists a. exact (RE _ _ _ CH J).
  - destruct CH as [_ CH]. exact (proj1 (proj1 (NoDup_cons_iff _ _) (IH b CH))).
  - destruct CH as [_ CH]. exact (proj2 (proj1 (NoDup_cons_iff _ _) (IH b CH))).
Qed.
End Bound.

Section P.
Variable is_word : N -> bool.
Variable ft : N -> bool.
Hypothesis pct_word : is_word pct = false.

(** C130: when a parameter file has been loaded, how long can the texts in it be?  [names] lists the file's
    string parameters.  If the strings of the file have at most L characters, and those of the
    context at most C, then a string parameter of the file has become a string of at most
    L^(number of string parameters) * C characters - or something that is no string. *)
Theorem C130_bound : forall m ctx p R L C (names : list (list str)),
  loadable is_word m ctx p -> interpolate is_word ft p ctx = Ok R -> 1 <= L -> 1 <= C ->
  (forall q s, view (PMap m) q = Some (Leaf (PStr s)) -> length s <= L /\ In q names) ->
  (forall n s, Stored ctx n (PStr s) -> length s <= C) ->
  forall q s0 s, view (PMap m) q = Some (Leaf (PStr s0)) -> view R q = Some (Leaf (PStr s)) ->
    length s <= L ^ length names * C.
Proof using pct_word.
  intros m ctx p R L C names LD E L1 C1 SH SC q s0 s V VR.
  destruct (C48_result is_word ft pct_word m ctx p R LD E) as (_ & _ & (I1 & _ & I3)).
  destruct (proj1 (proj1 (proj2 (proj2 (proj2 (C48_outcomes is_word ft pct_word m ctx p LD))))) (ex_intro _ R E)) as (NC & _ & _).
  destruct LD as (PL & FM & [WC _] & _ & _). pose proof (from_value_nodots _ _ _ FM) as DL.
  destruct (I3 q (PStr s0) V) as (w & D & H). specialize (H []). rewrite app_nil_r, VR in H.
  assert (w = VLeaf (PStr s)) as ->.
  { destruct w as [q'|x].
    - pose proof (proj1 (Den_dict_all is_word ft m ctx PL WC) _ _ D) as K. cbn in K. rewrite app_nil_r in H. rewrite (I1 _ K) in H. discriminate H.
    - cbn in H. destruct x; try discriminate H; injection H as <-; reflexivity. }
  assert (QN : q <> []) by (destruct q; [discriminate V|discriminate]).
  assert (SD : py_split dot (dotted q) = q) by (apply (split_dotted m PL DL); [assumption|congruence]).
  destruct (proj1 (text_lengths is_word ft m ctx L C (fun q s V => proj1 (SH q s V)) SC L1 C1) q _ D (dotted q) s SD eq_refl) as (l & CH & T & B).
  pose proof (chain_nodup is_word ft m NC l _ CH) as ND.
  assert (K : S (length l) <= length names).
  { change (S (length l)) with (length (dotted q :: l)). rewrite <- (map_length (py_split dot)). apply NoDup_incl_length.
    - apply FinFun.Injective_map_NoDup; [|exact ND]. intros a b EQ. rewrite <- (py_split_join dot a), <- (py_split_join dot b), EQ. reflexivity.
    - intros x J. apply in_map_iff in J. destruct J as (b & <- & J). destruct (T b J) as (sb & Vb). exact (proj2 (SH _ _ Vb)). }
  eapply Nat.le_trans; [exact B|]. apply Nat.mul_le_mono_r, Nat.pow_le_mono_r; [|exact K]. clear -L1. lia.
Qed.

(** ** Exponential growth *)
Hypothesis a_word : is_word 97 = true.
(** The file  a: "a",  aa: "%a%%a%",  aaa: "%aa%%aa%", ...: every text is the previous one twice. *)
Definition nm (i : nat) : str := repeat 97%N (S i).
(** the i-th text of it *)
Definition text (i : nat) : str := match i with O => [97%N] | S j => pct :: nm j ++ pct :: pct :: nm j ++ [pct] end.
(** the file with n + 1 of them *)
Definition doubling (n : nat) : data_t := map (fun i => (nm i, PStr (text i))) (seq 0 (S n)).
Lemma nm_inj i j : nm i = nm j -> i = j.
Proof using. intros E. apply (f_equal (@length N)) in E. unfold nm in E. rewrite !repeat_length in E. clear -E. lia. Qed.
Lemma nm_97 i c : In c (nm i) -> c = 97%N.
Proof using. intros J. exact (repeat_spec _ _ _ J). Qed.
Lemma nm_dotless i : dotless (nm i).
Proof using. intros J. apply nm_97 in J. discriminate J. Qed.
Lemma nm_split i : py_split dot (nm i) = [nm i].
Proof using. apply py_split_no, nm_dotless. Qed.
Lemma nm_ref i : ref_name is_word (nm i).
Proof using a_word. split; [discriminate|]. apply Forall_forall. intros c J. rewrite (nm_97 _ _ J). left. exact a_word. Qed.
Lemma doubling_in n k v : In (k, v) (doubling n) <-> exists i, i <= n /\ k = nm i /\ v = PStr (text i).
Proof using.
  unfold doubling. rewrite in_map_iff. split.
  - intros (i & E & J). injection E as <- <-. apply in_seq in J. exists i. split; [clear -J; lia|]. split; reflexivity.
  - intros (i & J & -> & ->). exists i. split; [reflexivity|]. apply in_seq. clear -J. lia.
Qed.
Lemma doubling_plain n : plain (PMap (doubling n)).
Proof using.
  apply plain_map. split.
  - unfold keys, doubling. rewrite map_map. cbn [fst]. apply FinFun.Injective_map_NoDup; [intros i j; apply nm_inj|apply seq_NoDup].
  - apply Forall_forall. intros [k v] J. apply doubling_in in J. destruct J as (i & _ & _ & ->). exact I.
Qed.
Lemma doubling_view n q v : view (PMap (doubling n)) q = Some (Leaf v) <-> exists i, i <= n /\ q = [nm i] /\ v = PStr (text i).
Proof using.
  pose proof (doubling_plain n) as PL. split.
  - destruct q as [|k q]; [discriminate|]. cbn [view]. destruct (dfind (doubling n) k) as [x|] eqn:D; [|discriminate]. apply dfind_in, doubling_in in D. destruct D as (i & J & -> & ->).
    destruct q; [|discriminate]. intros E. injection E as <-. exists i. split; [assumption|]. split; reflexivity.
  - intros (i & J & -> & ->). cbn [view]. apply plain_map in PL. rewrite (in_dfind _ _ (PStr (text i)) (proj1 PL)); [reflexivity|]. apply doubling_in. exists i. split; [assumption|]. split; reflexivity.
Qed.
Lemma doubling_namespace n q : view (PMap (doubling n)) q = Some Namespace -> q = [].
Proof using.
  destruct q as [|k q]; [reflexivity|]. cbn [view]. destruct (dfind (doubling n) k) as [x|] eqn:D; [|discriminate]. apply dfind_in, doubling_in in D. destruct D as (i & J & -> & ->).
  destruct q; discriminate.
Qed.
Lemma text_tokens i : tokenized is_word (text i) (match i with O => [TChar 97%N] | S j => [TRef (nm j); TRef (nm j)] end).
Proof using a_word.
  destruct i as [|j].
  - constructor; [|constructor]. intros n r _ E. discriminate E.
  - unfold text. change (pct :: nm j ++ pct :: pct :: nm j ++ [pct]) with (pct :: nm j ++ pct :: (pct :: nm j ++ pct :: [])).
    constructor; [apply nm_ref|]. constructor; [apply nm_ref|constructor].
Qed.
Lemma text_refs i n : refers_to is_word (text i) n -> exists j, i = S j /\ n = nm j.
Proof using a_word pct_word.
  intros (ts & TK & J). rewrite (tokenized_fun is_word pct_word _ _ TK _ (text_tokens i)) in J. destruct i as [|j].
  - destruct J as [J|[]]. discriminate J.
  - exists j. destruct J as [J|[J|[]]]; injection J as <-; split; reflexivity.
Qed.
Lemma doubling_loadable n : exists p, loadable is_word (doubling n) (PParams [] []) p.
Proof using a_word pct_word.
  destruct (from_value_total (PMap (doubling n))) with (pre := @nil str) as (p & E).
  { intros k K. inversion K as [? ? ? J|? ? x ? J K2]; subst; apply doubling_in in J; destruct J as (i & _ & -> & ->); [apply nm_dotless|inversion K2]. }
  exists p. split; [apply doubling_plain|]. split; [exact E|]. split; [split; [repeat constructor|reflexivity]|]. split; [reflexivity|].
  intros q s x p0 k r v V R SP VP. exfalso. apply doubling_view in V. destruct V as (i & _ & _ & V). injection V as ->. apply text_refs in R. destruct R as (j & -> & ->).
  rewrite nm_split in SP. destruct p0 as [|? [|? ?]]; cbn in SP; try discriminate SP. cbn in VP. discriminate VP.
Qed.
Lemma doubling_refers n a b : refers is_word ft (PMap (doubling n)) a b -> length b < length a.
Proof using a_word pct_word.
  intros (s & V & R & _). apply doubling_view in V. destruct V as (i & _ & Ea & V). injection V as ->. apply text_refs in R. destruct R as (j & -> & ->).
  rewrite <- (py_split_join dot a), Ea. cbn. rewrite !repeat_length. clear. lia.
Qed.
Lemma doubling_den n i : i <= n -> Den is_word ft (PMap (doubling n)) (PParams [] []) [nm i] (VLeaf (PStr (repeat 97%N (2 ^ i)))).
Proof using a_word pct_word.
  intros Hi. induction i as [|j IH].
  - eapply den_text; [apply doubling_view; exists 0; repeat split; assumption|exact (text_tokens 0)|discriminate|]. apply (tx_char is_word ft). apply tx_nil.
  - assert (LK : Lookup is_word ft (PMap (doubling n)) (PParams [] []) (nm j) (VLeaf (PStr (repeat 97%N (2 ^ j))))).
    { apply lk_file; [rewrite nm_split; apply IH; clear -Hi; lia|]. cbn. pose proof (Nat.pow_nonzero 2 j ltac:(discriminate)) as K. destruct (2 ^ j); [now destruct K|reflexivity]. }
    eapply den_text; [apply doubling_view; exists (S j); repeat split; assumption|exact (text_tokens (S j))|discriminate|].
    replace (repeat 97%N (2 ^ S j)) with (repeat 97%N (2 ^ j) ++ repeat 97%N (2 ^ j) ++ []).
    + apply tx_ref; [exact LK|]. apply tx_ref; [exact LK|]. apply tx_nil.
    + rewrite app_nil_r, <- repeat_app. f_equal. cbn. clear. lia.
Qed.
Lemma doubling_den_leaf n q w : Den is_word ft (PMap (doubling n)) (PParams [] []) q w -> q <> [] -> exists x, w = VLeaf x.
Proof using a_word pct_word.
  intros D Q. assert (exists i, i <= n /\ q = [nm i]) as (i & Hi & ->).
  { inversion D as [? V|? v V NS|? s n0 ? V TK LK|? s ts y V TK NW TX]; subst; [now destruct Q; apply doubling_namespace in V|..];
      apply doubling_view in V; destruct V as (i & Hi & -> & _); exists i; split; assumption || reflexivity. }
  eexists. refine (Den_fun is_word ft pct_word (doubling n) (PParams [] []) _ _ _ _ D (doubling_den n i Hi)). repeat constructor.
Qed.

(** C130: the bound is exponential for a reason.  For every n there is a parameter file of n + 1 string
    parameters, each of at most 2 n + 4 characters, that is loaded (with nothing in the context) and has then
    a string of 2^n characters. *)
Theorem C130_polynomial_refuted : forall n, exists m p R k s,
  length m = S n /\ (forall key v, In (key, v) m -> exists t, v = PStr t /\ length t <= 2 * n + 4) /\
  from_mapping (PMap m) [] = Ok p /\ interpolate is_word ft p (PParams [] []) = Ok R /\
  view R [k] = Some (Leaf (PStr s)) /\ length s = 2 ^ n.
Proof using a_word pct_word.
  intros n. destruct (doubling_loadable n) as (p & LD). pose proof (C48_outcomes is_word ft pct_word _ _ _ LD) as (_ & _ & _ & OK & _).
  destruct (proj2 OK) as (R & E).
  { split; [|split].
    - intros (a & CT). revert CT. enough (G : forall x y, clos_trans str (refers is_word ft (PMap (doubling n))) x y -> length y < length x) by (intros CT; exact (Nat.lt_irrefl _ (G _ _ CT))). clear a. intros a b CT.
      induction CT as [x y K|x y z _ IH1 _ IH2]; [exact (doubling_refers _ _ _ K)|exact (Nat.lt_trans _ _ _ IH2 IH1)].
    - intros q v V. apply doubling_view in V. destruct V as (i & Hi & -> & _). eexists. exact (doubling_den n i Hi).
    - intros (q & CT). assert (K : exists q', holds_ns is_word ft (PMap (doubling n)) (PParams [] []) q q') by (apply clos_trans_t1n in CT; inversion CT as [y K|y z K _]; eexists; exact K).
      destruct K as (q' & k & K). apply doubling_den_leaf in K; [destruct K as (x & K); discriminate K|now destruct q]. }
  exists (doubling n), p, R, (nm n), (repeat 97%N (2 ^ n)). split; [unfold doubling; rewrite map_length, seq_length; reflexivity|]. split.
  { intros key v J. apply doubling_in in J. destruct J as (i & Hi & -> & ->). exists (text i). split; [reflexivity|]. destruct i as [|j]; [cbn; clear; lia|].
    unfold text, nm. cbn [length]. rewrite app_length. cbn [length]. rewrite app_length. cbn [length]. rewrite !repeat_length. clear -Hi. lia. }
  split; [exact (proj1 (proj2 LD))|]. split; [exact E|]. split; [|apply repeat_length].
  destruct (C48_result is_word ft pct_word _ _ _ _ LD E) as (_ & _ & (_ & _ & I3)).
  destruct (I3 [nm n] (PStr (text n))) as (w & D & H). { apply doubling_view. exists n. repeat split. apply Nat.le_refl. }
  assert (W : wf (PParams [] [])) by repeat constructor.
  rewrite (Den_fun is_word ft pct_word (doubling n) (PParams [] []) W _ _ _ D (doubling_den n n (Nat.le_refl n))) in H. specialize (H []). exact H.
Qed.
End P.

(** ** A concrete case
    who: "Bob",  line: "%who%, %who% and %other%",  all: "%line%; %line%"  with other = "Alice" in the context:
    three string parameters of at most 24 characters. *)
Definition ex130 : data_t := [(!!"who", PStr !!"Bob"); (!!"line", PStr !!"%who%, %who% and %other%"); (!!"all", PStr !!"%line%; %line%")].
(** its context *)
Definition ctx130 : pv := PParams [] [(!!"other", PStr !!"Alice")].
Example C130_witness : exists p R, loadable word_ascii ex130 ctx130 p /\ interpolate word_ascii ft1 p ctx130 = Ok R /\
  (forall q s, view (PMap ex130) q = Some (Leaf (PStr s)) -> length s <= 24 /\ In q [[!!"who"]; [!!"line"]; [!!"all"]]) /\
  (forall n s, Stored ctx130 n (PStr s) -> length s <= 5) /\
  view R [!!"all"] = Some (Leaf (PStr !!"Bob, Bob and Alice; Bob, Bob and Alice")) /\
  length !!"Bob, Bob and Alice; Bob, Bob and Alice" <= 24 ^ 3 * 5.
Proof.
  assert (PL : plain (PMap ex130)) by (unfold ex130; plain_tac).
  eexists. eexists. split; [split; [exact PL|]; split; [vm_compute; reflexivity|]; split; [split; [|reflexivity]; unfold ctx130; simpl; repeat split; repeat constructor; simpl; unfold dotless; simpl; intuition discriminate|]; split; [reflexivity|]|].
  { apply through_passable. apply ntl_check_ok; [reflexivity|exact PL|vm_compute; reflexivity]. }
  split; [vm_compute; reflexivity|]. split.
  { intros q s V. apply (leaves_view _ PL) in V. vm_compute in V. destruct V as [V|[V|[V|[]]]]; injection V as <- <-; (split; [cbn; lia|cbn; tauto]). }
  split.
  { intros n s ST. unfold Stored in ST. inversion ST as [|? ? ? ? ? ? J RC]; subst. destruct J as [J|[]]. injection J as <- <-. inversion RC; subst. cbn. lia. }
  split; [vm_compute; reflexivity|]. change (length !!"Bob, Bob and Alice; Bob, Bob and Alice") with 38. change (24 ^ 3 * 5) with (24 * (24 * 24) * 5). lia.
Qed.
Print Assumptions C130_bound.
Print Assumptions C130_polynomial_refuted.
