(** * Text: newlines, lines, white space *)
From Verif Require Import Prelude PyStr.

Definition LF : N := 10%N.
Definition CR : N := 13%N.
Definition TAB : N := 9%N.

(** Reading a text file (open(..., "r"), TextIOWrapper) translates \r\n and \r to \n. *)
Fixpoint universal_newlines (s : str) : str :=
  match s with
  | [] => []
  | c :: r =>
      if (c =? CR)%N
      then LF :: match r with
                 | d :: r' => if (d =? LF)%N then universal_newlines r' else universal_newlines r
                 | [] => []
                 end
      else c :: universal_newlines r
  end.
(** Iterating over a text stream: lines with their terminating \n. *)
Fixpoint text_lines (s : str) : list str :=
  match s with
  | [] => []
  | c :: r => if (c =? LF)%N then [LF] :: text_lines r
              else match text_lines r with [] => [[c]] | l :: ls => (c :: l) :: ls end
  end.
Fixpoint dropwhile (p : N -> bool) (s : str) : str :=
  match s with [] => [] | c :: r => if p c then dropwhile p r else s end.
Definition rstrip_of (p : N -> bool) (s : str) : str := rev (dropwhile p (rev s)).
(** line.rstrip("\n") *)
Definition rstrip_lf (s : str) : str := rstrip_of (fun c => (c =? LF)%N) s.
(** str.strip(): removes white space (str.isspace characters) at both ends *)
Definition is_space (c : N) : bool :=
  existsb (N.eqb c) [9; 10; 11; 12; 13; 28; 29; 30; 31; 32; 133; 160; 5760; 8192; 8193; 8194; 8195; 8196; 8197; 8198; 8199; 8200; 8201; 8202; 8232; 8233; 8239; 8287; 12288]%N.
Definition py_strip (s : str) : str := rstrip_of is_space (dropwhile is_space s).
(** str.splitlines() *)
Definition line_break (c : N) : bool := existsb (N.eqb c) [10; 11; 12; 13; 28; 29; 30; 133; 8232; 8233]%N.
Fixpoint splitlines (s : str) : list str :=
  match s with
  | [] => []
  | c :: r =>
      if line_break c
      then [] :: (if (c =? CR)%N then match r with d :: r' => if (d =? LF)%N then splitlines r' else splitlines r | [] => [] end
                  else splitlines r)
      else match splitlines r with [] => [[c]] | l :: ls => (c :: l) :: ls end
  end.
(** immutableset(iterable of str) / dict.fromkeys: first occurrences, in order *)
Fixpoint dedup_from (seen l : list str) : list str :=
  match l with
  | [] => []
  | x :: r => if existsb (str_eqb x) seen then dedup_from seen r else x :: dedup_from (x :: seen) r
  end.
Definition dedup (l : list str) : list str := dedup_from [] l.

(** ** Specifications *)
(** [d] lists the distinct elements of [l] in order of first occurrence. *)
Definition distinct_in_order (l d : list str) : Prop :=
  NoDup d /\ (forall x, In x d <-> In x l) /\
  forall l1 x l2, l = l1 ++ x :: l2 -> ~ In x l1 -> exists d1 d2, d = d1 ++ x :: d2 /\ forall y, In y d1 <-> In y l1.
(** [m] is [s] without its leading and trailing characters satisfying [p]. *)
Definition stripped (p : N -> bool) (s m : str) : Prop :=
  exists a b, s = a ++ m ++ b /\ (forall c, In c a -> p c = true) /\ (forall c, In c b -> p c = true) /\
    (forall c r, m = c :: r -> p c = false) /\ (forall c r, m = r ++ [c] -> p c = false).
(** [ls] are the lines of [s]: no line contains a newline, and writing each followed by a newline gives [s]
    back, except that the last newline may be missing in [s]. *)
Definition lines_of (s : str) (ls : list str) : Prop :=
  (forall l, In l ls -> ~ In LF l) /\
  let t := flat_map (fun l => l ++ [LF]) ls in
  (s = t \/ exists r l, ls = r ++ [l] /\ l <> [] /\ s = flat_map (fun l => l ++ [LF]) r ++ l).

Lemma existsb_str x l : existsb (str_eqb x) l = true <-> In x l.
Proof.
  rewrite existsb_exists. split; [intros (y & I & E); apply str_eqb_eq in E; now subst|]. intros I. exists x. split; [assumption|apply str_eqb_refl].
Qed.
Lemma existsb_str_false x l : existsb (str_eqb x) l = false <-> ~ In x l.
Proof. rewrite <- existsb_str. now destruct (existsb _ l). Qed.
Lemma dedup_from_spec l : forall seen, NoDup (dedup_from seen l) /\ (forall x, In x (dedup_from seen l) <-> In x l /\ ~ In x seen) /\
  forall l1 x l2, l = l1 ++ x :: l2 -> ~ In x l1 -> ~ In x seen -> exists d1 d2, dedup_from seen l = d1 ++ x :: d2 /\ forall y, In y d1 <-> In y l1 /\ ~ In y seen.
Proof.
  induction l as [|a l IH]; intros seen; simpl.
  - split; [constructor|]. split; [tauto|]. intros [|] x l2 E; discriminate.
  - destruct (existsb (str_eqb a) seen) eqn:S.
    + apply existsb_str in S. destruct (IH seen) as (N & I & O). split; [assumption|]. split.
      * intros x. rewrite I. split; [tauto|]. intros [[->|H] K]; tauto.
      * intros l1 x l2 E Nx Ns. destruct l1 as [|b l1]; injection E as -> E; [tauto|]. destruct (O l1 x l2 E) as (d1 & d2 & -> & H); [simpl in Nx; tauto|assumption|].
        exists d1, d2. split; [reflexivity|]. intros y. rewrite H. simpl. split; [tauto|]. intros [[->|K] M]; tauto.
    + apply existsb_str_false in S. destruct (IH (a :: seen)) as (N & I & O). split; [|split].
      * constructor; [|assumption]. rewrite I. simpl. tauto.
      * intros x. simpl. rewrite I. simpl. split.
        -- intros [->|[H K]]; tauto.
        -- intros [[->|H] K]; [auto|]. destruct (list_eq_dec N.eq_dec a x); [auto|]. right. tauto.
      * intros l1 x l2 E Nx Ns. destruct l1 as [|b l1]; injection E as -> E.
        -- exists [], (dedup_from (x :: seen) l). split; [reflexivity|]. simpl. tauto.
        -- destruct (O l1 x l2 E) as (d1 & d2 & -> & H); [simpl in Nx; tauto|simpl in Nx; simpl; tauto|]. exists (b :: d1), d2. split; [reflexivity|].
           intros y. simpl. rewrite H. simpl. split; [intros [->|[K M]]; tauto|]. intros [[->|K] M]; [auto|]. destruct (list_eq_dec N.eq_dec b y); [auto|]. right. tauto.
Qed.
Lemma dedup_spec l : distinct_in_order l (dedup l).
Proof.
  destruct (dedup_from_spec l []) as (N & I & O). split; [assumption|]. split; [intros x; unfold dedup; rewrite I; simpl; tauto|].
  intros l1 x l2 E Nx. destruct (O l1 x l2 E Nx) as (d1 & d2 & H & K); [simpl; tauto|]. exists d1, d2. split; [assumption|]. intros y. rewrite K. simpl. tauto.
Qed.
Lemma dedup_id l : NoDup l -> dedup l = l.
Proof.
  unfold dedup. assert (forall l seen, NoDup l -> (forall x, In x l -> ~ In x seen) -> dedup_from seen l = l) as H; [|intros N; apply H; [assumption|simpl; tauto]].
  clear. induction l as [|a l IH]; intros seen N D; [reflexivity|]. inversion N as [|? ? N1 N2]; subst. simpl. rewrite (proj2 (existsb_str_false a seen)) by (apply D; simpl; auto).
  f_equal. apply IH; [assumption|]. intros x I [->|K]; [tauto|]. apply (D x); simpl; auto.
Qed.

(** Stripping *)
Lemma dropwhile_spec p s : exists a, s = a ++ dropwhile p s /\ (forall c, In c a -> p c = true) /\ (forall c r, dropwhile p s = c :: r -> p c = false).
Proof.
  induction s as [|c s (a & E & A & H)]; simpl; [exists []; repeat split; simpl; try tauto; discriminate|]. destruct (p c) eqn:P.
  - exists (c :: a). split; [simpl; now rewrite <- E|]. split; [|assumption]. intros x [<-|I]; auto.
  - exists []. split; [reflexivity|]. split; [simpl; tauto|]. intros x r K. injection K as <- _. assumption.
Qed.
Lemma rstrip_spec p s : exists b, s = rstrip_of p s ++ b /\ (forall c, In c b -> p c = true) /\ (forall c r, rstrip_of p s = r ++ [c] -> p c = false).
Proof.
  destruct (dropwhile_spec p (rev s)) as (a & E & A & H). exists (rev a). unfold rstrip_of. split; [rewrite <- rev_app_distr, <- E; symmetry; apply rev_involutive|].
  split; [intros c I; apply A; now apply in_rev|]. intros c r K. apply (H c (rev r)). rewrite <- (rev_involutive (dropwhile p (rev s))), K, rev_app_distr. reflexivity.
Qed.
Lemma strip_spec s : stripped is_space s (py_strip s).
Proof.
  unfold py_strip. destruct (dropwhile_spec is_space s) as (a & E & A & H). destruct (rstrip_spec is_space (dropwhile is_space s)) as (b & E2 & B & H2).
  exists a, b. split; [rewrite <- E2; exact E|]. split; [assumption|]. split; [assumption|]. split; [|assumption].
  intros c r K. rewrite K in E2. apply (H c (r ++ b)). rewrite E2. reflexivity.
Qed.
Lemma app_inv_split {A} (p : A -> bool) (a1 a2 m1 m2 : list A) : a1 ++ m1 = a2 ++ m2 ->
  (forall c, In c a1 -> p c = true) -> (forall c, In c a2 -> p c = true) -> (forall c r, m1 = c :: r -> p c = false) -> (forall c r, m2 = c :: r -> p c = false) -> a1 = a2 /\ m1 = m2.
Proof.
  revert a2. induction a1 as [|x a1 IH]; intros [|y a2] E A1 A2 M1 M2; simpl in *.
  - auto.
  - exfalso. specialize (M1 _ _ E). rewrite A2 in M1; auto. discriminate.
  - exfalso. specialize (M2 _ _ (eq_sym E)). rewrite A1 in M2; auto. discriminate.
  - injection E as -> E. destruct (IH a2 E) as [-> ->]; auto.
Qed.
Lemma stripped_unique p s m m' : stripped p s m -> stripped p s m' -> m = m'.
Proof.
  intros (a & b & E & A & B & H & L) (a' & b' & E' & A' & B' & H' & L').
  destruct m as [|c m], m' as [|c' m']; [reflexivity| | |].
  - exfalso. simpl in E. assert (p c' = true); [|specialize (H' _ _ eq_refl); congruence].
    assert (In c' (a ++ b)) as I by (rewrite <- E, E'; apply in_or_app; right; simpl; auto). apply in_app_or in I. destruct I; auto.
  - exfalso. simpl in E'. assert (p c = true); [|specialize (H _ _ eq_refl); congruence].
    assert (In c (a' ++ b')) as I by (rewrite <- E', E; apply in_or_app; right; simpl; auto). apply in_app_or in I. destruct I; auto.
  - assert ((c :: m) ++ b = (c' :: m') ++ b') as E2.
    { apply (app_inv_split p a a'); auto; [congruence| |]; intros x r K; simpl in K; injection K as <- _; [eapply H|eapply H']; reflexivity. }
    assert (rev b ++ rev (c :: m) = rev b' ++ rev (c' :: m')) as E3 by (rewrite <- !rev_app_distr; congruence).
    destruct (app_inv_split p _ _ _ _ E3) as [_ E4].
    + intros x I. apply B. now apply in_rev.
    + intros x I. apply B'. now apply in_rev.
    + intros x r K. apply (L x (rev r)). rewrite <- (rev_involutive (c :: m)), K. simpl. reflexivity.
    + intros x r K. apply (L' x (rev r)). rewrite <- (rev_involutive (c' :: m')), K. simpl. reflexivity.
    + rewrite <- (rev_involutive (c :: m)), E4, rev_involutive. reflexivity.
Qed.
(** A string without white space at its ends. *)
Definition trim (s : str) : Prop := (forall c r, s = c :: r -> is_space c = false) /\ (forall c r, s = r ++ [c] -> is_space c = false).
Lemma strip_trim s : trim s -> py_strip s = s.
Proof.
  intros [H L]. apply (stripped_unique is_space s); [apply strip_spec|]. exists [], []. split; [simpl; now rewrite app_nil_r|]. repeat split; simpl; try tauto; assumption.
Qed.
Lemma strip_trim_lf s : trim s -> py_strip (s ++ [LF]) = s.
Proof.
  intros [H L]. apply (stripped_unique is_space (s ++ [LF])); [apply strip_spec|]. exists [], [LF]. split; [reflexivity|]. repeat split; simpl; try tauto; try assumption.
  intros c [<-|[]]. reflexivity.
Qed.

(** Lines *)
Lemma text_lines_concat s : concat (text_lines s) = s.
Proof.
  induction s as [|c s IH]; [reflexivity|]. simpl. destruct (N.eqb_spec c LF) as [->|N]; [simpl; now rewrite IH|]. destruct (text_lines s) as [|l ls]; simpl in *; now rewrite IH.
Qed.
Lemma text_lines_line l s : ~ In LF l -> text_lines (l ++ LF :: s) = (l ++ [LF]) :: text_lines s.
Proof.
  induction l as [|c l IH]; intros N; [reflexivity|]. simpl. destruct (N.eqb_spec c LF) as [->|NE]; [destruct N; simpl; auto|]. rewrite IH; [reflexivity|]. intros I. apply N. simpl; auto.
Qed.
Lemma text_lines_last l : ~ In LF l -> l <> [] -> text_lines l = [l].
Proof.
  induction l as [|c l IH]; intros N E; [congruence|]. simpl. destruct (N.eqb_spec c LF) as [->|NE]; [destruct N; simpl; auto|]. destruct l as [|d l]; [reflexivity|].
  rewrite IH; [reflexivity| |discriminate]. intros I. apply N. simpl in *; auto.
Qed.
Lemma text_lines_shape s : exists ls t, text_lines s = map (fun l => l ++ [LF]) ls ++ t /\ (t = [] \/ exists l, t = [l] /\ l <> [] /\ ~ In LF l) /\ (forall l, In l ls -> ~ In LF l).
Proof.
  induction s as [|c s (ls & t & E & T & H)]; simpl; [exists [], []; simpl; tauto|]. destruct (N.eqb_spec c LF) as [->|N].
  - exists ([] :: ls), t. rewrite E. split; [reflexivity|]. split; [assumption|]. intros l [<-|I]; [simpl; tauto|auto].
  - rewrite E. destruct ls as [|l ls]; simpl.
    + destruct T as [->|(l & -> & L & K)]; simpl.
      * exists [], [[c]]. split; [reflexivity|]. split; [|simpl; tauto]. right. exists [c]. split; [reflexivity|]. split; [discriminate|]. intros [X|[]]. congruence.
      * exists [], [c :: l]. split; [reflexivity|]. split; [|simpl; tauto]. right. exists (c :: l). split; [reflexivity|]. split; [discriminate|]. intros [X|X]; [congruence|auto].
    + exists ((c :: l) :: ls), t. split; [reflexivity|]. split; [assumption|]. intros x [<-|I]; [|apply H; simpl; auto]. intros [X|X]; [congruence|]. apply (H l); simpl; auto.
Qed.
Lemma rstrip_lf_line l : ~ In LF l -> rstrip_lf (l ++ [LF]) = l.
Proof.
  intros N. unfold rstrip_lf, rstrip_of. rewrite rev_app_distr. cbn [rev app dropwhile]. change (LF =? LF)%N with true. cbn iota.
  destruct (rev l) as [|c r] eqn:E; simpl; [apply (f_equal (@rev BinNums.N)) in E; rewrite rev_involutive in E; now subst|].
  destruct (N.eqb_spec c LF) as [->|NE]; [destruct N; apply in_rev; rewrite E; simpl; auto|]. change (rev (c :: r) = l). rewrite <- E. apply rev_involutive.
Qed.
Lemma rstrip_lf_last l : ~ In LF l -> rstrip_lf l = l.
Proof.
  intros N. unfold rstrip_lf, rstrip_of. destruct (rev l) as [|c r] eqn:E; [apply (f_equal (@rev BinNums.N)) in E; rewrite rev_involutive in E; now subst|]. simpl.
  destruct (N.eqb_spec c LF) as [->|NE]; [destruct N; apply in_rev; rewrite E; simpl; auto|]. change (rev (c :: r) = l). rewrite <- E. apply rev_involutive.
Qed.
Lemma concat_map_lines ls : concat (map (fun l => l ++ [LF]) ls) = flat_map (fun l => l ++ [LF]) ls.
Proof. symmetry. apply flat_map_concat_map. Qed.
Lemma rstripped_lines_of s : lines_of s (map rstrip_lf (text_lines s)).
Proof.
  destruct (text_lines_shape s) as (ls & t & E & T & H). assert (C := text_lines_concat s). rewrite E in *. rewrite concat_app, concat_map_lines in C. rewrite map_app, map_map.
  assert (map (fun l => rstrip_lf (l ++ [LF])) ls = ls) as Em. { rewrite <- (map_id ls) at 2. apply map_ext_in. intros l I. apply rstrip_lf_line. auto. }
  rewrite Em. destruct T as [->|(l & -> & L & K)]; simpl in *.
  - rewrite app_nil_r in *. split; [assumption|]. left. simpl. symmetry. assumption.
  - rewrite (rstrip_lf_last l K), app_nil_r in *. split; [intros x I; apply in_app_or in I; destruct I as [I|[<-|[]]]; auto|]. right. exists ls, l. auto.
Qed.
Lemma lines_of_unique s : forall a b, lines_of s a -> lines_of s b -> a = b.
Proof.
  intros a b (A & Ha) (B & Hb).
  assert (forall ls, (forall l, In l ls -> ~ In LF l) -> forall s, s = flat_map (fun l => l ++ [LF]) ls -> text_lines s = map (fun l => l ++ [LF]) ls) as T1.
  { clear. induction ls as [|l ls IH]; intros H s ->; [reflexivity|]. cbn [flat_map map]. rewrite <- app_assoc. simpl. rewrite text_lines_line by (apply H; simpl; auto). f_equal. apply IH; [|reflexivity]. intros; apply H; simpl; auto. }
  assert (forall ls l, (forall l, In l ls -> ~ In LF l) -> ~ In LF l -> l <> [] -> text_lines (flat_map (fun l => l ++ [LF]) ls ++ l) = map (fun l => l ++ [LF]) ls ++ [l]) as T2.
  { clear. induction ls as [|l' ls IH]; intros l H N L; [simpl; now apply text_lines_last|]. cbn [flat_map map app]. rewrite <- !app_assoc. simpl. rewrite text_lines_line by (apply H; simpl; auto). f_equal. apply IH; auto. intros; apply H; simpl; auto. }
  assert (forall ls, (forall l, In l ls -> ~ In LF l) -> (s = flat_map (fun l => l ++ [LF]) ls \/ exists r l, ls = r ++ [l] /\ l <> [] /\ s = flat_map (fun l => l ++ [LF]) r ++ l) -> map rstrip_lf (text_lines s) = ls) as T.
  { intros ls H [E|(r & l & -> & L & E)].
    - rewrite (T1 ls H s E), map_map. rewrite <- (map_id ls) at 2. apply map_ext_in. intros l I. apply rstrip_lf_line. auto.
    - rewrite E, T2; [|intros; apply H; apply in_or_app; auto|apply H; apply in_or_app; simpl; auto|assumption]. rewrite map_app, map_map. simpl. rewrite rstrip_lf_last by (apply H; apply in_or_app; simpl; auto).
      f_equal. rewrite <- (map_id r) at 2. apply map_ext_in. intros x I. apply rstrip_lf_line. apply H. apply in_or_app; auto. }
  rewrite <- (T a A Ha). now apply T.
Qed.

(** Universal newlines *)
Lemma universal_no_cr n : forall s, (length s <= n)%nat -> ~ In CR (universal_newlines s).
Proof.
  induction n as [|n IH]; intros [|c s] L; simpl in *; try tauto; [lia|]. destruct (N.eqb_spec c CR) as [->|N].
  - intros [X|X]; [discriminate|]. destruct s as [|d s]; [destruct X|]. simpl in L. destruct (d =? LF)%N; (apply IH in X; [assumption|simpl; lia]).
  - intros [X|X]; [congruence|]. apply IH in X; [assumption|lia].
Qed.
Lemma universal_id s : ~ In CR s -> universal_newlines s = s.
Proof.
  induction s as [|c s IH]; intros N; [reflexivity|]. simpl. destruct (N.eqb_spec c CR) as [->|NE]; [destruct N; simpl; auto|]. f_equal. apply IH. intros I. apply N. simpl; auto.
Qed.
Lemma universal_id_iff s : universal_newlines s = s <-> ~ In CR s.
Proof. split; [intros <-; now apply (universal_no_cr (length s))|apply universal_id]. Qed.
Lemma universal_idem s : universal_newlines (universal_newlines s) = universal_newlines s.
Proof. apply universal_id. now apply (universal_no_cr (length s)). Qed.
Lemma universal_nil s : universal_newlines s = [] <-> s = [].
Proof. destruct s as [|c s]; simpl; [tauto|]. destruct (c =? CR)%N; split; discriminate. Qed.
Lemma universal_app_lf s t : ~ In CR s -> universal_newlines (s ++ t) = s ++ universal_newlines t.
Proof. induction s as [|c s IH]; intros N; [reflexivity|]. simpl. destruct (N.eqb_spec c CR) as [->|NE]; [destruct N; simpl; auto|]. f_equal. apply IH. intros I. apply N. simpl; auto. Qed.

(** str.splitlines *)
Lemma splitlines_line l c r : (forall d, In d l -> line_break d = false) -> line_break c = true -> c <> CR -> splitlines (l ++ c :: r) = l :: splitlines r.
Proof.
  intros H B N. induction l as [|d l IH]; simpl.
  - rewrite B. destruct (N.eqb_spec c CR); [congruence|reflexivity].
  - rewrite H by (simpl; auto). rewrite IH by (intros; apply H; simpl; auto). reflexivity.
Qed.
Lemma splitlines_last l : (forall d, In d l -> line_break d = false) -> l <> [] -> splitlines l = [l].
Proof.
  induction l as [|d l IH]; intros H N; [congruence|]. simpl. rewrite H by (simpl; auto). destruct l as [|e l]; [reflexivity|]. rewrite IH; [reflexivity|intros; apply H; simpl in *; auto|discriminate].
Qed.
