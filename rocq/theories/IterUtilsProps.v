(** * Properties C37, C38: sliding windows, drop, only, get_only *)
From Verif Require Import Prelude IterUtils.

(** A stream is an iterator if StopIteration is final. *)
Definition iterator {A} (s : nat -> option A) : Prop := forall i, s i = None -> s (S i) = None.
(** Specification: the elements at positions [i, i+w) that exist. *)
Definition slice {A} (s : nat -> option A) (i w : nat) : list A :=
  flat_map (fun j => match s j with Some a => [a] | None => [] end) (seq i w).
(** what the i-th [next()] on the windows must return *)
Definition complete_window {A} (s : nat -> option A) (w i : nat) : option (list A) :=
  match s (i + w - 1) with Some _ => Some (slice s i w) | None => None end.
Definition partial_window {A} (s : nat -> option A) (w i : nat) : option (list A) :=
  match s i with Some _ => Some (slice s i w) | None => None end.

Section P.
Context {A : Type}.
Variable s : nat -> option A.
Hypothesis I : iterator s.
Lemma none_up i j : i <= j -> s i = None -> s j = None.
Proof using I. intros L H. induction L; auto. Qed.
Lemma some_down i j : i <= j -> s j <> None -> s i <> None.
Proof using I. intros L H K. apply H. eapply none_up; eauto. Qed.
Lemma slice_none i w : s i = None -> slice s i w = [].
Proof using I.
  unfold slice. intros H. assert (K : forall j, i <= j -> s j = None) by (intros; eapply none_up; eauto). clear H.
  revert i K. induction w as [|w IH]; intros i K; simpl; [reflexivity|]. rewrite K by lia. simpl. apply IH. intros; apply K; lia.
Qed.
Lemma slice_app i w v : slice s i (w + v) = slice s i w ++ slice s (i + w) v.
Proof using. unfold slice. rewrite seq_app. apply flat_map_app. Qed.
Lemma slice_len i w : (w = 0 \/ s (i + w - 1) <> None) -> length (slice s i w) = w.
Proof using I.
  revert i. induction w as [|w IH]; intros i H; [reflexivity|]. destruct H as [H|H]; [lia|].
  assert (s i <> None) by (eapply some_down; [|exact H]; lia).
  change (slice s i (S w)) with ((match s i with Some a => [a] | None => [] end) ++ slice s (S i) w).
  destruct (s i); [|congruence]. simpl. f_equal. apply IH. destruct w; [auto|right].
  now replace (S i + S w - 1) with (i + S (S w) - 1) by lia.
Qed.
Lemma slice_short i w : w <> 0 -> s (i + w - 1) = None -> length (slice s i w) < w.
Proof using I.
  revert i. induction w as [|w IH]; intros i Hw H; [lia|].
  change (slice s i (S w)) with ((match s i with Some a => [a] | None => [] end) ++ slice s (S i) w).
  destruct (s i) eqn:E; [|rewrite slice_none; simpl; [lia|now apply I]]. simpl. destruct w as [|w].
  - replace (i + 1 - 1) with i in H by lia. congruence.
  - assert (length (slice s (S i) (S w)) < S w); [|lia]. apply IH; [lia|].
    now replace (S i + S w - 1) with (i + S (S w) - 1) by lia.
Qed.
Lemma take_slice w pos : exists p, islice_take s w pos = (slice s pos w, p) /\ (s (pos + w - 1) <> None -> p = pos + w) /\
  (forall q, (forall k, k < q -> s k <> None) -> s q = None -> pos <= q -> p = Nat.min (pos + w) q).
Proof using I.
  revert pos. induction w as [|w IH]; intros pos; simpl.
  - exists pos. split; [reflexivity|]. split; [intros; lia|intros; lia].
  - unfold next. destruct (s pos) as [e|] eqn:E.
    + destruct (IH (S pos)) as (p & H & P1 & P2). rewrite H. exists p. split.
      * unfold slice. simpl. now rewrite E.
      * split.
        -- intros N. destruct w as [|w]; [simpl in *|].
           ++ inversion H; subst. lia.
           ++ rewrite P1; [lia|]. now replace (S pos + S w - 1) with (pos + S (S w) - 1) by lia.
        -- intros q Q1 Q2 Q3. rewrite (P2 q); auto; [lia|]. destruct (Nat.eq_dec pos q); [congruence|lia].
    + exists pos. split; [|split].
      * f_equal. symmetry. now apply slice_none.
      * intros N. exfalso. apply N. eapply none_up; [|exact E]. lia.
      * intros q Q1 Q2 Q3. destruct (Nat.eq_dec pos q); [lia|]. exfalso. apply (Q1 pos); auto. lia.
Qed.
Lemma slide w i e : 0 < w -> s (i + w) = Some e -> tl (slice s i w) ++ [e] = slice s (S i) w.
Proof using I.
  intros Hw H. destruct w as [|w]; [lia|].
  assert (s i <> None) by (eapply some_down; [|rewrite H; discriminate]; lia).
  change (slice s i (S w)) with ((match s i with Some a => [a] | None => [] end) ++ slice s (S i) w).
  destruct (s i); [|congruence]. simpl. replace (S w) with (w + 1) by lia. rewrite slice_app.
  f_equal. unfold slice. simpl. replace (S (i + w)) with (i + S w) by lia. now rewrite H.
Qed.
Lemma append_slide w i e : 0 < w -> s (i + w) = Some e -> deque_append w (slice s i w) e = slice s (S i) w.
Proof using I.
  intros Hw H. unfold deque_append. rewrite slice_len.
  - rewrite Nat.ltb_irrefl. now apply slide.
  - right. eapply some_down; [|rewrite H; discriminate]. lia.
Qed.
Lemma complete_done w k p : nexts (complete_step s w) k GDone p = (repeat None k, p).
Proof using. induction k; simpl; [reflexivity|]. now rewrite IHk. Qed.
Lemma repeat_map {B} (f : nat -> option B) k i : (forall j, i <= j -> f j = None) -> repeat None k = map f (seq i k).
Proof using. revert i. induction k; intros i H; simpl; [reflexivity|]. rewrite H by lia. f_equal. apply IHk. intros; apply H; lia. Qed.
Lemma complete_loop w k : 0 < w -> forall i, s (i + w - 1) <> None ->
  exists p, nexts (complete_step s w) k (GLoop (slice s i w)) (i + w) = (map (complete_window s w) (seq (S i) k), p) /\
  p <= i + w + k.
Proof using I.
  intros Hw. induction k as [|k IH]; intros i H; [simpl; eexists; split; [reflexivity|lia]|].
  cbn [nexts complete_step seq map]. unfold next. destruct (s (i + w)) as [e|] eqn:E.
  - rewrite append_slide by assumption. destruct (IH (S i)) as (p & Hn & Hp).
    { replace (S i + w - 1) with (i + w) by lia. congruence. }
    replace (S (i + w)) with (S i + w) by lia. rewrite Hn. exists p. split; [|lia]. f_equal. f_equal.
    unfold complete_window. replace (S i + w - 1) with (i + w) by lia. now rewrite E.
  - rewrite complete_done. exists (i + w). split; [|lia]. f_equal. change (None :: repeat None k) with (repeat (@None (list A)) (S k)).
    apply (repeat_map (complete_window s w) (S k) (S i)). intros j Hj. unfold complete_window.
    rewrite (none_up (i + w) (j + w - 1)); [reflexivity|lia|assumption].
Qed.
Lemma complete_all w k : 0 < w ->
  exists p, nexts (complete_step s w) k GStart 0 = (map (complete_window s w) (seq 0 k), p) /\ (0 < k -> p <= w + k - 1).
Proof using I.
  intros Hw. destruct k as [|k]; [simpl; eexists; split; [reflexivity|lia]|].
  cbn [nexts complete_step seq map]. destruct (take_slice w 0) as (p & H & P1 & _). rewrite H.
  unfold complete_window at 1. simpl (0 + w - 1). destruct (s (w - 1)) as [e|] eqn:E.
  - rewrite slice_len by (right; simpl; congruence). rewrite Nat.ltb_irrefl.
    rewrite P1 by (simpl; congruence). destruct (complete_loop w k Hw 0) as (p' & Hn & Hp); [simpl; congruence|].
    rewrite Hn. exists p'. split; [reflexivity|lia].
  - assert (L := slice_short 0 w). simpl (0 + w - 1) in L. specialize (L ltac:(lia) E).
    apply Nat.ltb_lt in L. rewrite L, complete_done. exists p. split.
    + do 2 f_equal. apply repeat_map. intros j Hj. unfold complete_window. rewrite (none_up (w - 1) (j + w - 1)); [reflexivity|lia|assumption].
    + intros _. assert (B : forall w pos, snd (islice_take s w pos) <= pos + w).
      { clear. induction w as [|w IH]; intros pos; simpl; [lia|]. unfold next. destruct (s pos); simpl; [|lia].
        specialize (IH (S pos)). destruct (islice_take s w (S pos)). simpl in *. lia. }
      specialize (B w 0). rewrite H in B. simpl in B. lia.
Qed.
Lemma partial_done w k p : nexts (partial_step s w) k GDone p = (repeat None k, p).
Proof using. induction k; simpl; [reflexivity|]. now rewrite IHk. Qed.
(** in the tail, all remaining elements are in the window *)
Lemma tl_slice i w : s i <> None -> 0 < w -> tl (slice s i w) = slice s (S i) (w - 1).
Proof using.
  intros H Hw. destruct w as [|w]; [lia|]. simpl. rewrite Nat.sub_0_r.
  change (slice s i (S w)) with ((match s i with Some a => [a] | None => [] end) ++ slice s (S i) w).
  destruct (s i); [reflexivity|congruence].
Qed.
Lemma slice_cut i v w : v <= w -> s (i + v) = None -> slice s i w = slice s i v.
Proof using I.
  intros L H. replace w with (v + (w - v)) by lia. rewrite slice_app, (slice_none (i + v)) by assumption. apply app_nil_r.
Qed.
Lemma partial_tail w pos : forall k i v r, 0 < w -> v <= w -> (s (i + v) = None) -> s i <> None -> (v - 1 <= r) ->
  exists p, (let '(y, g, q) := tail_step (slice s i v) r pos in
   let (ys, q') := nexts (partial_step s w) k g q in (y :: ys, q')) = (map (partial_window s w) (seq (S i) (S k)), p) /\ p = pos.
Proof using I.
  induction k as [|k IH]; intros i v r Hw Hv H Hi Hrv.
  - simpl. unfold tail_step. unfold partial_window.
    assert (0 < v) by (destruct v; [rewrite Nat.add_0_r in H; congruence|lia]).
    destruct (s (S i)) as [e|] eqn:E.
    + assert (1 < v). { destruct v as [|[|v]]; try lia. replace (i + 1) with (S i) in H by lia. congruence. }
      destruct r as [|r]; [lia|]. rewrite tl_slice by (assumption || lia).
      destruct (slice s (S i) (v - 1)) as [|a l] eqn:E2.
      { exfalso. destruct v as [|[|v]]; try lia. unfold slice in E2. simpl in E2. rewrite E in E2. discriminate. }
      simpl. eexists. split; [|reflexivity]. do 2 f_equal. f_equal. rewrite <- E2. symmetry. apply slice_cut; [lia|].
      now replace (S i + (v - 1)) with (i + v) by lia.
    + destruct r as [|r]; [eexists; split; reflexivity|]. rewrite tl_slice by (assumption || lia).
      rewrite slice_none by assumption. eexists; split; reflexivity.
  - unfold tail_step. cbn [seq map]. unfold partial_window at 1.
    assert (0 < v) by (destruct v; [rewrite Nat.add_0_r in H; congruence|lia]).
    assert (DN : s (S i) = None -> (map (partial_window s w) (seq (S (S i)) (S k))) = repeat None (S k)).
    { intros E. symmetry. apply repeat_map. intros j Hj. unfold partial_window. rewrite (none_up (S i) j); [reflexivity|lia|assumption]. }
    destruct (s (S i)) as [e|] eqn:E.
    + assert (1 < v). { destruct v as [|[|v]]; try lia. replace (i + 1) with (S i) in H by lia. congruence. }
      destruct r as [|r]; [lia|]. rewrite tl_slice by (assumption || lia).
      destruct (slice s (S i) (v - 1)) as [|a l] eqn:E2.
      { exfalso. destruct v as [|[|v]]; try lia. unfold slice in E2. simpl in E2. rewrite E in E2. discriminate. }
      rewrite <- E2. cbn [nexts partial_step].
      destruct (IH (S i) (v - 1) r) as (p & Hn & Hp); try lia; try congruence.
      { now replace (S i + (v - 1)) with (i + v) by lia. }
      cbn [seq map] in Hn. destruct (tail_step (slice s (S i) (v - 1)) r pos) as [[y g] q].
      destruct (nexts (partial_step s w) k g q) as [ys q']. inversion Hn; subst. eexists. split; [|reflexivity].
      f_equal. f_equal. f_equal. symmetry. apply slice_cut; [lia|].
      now replace (S i + (v - 1)) with (i + v) by lia.
    + cbn [seq map] in DN. rewrite DN by reflexivity. destruct r as [|r].
      * rewrite partial_done. eexists; split; reflexivity.
      * rewrite tl_slice by (assumption || lia). rewrite slice_none by assumption. rewrite partial_done. eexists; split; reflexivity.
Qed.
Lemma partial_loop w k : 0 < w -> forall i, s (i + w - 1) <> None ->
  exists p, nexts (partial_step s w) k (GLoop (slice s i w)) (i + w) = (map (partial_window s w) (seq (S i) k), p) /\ p <= i + w + k.
Proof using I.
  intros Hw. induction k as [|k IH]; intros i H; [simpl; eexists; split; [reflexivity|lia]|].
  cbn [nexts partial_step]. unfold next. destruct (s (i + w)) as [e|] eqn:E.
  - cbn [seq map]. rewrite append_slide by assumption. destruct (IH (S i)) as (p & Hn & Hp).
    { replace (S i + w - 1) with (i + w) by lia. congruence. }
    replace (S (i + w)) with (S i + w) by lia. rewrite Hn. exists p. split; [|lia]. f_equal. f_equal.
    unfold partial_window. assert (s (S i) <> None) by (eapply some_down; [|rewrite E; discriminate]; lia).
    destruct (s (S i)); [reflexivity|congruence].
  - destruct (partial_tail w (i + w) k i w (w - 1)) as (p & Hn & Hp); try lia; auto.
    { eapply some_down; [|exact H]. lia. }
    exists p. split; [|lia]. exact Hn.
Qed.
Lemma partial_all w k : 0 < w ->
  exists p, nexts (partial_step s w) k GStart 0 = (map (partial_window s w) (seq 0 k), p) /\ (0 < k -> p <= w + k - 1).
Proof using I.
  intros Hw. destruct k as [|k]; [simpl; eexists; split; [reflexivity|lia]|].
  cbn [nexts partial_step seq map]. destruct (take_slice w 0) as (p & H & P1 & _).
  assert (B : forall w pos, snd (islice_take s w pos) <= pos + w).
  { clear. induction w as [|w IH]; intros pos; simpl; [lia|]. unfold next. destruct (s pos); simpl; [|lia].
    specialize (IH (S pos)). destruct (islice_take s w (S pos)). simpl in *. lia. }
  specialize (B w 0). rewrite H in B. simpl in B. rewrite H.
  unfold partial_window at 1. destruct (s 0) as [e0|] eqn:E0.
  - destruct (slice s 0 w) as [|a l] eqn:ES.
    { exfalso. destruct w; [lia|]. unfold slice in ES. simpl in ES. rewrite E0 in ES. discriminate. }
    rewrite <- ES in *. clear a l ES. destruct (s (w - 1)) as [e|] eqn:E.
    + rewrite P1 by (simpl; congruence). destruct (partial_loop w k Hw 0) as (p' & Hn & Hp); [simpl; congruence|].
      rewrite Hn. exists p'. split; [reflexivity|lia].
    + (* fewer than w elements: p = the number of elements *)
      assert (T : exists v, v < w /\ s v = None /\ (forall j, j < v -> s j <> None) /\ slice s 0 w = slice s 0 v /\ p = v).
      { assert (exists v, v < w /\ s v = None /\ (forall j, j < v -> s j <> None)) as (v & V1 & V2 & V3).
        { assert (G : forall m, s m = None -> exists v, v <= m /\ s v = None /\ (forall j, j < v -> s j <> None)).
          { clear. induction m as [m IH] using lt_wf_ind. intros E.
            assert (D : (exists j, j < m /\ s j = None) \/ (forall j, j < m -> s j <> None)).
            { clear. induction m as [|m [(j & L & H)|H]]; [right; lia|left; exists j; split; [lia|assumption]|].
              destruct (s m) eqn:E; [|left; exists m; split; [lia|assumption]].
              right. intros j L. destruct (Nat.eq_dec j m); [congruence|apply H; lia]. }
            destruct D as [(j & L & Hj)|D]; [|exists m; auto].
            destruct (IH j L Hj) as (v & V1 & V2). exists v. split; [lia|assumption]. }
          destruct (G (w - 1) E) as (v & V1 & V2). exists v. split; [lia|assumption]. }
        destruct (take_slice w 0) as (p2 & H2 & _ & P3). rewrite H in H2. inversion H2; subst p2.
        exists v. repeat split; auto; [apply slice_cut; [lia|assumption]|]. rewrite (P3 v); auto; lia. }
      destruct T as (v & V1 & V2 & V3 & V4 & V5). subst p.
      destruct k as [|k]; [simpl; eexists; split; [reflexivity|lia]|]. cbn [nexts partial_step]. unfold next. rewrite V2, V4.
      destruct (partial_tail w v k 0 v (w - 1)) as (p & Hn & Hp); try lia; auto; [congruence|].
      exists p. split; [|lia]. revert Hn. destruct (tail_step (slice s 0 v) (w - 1) v) as [[y g] q]. destruct (nexts (partial_step s w) k g q) as [ys q'].
      intros Hn. injection Hn; intros; subst; reflexivity.
  - rewrite slice_none by assumption. rewrite partial_done. exists p. split; [|lia]. do 2 f_equal.
    apply repeat_map. intros j Hj. unfold partial_window. rewrite (none_up 0 j); [reflexivity|lia|assumption].
Qed.
End P.

(** ** C37: windowed *)
(** windowed(it, w): the i-th [next()] (counted from 0) returns the tuple of the w elements from
    position i on if all of them exist and raises StopIteration otherwise; k calls advance the
    underlying iterator by at most w + k - 1 elements (so it works on infinite iterators). *)
Theorem C37_windowed_complete : forall A (s : nat -> option A) (w : nat) k, iterator s -> 0 < w ->
  exists step p, windowed s (Z.of_nat w) false = Ok step /\
    nexts step k GStart 0 = (map (complete_window s w) (seq 0 k), p) /\ (0 < k -> p <= w + k - 1).
Proof.
  intros A s w k I Hw. destruct (complete_all s I w k Hw) as (p & H & B).
  exists (complete_step s w), p. split; [|split; assumption]. unfold windowed.
  replace (Z.of_nat w >=? 1)%Z with true by lia. now rewrite Nat2Z.id.
Qed.
(** with partial windows: one window per element, truncated at the end *)
Theorem C37_windowed_partial_windows : forall A (s : nat -> option A) (w : nat) k, iterator s -> 0 < w ->
  exists step p, windowed s (Z.of_nat w) true = Ok step /\
    nexts step k GStart 0 = (map (partial_window s w) (seq 0 k), p) /\ (0 < k -> p <= w + k - 1).
Proof.
  intros A s w k I Hw. destruct (partial_all s I w k Hw) as (p & H & B).
  exists (partial_step s w), p. split; [|split; assumption]. unfold windowed.
  replace (Z.of_nat w >=? 1)%Z with true by lia. now rewrite Nat2Z.id.
Qed.
Theorem C37_bad_size : forall A (s : nat -> option A) w b, (w < 1)%Z -> windowed s w b = Raise ValueError.
Proof. intros. unfold windowed. now replace (w >=? 1)%Z with false by lia. Qed.

(** Exhausting the windows of a list gives exactly its contiguous slices, in order. *)
Lemma list_iterator {A} (l : list A) : iterator (nth_error l).
Proof. intros i H. apply nth_error_None in H. apply nth_error_None. lia. Qed.
Lemma list_slice {A} (l : list A) w i : slice (nth_error l) i w = firstn w (skipn i l).
Proof.
  unfold slice. revert i. induction w as [|w IH]; intros i; simpl; [reflexivity|]. rewrite IH.
  destruct (nth_error l i) eqn:E.
  - destruct (skipn i l) as [|b r] eqn:S1.
    + assert (L := skipn_length i l). rewrite S1 in L. simpl in L. assert (nth_error l i <> None) by congruence.
      apply nth_error_Some in H. lia.
    + assert (b = a /\ skipn (S i) l = r).
      { clear IH. revert l E S1. induction i as [|i IH]; intros [|x l] E S1; simpl in *; try discriminate.
        - inversion E; inversion S1; subst; auto.
        - destruct (IH l E S1) as [-> H]. split; [reflexivity|exact H]. }
      destruct H as [-> ->]. reflexivity.
  - apply nth_error_None in E. rewrite !skipn_all2 by lia. now rewrite !firstn_nil.
Qed.
(** iterating to exhaustion: [ys], then StopIteration *)
Definition exhausts_to {A} (step : gen_state A -> nat -> option (list A) * gen_state A * nat) (ys : list (list A)) : Prop :=
  exists p, nexts step (S (length ys)) GStart 0 = (map Some ys ++ [None], p).
Theorem C37_windows_of_list : forall A (l : list A) (w : nat), 0 < w ->
  exists step, windowed (nth_error l) (Z.of_nat w) false = Ok step /\
    exhausts_to step (map (fun i => firstn w (skipn i l)) (seq 0 (S (length l) - w))).
Proof.
  intros A l w Hw. set (n := S (length l) - w).
  destruct (C37_windowed_complete A (nth_error l) w (S n) (list_iterator l) Hw) as (step & p & H1 & H2 & _).
  exists step. split; [assumption|]. exists p. rewrite map_length, seq_length, H2. f_equal.
  rewrite seq_S, map_app, map_map. f_equal.
  - apply map_ext_in. intros i Hi. apply in_seq in Hi. unfold complete_window.
    destruct (nth_error l (i + w - 1)) eqn:E; [now rewrite list_slice|]. apply nth_error_None in E. lia.
  - simpl. unfold complete_window. destruct (nth_error l (n + w - 1)) eqn:E; [|reflexivity].
    assert (nth_error l (n + w - 1) <> None) by congruence. apply nth_error_Some in H. lia.
Qed.
Theorem C37_partial_windows_of_list : forall A (l : list A) (w : nat), 0 < w ->
  exists step, windowed (nth_error l) (Z.of_nat w) true = Ok step /\
    exhausts_to step (map (fun i => firstn w (skipn i l)) (seq 0 (length l))).
Proof.
  intros A l w Hw. set (n := length l).
  destruct (C37_windowed_partial_windows A (nth_error l) w (S n) (list_iterator l) Hw) as (step & p & H1 & H2 & _).
  exists step. split; [assumption|]. exists p. rewrite map_length, seq_length, H2. f_equal.
  rewrite seq_S, map_app, map_map. f_equal.
  - apply map_ext_in. intros i Hi. apply in_seq in Hi. unfold partial_window.
    destruct (nth_error l i) eqn:E; [now rewrite list_slice|]. apply nth_error_None in E. lia.
  - simpl. unfold partial_window. destruct (nth_error l n) eqn:E; [|reflexivity].
    assert (nth_error l n <> None) by congruence. apply nth_error_Some in H. lia.
Qed.
Example C37_witness :
  (exists step, windowed (nth_error [1;2;3;4]) 3 false = Ok step /\ exhausts_to step [[1;2;3];[2;3;4]]) /\
  (exists step, windowed (nth_error [1;2;3;4]) 3 true = Ok step /\ exhausts_to step [[1;2;3];[2;3;4];[3;4];[4]]) /\
  (exists step, windowed (nth_error [1;2]) 5 true = Ok step /\ exhausts_to step [[1;2];[2]]) /\
  (exists step p, windowed (fun i => Some i) 2 false = Ok step /\ nexts step 3 GStart 0 = ([Some [0;1];Some [1;2];Some [2;3]], p)).
Proof.
  split; [|split; [|split]]; eexists; try (split; [reflexivity|eexists; reflexivity]).
  eexists. split; reflexivity.
Qed.
(** tile_with_pairs is the adjacent pairs. *)
Theorem C37_tile_with_pairs : forall A (l : list A),
  exists step, tile_with_pairs (nth_error l) = Ok step /\
    exhausts_to step (map (fun p => [fst p; snd p]) (combine l (tl l))).
Proof.
  intros A l. destruct (C37_windows_of_list A l 2 ltac:(lia)) as (step & H1 & H2). exists step. split; [exact H1|].
  replace (map (fun p => [fst p; snd p]) (combine l (tl l))) with (map (fun i => firstn 2 (skipn i l)) (seq 0 (S (length l) - 2))); [assumption|].
  clear. destruct l as [|a l]; [reflexivity|]. simpl. rewrite Nat.sub_0_r. revert a. induction l as [|b l IH]; intros a; [reflexivity|].
  cbn [length seq map]. rewrite <- seq_shift, map_map. simpl. f_equal. apply IH.
Qed.

(** ** C38: drop, only, get_only, non_none *)
(** drop(it, n): the i-th [next()] returns element n + i of the underlying iterator. *)
Theorem C38_drop : forall A (s : nat -> option A) (n k : nat), iterator s ->
  exists p, drop (Z.of_nat n) = Ok n /\ nexts (drop_step s) k n 0 = (map s (seq n k), p).
Proof.
  intros A s n k I. unfold drop. replace (Z.of_nat n >=? 0)%Z with true by lia. rewrite Nat2Z.id.
  assert (SK : forall n pos, (skip s n pos = pos + n /\ (n = 0 \/ s (pos + n - 1) <> None)) \/ (s (skip s n pos) = None /\ s (pos + n) = None)).
  { clear n k. induction n as [|n IH]; intros pos; simpl; [left; split; [lia|auto]|].
    unfold next. destruct (s pos) eqn:E.
    - destruct (IH (S pos)) as [[H1 H2]|[H1 H2]].
      + left. split; [lia|]. right. destruct H2 as [->|H2]; [replace (pos + 1 - 1) with pos by lia; congruence|].
        destruct n; [replace (pos + 1 - 1) with pos by lia; congruence|]. now replace (pos + S (S n) - 1) with (S pos + S n - 1) by lia.
      + right. split; [assumption|]. now replace (pos + S n) with (S pos + n) by lia.
    - right. split; [assumption|]. eapply none_up; [exact I| |exact E]. lia. }
  assert (Z0 : forall k pos, exists p, nexts (drop_step s) k 0 pos = (map s (seq pos k), p) \/ False).
  { clear k. induction k as [|k IH]; intros pos; simpl; [eexists; left; reflexivity|].
    unfold drop_step at 1. simpl. unfold next. destruct (s pos) eqn:E.
    - destruct (IH (S pos)) as (p & [H|[]]). rewrite H. eexists. left. reflexivity.
    - destruct (IH pos) as (p & [H|[]]). rewrite H. exists p. left. f_equal. f_equal.
      assert (N : forall k q, pos <= q -> map s (seq q k) = repeat None k).
      { clear - I E. induction k as [|k IH]; intros q L; simpl; [reflexivity|]. rewrite (none_up s I pos q L E). f_equal. apply IH. lia. }
      rewrite !N by lia. reflexivity. }
  destruct k as [|k]; [eexists; split; reflexivity|]. cbn [nexts seq map]. unfold drop_step at 1. unfold next.
  destruct (SK n 0) as [[H1 H2]|[H1 H2]]; simpl in H1, H2.
  - rewrite H1. destruct (s n) eqn:E.
    + destruct (Z0 k (S n)) as (p & [H|[]]). rewrite H. eexists; split; reflexivity.
    + destruct (Z0 k n) as (p & [H|[]]). rewrite H. exists p. split; [reflexivity|]. do 2 f_equal.
      assert (N : forall k q, n <= q -> map s (seq q k) = repeat None k).
      { clear - I E. induction k as [|k IH]; intros q L; simpl; [reflexivity|]. rewrite (none_up s I n q L E). f_equal. apply IH. lia. }
      rewrite !N by lia. reflexivity.
  - rewrite H1, H2. destruct (Z0 k (skip s n 0)) as (p & [H|[]]). rewrite H. exists p. split; [reflexivity|]. do 2 f_equal.
    assert (N : forall m, s m = None -> forall k q, m <= q -> map s (seq q k) = repeat None k).
    { clear - I. intros m E. induction k as [|k IH]; intros q L; simpl; [reflexivity|]. rewrite (none_up s I m q L E). f_equal. apply IH. lia. }
    rewrite (N _ H1), (N _ H2) by lia. reflexivity.
Qed.
Theorem C38_drop_negative : forall n, (n < 0)%Z -> drop n = Raise ValueError.
Proof. intros. unfold drop. now replace (n >=? 0)%Z with false by lia. Qed.
(** on a list: the list without its first n elements *)
Theorem C38_drop_list : forall A (l : list A) (n : nat),
  exists p, nexts (drop_step (nth_error l)) (S (length l - n)) n 0 = (map Some (skipn n l) ++ [None], p).
Proof.
  intros A l n. destruct (C38_drop A (nth_error l) n (S (length l - n)) (list_iterator l)) as (p & _ & H).
  exists p. rewrite H. f_equal. clear. revert n. induction l as [|a l IH]; intros n.
  - rewrite skipn_nil. simpl. destruct n; reflexivity.
  - destruct n as [|n].
    + specialize (IH 0). cbn [skipn]. cbn [length]. rewrite Nat.sub_0_r in *. cbn [seq map nth_error app]. f_equal.
      rewrite skipn_O in IH. rewrite <- IH. cbn [seq map]. rewrite <- seq_shift, map_map. f_equal.
    + simpl skipn. rewrite <- IH. cbn [length]. replace (S (length l) - S n) with (length l - n) by lia.
      rewrite <- seq_shift, map_map. reflexivity.
Qed.

(** only: exactly one element.  The element classes must have the usual [!=] against a foreign
    object. *)
Theorem C38_only : forall A (s : nat -> option A) ne, iterator s -> (forall e, ne e = true) ->
  (forall x, fst (only s ne 0) = Ok x <-> s 0 = Some x /\ s 1 = None) /\
  ((forall x, fst (only s ne 0) <> Ok x) -> fst (only s ne 0) = Raise ValueError) /\ snd (only s ne 0) <= 2.
Proof.
  intros A s ne I H. unfold only, next. destruct (s 0) eqn:E0; simpl.
  - destruct (s 1) eqn:E1; simpl.
    + rewrite H. simpl. repeat split; try lia; try discriminate; [intros [_ K]; discriminate].
    + repeat split; try lia; [congruence|intros [K _]; congruence|intros K; now exfalso; apply (K a)].
  - repeat split; try lia; try discriminate. intros [K _]; discriminate.
Qed.
(** An element that compares equal to everything is missed: only() returns the first of two. *)
Theorem C38_only_equal_to_all_refuted : exists (s : nat -> option bool) ne,
  iterator s /\ s 0 <> None /\ s 1 <> None /\ fst (only s ne 0) = Ok true.
Proof.
  exists (nth_error [true; false]), (fun b => b). repeat split; try discriminate. apply list_iterator.
Qed.
Theorem C38_get_only : forall A (s : nat -> option A), iterator s ->
  (forall x, fst (get_only s 0) = Ok x <-> s 0 = Some x /\ s 1 = None) /\
  ((forall x, fst (get_only s 0) <> Ok x) -> fst (get_only s 0) = Raise ValueError) /\ snd (get_only s 0) <= 2.
Proof.
  intros A s I. unfold get_only, next. destruct (s 0) eqn:E0; simpl.
  - destruct (s 1) eqn:E1; simpl.
    + repeat split; try lia; try discriminate; [intros [_ K]; discriminate].
    + repeat split; try lia; [congruence|intros [K _]; congruence|intros K; now exfalso; apply (K a)].
  - repeat split; try lia; try discriminate. intros [K _]; discriminate.
Qed.
(** the documented LookupError is never raised *)
Theorem C38_only_lookup_error_refuted : forall A (s : nat -> option A) ne, fst (only s ne 0) <> Raise LookupError.
Proof. intros. unfold only, next. destruct (s 0); simpl; [|discriminate]. destruct (s 1); simpl; [destruct (ne a0)|]; simpl; discriminate. Qed.
(** non_none keeps exactly the non-None elements, in order. *)
Theorem C38_non_none : forall A (xs : list (option A)),
  map Some (non_none xs) = filter (fun x => match x with Some _ => true | None => false end) xs.
Proof. intros A xs. unfold non_none. induction xs as [|[a|] xs IH]; simpl; [reflexivity|now f_equal|exact IH]. Qed.
Example C38_witness :
  (exists p, nexts (drop_step (nth_error [1;2;3])) 3 1 0 = ([Some 2; Some 3; None], p)) /\
  fst (only (nth_error [7]) (fun _ => true) 0) = Ok 7 /\ fst (get_only (nth_error [7;8]) 0) = Raise ValueError.
Proof. split; [eexists; reflexivity|split; reflexivity]. Qed.

Print Assumptions C37_windowed_complete.
Print Assumptions C37_windowed_partial_windows.
Print Assumptions C37_partial_windows_of_list.
Print Assumptions C38_drop.
Print Assumptions C38_only.
