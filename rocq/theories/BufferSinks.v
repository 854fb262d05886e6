(** * C110: buffer sinks with any number of handles
    (io_utils.py: StringCharSink 565-583, BufferByteSink 624-642, CharSink.to_string 293-300, ByteSink.to_buffer 429-436, CharSink.write / ByteSink.write 302-310, 447-455)

    Io.buffer_session is a "with sink.open() as out" block alone.  Here any number of sinks and of handles exist at a time, and every call on any of them may happen in any order. *)
From Verif Require Import Prelude.

(** ** Model *)
Section Model.
(** characters and the character 0, or bytes and the byte 0 *)
Variable A : Type.
Variable pad : A.

(** A file-like object opened by a sink: io.StringIO / io.BytesIO (library) with the sink it reports to (io_utils.py:576-583, 635-642): buffer, position, closed *)
Record handle := MkHandle { h_sink : nat; h_buf : list A; h_pos : nat; h_closed : bool }.
(** last_string_written / last_bytes_written of every sink (io_utils.py:573, 632), and the handles *)
Record state := MkState { lasts : list (option (list A)); handles : list handle }.

(** What a program does (io_utils.py:565-583, 624-642): make a sink; open a sink; write (None is something of a wrong type); seek(n); tell(); close(); leave the "with" block (__exit__, with or without an exception: it
    makes no difference) *)
Inductive call := NewSink | Open (sink : nat) | Write (h : nat) (v : option (list A)) | Seek (h : nat) (n : Z) | Tell (h : nat) | Close (h : nat) | Exit (h : nat).
(** What a call returns (io_utils.py:575-583, 634-642) *)
Inductive answer := TheSink (k : nat) | TheHandle (h : nat) | Count (n : nat) | Nothing.

(** write(s) at a position of an object of io_utils.py:578, 637 (StringIO, BytesIO: library): what is there is replaced, a gap after the end is filled up with the character (byte) 0; an empty string changes nothing *)
Definition write_at (buf : list A) (pos : nat) (s : list A) : list A :=
  match s with [] => buf | _ => firstn pos (buf ++ repeat pad (pos - length buf)) ++ s ++ skipn (pos + length s) buf end.
(** replace an element of a list: an attribute is set (io_utils.py:580, 639) *)
Definition put {B} (l : list B) (i : nat) (x : B) : list B := firstn i l ++ x :: skipn (S i) l.
(** A method of a handle (io_utils.py:578-583, 637-642); a closed one raises ValueError whatever is asked (library) *)
Definition with_handle (s : state) (h : nat) (f : handle -> state * res answer) : state * res answer :=
  match nth_error (handles s) h with
  | None => (s, Raise AnyError)
  | Some x => if h_closed x then (s, Raise ValueError) else f x
  end.
(** One call (io_utils.py:565-583, 624-642).  (A sink or handle the program does not have cannot be used; here that is AnyError.) *)
Definition step (s : state) (c : call) : state * res answer :=
  match c with
  | NewSink => (MkState (lasts s ++ [None]) (handles s), Ok (TheSink (length (lasts s))))
  | Open k => if (k <? length (lasts s))%nat then (MkState (lasts s) (handles s ++ [MkHandle k [] 0 false]), Ok (TheHandle (length (handles s)))) else (s, Raise AnyError)
  | Write h v => with_handle s h (fun x => match v with
                   | None => (s, Raise TypeError)
                   | Some w => (MkState (lasts s) (put (handles s) h (MkHandle (h_sink x) (write_at (h_buf x) (h_pos x) w) (h_pos x + length w) false)), Ok (Count (length w)))
                   end)
  | Seek h n => with_handle s h (fun x => if (n <? 0)%Z then (s, Raise ValueError)
                  else (MkState (lasts s) (put (handles s) h (MkHandle (h_sink x) (h_buf x) (Z.to_nat n) false)), Ok (Count (Z.to_nat n))))
  | Tell h => with_handle s h (fun x => (s, Ok (Count (h_pos x))))
  | Close h => match nth_error (handles s) h with
               | None => (s, Raise AnyError)
               | Some x => (MkState (lasts s) (put (handles s) h (MkHandle (h_sink x) (h_buf x) (h_pos x) true)), Ok Nothing)  (* closing again does nothing *)
               end
  (* outer_self.last_string_written = self.getvalue(), which raises if the handle is closed; then super().__exit__, which closes it (io_utils.py:579-581, 638-640) *)
  | Exit h => with_handle s h (fun x => (MkState (put (lasts s) (h_sink x) (Some (h_buf x))) (put (handles s) h (MkHandle (h_sink x) (h_buf x) (h_pos x) true)), Ok Nothing))
  end.
(** A history of calls on the objects of io_utils.py:565-583, 624-642 and what they returned or raised (the program catching the exceptions) *)
Fixpoint run (s : state) (cs : list call) : state * list (call * res answer) :=
  match cs with [] => (s, []) | c :: r => let '(s1, a) := step s c in let '(s2, t) := run s1 r in (s2, (c, a) :: t) end.
(** sink.write(data), io_utils.py:302-310, 447-455: open, write, leave the block; an exception of write is passed on after the block has been left *)
Definition sink_write (s : state) (k : nat) (v : option (list A)) : state * res unit :=
  match step s (Open k) with
  | (s1, Ok (TheHandle h)) => let '(s2, a) := step s1 (Write h v) in let '(s3, b) := step s2 (Exit h) in
                              (s3, match b, a with Raise e, _ | _, Raise e => Raise e | _, _ => Ok tt end)
  | (s1, Ok _) => (s1, Raise AnyError)
  | (s1, Raise e) => (s1, Raise e)
  end.
(** no sinks (io_utils.py:572-573, 631-632), no handles *)
Definition start : state := MkState [] [].
End Model.
Arguments MkHandle {A}. Arguments h_sink {A}. Arguments h_buf {A}. Arguments h_pos {A}. Arguments h_closed {A}. Arguments MkState {A}. Arguments lasts {A}. Arguments handles {A}.
Arguments NewSink {A}. Arguments Open {A}. Arguments Write {A}. Arguments Seek {A}. Arguments Tell {A}. Arguments Close {A}. Arguments Exit {A}.
Arguments run {A}. Arguments step {A}. Arguments sink_write {A}. Arguments write_at {A}. Arguments start {A}. Arguments with_handle {A}.

(** ** Specification: what a history of calls with their answers says *)
Section Spec.
Variable A : Type.
Variable pad : A.
Notation trace := (list (call A * res answer)) (only parsing).

(** the handle was given out by opening the sink *)
Definition opened_from (t : trace) (h k : nat) : Prop := In (Open k, Ok (TheHandle h)) t.
(** somebody has closed the handle, or left its block *)
Definition ended (t : trace) (h : nat) : Prop := exists a, In (Close h, Ok a) t \/ In (Exit h, Ok a) t.
(** The accepted writes of a handle, each with its place: a handle begins at 0, a write moves it behind what it wrote, seek moves it anywhere. *)
Fixpoint placed (h : nat) (pos : nat) (t : trace) : list (nat * list A) :=
  match t with
  | [] => []
  | (Write h' (Some s), Ok _) :: r => if (h' =? h)%nat then (pos, s) :: placed h (pos + length s) r else placed h pos r
  | (Seek h' n, Ok _) :: r => if (h' =? h)%nat then placed h (Z.to_nat n) r else placed h pos r
  | _ :: r => placed h pos r
  end.
(** What the placed writes amount to: at every place the character the last write covering it put there; the character 0 where there was none, up to where the farthest reached. *)
Inductive shows : list (nat * list A) -> nat -> A -> Prop :=
| sh_last ws p s i a : nth_error s i = Some a -> shows (ws ++ [(p, s)]) (p + i) a
| sh_before ws p s i a : (i < p \/ p + length s <= i)%nat -> shows ws i a -> shows (ws ++ [(p, s)]) i a
| sh_gap ws p s i : (forall w, In w ws -> (fst w + length (snd w) <= i)%nat \/ snd w = []) -> (i < p)%nat -> s <> [] -> shows (ws ++ [(p, s)]) i pad.
(** specification *)
Definition text_of (ws : list (nat * list A)) (b : list A) : Prop := forall i a, nth_error b i = Some a <-> shows ws i a.
(** all texts the handle was given, in order *)
Definition written (h : nat) (t : trace) : list A :=
  concat (map (fun e => match e with (Write h' (Some s), Ok _) => if (h' =? h)%nat then s else [] | _ => [] end) t).
End Spec.
Arguments opened_from {A}. Arguments ended {A}. Arguments placed {A}. Arguments shows {A}. Arguments text_of {A}. Arguments written {A}.

(** ** Proofs *)
Section Proofs.
Variable A : Type.
Variable pad : A.
Notation trace := (list (call A * res answer)) (only parsing).
Notation step := (step pad).
Notation run := (run pad).

Lemma put_same {B} (l : list B) i x : (i < length l)%nat -> nth_error (put l i x) i = Some x.
Proof. intros L. unfold put. rewrite nth_error_app2 by (rewrite firstn_length; lia). rewrite firstn_length, Nat.min_l by lia. now rewrite Nat.sub_diag. Qed.
Lemma put_length {B} (l : list B) i x : (i < length l)%nat -> length (put l i x) = length l.
Proof. intros L. unfold put. rewrite app_length, firstn_length. cbn [length]. rewrite skipn_length. lia. Qed.
Lemma nth_firstn {B} (l : list B) n j : (j < n)%nat -> nth_error (firstn n l) j = nth_error l j.
Proof. revert n l. induction j as [|j IH]; intros [|n] l L; try lia; destruct l as [|b l]; cbn; try reflexivity. apply IH. lia. Qed.
Lemma nth_skipn {B} (l : list B) n j : nth_error (skipn n l) j = nth_error l (n + j).
Proof. revert l. induction n as [|n IH]; intros l; [reflexivity|]. destruct l as [|b l]; cbn; [now destruct j|apply IH]. Qed.
Lemma put_other {B} (l : list B) i j x : (i < length l)%nat -> i <> j -> nth_error (put l i x) j = nth_error l j.
Proof.
  intros L N. unfold put. destruct (Nat.ltb_spec j i) as [H|H].
  - rewrite nth_error_app1 by (rewrite firstn_length; lia). now apply nth_firstn.
  - rewrite nth_error_app2 by (rewrite firstn_length; lia). rewrite firstn_length, Nat.min_l by lia. destruct (j - i)%nat as [|m] eqn:E; [lia|]. cbn [nth_error]. rewrite nth_skipn. f_equal. lia.
Qed.
Lemma write_at_nth (b s : list A) p i : s <> [] -> nth_error (write_at pad b p s) i =
  if (i <? p)%nat then (if (i <? length b)%nat then nth_error b i else Some pad) else if (i <? p + length s)%nat then nth_error s (i - p) else nth_error b i.
Proof.
  intros N. destruct s as [|c s0]; [congruence|]. unfold write_at. set (s := c :: s0) in *. clearbody s.
  assert (L : length (firstn p (b ++ repeat pad (p - length b))) = p) by (rewrite firstn_length, app_length, repeat_length; lia).
  destruct (Nat.ltb_spec i p) as [H|H].
  - rewrite nth_error_app1 by lia. rewrite nth_firstn by lia. destruct (Nat.ltb_spec i (length b)); [now rewrite nth_error_app1 by lia|].
    rewrite nth_error_app2 by lia. apply nth_error_repeat. lia.
  - rewrite nth_error_app2 by lia. rewrite L. destruct (Nat.ltb_spec i (p + length s)) as [H1|H1]; [now rewrite nth_error_app1 by lia|].
    rewrite nth_error_app2 by lia. rewrite nth_skipn. f_equal. lia.
Qed.
Lemma shows_nil i a : ~ shows pad [] i a.
Proof. intros H. inversion H as [ws p s j b E Q|ws p s j b E Q|ws p s j E1 E2 E3 Q]; now destruct ws. Qed.
Lemma shows_snoc ws p s i a : shows pad (ws ++ [(p, s)]) i a <->
  (exists j, i = p + j /\ nth_error s j = Some a)%nat \/ ((i < p \/ p + length s <= i)%nat /\ shows pad ws i a) \/ ((forall w, In w ws -> (fst w + length (snd w) <= i)%nat \/ snd w = []) /\ (i < p)%nat /\ s <> [] /\ a = pad).
Proof.
  split.
  - intros H. inversion H as [ws' p' s' j b E Q|ws' p' s' j b E K Q|ws' p' s' j E1 E2 E3 Q]; apply app_inj_tail in Q; destruct Q as (-> & Q); inversion Q; subst; [left; eauto|right; left; eauto|right; right; auto].
  - intros [(j & -> & H)|[(H & K)|(H1 & H2 & H3 & ->)]]; [now apply sh_last|now apply sh_before|now apply sh_gap].
Qed.
(** the writes, one after the other *)
Definition build (ws : list (nat * list A)) : list A := fold_left (fun b w => write_at pad b (fst w) (snd w)) ws [].
Lemma build_snoc ws p s : build (ws ++ [(p, s)]) = write_at pad (build ws) p s.
Proof. unfold build. now rewrite fold_left_app. Qed.
Lemma write_at_length (b s : list A) p : s <> [] -> length (write_at pad b p s) = Nat.max (length b) (p + length s).
Proof.
  intros N. destruct s as [|c s0]; [congruence|]. unfold write_at. set (s := c :: s0) in *. clearbody s. rewrite !app_length, firstn_length, app_length, repeat_length, skipn_length. lia.
Qed.
(** how far the text reaches *)
Lemma reach ws i : (length (build ws) <= i)%nat <-> (forall w, In w ws -> (fst w + length (snd w) <= i)%nat \/ snd w = []).
Proof.
  induction ws as [|[p s] ws IH] using rev_ind; [cbn; split; [intros _ w []|lia]|]. rewrite build_snoc. destruct s as [|c s0].
  - cbn [write_at]. rewrite IH. split; [intros H w I; apply in_app_or in I; destruct I as [I|[<-|[]]]; [auto|now right]|intros H w I; apply H, in_or_app; now left].
  - rewrite write_at_length by discriminate. split.
    + intros L w I. apply in_app_or in I. destruct I as [I|[<-|[]]]; [apply IH; [lia|exact I]|left; cbn [fst snd]; lia].
    + intros H. apply Nat.max_lub; [apply IH; intros w I; apply H, in_or_app; now left|]. destruct (H (p, c :: s0)) as [K|K]; [apply in_or_app; right; now left|exact K|discriminate].
Qed.
Lemma build_text ws : text_of pad ws (build ws).
Proof.
  induction ws as [|[p s] ws IH] using rev_ind; intros i a; [split; [now destruct i|intros H; now apply shows_nil in H]|]. rewrite build_snoc, shows_snoc, <- reach, <- (IH i a). destruct s as [|c s0].
  - cbn [write_at length]. split; [intros H; right; left; split; [lia|exact H]|]. intros [(j & _ & H)|[(_ & H)|(_ & _ & H & _)]]; [now destruct j|exact H|congruence].
  - rewrite write_at_nth by discriminate. set (s := c :: s0) in *. assert (Ns : s <> []) by discriminate. clearbody s. destruct (Nat.ltb_spec i p) as [L|L].
    + destruct (Nat.ltb_spec i (length (build ws))) as [L2|L2].
      * split; [intros H; right; left; split; [lia|exact H]|]. intros [(j & -> & _)|[(_ & H)|(H & _)]]; [lia|exact H|lia].
      * split; [intros H; inversion H; right; right; auto|]. intros [(j & -> & _)|[(_ & H)|(_ & _ & _ & ->)]]; [lia| |reflexivity]. apply nth_error_None in L2. congruence.
    + destruct (Nat.ltb_spec i (p + length s)) as [L2|L2].
      * split; [intros H; left; exists (i - p)%nat; split; [lia|exact H]|]. intros [(j & -> & H)|[(H & _)|(_ & H & _)]]; [replace (p + j - p)%nat with j by lia; exact H|lia|lia].
      * split; [intros H; right; left; split; [lia|exact H]|]. intros [(j & -> & H)|[(_ & H)|(_ & H & _)]]; [|exact H|lia]. assert (nth_error s j <> None) by congruence. apply nth_error_Some in H0. lia.
Qed.
(** where a handle stands *)
Fixpoint place (h : nat) (pos : nat) (t : trace) : nat :=
  match t with
  | [] => pos
  | (Write h' (Some s), Ok _) :: r => if (h' =? h)%nat then place h (pos + length s) r else place h pos r
  | (Seek h' n, Ok _) :: r => if (h' =? h)%nat then place h (Z.to_nat n) r else place h pos r
  | _ :: r => place h pos r
  end.
Lemma placed_app h (t u : trace) : forall pos, placed h pos (t ++ u) = placed h pos t ++ placed h (place h pos t) u.
Proof. induction t as [|[[|k|h' [s|]|h' n|h'|h'|h'] [a|e]] t IH]; intros pos; cbn; try apply IH; try reflexivity; destruct (h' =? h)%nat; cbn; rewrite IH; reflexivity. Qed.
Lemma place_app h (t u : trace) : forall pos, place h pos (t ++ u) = place h (place h pos t) u.
Proof. induction t as [|[[|k|h' [s|]|h' n|h'|h'|h'] [a|e]] t IH]; intros pos; cbn; try apply IH; try reflexivity; destruct (h' =? h)%nat; cbn; rewrite IH; reflexivity. Qed.

(** what the state is after a history *)
Definition Inv (s : state A) (t : trace) : Prop :=
  (forall h k, opened_from t h k <-> exists x, nth_error (handles s) h = Some x /\ h_sink x = k) /\
  (forall h x, nth_error (handles s) h = Some x -> (h_sink x < length (lasts s))%nat /\ (h_closed x = true <-> ended t h) /\ h_buf x = build (placed h 0 t) /\ h_pos x = place h 0 t) /\
  (forall k, In (NewSink, Ok (TheSink k)) t <-> (k < length (lasts s))%nat) /\
  (forall h, (length (handles s) <= h)%nat -> placed h 0 t = [] /\ place h 0 t = 0%nat /\ ~ ended t h).
Lemma ended_snoc (t : trace) c a h : ended (t ++ [(c, a)]) h <-> ended t h \/ exists b, a = Ok b /\ (c = Close h \/ c = Exit h).
Proof.
  unfold ended. split.
  - intros (b & [H|H]); apply in_app_or in H; (destruct H as [H|[H|[]]]; [left; eauto|inversion H; subst; right; eauto]).
  - intros [(b & [H|H])|(b & -> & [-> | ->])]; [exists b; left|exists b; right|exists b; left|exists b; right]; apply in_or_app; cbn; auto.
Qed.
Lemma in_snoc {B} (t : list B) x y : In x (t ++ [y]) <-> In x t \/ x = y.
Proof. rewrite in_app_iff. cbn. intuition. Qed.
Lemma put_nth {B} (l : list B) i j x y : (i < length l)%nat -> nth_error (put l i x) j = Some y -> (i = j /\ y = x) \/ (i <> j /\ nth_error l j = Some y).
Proof. intros L H. destruct (Nat.eq_dec i j) as [->|N]; [rewrite put_same in H by exact L; inversion H; now left|rewrite put_other in H by assumption; now right]. Qed.
Lemma inv_step s t c : Inv s t -> Inv (fst (step s c)) (t ++ [(c, snd (step s c))]).
Proof.
  intros (I1 & I2 & I3 & I4).
  (* a call that changes one handle at most, keeping its sink *)
  assert (Upd : forall h x x' a l, nth_error (handles s) h = Some x -> h_sink x' = h_sink x -> length l = length (lasts s) ->
            (forall k, c <> Open k) -> c <> NewSink ->
            (h_closed x' = true <-> ended (t ++ [(c, a)]) h) -> h_buf x' = build (placed h 0 (t ++ [(c, a)])) -> h_pos x' = place h 0 (t ++ [(c, a)]) ->
            (forall h', h' <> h -> (ended (t ++ [(c, a)]) h' <-> ended t h') /\ placed h' 0 (t ++ [(c, a)]) = placed h' 0 t /\ place h' 0 (t ++ [(c, a)]) = place h' 0 t) ->
            Inv (MkState l (put (handles s) h x')) (t ++ [(c, a)])).
  { intros h x x' a l Hx Hs Hl No Nn Hc Hb Hp Ho. assert (L : (h < length (handles s))%nat) by (apply nth_error_Some; congruence). repeat split; cbn [lasts handles] in *.
    - intros H. unfold opened_from in H. apply in_snoc in H. destruct H as [H|H]; [|inversion H; subst; now destruct (No k)]. apply I1 in H. destruct H as (y & Hy & K). destruct (Nat.eq_dec h h0) as [<-|N].
      + exists x'. split; [now apply put_same|congruence]. + exists y. now rewrite put_other.
    - intros (y & Hy & K). apply in_snoc. left. apply I1. destruct (put_nth _ _ _ _ _ L Hy) as [(<- & ->)|(N & H)]; [exists x; split; congruence|exists y; auto].
    - destruct (put_nth _ _ _ _ _ L H) as [(<- & ->)|(N & K)]; [rewrite Hs, Hl; apply (I2 h x Hx)|rewrite Hl; apply (I2 _ _ K)].
    - intros C. destruct (put_nth _ _ _ _ _ L H) as [(<- & ->)|(N & K)]; [tauto|apply (Ho h0); [congruence|]; now apply (I2 _ _ K)].
    - intros C. destruct (put_nth _ _ _ _ _ L H) as [(<- & ->)|(N & K)]; [tauto|]. apply (I2 _ _ K). apply (Ho h0); [congruence|exact C].
    - destruct (put_nth _ _ _ _ _ L H) as [(<- & ->)|(N & K)]; [exact Hb|]. destruct (Ho h0) as (_ & -> & _); [congruence|]. apply (I2 _ _ K).
    - destruct (put_nth _ _ _ _ _ L H) as [(<- & ->)|(N & K)]; [exact Hp|]. destruct (Ho h0) as (_ & _ & ->); [congruence|]. apply (I2 _ _ K).
    - rewrite Hl, in_snoc, I3. intros [H|H]; [exact H|congruence].
    - rewrite Hl, in_snoc, I3. now left.
    - rewrite put_length in H by exact L. destruct (Ho h0) as (_ & -> & _); [lia|]. now apply I4.
    - rewrite put_length in H by exact L. destruct (Ho h0) as (_ & _ & ->); [lia|]. now apply I4.
    - rewrite put_length in H by exact L. intros E. apply Ho in E; [|lia]. now apply I4 in E. }
  assert (Sam : forall a e, a = Raise e -> Inv s (t ++ [(c, a)])).
  { intros a e ->. repeat split.
    - intros H. apply in_snoc in H. destruct H as [H|H]; [now apply I1|discriminate].
    - intros H. apply in_snoc. left. now apply I1.
    - apply (I2 _ _ H).
    - intros K. apply ended_snoc. left. now apply (I2 _ _ H).
    - intros K. apply ended_snoc in K. destruct K as [K|(b & K & _)]; [now apply (I2 _ _ H)|discriminate].
    - rewrite placed_app. destruct (I2 _ _ H) as (_ & _ & -> & _). destruct c as [|k|h' [w|]|h' n|h'|h'|h']; cbn; now rewrite app_nil_r.
    - rewrite place_app. destruct (I2 _ _ H) as (_ & _ & _ & ->). destruct c as [|k|h' [w|]|h' n|h'|h'|h']; reflexivity.
    - rewrite in_snoc, I3. intros [K|K]; [exact K|discriminate].
    - rewrite in_snoc, I3. now left.
    - rewrite placed_app. destruct (I4 _ H) as (-> & _). destruct c as [|k|h' [w|]|h' n|h'|h'|h']; reflexivity.
    - rewrite place_app. destruct (I4 _ H) as (_ & -> & _). destruct c as [|k|h' [w|]|h' n|h'|h'|h']; reflexivity.
    - intros K. apply ended_snoc in K. destruct K as [K|(b & K & _)]; [now apply I4 in K|discriminate]. }
  assert (WH : forall h f, (forall x, nth_error (handles s) h = Some x -> h_closed x = false -> Inv (fst (f x)) (t ++ [(c, snd (f x))])) ->
                Inv (fst (with_handle s h f)) (t ++ [(c, snd (with_handle s h f))])).
  { intros h f H. unfold with_handle. destruct (nth_error (handles s) h) as [x|] eqn:E; [|eapply Sam; reflexivity]. destruct (h_closed x) eqn:C; [eapply Sam; reflexivity|now apply H]. }
  assert (Oth : forall a h' , (forall h v, c = Write h v -> h <> h') -> (forall h v, c = Seek h v -> h <> h') -> placed h' 0 (t ++ [(c, a)]) = placed h' 0 t /\ place h' 0 (t ++ [(c, a)]) = place h' 0 t).
  { intros a h' Hw Hs. rewrite placed_app, place_app. destruct c as [|k|h0 [w|]|h0 n|h0|h0|h0], a as [b|e]; cbn; rewrite ?app_nil_r; auto.
    - rewrite (proj2 (Nat.eqb_neq h0 h') (Hw _ _ eq_refl)). now rewrite app_nil_r.
    - rewrite (proj2 (Nat.eqb_neq h0 h') (Hs _ _ eq_refl)). now rewrite app_nil_r. }
  destruct c as [|k|h v|h n|h|h|h]; cbn [BufferSinks.step].
  - cbn [fst snd]. repeat split; cbn [lasts handles].
    + intros H. apply in_snoc in H. destruct H as [H|H]; [now apply I1|discriminate].
    + intros H. apply in_snoc. left. now apply I1.
    + rewrite app_length. destruct (I2 _ _ H) as (K & _). lia.
    + intros K. apply ended_snoc. left. now apply (I2 _ _ H).
    + intros K. apply ended_snoc in K. destruct K as [K|(b & _ & [K|K])]; [now apply (I2 _ _ H)|discriminate|discriminate].
    + rewrite placed_app. cbn. rewrite app_nil_r. apply (I2 _ _ H).
    + rewrite place_app. cbn. apply (I2 _ _ H).
    + rewrite in_snoc, I3, app_length. cbn. intros [K|K]; [lia|]. inversion K. lia.
    + rewrite in_snoc, I3, app_length. cbn. intros K. destruct (Nat.eq_dec k (length (lasts s))) as [->|N]; [now right|left; lia].
    + rewrite placed_app. cbn. rewrite app_nil_r. now apply I4.
    + rewrite place_app. cbn. now apply I4.
    + intros K. apply ended_snoc in K. destruct K as [K|(b & _ & [K|K])]; [now apply I4 in K|discriminate|discriminate].
  - destruct (Nat.ltb_spec k (length (lasts s))) as [L|L]; [|eapply Sam; reflexivity]. cbn [fst snd].
    assert (E : forall h, ended (t ++ [(Open k, Ok (TheHandle (length (handles s))))]) h <-> ended t h). { intros h. rewrite ended_snoc. split; [intros [K|(b & _ & [K|K])]; [exact K|discriminate|discriminate]|now left]. }
    destruct (I4 (length (handles s)) (le_n _)) as (F1 & F2 & F3).
    assert (N : forall h x, nth_error (handles s ++ [MkHandle k [] 0 false]) h = Some x -> nth_error (handles s) h = Some x \/ (h = length (handles s) /\ x = MkHandle k [] 0 false)).
    { intros h x H. destruct (Nat.ltb_spec h (length (handles s))) as [K|K]; [left; now rewrite nth_error_app1 in H|]. rewrite nth_error_app2 in H by exact K. destruct (h - length (handles s))%nat as [|m] eqn:D; [|destruct m; discriminate]. inversion H. right. split; [lia|reflexivity]. }
    repeat split; cbn [lasts handles].
    + intros H. apply in_snoc in H. destruct H as [H|H].
      * apply I1 in H. destruct H as (x & H & K). exists x. split; [|exact K]. rewrite nth_error_app1; [exact H|]. apply nth_error_Some. congruence.
      * inversion H; subst. rewrite nth_error_app2, Nat.sub_diag by lia. eexists. split; reflexivity.
    + intros (x & H & K). apply in_snoc. destruct (N _ _ H) as [H1|(-> & ->)]; [left; apply I1; eauto|right; cbn in K; now subst].
    + destruct (N _ _ H) as [H1|(-> & ->)]; [apply (I2 _ _ H1)|exact L].
    + intros K. apply E. destruct (N _ _ H) as [H1|(-> & ->)]; [now apply (I2 _ _ H1)|discriminate].
    + intros K. apply E in K. destruct (N _ _ H) as [H1|(-> & ->)]; [now apply (I2 _ _ H1)|contradiction].
    + rewrite placed_app. cbn. rewrite app_nil_r. destruct (N _ _ H) as [H1|(-> & ->)]; [apply (I2 _ _ H1)|now rewrite F1].
    + rewrite place_app. cbn. destruct (N _ _ H) as [H1|(-> & ->)]; [apply (I2 _ _ H1)|now rewrite F2].
    + rewrite in_snoc, I3. intros [K|K]; [exact K|discriminate].
    + rewrite in_snoc, I3. now left.
    + rewrite placed_app. cbn. rewrite app_nil_r. cbn [handles] in H; rewrite app_length in H; apply I4; lia.
    + rewrite place_app. cbn. cbn [handles] in H; rewrite app_length in H; apply I4; lia.
    + rewrite E. cbn [handles] in H; rewrite app_length in H; apply I4; lia.
  - apply WH. intros x Hx C. destruct v as [w|]; [|eapply Sam; reflexivity]. cbn [fst snd]. destruct (I2 _ _ Hx) as (_ & Ec & Eb & Ep). apply (Upd h x); try reflexivity; try assumption; try (intros; discriminate); cbn [h_closed h_buf h_pos].
    + rewrite ended_snoc, <- Ec, C. split; [discriminate|]. intros [K|(b & _ & [K|K])]; discriminate.
    + rewrite placed_app. cbn. rewrite Nat.eqb_refl, <- Ep, build_snoc. now rewrite Eb.
    + rewrite place_app. cbn. rewrite Nat.eqb_refl. now rewrite Ep.
    + intros h' N. split; [rewrite ended_snoc; split; [intros [K|(b & _ & [K|K])]; [exact K|discriminate|discriminate]|now left]|]. apply Oth; [intros ? ? Q; inversion Q; subst; congruence|discriminate].
  - apply WH. intros x Hx C. destruct (Z.ltb_spec n 0) as [L|L]; [eapply Sam; reflexivity|]. cbn [fst snd]. destruct (I2 _ _ Hx) as (_ & Ec & Eb & Ep). apply (Upd h x); try reflexivity; try assumption; try (intros; discriminate); cbn [h_closed h_buf h_pos].
    + rewrite ended_snoc, <- Ec, C. split; [discriminate|]. intros [K|(b & _ & [K|K])]; discriminate.
    + rewrite placed_app. cbn. rewrite Nat.eqb_refl, app_nil_r. exact Eb.
    + rewrite place_app. cbn. now rewrite Nat.eqb_refl.
    + intros h' N. split; [rewrite ended_snoc; split; [intros [K|(b & _ & [K|K])]; [exact K|discriminate|discriminate]|now left]|]. apply Oth; [discriminate|intros ? ? Q; inversion Q; subst; congruence].
  - apply WH. intros x Hx C. cbn [fst snd].
    assert (E : forall h', ended (t ++ [(Tell h, Ok (Count (h_pos x)))]) h' <-> ended t h'). { intros h'. rewrite ended_snoc. split; [intros [K|(b & _ & [K|K])]; [exact K|discriminate|discriminate]|now left]. }
    repeat split.
    + intros H. apply in_snoc in H. destruct H as [H|H]; [now apply I1|discriminate].
    + intros H. apply in_snoc. left. now apply I1.
    + apply (I2 _ _ H).
    + intros K. apply E. now apply (I2 _ _ H).
    + intros K. apply E in K. now apply (I2 _ _ H).
    + rewrite placed_app. cbn. rewrite app_nil_r. apply (I2 _ _ H).
    + rewrite place_app. cbn. apply (I2 _ _ H).
    + rewrite in_snoc, I3. intros [K|K]; [exact K|discriminate].
    + rewrite in_snoc, I3. now left.
    + rewrite placed_app. cbn. rewrite app_nil_r. now apply I4.
    + rewrite place_app. cbn. now apply I4.
    + rewrite E. now apply I4.
  - destruct (nth_error (handles s) h) as [x|] eqn:Hx; [|eapply Sam; reflexivity]. cbn [fst snd]. destruct (I2 _ _ Hx) as (_ & Ec & Eb & Ep). apply (Upd h x); try reflexivity; try assumption; try (intros; discriminate); cbn [h_closed h_buf h_pos].
    + rewrite ended_snoc. split; [intros _; right; eauto|reflexivity].
    + destruct (Oth (Ok Nothing) h) as (-> & _); [discriminate|discriminate|exact Eb].
    + destruct (Oth (Ok Nothing) h) as (_ & ->); [discriminate|discriminate|exact Ep].
    + intros h' N. split; [rewrite ended_snoc; split; [intros [K|(b & _ & [K|K])]; [exact K|inversion K; congruence|discriminate]|now left]|]. apply Oth; discriminate.
  - apply WH. intros x Hx C. cbn [fst snd]. destruct (I2 _ _ Hx) as (El & Ec & Eb & Ep). apply (Upd h x); try reflexivity; try assumption; try (intros; discriminate); cbn [h_closed h_buf h_pos].
    + now apply put_length.
    + rewrite ended_snoc. split; [intros _; right; eauto|reflexivity].
    + destruct (Oth (Ok Nothing) h) as (-> & _); [discriminate|discriminate|exact Eb].
    + destruct (Oth (Ok Nothing) h) as (_ & ->); [discriminate|discriminate|exact Ep].
    + intros h' N. split; [rewrite ended_snoc; split; [intros [K|(b & _ & [K|K])]; [exact K|discriminate|inversion K; congruence]|now left]|]. apply Oth; discriminate.
Qed.
Lemma inv_start : Inv start [].
Proof.
  repeat split; cbn; try (intros []; fail); try reflexivity; try (intros (x & H & _); now destruct h); try (intros; lia); try (now destruct h).
  - intros (x & [[]|[]]).
Qed.
Lemma run_app cs1 cs2 : forall s, run s (cs1 ++ cs2) = let '(s1, t1) := run s cs1 in let '(s2, t2) := run s1 cs2 in (s2, t1 ++ t2).
Proof.
  induction cs1 as [|c cs1 IH]; intros s; cbn; [now destruct (run s cs2)|]. destruct (step s c) as [s1 a]. rewrite IH. destruct (run s1 cs1) as [s2 t1]. now destruct (run s2 cs2) as [s3 t2].
Qed.
Lemma inv_run cs : forall s t, Inv s t -> Inv (fst (run s cs)) (t ++ snd (run s cs)).
Proof.
  induction cs as [|c cs IH]; intros s t H; cbn; [now rewrite app_nil_r|]. assert (H1 := inv_step s t c H). destruct (step s c) as [s1 a]. cbn [fst snd] in H1. specialize (IH s1 _ H1). destruct (run s1 cs) as [s2 t2].
  cbn [fst snd] in *. now rewrite <- app_assoc in IH.
Qed.
Lemma run_inv cs s t : run start cs = (s, t) -> Inv s t.
Proof. intros E. assert (H := inv_run cs start [] inv_start). now rewrite E in H. Qed.
(** a place in the history *)
Lemma run_split cs : forall s s' t1 c a t2, run s cs = (s', t1 ++ (c, a) :: t2) -> exists cs1 cs2 s1, run s cs1 = (s1, t1) /\ snd (step s1 c) = a /\ run (fst (step s1 c)) cs2 = (s', t2).
Proof.
  induction cs as [|d cs IH]; intros s s' t1 c a t2 E; cbn in E; [inversion E; now destruct t1|]. destruct (step s d) as [s1 b] eqn:Ed. destruct (run s1 cs) as [s2 t] eqn:Er. inversion E; subst. destruct t1 as [|e t1]; cbn in *.
  - inversion H1; subst. exists [], cs, s. split; [reflexivity|]. rewrite Ed. auto.
  - inversion H1; subst. destruct (IH _ _ _ _ _ _ Er) as (cs1 & cs2 & s3 & R1 & R2 & R3). exists (d :: cs1), cs2, s3. cbn. rewrite Ed, R1. auto.
Qed.

(** *** C110 *)
(** What every call answers, whatever happened before: open() gives out a handle no one has, which belongs to the sink; a handle that nobody has closed and whose block nobody has left takes every text, refuses
    anything else with TypeError, and can be left; after that everything but close() raises ValueError. *)
Theorem C110_answers : forall cs s t1 c a t2, run start cs = (s, t1 ++ (c, a) :: t2) ->
  match c with
  | NewSink => exists k, a = Ok (TheSink k) /\ ~ In (NewSink, Ok (TheSink k)) t1
  | Open k => In (NewSink, Ok (TheSink k)) t1 -> exists h, a = Ok (TheHandle h) /\ (forall k', ~ opened_from t1 h k')
  | Write h v => forall k, opened_from t1 h k -> (~ ended t1 h -> a = match v with Some w => Ok (Count (length w)) | None => Raise TypeError end) /\ (ended t1 h -> a = Raise ValueError)
  | Seek h n => forall k, opened_from t1 h k -> (~ ended t1 h -> a = if (n <? 0)%Z then Raise ValueError else Ok (Count (Z.to_nat n))) /\ (ended t1 h -> a = Raise ValueError)
  | Tell h => forall k, opened_from t1 h k -> (~ ended t1 h -> exists n, a = Ok (Count n)) /\ (ended t1 h -> a = Raise ValueError)
  | Close h => forall k, opened_from t1 h k -> a = Ok Nothing
  | Exit h => forall k, opened_from t1 h k -> (~ ended t1 h -> a = Ok Nothing) /\ (ended t1 h -> a = Raise ValueError)
  end.
Proof.
  intros cs s t1 c a t2 E. destruct (run_split _ _ _ _ _ _ _ E) as (cs1 & cs2 & s1 & R1 & R2 & _). destruct (run_inv _ _ _ R1) as (I1 & I2 & I3 & I4).
  assert (WH : forall h k f, opened_from t1 h k -> exists x, (~ ended t1 h -> with_handle s1 h f = f x) /\ (ended t1 h -> snd (with_handle s1 h f) = Raise ValueError)).
  { intros h k f O. apply I1 in O. destruct O as (x & Hx & _). exists x. unfold with_handle. rewrite Hx. destruct (I2 _ _ Hx) as (_ & C & _). destruct (h_closed x).
    - split; [intros N; exfalso; apply N, C; reflexivity|reflexivity]. - split; [reflexivity|]. intros K. apply C in K. discriminate. }
  destruct c as [|k|h v|h n|h|h|h]; cbn [BufferSinks.step snd] in R2.
  - exists (length (lasts s1)). split; [now subst|]. rewrite I3. lia.
  - intros K. apply I3, Nat.ltb_lt in K. rewrite K in R2. cbn [snd] in R2. exists (length (handles s1)). split; [now subst|]. intros k' O. apply I1 in O. destruct O as (x & H & _). assert (nth_error (handles s1) (length (handles s1)) <> None) by congruence. apply nth_error_Some in H0. lia.
  - intros k O. match type of R2 with snd (with_handle _ _ ?f) = _ => destruct (WH h k f O) as (x & W1 & W2) end. split; intros K; [rewrite (W1 K) in R2|rewrite <- R2; now apply W2]. destruct v; subst; reflexivity.
  - intros k O. match type of R2 with snd (with_handle _ _ ?f) = _ => destruct (WH h k f O) as (x & W1 & W2) end. split; intros K; [rewrite (W1 K) in R2|rewrite <- R2; now apply W2]. destruct (n <? 0)%Z; subst; reflexivity.
  - intros k O. match type of R2 with snd (with_handle _ _ ?f) = _ => destruct (WH h k f O) as (x & W1 & W2) end. split; intros K; [rewrite (W1 K) in R2; eexists; symmetry; exact R2|rewrite <- R2; now apply W2].
  - intros k O. apply I1 in O. destruct O as (x & Hx & _). rewrite Hx in R2. now subst.
  - intros k O. match type of R2 with snd (with_handle _ _ ?f) = _ => destruct (WH h k f O) as (x & W1 & W2) end. split; intros K; [rewrite (W1 K) in R2; now subst|rewrite <- R2; now apply W2].
Qed.
(** a sink keeps its text until a block of one of its handles is left *)
Lemma lasts_kept cs : forall s t k, Inv s t -> (k < length (lasts s))%nat -> (forall h a, In (Exit h, Ok a) (snd (run s cs)) -> ~ opened_from (t ++ snd (run s cs)) h k) -> nth_error (lasts (fst (run s cs))) k = nth_error (lasts s) k.
Proof.
  induction cs as [|c cs IH]; intros s t k V L H; [reflexivity|]. cbn in *. assert (V1 := inv_step s t c V). assert (R := fun s1 => inv_run cs s1). destruct (step s c) as [s1 a] eqn:Es. cbn [fst snd] in V1.
  assert (L1 : (k < length (lasts s1))%nat). { apply V1. apply in_snoc. left. now apply V. }
  specialize (IH s1 _ k V1 L1). destruct (run s1 cs) as [s2 t2] eqn:Er. cbn [fst snd] in *. rewrite IH.
  - clear IH R. destruct V as (I1 & I2 & _). assert (W : forall h f, with_handle s h f = (s1, a) -> s1 = s \/ exists x, nth_error (handles s) h = Some x /\ f x = (s1, a)).
    { intros h f. unfold with_handle. destruct (nth_error (handles s) h) as [x|]; [|intros Q; left; congruence]. destruct (h_closed x); [intros Q; left; congruence|intros Q; right; eauto]. }
    destruct c as [|k'|h v|h n|h|h|h]; cbn [BufferSinks.step] in Es.
    + inversion Es; subst. cbn [lasts]. now apply nth_error_app1.
    + destruct (k' <? length (lasts s))%nat; inversion Es; reflexivity.
    + destruct (W _ _ Es) as [->|(x & _ & Q)]; [reflexivity|]. destruct v; inversion Q; reflexivity.
    + destruct (W _ _ Es) as [->|(x & _ & Q)]; [reflexivity|]. destruct (n <? 0)%Z; inversion Q; reflexivity.
    + destruct (W _ _ Es) as [->|(x & _ & Q)]; [reflexivity|]. now inversion Q.
    + destruct (nth_error (handles s) h); inversion Es; reflexivity.
    + destruct (W _ _ Es) as [->|(x & Hx & Q)]; [reflexivity|]. inversion Q; subst. cbn [lasts]. destruct (I2 _ _ Hx) as (Lx & _). apply put_other; [exact Lx|]. intros <-. apply (H h Nothing); [now left|]. apply in_or_app. left. apply I1. eauto.
  - intros h b Hi Ho. apply (H h b); [now right|]. unfold opened_from in *. now rewrite <- app_assoc in Ho.
Qed.
(** C110: after any history, last_string_written (last_bytes_written) of a sink is what was written to the handle whose block was left last: every character is the one the last write covering its place put there
    (texts written one after the other, if nobody moved the handle).  What is written to other handles, opened before or after, of this sink or of others, makes no difference; a handle that is only closed leaves no trace. *)
Theorem C110_last : forall cs s t1 h a t2 k, run start cs = (s, t1 ++ (Exit h, Ok a) :: t2) -> opened_from t1 h k ->
  (forall h' a', In (Exit h', Ok a') t2 -> ~ opened_from (t1 ++ (Exit h, Ok a) :: t2) h' k) ->
  exists b, nth_error (lasts s) k = Some (Some b) /\ text_of pad (placed h 0 t1) b /\ ((forall n a', ~ In (Seek h n, Ok a') t1) -> b = written h t1).
Proof.
  intros cs s t1 h a t2 k E O N. destruct (run_split _ _ _ _ _ _ _ E) as (cs1 & cs2 & s1 & R1 & R2 & R3). assert (V := run_inv _ _ _ R1). assert (V' := inv_step s1 t1 (Exit h) V). rewrite R2 in V'.
  destruct (proj1 (proj1 V h k) O) as (x & Hx & Hk). destruct (proj1 (proj2 V) _ _ Hx) as (Lx & Ec & Eb & Ep). exists (h_buf x).
  assert (K : nth_error (lasts (fst (step s1 (Exit h)))) k = Some (Some (h_buf x))).
  { cbn [BufferSinks.step] in *. unfold with_handle in *. rewrite Hx in *. destruct (h_closed x); [discriminate|]. cbn [fst lasts]. rewrite <- Hk. now apply put_same. }
  split; [|split].
  - rewrite <- K. assert (Q := lasts_kept cs2 _ _ k V'). rewrite R3 in Q. cbn [fst snd] in Q. apply Q; [apply nth_error_Some; congruence|]. intros h' a' Hi Ho. apply (N h' a' Hi). now rewrite <- app_assoc in Ho.
  - rewrite Eb. apply build_text.
  - intros Ns. rewrite Eb. clear - Ns. induction t1 as [|[c b] t1 IH] using rev_ind; [reflexivity|]. assert (IH' := IH (fun n a' I => Ns n a' (proj2 (in_snoc t1 _ _) (or_introl I)))).
    unfold written in *. rewrite map_app, concat_app. rewrite placed_app. cbn [map concat]. rewrite app_nil_r.
    assert (P : place h 0 t1 = length (build (placed h 0 t1))).
    { clear IH IH'. assert (Ns' := fun n a' I => Ns n a' (proj2 (in_snoc t1 _ _) (or_introl I))). clear Ns. rename Ns' into Ns. induction t1 as [|[d e] t1 IH] using rev_ind; [reflexivity|]. assert (IH' := IH (fun n a' I => Ns n a' (proj2 (in_snoc t1 _ _) (or_introl I)))).
      rewrite placed_app, place_app. destruct d as [|k'|h' [w|]|h' n|h'|h'|h'], e as [y|y]; cbn; rewrite ?app_nil_r; try exact IH'.
      - destruct (Nat.eqb_spec h' h) as [->|]; [|now rewrite app_nil_r]. rewrite build_snoc. destruct w as [|c0 w]; [cbn; now rewrite Nat.add_0_r|]. rewrite write_at_length by discriminate. rewrite <- IH'. cbn [length]. lia.
      - destruct (Nat.eqb_spec h' h) as [->|]; [|now rewrite app_nil_r]. exfalso. apply (Ns n y). apply in_snoc. now right. }
    destruct c as [|k'|h' [w|]|h' n|h'|h'|h'], b as [y|y]; cbn; rewrite ?app_nil_r; try exact IH'.
    + destruct (Nat.eqb_spec h' h) as [->|]; [|now rewrite !app_nil_r]. rewrite build_snoc, <- IH', P. generalize (build (placed h 0 t1)). clear. intros b. destruct w as [|c w]; [now rewrite app_nil_r|]. unfold write_at. rewrite Nat.sub_diag. cbn [repeat]. rewrite app_nil_r, firstn_all, skipn_all2 by lia. now rewrite app_nil_r.
    + destruct (Nat.eqb_spec h' h) as [->|]; [|now rewrite app_nil_r]. exfalso. apply (Ns n y). apply in_snoc. now right.
Qed.
(** C110: a sink none of whose blocks has been left has None there. *)
Theorem C110_none : forall cs s t k, run start cs = (s, t) -> In (NewSink, Ok (TheSink k)) t -> (forall h a, In (Exit h, Ok a) t -> ~ opened_from t h k) -> nth_error (lasts s) k = Some None.
Proof.
  intros cs s t k E H N. apply in_split in H. destruct H as (t1 & t2 & ->). destruct (run_split _ _ _ _ _ _ _ E) as (cs1 & cs2 & s1 & R1 & R2 & R3). assert (V := run_inv _ _ _ R1). assert (V' := inv_step s1 t1 NewSink V). rewrite R2 in V'.
  cbn in R2. inversion R2; subst k. assert (K : nth_error (lasts (fst (step s1 NewSink))) (length (lasts s1)) = Some None). { cbn. rewrite nth_error_app2, Nat.sub_diag; [reflexivity|lia]. }
  rewrite <- K. assert (Q := lasts_kept cs2 _ _ (length (lasts s1)) V'). rewrite R3 in Q. cbn [fst snd] in Q. apply Q; [apply nth_error_Some; congruence|]. intros h a Hi Ho. rewrite <- app_assoc in Ho. apply (N h a); [|exact Ho]. apply in_or_app. right. now right.
Qed.
(** C110: sink.write(data) at any time makes data the last text; something that is no text is a TypeError, and the last text is then empty.  Other sinks keep theirs, and the handles that are open stay so. *)
Theorem C110_write : forall cs s t k v, run start cs = (s, t) -> In (NewSink, Ok (TheSink k)) t ->
  exists s', sink_write pad s k v = (s', match v with Some _ => Ok tt | None => Raise TypeError end) /\
    nth_error (lasts s') k = Some (Some (match v with Some d => d | None => [] end)) /\
    (forall k', k' <> k -> nth_error (lasts s') k' = nth_error (lasts s) k') /\
    (forall h, (exists k', opened_from t h k') -> nth_error (handles s') h = nth_error (handles s) h).
Proof.
  intros cs s t k v E H. destruct (run_inv _ _ _ E) as (I1 & I2 & I3 & _). apply I3 in H. unfold sink_write. cbn [BufferSinks.step]. rewrite (proj2 (Nat.ltb_lt _ _) H). unfold with_handle. cbn [lasts handles].
  set (n := length (handles s)). assert (G : forall x : handle A, nth_error (handles s ++ [x]) n = Some x). { intros x. subst n. rewrite nth_error_app2, Nat.sub_diag; [reflexivity|lia]. }
  assert (Lt : forall x : handle A, (n < length (handles s ++ [x]))%nat) by (intros x; subst n; rewrite app_length; cbn; lia).
  assert (Old : forall h, (exists k', opened_from t h k') -> (h < n)%nat). { intros h (k' & O). apply I1 in O. destruct O as (x & Hx & _). apply nth_error_Some. congruence. }
  rewrite G. cbn [h_closed]. destruct v as [w|].
  - cbn [lasts handles h_sink h_buf h_pos]. rewrite put_same by apply Lt. cbn [h_closed lasts handles h_sink h_buf h_pos]. eexists. split; [reflexivity|]. cbn [lasts handles]. split; [rewrite put_same by exact H|split].
    + destruct w as [|c w]; [reflexivity|]. unfold write_at. cbn [Nat.sub repeat app firstn]. rewrite skipn_nil. now rewrite app_nil_r.
    + intros k' N. apply put_other; [exact H|congruence].
    + intros h O. apply Old in O. rewrite !put_other; try apply Lt; try lia; [apply nth_error_app1; exact O|rewrite put_length; apply Lt].
  - cbn [lasts handles]. rewrite G. cbn [h_closed h_sink h_buf h_pos]. eexists. split; [reflexivity|]. cbn [lasts handles]. split; [now rewrite put_same by exact H|]. split.
    + intros k' N. apply put_other; [exact H|congruence].
    + intros h O. apply Old in O. rewrite put_other; [apply nth_error_app1; exact O|apply Lt|lia].
Qed.
End Proofs.

(** ** A case: two sinks, three handles, one moved, one closed without its block being left *)
Local Notation calls110 := [NewSink; NewSink; Open 0; Open 0; Open 1; Write 0 (Some [1;2]); Write 1 (Some [7;8;9;10]); Write 2 (Some [5]); Seek 1 1; Write 1 None; Write 1 (Some [0;0]); Exit 1; Write 0 (Some [3]); Exit 0; Seek 2 3; Write 2 (Some [6]); Close 2; Exit 2; Write 1 (Some [4])]%nat.
Example C110_witness : let '(s, t) := run 99%nat start calls110 in
  lasts s = [Some [1;2;3]; None]%nat /\ map snd t = [Ok (TheSink 0); Ok (TheSink 1); Ok (TheHandle 0); Ok (TheHandle 1); Ok (TheHandle 2); Ok (Count 2); Ok (Count 4); Ok (Count 1); Ok (Count 1); Raise TypeError; Ok (Count 2); Ok Nothing; Ok (Count 1); Ok Nothing; Ok (Count 3); Ok (Count 1); Ok Nothing; Raise ValueError; Raise ValueError]%nat /\
  map (@h_buf nat) (handles s) = [[1;2;3]; [7;0;0;10]; [5;99;99;6]]%nat.
Proof. repeat split. Qed.
Example C110_last_witness : exists s t1 t2 a, run 99%nat start calls110 = (s, t1 ++ (Exit 0, Ok a) :: t2) /\ opened_from t1 0 0 /\ (forall h' a', In (Exit h', Ok a') t2 -> ~ opened_from (t1 ++ (Exit 0, Ok a) :: t2) h' 0) /\ (forall n a', ~ In (Seek 0 n, Ok a') t1).
Proof.
  destruct (run 99%nat start calls110) as [s t] eqn:E. exists s. exists (firstn 13 t), (skipn 14 t), Nothing. vm_compute in E. inversion E; subst. split; [reflexivity|]. split; [right; right; left; reflexivity|]. split.
  - intros h' a' H. cbn in H. repeat (destruct H as [H|H]; [discriminate H|]). destruct H.
  - intros n a' H. cbn in H. repeat (destruct H as [H|H]; [discriminate H|]). destruct H.
Qed.
Example C110_write_witness : let '(s, _) := run 99%nat start calls110 in
  map (fun v => let '(s', r) := sink_write 99%nat s 1 v in (lasts s', r)) [Some [4;4]; None]%nat = [([Some [1;2;3]; Some [4;4]], Ok tt); ([Some [1;2;3]; Some []], Raise TypeError)]%nat.
Proof. reflexivity. Qed.
Print Assumptions C110_answers. Print Assumptions C110_last. Print Assumptions C110_none. Print Assumptions C110_write.
