(** * C129: the sink that ignores its input, in place of another one (io_utils.py:273-278, 302-310, 458-562)

    A program that works with an open file-like object is a tree: it calls a method and goes on depending on what the call returned or raised. *)
From Verif Require Import Prelude PyStr TextLib Params ParamsSpec ParamsGet ParamsGetProps BufferSinks.
Local Open Scope nat_scope.

(** ** Model *)
(** The methods of a file-like object, io_utils.py:467-562.  What is written is a text, or something else (None); the argument of writelines is what iterating over it gives. *)
Inductive method := MEnter | MWrite (v : option str) | MWritelines (l : list (res (option str))) | MFlush | MClose | MExit | MTell | MFileno
| MClosed | MWritable | MSeekable | MIsatty | MSeek (n : Z) | MTruncate | MRead | MReadline | MReadlines | MReadable | MNext | MIter | MBuffer.
(** What they return, io_utils.py:467-562: the object itself, None, a number, a boolean, a text; a method that was not called (closed is one, io_utils.py:479-480) *)
Inductive answer := ASelf | ANone | ACount (n : nat) | ABool (b : bool) | AText (s : str) | AMethod.
(** bool(answer): what "if out.closed" goes by (for io_utils.py:479-480) *)
Definition answer_truthy (a : answer) : bool :=
  match a with ASelf | AMethod => true | ANone => false | ACount n => negb (n =? 0) | ABool b => b | AText s => match s with [] => false | _ => true end end.

(** NullFileLike, io_utils.py:467-562: it has no state *)
Definition null_method (m : method) : res answer :=
  match m with
  | MEnter => Ok ASelf                                       (* 468-469 *)
  | MWrite _ => Ok ANone                                     (* 543-544 *)
  | MWritelines _ => Ok ANone                                (* 546-547: the lines are not looked at *)
  | MFlush | MClose => Ok ANone                              (* 505-506, 511-512 *)
  | MExit => Ok ANone                                        (* 555-561: an exception is not suppressed *)
  | MTell | MFileno => Ok ANone                              (* 508-509, 534-535 *)
  | MClosed => Ok AMethod                                    (* 479-480: not a property *)
  | MWritable => Ok (ABool true)                             (* 540-541 *)
  | MSeekable | MIsatty => Ok (ABool false)                  (* 514-515, 531-532 *)
  | MSeek _ | MTruncate | MRead | MReadline | MReadlines | MReadable | MNext | MIter | MBuffer => Raise NotImplementedError   (* 482-487, 517-529, 537-538, 549-553 *)
  end.
(** The same as a handle with a (trivial) state, io_utils.py:464-465 *)
Definition null_handle (s : unit) (m : method) : unit * res answer := (s, null_method m).

(** StringFileLike, io_utils.py:576-583: io.StringIO (library), and what the sink has in last_string_written *)
Record string_io := MkStringIO { sio_text : str; sio_pos : nat; sio_closed : bool; sio_last : option str }.
(** io_utils.py:572-583: a new handle of a new sink *)
Definition new_string_io : string_io := MkStringIO [] 0 false None.
(** StringIO.write for io_utils.py:310, 578 *)
Definition sio_write (s : string_io) (v : option str) : string_io * res answer :=
  match v with
  | None => (s, Raise TypeError)
  | Some w => (MkStringIO (write_at 0%N (sio_text s) (sio_pos s) w) (sio_pos s + length w) false (sio_last s), Ok (ACount (length w)))
  end.
(** StringIO.writelines for io_utils.py:578: one write for each element *)
Fixpoint sio_writelines (s : string_io) (l : list (res (option str))) : string_io * res answer :=
  match l with
  | [] => (s, Ok ANone)
  | Raise e :: _ => (s, Raise e)
  | Ok v :: r => match sio_write s v with (s', Ok _) => sio_writelines s' r | (s', Raise e) => (s', Raise e) end
  end.
(** The methods of StringFileLike that write or tell about the object, io_utils.py:578-583; a closed one raises ValueError, but can be closed again.  (Reading, truncating, fileno and detaching a buffer are not
    modelled: AnyError.) *)
Definition string_handle (s : string_io) (m : method) : string_io * res answer :=
  match m with
  | MClosed => (s, Ok (ABool (sio_closed s)))
  | MClose => (MkStringIO (sio_text s) (sio_pos s) true (sio_last s), Ok ANone)
  | _ =>
      if sio_closed s then (s, Raise ValueError)
      else match m with
           | MEnter => (s, Ok ASelf)
           | MWrite v => sio_write s v
           | MWritelines l => sio_writelines s l
           | MFlush => (s, Ok ANone)
           | MExit => (MkStringIO (sio_text s) (sio_pos s) true (Some (sio_text s)), Ok ANone)
           | MTell => (s, Ok (ACount (sio_pos s)))
           | MWritable | MSeekable | MReadable => (s, Ok (ABool true))
           | MIsatty => (s, Ok (ABool false))
           | MSeek n => if (n <? 0)%Z then (s, Raise ValueError) else (MkStringIO (sio_text s) (Z.to_nat n) false (sio_last s), Ok (ACount (Z.to_nat n)))
           | _ => (s, Raise AnyError)
           end
  end.

(** A program that uses one handle (io_utils.py:302-310 and any other) *)
Inductive prog (R : Type) := Return (r : res R) | Call (m : method) (k : res answer -> prog R).
Arguments Return {R} _. Arguments Call {R} _ _.
(** Running it on a handle of any kind (io_utils.py:302-310): the state of the handle, the calls with their outcomes, the result *)
Fixpoint use {S R} (h : S -> method -> S * res answer) (s : S) (p : prog R) : S * list (method * res answer) * res R :=
  match p with
  | Return r => (s, [], r)
  | Call m k => let '(s1, a) := h s m in let '(s2, t, r) := use h s1 (k a) in (s2, (m, a) :: t, r)
  end.
(** [p], then what [f] makes of its result or exception (io_utils.py:309-310) *)
Fixpoint after {R Q} (p : prog R) (f : res R -> prog Q) : prog Q :=
  match p with Return r => f r | Call m k => Call m (fun a => after (k a) f) end.
(** with sink.open() as out: body (io_utils.py:309-310); no __exit__ of this module suppresses exceptions *)
Definition with_block {R} (body : prog R) : prog R :=
  Call MEnter (fun a => match a with
    | Raise e => Return (Raise e)
    | Ok _ => after body (fun r => Call MExit (fun x => match x with Raise e => Return (Raise e) | Ok _ => Return r end))
    end).
(** CharSink.write, io_utils.py:302-310 *)
Definition write_prog (v : option str) : prog unit :=
  with_block (Call (MWrite v) (fun a => Return (match a with Ok _ => Ok tt | Raise e => Raise e end))).
(** writing pieces one after the other, as PyYAML does (parameters.py:1742-1751) *)
Fixpoint write_pieces (l : list str) (last : prog unit) : prog unit :=
  match l with
  | [] => last
  | w :: r => Call (MWrite (Some w)) (fun a => match a with Ok _ => write_pieces r last | Raise e => Return (Raise e) end)
  end.
(** YAMLParametersWriter.write with a CharSink, parameters.py:1736-1751; [pieces] are the texts that PyYAML writes, before it flushes *)
Definition writer_prog (pieces : pv -> list str) (p : pv) : prog unit :=
  with_block (match preprocess (dictify p) with
              | Raise e => Return (Raise e)
              | Ok y => write_pieces (pieces y) (Call MFlush (fun a => Return (match a with Ok _ => Ok tt | Raise e => Raise e end)))
              end).

(** ** Specification *)
(** the methods for writing *)
Definition for_writing (m : method) : Prop :=
  match m with MEnter | MWrite _ | MWritelines _ | MFlush | MClose | MExit | MTell | MFileno => True | _ => False end.
(** A program that only writes, and looks at whether a call raised, but not at what it returned *)
Fixpoint only_writes {R} (p : prog R) : Prop :=
  match p with Return _ => True | Call m k => for_writing m /\ (forall a b, k (Ok a) = k (Ok b)) /\ forall x, only_writes (k x) end.
(** no call raised *)
Definition all_went_well (t : list (method * res answer)) : Prop := forall m x, In (m, x) t -> exists a, x = Ok a.

(** ** Proofs *)
(** C129: whatever has been done with the handle before - even if it was closed or its block left - everything for writing is accepted, texts or not. *)
Theorem C129_accepts : forall R (p : prog R), only_writes p -> let '(_, t, _) := use null_handle tt p in all_went_well t.
Proof.
  intros R p. induction p as [r|m k IH]; cbn [only_writes use]; [intros _ m x []|]. intros (Q & _ & D). unfold null_handle at 1.
  specialize (IH (null_method m) (D _)). destruct (use null_handle tt (k (null_method m))) as [[s2 t] r]. intros m' x [E|I]; [|exact (IH _ _ I)].
  injection E as <- <-. destruct m; cbn in Q |- *; try contradiction; eexists; reflexivity.
Qed.

(** C129: a program that only writes does with the ignoring sink what it does with any other sink that takes everything it writes: the same result, or the same exception of its own. *)
Theorem C129_stand_in : forall S R (h : S -> method -> S * res answer) s (p : prog R), only_writes p ->
  let '(_, t, r) := use h s p in all_went_well t -> snd (use null_handle tt p) = r.
Proof.
  intros S R h s p. revert s. induction p as [r|m k IH]; cbn [only_writes use]; [reflexivity|]. intros s (Q & K & D). unfold null_handle at 1.
  destruct (h s m) as [s1 a]. specialize (IH a s1 (D a)). destruct (use h s1 (k a)) as [[s2 t] r]. intros W.
  destruct (W m a (or_introl eq_refl)) as [b ->].
  assert (exists c, null_method m = Ok c) as [c ->]. { destruct m; cbn in Q |- *; try contradiction; eexists; reflexivity. }
  rewrite (K c b). destruct (use null_handle tt (k (Ok b))) as [[s3 t3] r3]. cbn. apply IH. intros m' x I. exact (W m' x (or_intror I)).
Qed.

(** C129: sink.write(data) never raises, whatever data is; reading, seeking and truncating raise NotImplementedError. *)
Theorem C129_write : forall v, snd (use null_handle tt (write_prog v)) = Ok tt.
Proof. reflexivity. Qed.
(** With any other sink write(data) tells what happened: it succeeds exactly if no call on the handle raised, and what it raises was raised by one of them. *)
Theorem C129_write_tells : forall S (h : S -> method -> S * res answer) s v, let '(_, t, r) := use h s (write_prog v) in
  (r = Ok tt <-> all_went_well t) /\ (forall e, r = Raise e -> exists m, In (m, Raise e) t).
Proof.
  intros S h s v. unfold write_prog, with_block. cbn [use after].
  assert (Bad : forall m e (t : list (method * res answer)), In (m, Raise e) t -> all_went_well t -> False) by (intros m e t I W; destruct (W m _ I); discriminate).
  destruct (h s MEnter) as [s1 [a|e]]; cbn [use]; [|split; [split; [discriminate|intros W; refine (False_ind _ (Bad MEnter e _ _ W)); now left]|intros e' E; injection E as ->; exists MEnter; now left]].
  destruct (h s1 (MWrite v)) as [s2 w]. cbn [use after]. destruct (h s2 MExit) as [s3 [x|e]]; cbn [use after].
  - destruct w as [w|e]; (split; [split|]); try discriminate.
    + intros _ m y [Y|[Y|[Y|[]]]]; injection Y as <- <-; eexists; reflexivity.
    + reflexivity.
    + intros W. exfalso. refine (Bad (MWrite v) e _ _ W). right. now left.
    + intros e' E. injection E as ->. exists (MWrite v). right. now left.
  - split; [split; [discriminate|intros W; exfalso; refine (Bad MExit e _ _ W); right; right; now left]|].
    intros e' E. injection E as ->. exists MExit. right. right. now left.
Qed.
Theorem C129_refuses : forall R (before : list method) m (k : res answer -> prog R), In m [MTruncate; MRead; MReadline; MReadlines; MReadable; MNext; MIter; MBuffer] \/ (exists n, m = MSeek n) ->
  snd (use null_handle tt (fold_right (fun m p => Call m (fun _ => p)) (Call m k) before)) = snd (use null_handle tt (k (Raise NotImplementedError))).
Proof.
  intros R before m k H. induction before as [|b before IH]; cbn [fold_right use].
  - unfold null_handle at 1. assert (null_method m = Raise NotImplementedError) as ->. { cbn in H. decompose [or] H; subst; try reflexivity; try contradiction. match goal with E : exists _, _ |- _ => destruct E as [n ->]; reflexivity end. }
    destruct (use null_handle tt (k (Raise NotImplementedError))) as [[? ?] ?]. reflexivity.
  - unfold null_handle at 1. destruct (use null_handle tt (fold_right _ _ before)) as [[s t] r]. exact IH.
Qed.

Lemma write_at_end : forall (b w : str), write_at 0%N b (length b) w = b ++ w.
Proof.
  intros b w. unfold write_at. destruct w as [|c w]; [now rewrite app_nil_r|]. rewrite Nat.sub_diag. cbn [repeat]. rewrite app_nil_r, firstn_all. f_equal.
  rewrite skipn_all2 by lia. apply app_nil_r.
Qed.
Lemma use_after : forall S R Q (h : S -> method -> S * res answer) (p : prog R) (f : res R -> prog Q) s,
  use h s (after p f) = let '(s1, t1, r1) := use h s p in let '(s2, t2, r2) := use h s1 (f r1) in (s2, t1 ++ t2, r2).
Proof.
  intros S R Q h p f. induction p as [r|m k IH]; intros s; cbn [after use].
  - destruct (use h s (f r)) as [[? ?] ?]. reflexivity.
  - destruct (h s m) as [s1 a]. rewrite IH. destruct (use h s1 (k a)) as [[s2 t2] r2]. destruct (use h s2 (f r2)) as [[? ?] ?]. reflexivity.
Qed.
Lemma pieces_string : forall l s, sio_closed s = false -> sio_pos s = length (sio_text s) ->
  exists t, use string_handle s (write_pieces l (Call MFlush (fun a => Return (match a with Ok _ => Ok tt | Raise e => Raise e end)))) =
    (MkStringIO (sio_text s ++ concat l) (length (sio_text s ++ concat l)) false (sio_last s), t, Ok tt).
Proof.
  induction l as [|w l IH]; intros [b n c la] C P; cbn in C, P; subst; cbn [write_pieces use string_handle sio_closed].
  - cbn [concat sio_text sio_last]. rewrite app_nil_r. eexists. reflexivity.
  - unfold sio_write. cbn [sio_text sio_pos sio_last]. rewrite write_at_end.
    destruct (IH (MkStringIO (b ++ w) (length b + length w) false la) eq_refl) as [t E]; [cbn; rewrite app_length; reflexivity|].
    rewrite E. cbn [sio_text sio_last concat]. rewrite <- app_assoc. eexists. reflexivity.
Qed.

Section Writer.
Variable pieces : pv -> list str.
Lemma writes_only : forall p, only_writes (writer_prog pieces p).
Proof.
  intros p. unfold writer_prog, with_block. cbn [only_writes]. split; [exact I|]. split; [reflexivity|]. intros [a|e]; [|exact I].
  assert (G : forall l f, (forall r, only_writes (f r)) -> only_writes (R := unit) (after (write_pieces l (Call MFlush (fun a => Return (match a with Ok _ => Ok tt | Raise e => Raise e end)))) f)).
  { induction l as [|w l IH]; intros f F; cbn [write_pieces after only_writes]; (split; [exact I|]); (split; [reflexivity|]).
    - intros [b|e]; cbn [after]; apply F.
    - intros [b|e]; [apply IH; exact F|cbn [after]; apply F]. }
  assert (F : forall r : res unit, only_writes (Call MExit (fun x => match x with Raise e => Return (Raise e) | Ok _ => Return r end))).
  { intros r. cbn [only_writes]. split; [exact I|]. split; [reflexivity|]. intros [b|e]; exact I. }
  destruct (preprocess (dictify p)) as [y|e]; [apply G; exact F|cbn [after]; apply F].
Qed.
(** C129: writing parameters to nowhere tells whether they can be written: it succeeds exactly if all values are printable, in which case a string sink gets the whole text, and raises RuntimeError otherwise. *)
Theorem C129_writer : forall p, wf_params p ->
  (printable p -> snd (use null_handle tt (writer_prog pieces p)) = Ok tt /\
     exists y s t, preprocess (dictify p) = Ok y /\ use string_handle new_string_io (writer_prog pieces p) = (s, t, Ok tt) /\ sio_last s = Some (concat (pieces y))) /\
  (~ printable p -> snd (use null_handle tt (writer_prog pieces p)) = Raise RuntimeError /\ snd (use string_handle new_string_io (writer_prog pieces p)) = Raise RuntimeError).
Proof.
  intros p W. destruct (C54_no_entry_lost p W) as [P NP]. split; intros H.
  - destruct (P H) as (y & E & _).
    assert (G : exists s t, use string_handle new_string_io (writer_prog pieces p) = (s, t, Ok tt) /\ sio_last s = Some (concat (pieces y)) /\ all_went_well t).
    { unfold writer_prog, with_block. rewrite E. cbn [use]. change (string_handle new_string_io MEnter) with (new_string_io, @Ok answer ASelf). cbv iota beta. rewrite use_after.
      destruct (pieces_string (pieces y) new_string_io eq_refl eq_refl) as [t U]. 
      assert (AW : all_went_well t).
      { clear - U. revert t U. generalize new_string_io as s0. intros s0 t U.
        assert (GEN : forall l s t s' r, use string_handle s (write_pieces l (Call MFlush (fun a => Return (match a with Ok _ => Ok tt | Raise e => Raise e end)))) = (s', t, Ok r) -> all_went_well t).
        { induction l as [|w l IH]; intros s t0 s' r; cbn [write_pieces use].
          - destruct (string_handle s MFlush) as [s1 [a|e]]; intros X; inversion X; subst. intros m x [Y|[]]. injection Y as <- <-. now exists a.
          - destruct (string_handle s (MWrite (Some w))) as [s1 [a|e]]; [|cbn [use]; intros X; discriminate X].
            destruct (use string_handle s1 (write_pieces l _)) as [[s2 t2] r2] eqn:U2. intros X. inversion X; subst. intros m x [Y|Y]; [injection Y as <- <-; now exists a|exact (IH _ _ _ _ U2 m x Y)]. }
        exact (GEN _ _ _ _ _ U). }
      rewrite U. cbn. eexists _, _. split; [reflexivity|]. split; [reflexivity|]. intros m x [Y|Y]; [injection Y as <- <-; now exists ASelf|].
      apply in_app_or in Y. destruct Y as [Y|[Y|[]]]; [exact (AW m x Y)|injection Y as <- <-; now exists ANone]. }
    destruct G as (s & t & U & L & AW). split; [|exists y, s, t; repeat split; assumption].
    pose proof (C129_stand_in _ _ string_handle new_string_io _ (writes_only p)) as K. rewrite U in K. exact (K AW).
  - pose proof (NP H) as E. unfold writer_prog, with_block. rewrite E. split; reflexivity.
Qed.
End Writer.

(** Expected: the object can be used as any open text file (it is declared as a TextIO).  Refuted: [closed] is true from the beginning, write gives no number of characters, and writelines does not go through its
    argument, so that an exception of a generator given to it is not raised. *)
Theorem C129_text_file_refuted :
  (forall s, sio_closed s = false -> exists a, snd (string_handle s MClosed) = Ok a /\ answer_truthy a = false) /\ (exists a, null_method MClosed = Ok a /\ answer_truthy a = true) /\
  (forall s w, sio_closed s = false -> snd (string_handle s (MWrite (Some w))) = Ok (ACount (length w)) /\ null_method (MWrite (Some w)) = Ok ANone) /\
  (forall s lines e rest, sio_closed s = false -> snd (string_handle s (MWritelines (map (fun w => Ok (Some w)) lines ++ Raise e :: rest))) = Raise e /\
     null_method (MWritelines (map (fun w => Ok (Some w)) lines ++ Raise e :: rest)) = Ok ANone).
Proof.
  split; [intros s C; exists (ABool false); cbn; rewrite C; split; reflexivity|]. split; [exists AMethod; split; reflexivity|]. split.
  - intros s w C. cbn. rewrite C. split; reflexivity.
  - intros s lines e rest C. split; [|reflexivity]. cbn. rewrite C. clear C. revert s. induction lines as [|w l IH]; intros s; cbn; [reflexivity|apply IH].
Qed.

(** ** A case that meets the hypotheses *)
Definition ex129 : prog nat :=
  Call MEnter (fun _ => Call (MWrite (Some !!"some")) (fun x => match x with Raise e => Return (Raise e) | Ok _ =>
    Call (MWritelines [Ok (Some !!" t"); Ok (Some !!"ext")]) (fun _ => Call MExit (fun _ => Return (Ok 3))) end)).
Example C129_witness : only_writes ex129 /\ (exists s t, use string_handle new_string_io ex129 = (s, t, Ok 3) /\ all_went_well t /\ sio_last s = Some !!"some text") /\
  snd (use null_handle tt ex129) = Ok 3 /\ snd (use string_handle new_string_io (write_prog None)) = Raise TypeError.
Proof.
  split. { cbn. repeat split; try reflexivity; intros [a|e]; cbn; repeat split; try reflexivity; intros; repeat split; reflexivity. }
  split. { eexists _, _. split; [reflexivity|]. split; [|reflexivity]. intros m x I. cbn in I. decompose [or] I; try contradiction; match goal with E : (_, _) = (_, _) |- _ => injection E as <- <-; eexists; reflexivity end. }
  split; reflexivity.
Qed.
Example C129_writer_witness : exists p, from_mapping (PMap [(!!"a", PPath !!"/x"); (!!"b", PMap [(!!"c", PInt 1)])]) [] = Ok p /\ wf_params p /\ printable p /\
  exists q, from_mapping (PMap [(!!"a", PBytes [])]) [] = Ok q /\ wf_params q /\ ~ printable q.
Proof.
  eexists. split; [reflexivity|]. split; [split; [|reflexivity]; simpl; repeat split; repeat constructor; simpl; unfold dotless; simpl; intuition discriminate|]. split.
  { constructor. intros k v I. cbn in I. destruct I as [E|[E|[]]]; injection E as <- <-; [apply pr_leaf; [reflexivity|constructor]|].
    constructor. intros k v I. cbn in I. destruct I as [E|[]]; injection E as <- <-. apply pr_leaf; [reflexivity|constructor]. }
  eexists. split; [reflexivity|]. split; [split; [|reflexivity]; simpl; repeat split; repeat constructor; simpl; unfold dotless; simpl; intuition discriminate|]. intros P. inversion P as [pre d H|v H W]; subst; [|discriminate H].
  specialize (H !!"a" (PBytes []) (or_introl eq_refl)). inversion H as [|v E W]; subst. inversion W.
Qed.
Print Assumptions C129_accepts.
Print Assumptions C129_stand_in.
Print Assumptions C129_write_tells.
Print Assumptions C129_refuses.
Print Assumptions C129_writer.
Print Assumptions C129_text_file_refuted.
