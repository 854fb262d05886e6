(** * C112: the iteration helpers over iterators that raise
    (iter_utils.py, collection_utils.py)

    In IterUtils.v an iterator gives elements and then stops.  Here next(iterator) may raise too: [s pos] is None for StopIteration, Some (Raise e) for an exception.  A generator, a generator expression and an itertools.islice
    object that get an exception from the iterator they are reading pass it on and are finished (language and library). *)
From Verif Require Import Prelude IterUtils.

(** ** Model *)
Section Model.
Context {A : Type}.
Variable s : nat -> option (res A).
(** next(it) *)
Definition fnext (pos : nat) : option (res A) * nat := match s pos with Some r => (Some r, S pos) | None => (None, pos) end.
(** list(islice(it, n)), as in iter_utils.py:161, 187 *)
Fixpoint ftake (n pos : nat) : res (list A) * nat :=
  match n with
  | 0 => (Ok [], pos)
  | S n' => match fnext pos with
            | (None, p) => (Ok [], p)
            | (Some (Raise e), p) => (Raise e, p)
            | (Some (Ok a), p) => let (r, p') := ftake n' p in ((let* l := r in Ok (a :: l)), p')
            end
  end.
(** iter_utils.py:149-169, 172-205: one next() of the generators; None is StopIteration *)
Definition fwindow_step (w : nat) (partial_windows : bool) (g : gen_state A) (pos : nat) : option (res (list A)) * gen_state A * nat :=
  let tail win k p := let '(y, g', p') := tail_step win k p in (option_map Ok y, g', p') in
  match g with
  | GStart => match ftake w pos with
              | (Raise e, p) => (Some (Raise e), GDone, p)
              | (Ok win, p) => if partial_windows then match win with [] => (None, GDone, p) | _ => (Some (Ok win), GLoop win, p) end
                               else if (length win <? w)%nat then (None, GDone, p) else (Some (Ok win), GLoop win, p)
              end
  | GLoop win => match fnext pos with
                 | (Some (Ok e), p) => let win' := deque_append w win e in (Some (Ok win'), GLoop win', p)
                 | (Some (Raise e), p) => (Some (Raise e), GDone, p)
                 | (None, p) => if partial_windows then tail win (w - 1) p else (None, GDone, p)
                 end
  | GTail win k => if partial_windows then tail win k pos else (None, GDone, pos)
  | GDone => (None, GDone, pos)
  end.
(** iter_utils.py:34-54 (drop): the islice skips, and gives elements; the state: how many are to be skipped, None if it is finished *)
Fixpoint fskip (n pos : nat) : option (res unit) * nat :=
  match n with
  | 0 => (Some (Ok tt), pos)
  | S n' => match fnext pos with (None, p) => (None, p) | (Some (Raise e), p) => (Some (Raise e), p) | (Some (Ok _), p) => fskip n' p end
  end.
(** iter_utils.py:34-54: one next() of the islice *)
Definition fdrop_step (g : option nat) (pos : nat) : option (res A) * option nat * nat :=
  match g with
  | None => (None, None, pos)
  | Some n => match fskip n pos with
              | (None, p) => (None, None, p)
              | (Some (Raise e), p) => (Some (Raise e), None, p)
              | (Some (Ok _), p) => match fnext p with
                                    | (None, q) => (None, None, q)
                                    | (Some (Raise e), q) => (Some (Raise e), None, q)
                                    | (Some (Ok a), q) => (Some (Ok a), Some 0, q)
                                    end
              end
  end.
(** iter_utils.py:61-82 (only); only StopIteration is caught.  [ne_sentinel] as in IterUtils.only *)
Definition fonly (ne_sentinel : A -> bool) (pos : nat) : res A * nat :=
  match fnext pos with
  | (None, p) => (Raise ValueError, p)
  | (Some (Raise e), p) => (Raise e, p)
  | (Some (Ok ret), p) => match fnext p with
                          | (Some (Ok e), p') => if ne_sentinel e then (Raise ValueError, p') else (Ok ret, p')
                          | (Some (Raise e), p') => (Raise e, p')
                          | (None, p') => (Ok ret, p')
                          end
  end.
(** collection_utils.py:8-30 (get_only) *)
Definition fget_only (pos : nat) : res A * nat :=
  match fnext pos with
  | (None, p) => (Raise ValueError, p)
  | (Some (Raise e), p) => (Raise e, p)
  | (Some (Ok first), p) => match fnext p with
                            | (Some (Ok _), p') => (Raise ValueError, p')
                            | (Some (Raise e), p') => (Raise e, p')
                            | (None, p') => (Ok first, p')
                            end
  end.
End Model.
(** iter_utils.py:208-212 (non_none): one next(), over an iterator whose next elements are [todo] (None is Python's None), after which it raises [e] or stops; the state is None when the generator is finished *)
Fixpoint fnon_none_step {A} (todo : list (option A)) (e : option exn) : option (res A) * option (list (option A)) :=
  match todo with
  | [] => (option_map Raise e, None)
  | None :: r => fnon_none_step r e
  | Some a :: r => (Some (Ok a), Some r)
  end.
(** iter_utils.py:208-212: n times next() *)
Fixpoint fnon_nones {A} (n : nat) (g : option (list (option A))) (e : option exn) : list (option (res A)) :=
  match n with
  | 0 => []
  | S n' => match g with None => None :: fnon_nones n' None e | Some l => let '(y, g') := fnon_none_step l e in y :: fnon_nones n' g' e end
  end.

(** ** Specification *)
(** The iterator gives the elements of [l], and raises [e] when asked for more; what it would do after that is left open. *)
Definition gives {A} (s : nat -> option (res A)) (l : list A) (e : exn) : Prop := (forall i a, nth_error l i = Some a -> s i = Some (Ok a)) /\ s (length l) = Some (Raise e).
(** The answers to [k] calls of next(): the results, one after the other; then the exception, once; then StopIteration. *)
Fixpoint then_fails {Y} (ys : list Y) (e : exn) (k : nat) {struct k} : list (option (res Y)) :=
  match k with
  | 0 => []
  | S k' => match ys with y :: r => Some (Ok y) :: then_fails r e k' | [] => Some (Raise e) :: repeat None k' end
  end.

(** ** Proofs *)
Lemma then_fails_nil {Y} e k : @then_fails Y [] e (S k) = Some (Raise e) :: repeat None k.
Proof. reflexivity. Qed.
Section Proofs.
Context {A : Type}.
Variable s : nat -> option (res A).
Variable l : list A.
Variable e : exn.
Hypothesis G : gives s l e.
Lemma fnext_in pos a : nth_error l pos = Some a -> fnext s pos = (Some (Ok a), S pos).
Proof. intros H. unfold fnext. now rewrite (proj1 G _ _ H). Qed.
Lemma fnext_end : fnext s (length l) = (Some (Raise e), S (length l)).
Proof. unfold fnext. now rewrite (proj2 G). Qed.
Lemma skipn_nth pos a : nth_error l pos = Some a -> skipn pos l = a :: skipn (S pos) l.
Proof. clear. revert pos. induction l as [|x m IH]; intros [|pos] H; try discriminate; cbn in *; [now inversion H|now apply IH]. Qed.
Lemma ftake_in w : forall pos, pos <= length l -> ftake s w pos = if (pos + w <=? length l)%nat then (Ok (firstn w (skipn pos l)), pos + w)%nat else (Raise e, S (length l)).
Proof using G.
  induction w as [|w IH]; intros pos L; cbn [ftake].
  - rewrite Nat.add_0_r, (proj2 (Nat.leb_le _ _) L). reflexivity.
  - destruct (nth_error l pos) as [a|] eqn:E.
    + assert (P : pos < length l) by (apply nth_error_Some; congruence). rewrite (fnext_in _ _ E), (IH (S pos)) by lia. rewrite (skipn_nth _ _ E). replace (S pos + w)%nat with (pos + S w)%nat by lia. destruct (pos + S w <=? length l)%nat; reflexivity.
    + apply nth_error_None in E. assert (pos = length l) by lia. subst pos. rewrite fnext_end. rewrite (proj2 (Nat.leb_gt _ _)) by lia. reflexivity.
Qed.
Lemma nexts_done {Y St} (step : St -> nat -> option (res Y) * St * nat) g : (forall pos, step g pos = (None, g, pos)) -> forall k pos, nexts step k g pos = (repeat None k, pos).
Proof. clear. intros H k. induction k as [|k IH]; intros pos; [reflexivity|]. cbn. rewrite H, IH. reflexivity. Qed.
(** suspended in the loop after the window that ends at [pos] *)
Lemma loop_fails w b k : 0 < w -> forall i, i + w <= length l ->
  nexts (fwindow_step s w b) k (GLoop (firstn w (skipn i l))) (i + w) = (then_fails (map (fun i => firstn w (skipn i l)) (seq (S i) (length l - w - i))) e k, Nat.min (i + w + k) (S (length l)))%nat.
Proof using G.
  intros W. induction k as [|k IH]; intros i L; [rewrite Nat.min_l by lia; rewrite Nat.add_0_r; reflexivity|]. cbn [nexts fwindow_step]. destruct (nth_error l (i + w)) as [a|] eqn:E.
  - assert (P : i + w < length l) by (apply nth_error_Some; congruence). rewrite (fnext_in _ _ E). cbn [nexts].
    assert (D : deque_append w (firstn w (skipn i l)) a = firstn w (skipn (S i) l)).
    { unfold deque_append. assert (Lw : length (firstn w (skipn i l)) = w) by (rewrite firstn_length, skipn_length; lia). rewrite Lw, Nat.ltb_irrefl. clear - E P W. revert i E P. induction l as [|x m IH]; intros i E P; [cbn in P; lia|]. destruct i as [|i].
      - cbn [skipn Nat.add] in *. destruct w as [|w']; [lia|]. cbn [firstn tl nth_error] in *. clear IH P W. revert m E. induction w' as [|w' IH]; intros m E; destruct m as [|y m]; cbn in *; try discriminate; [now inversion E|]. f_equal. now apply IH.
      - cbn [skipn Nat.add nth_error] in *. apply (IH i E). cbn in P. lia. }
    rewrite D. replace (S (i + w)) with (S i + w) by lia. rewrite IH by lia. replace (length l - w - i) with (S (length l - w - S i)) by lia. cbn [seq map then_fails]. f_equal. lia.
  - apply nth_error_None in E. assert (Q : i + w = length l) by lia. rewrite Q, fnext_end. rewrite nexts_done by reflexivity. replace (length l - w - i) with 0 by lia. cbn [seq map then_fails]. f_equal. lia.
Qed.
End Proofs.

(** *** C112 *)
(** windowed, with and without partial windows, over an iterator that raises after the elements of [l]: the windows of [l], all complete, then the exception, then StopIteration (in particular no window is given if there are less
    elements than the window is long); no element is asked for after the exception. *)
Theorem C112_windowed : forall A (s : nat -> option (res A)) l e w b k, gives s l e -> 0 < w ->
  nexts (fwindow_step s w b) k GStart 0 = (then_fails (map (fun i => firstn w (skipn i l)) (seq 0 (S (length l) - w))) e k, match k with 0 => 0 | S k' => Nat.min (w + k') (S (length l)) end).
Proof.
  intros A s l e w b k G W. destruct k as [|k]; [reflexivity|]. cbn [nexts fwindow_step]. rewrite (ftake_in s l e G w 0) by lia. cbn [Nat.add]. destruct (Nat.leb_spec w (length l)) as [L|L].
  - assert (Lw : length (firstn w (skipn 0 l)) = w) by (cbn [skipn]; rewrite firstn_length; lia).
    assert (Both : (if b then match firstn w (skipn 0 l) with [] => (None, GDone, w) | _ :: _ => (Some (Ok (firstn w (skipn 0 l))), GLoop (firstn w (skipn 0 l)), w) end
                    else if (length (firstn w (skipn 0 l)) <? w)%nat then (None, GDone, w) else (Some (Ok (firstn w (skipn 0 l))), GLoop (firstn w (skipn 0 l)), w)) = (Some (Ok (firstn w (skipn 0 l))), GLoop (firstn w (skipn 0 l)), w)).
    { destruct b; [destruct (firstn w (skipn 0 l)); [cbn in Lw; lia|reflexivity]|]. rewrite Lw, Nat.ltb_irrefl. reflexivity. }
    rewrite Both. assert (H := loop_fails s l e G w b k W 0 L). cbn [Nat.add] in H. rewrite H. replace (S (length l) - w) with (S (length l - w - 0)) by lia. reflexivity.
  - rewrite nexts_done by reflexivity. replace (S (length l) - w) with 0 by lia. cbn [seq map then_fails]. f_equal. lia.
Qed.
(** drop(it, n): the elements after the first [n], then the exception; if the exception comes while elements are skipped, it is raised by the first next(). *)
Theorem C112_drop : forall A (s : nat -> option (res A)) l e n k, gives s l e -> fst (nexts (fdrop_step s) k (Some n) 0) = then_fails (skipn n l) e k.
Proof.
  intros A s l e n k G. assert (Sk : forall n pos, pos <= length l -> fskip s n pos = if (pos + n <=? length l)%nat then (Some (Ok tt), pos + n)%nat else (Some (Raise e), S (length l))).
  { clear n. induction n as [|n IH]; intros pos L; cbn [fskip]; [rewrite Nat.add_0_r, (proj2 (Nat.leb_le _ _) L); reflexivity|]. destruct (nth_error l pos) as [a|] eqn:E.
    - assert (P : pos < length l) by (apply nth_error_Some; congruence). rewrite (fnext_in s l e G _ _ E), IH by lia. now replace (S pos + n)%nat with (pos + S n)%nat by lia.
    - apply nth_error_None in E. assert (pos = length l) by lia. subst. rewrite (fnext_end s l e G), (proj2 (Nat.leb_gt _ _)) by lia. reflexivity. }
  assert (Go : forall k n pos, pos <= length l -> fst (nexts (fdrop_step s) k (Some n) pos) = then_fails (skipn (pos + n) l) e k).
  { clear n k. induction k as [|k IH]; intros n pos L; [reflexivity|]. cbn [nexts]. unfold fdrop_step at 1. rewrite (Sk n pos L). destruct (Nat.leb_spec (pos + n) (length l)) as [Q|Q].
    - destruct (nth_error l (pos + n)) as [a|] eqn:E.
      + assert (P : pos + n < length l) by (apply nth_error_Some; congruence). rewrite (fnext_in s l e G _ _ E), (skipn_nth l _ _ E). specialize (IH 0 (S (pos + n)) P). rewrite Nat.add_0_r in IH. destruct (nexts (fdrop_step s) k (Some 0) (S (pos + n))) as [ys p]. cbn [fst then_fails] in *. now rewrite IH.
      + apply nth_error_None in E. assert (pos + n = length l) by lia. rewrite H, (fnext_end s l e G), nexts_done by reflexivity. now rewrite skipn_all.
    - rewrite nexts_done by reflexivity. rewrite skipn_all2 by lia. reflexivity. }
  exact (Go k n 0 (Nat.le_0_l _)).
Qed.
(** only and get_only: the exception comes out unless there were two elements before it, which is a ValueError; an element followed by an exception is not returned. *)
Theorem C112_only : forall A (s : nat -> option (res A)) l e ne, gives s l e -> (forall a, ne a = true) ->
  fonly s ne 0 = (if (length l <? 2)%nat then (Raise e, S (length l)) else (Raise ValueError, 2)) /\ fget_only s 0 = fonly s ne 0.
Proof.
  intros A s l e ne G Ne. unfold fonly, fget_only. destruct l as [|a [|b m]].
  - now rewrite (fnext_end s [] e G : fnext s 0 = _).
  - rewrite (fnext_in s _ e G 0 a eq_refl). now rewrite (fnext_end s [a] e G : fnext s 1 = _).
  - rewrite (fnext_in s _ e G 0 a eq_refl), (fnext_in s _ e G 1 b eq_refl). now rewrite Ne.
Qed.
(** non_none: the elements that are not None, then the exception if there is one, then StopIteration *)
Theorem C112_non_none : forall A (todo : list (option A)) e k,
  fnon_nones k (Some todo) (Some e) = then_fails (non_none todo) e k /\ fnon_nones k (Some todo) None = map (fun i => option_map Ok (nth_error (non_none todo) i)) (seq 0 k).
Proof.
  assert (Fin : forall A k e, @fnon_nones A k None e = repeat None k) by (intros A k e; induction k as [|k IH]; cbn; [reflexivity|now rewrite IH]).
  intros A todo e k. split.
  - revert todo. induction k as [|k IH]; intros todo; [reflexivity|]. induction todo as [|[a|] todo IHt]; [cbn; now rewrite Fin|cbn; now rewrite IH|]. exact IHt.
  - revert todo. induction k as [|k IH]; intros todo; [reflexivity|]. induction todo as [|[a|] todo IHt].
    + cbn. rewrite Fin. f_equal. change (repeat None k = map (fun i => option_map (@Ok A) (nth_error [] i)) (seq 1 k)). clear. generalize 1. induction k as [|k IH]; intros j; cbn; [reflexivity|]. rewrite <- IH. now destruct j.
    + cbn. rewrite IH. f_equal. rewrite <- seq_shift, map_map. apply map_ext. reflexivity.
    + exact IHt.
Qed.
(** Iterators that do not raise are those of C37 and C38: this model and that of IterUtils.v give the same answers. *)
Theorem C112_agrees : forall A (s : nat -> option A), let f i := option_map Ok (s i) in
  (forall w b k, 0 < w -> exists step, windowed s (Z.of_nat w) b = Ok step /\ nexts (fwindow_step f w b) k GStart 0 = (map (option_map Ok) (fst (nexts step k GStart 0)), snd (nexts step k GStart 0))) /\
  (forall ne pos, fonly f ne pos = only s ne pos /\ fget_only f pos = get_only s pos).
Proof.
  intros A s. cbv zeta. set (f := fun i => option_map Ok (s i)).
  assert (Fn : forall pos, fnext f pos = (option_map Ok (fst (next s pos)), snd (next s pos))) by (intros pos; unfold fnext, next, f; destruct (s pos); reflexivity). split.
  - intros w b k W. unfold windowed. rewrite (proj2 (Z.geb_le _ _)) by lia. rewrite Nat2Z.id. eexists. split; [reflexivity|].
    assert (Ft : forall n pos, ftake f n pos = (Ok (fst (islice_take s n pos)), snd (islice_take s n pos))).
    { induction n as [|n IH]; intros pos; cbn; [reflexivity|]. rewrite Fn. destruct (next s pos) as [[a|] p]; cbn; [|reflexivity]. rewrite IH. now destruct (islice_take s n p). }
    set (step := if b then partial_step s w else complete_step s w).
    assert (St : forall g pos, fwindow_step f w b g pos = let '(y, g', p) := step g pos in (option_map Ok y, g', p)).
    { intros g pos. subst step. destruct g as [|win|win k'|]; cbn [fwindow_step].
      - rewrite Ft. destruct b; cbn [partial_step complete_step]; destruct (islice_take s w pos) as [win p]; cbn [fst snd]; [now destruct win|now destruct (length win <? w)%nat].
      - rewrite Fn. destruct b; cbn [partial_step complete_step]; destruct (next s pos) as [[a|] p]; reflexivity.
      - destruct b; reflexivity.
      - destruct b; reflexivity. }
    clearbody step. generalize (@GStart A) 0. induction k as [|k IH]; intros g pos; [reflexivity|]. cbn [nexts]. rewrite St. destruct (step g pos) as [[y g'] p]. rewrite IH. destruct (nexts step k g' p) as [ys q]. reflexivity.
  - intros ne pos. unfold fonly, fget_only, only, get_only. rewrite !Fn. destruct (next s pos) as [[a|] p]; cbn [fst snd option_map]; [|split; reflexivity]. destruct (next s p) as [[b|] q]; cbn [fst snd option_map]; split; reflexivity.
Qed.

(** Three numbers, then an IOError *)
Example C112_witness : let s i := nth_error [Ok 5; Ok 6; Ok 7; Raise IOError; Ok 8] i in gives s [5; 6; 7] IOError /\
  fst (nexts (fwindow_step s 2 false) 5 GStart 0) = [Some (Ok [5; 6]); Some (Ok [6; 7]); Some (Raise IOError); None; None] /\ fst (nexts (fwindow_step s 2 true) 5 GStart 0) = fst (nexts (fwindow_step s 2 false) 5 GStart 0) /\
  nexts (fwindow_step s 4 true) 2 GStart 0 = ([Some (Raise IOError); None], 4) /\ fst (nexts (fdrop_step s) 4 (Some 2) 0) = [Some (Ok 7); Some (Raise IOError); None; None] /\ fst (nexts (fdrop_step s) 2 (Some 9) 0) = [Some (Raise IOError); None] /\
  fonly s (fun _ => true) 2 = (Raise IOError, 4) /\ fonly s (fun _ => true) 0 = (Raise ValueError, 2) /\ fnon_nones 4 (Some [None; Some 5; None]) (Some IOError) = [Some (Ok 5); Some (Raise IOError); None; None].
Proof. split; [split; [intros [|[|[|i]]] a H; cbn in *; try (destruct i; discriminate); congruence|reflexivity]|repeat split]. Qed.
Print Assumptions C112_windowed. Print Assumptions C112_drop. Print Assumptions C112_only. Print Assumptions C112_non_none. Print Assumptions C112_agrees.
