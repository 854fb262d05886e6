(** * Model of vistautils/iter_utils.py, iterutils.py and collection_utils.py

    An iterator is a position in a stream [s : nat -> option A]: [next] returns [s pos] and moves
    on, [None] is StopIteration.  A list is the stream [nth_error l]; infinite iterators are
    streams without [None].  A Python generator is a state machine: one [step] is one [next()]
    call on the generator, and it says how far the underlying iterator was advanced. *)
From Verif Require Import Prelude.

Section Iter.
Context {A : Type}.
Variable s : nat -> option A.

(** [next(it)] *)
Definition next (pos : nat) : option A * nat :=
  match s pos with Some e => (Some e, S pos) | None => (None, pos) end.
(** [list(islice(it, n))]: pulls at most n elements, stops at StopIteration. *)
Fixpoint islice_take (n pos : nat) : list A * nat :=
  match n with
  | 0 => ([], pos)
  | S n' => match next pos with
            | (None, p) => ([], p)
            | (Some e, p) => let (l, p') := islice_take n' p in (e :: l, p')
            end
  end.
(** [deque(maxlen=w).append(e)]: drops the leftmost element when full. *)
Definition deque_append (w : nat) (win : list A) (e : A) : list A :=
  if (length win <? w)%nat then win ++ [e] else tl win ++ [e].

(** iter_utils.py:149-169 (_complete_windows), 172-205 (_possibly_incomplete_windows):
    where the generator is suspended. *)
Inductive gen_state :=
| GStart                       (* not started *)
| GLoop (win : list A)         (* suspended in the for loop *)
| GTail (win : list A) (k : nat) (* suspended in the popleft loop, k rounds left *)
| GDone.
(** iter_utils.py:149-169: one next() of the generator *)
Definition complete_step (w : nat) (g : gen_state) (pos : nat) : option (list A) * gen_state * nat :=
  match g with
  | GStart =>
      let (win, p) := islice_take w pos in
      if (length win <? w)%nat then (None, GDone, p) else (Some win, GLoop win, p)
  | GLoop win =>
      match next pos with
      | (Some e, p) => let win' := deque_append w win e in (Some win', GLoop win', p)
      | (None, p) => (None, GDone, p)
      end
  | GTail _ _ | GDone => (None, GDone, pos)
  end.
(** one round of the popleft loop *)
Definition tail_step (win : list A) (k : nat) (pos : nat) : option (list A) * gen_state * nat :=
  match k with
  | 0 => (None, GDone, pos)
  | S k' => match tl win with
            | [] => (None, GDone, pos)
            | win' => (Some win', GTail win' k', pos)
            end
  end.
(** iter_utils.py:172-205: one next() of the generator *)
Definition partial_step (w : nat) (g : gen_state) (pos : nat) : option (list A) * gen_state * nat :=
  match g with
  | GStart =>
      let (win, p) := islice_take w pos in
      match win with [] => (None, GDone, p) | _ => (Some win, GLoop win, p) end
  | GLoop win =>
      match next pos with
      | (Some e, p) => let win' := deque_append w win e in (Some win', GLoop win', p)
      | (None, p) => tail_step win (w - 1) p
      end
  | GTail win k => tail_step win k pos
  | GDone => (None, GDone, pos)
  end.
(** iter_utils.py:103-115 (windowed), for an iterator: the generator in its start state.  For an
    iterable, :141-146 (_WindowedIterable.__iter__) is the same on a fresh [iter()]. *)
Definition windowed (window_size : Z) (partial_windows : bool)
  : res (gen_state -> nat -> option (list A) * gen_state * nat) :=
  if (window_size >=? 1)%Z
  then Ok (if partial_windows then partial_step (Z.to_nat window_size) else complete_step (Z.to_nat window_size))
  else Raise ValueError.

(** The results of [k] successive [next()] calls on a generator, and the final position. *)
Fixpoint nexts {G Y} (step : G -> nat -> option Y * G * nat) (k : nat) (g : G) (pos : nat) : list (option Y) * nat :=
  match k with
  | 0 => ([], pos)
  | S k' => let '(y, g', p) := step g pos in
            let (ys, p') := nexts step k' g' p in (y :: ys, p')
  end.

(** iter_utils.py:34-54 (drop): [islice(it, n, None)]; the state is the number of elements still
    to skip. *)
Fixpoint skip (n pos : nat) : nat :=
  match n with 0 => pos | S n' => match next pos with (Some _, p) => skip n' p | (None, p) => p end end.
(** iter_utils.py:34-54: one next() of the islice *)
Definition drop_step (n : nat) (pos : nat) : option A * nat * nat :=
  let (y, p) := next (skip n pos) in (y, 0, p).
(** iter_utils.py:34-54: the call itself *)
Definition drop (num_to_skip : Z) : res nat :=
  if (num_to_skip >=? 0)%Z then Ok (Z.to_nat num_to_skip) else Raise ValueError.

(** iter_utils.py:61-82 (only).  [ne_sentinel x] is the result of [x != _SENTINEL], which is True
    unless the element's class overrides comparison. *)
Variable ne_sentinel : A -> bool.
(** iter_utils.py:61-82 *)
Definition only (pos : nat) : res A * nat :=
  match next pos with
  | (None, p) => (Raise ValueError, p)
  | (Some ret, p) =>
      match next p with
      | (Some e, p') => if ne_sentinel e then (Raise ValueError, p') else (Ok ret, p')
      | (None, p') => (Ok ret, p')
      end
  end.
(** collection_utils.py:8-30 (get_only); formatting the message of the exception is not modelled. *)
Definition get_only (pos : nat) : res A * nat :=
  match next pos with
  | (None, p) => (Raise ValueError, p)
  | (Some first, p) =>
      match next p with (Some _, p') => (Raise ValueError, p') | (None, p') => (Ok first, p') end
  end.
End Iter.
Arguments gen_state A : clear implicits.
(** iterutils.py:10-14 (tile_with_pairs) *)
Definition tile_with_pairs {A} (s : nat -> option A) := windowed s 2 false.
(** iter_utils.py:208-212 (non_none): a generator over an iterator of Optionals; a single next()
    pulls until it finds a non-None element, so it needs fuel for infinite all-None streams;
    modelled on finite iterables. *)
Definition non_none {A} (xs : list (option A)) : list A :=
  flat_map (fun x => match x with Some a => [a] | None => [] end) xs.
