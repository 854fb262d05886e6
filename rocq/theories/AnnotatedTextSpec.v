(** * Specification vocabulary for annotated text (independent of the code's algorithm) *)
From Verif Require Import Prelude SortLib PyStr Order Range Span AnnotatedText.
Local Open Scope Z_scope.

(** A tag occurrence: the start or the end tag of an annotation; where it belongs and its text. *)
Inductive event := Open (a : annotation) | Close (a : annotation).
Definition event_offset (e : event) : Z :=
  match e with Open a => start (ann_span a) | Close a => end_ (ann_span a) end.
Definition event_string (e : event) : str :=
  match e with Open a => to_start_tag a | Close a => to_end_tag a end.
Definition alen (a : annotation) : Z := end_ (ann_span a) - start (ann_span a).
Definition shortest_first := sorted_by Z.ltb alen.
Definition longest_first := sorted_by Z.ltb (fun a => - alen a).
(** what is written just before the character at offset [i]: end tags of the annotations ending
    there, shortest first, then start tags of those starting there, longest first *)
Definition events_at (anns : list annotation) (i : nat) : list event :=
  map Close (shortest_first (filter (fun a => end_ (ann_span a) =? Z.of_nat i) anns)) ++
  map Open (longest_first (filter (fun a => start (ann_span a) =? Z.of_nat i) anns)).
Definition all_events (anns : list annotation) (n : nat) : list event := flat_map (events_at anns) (seq 0 (S n)).
(** the part of an annotation inside the window, relative to the window's start *)
Definition visible (w : span) (anns : list annotation) : list annotation :=
  flat_map (fun a =>
    let lo := Z.max (start (ann_span a)) (start w) in
    let hi := Z.min (end_ (ann_span a)) (end_ w) in
    if lo <? hi then [MkAnn (label a) (MkSpan (lo - start w) (hi - start w)) (attributes a)] else []) anns.
(** the text with, before the character at each offset i (and after the last one), the tags of block i *)
Definition woven (text : str) (blk : nat -> list event) (is_ : list nat) : str :=
  flat_map (fun i => concat (map event_string (blk i)) ++ firstn 1 (skipn i text)) is_.

(** [nested s es s']: reading the tag occurrences [es] with the stack [s] of open annotations, each
    end tag closes the most recently opened annotation, and [s'] is open afterwards. *)
Inductive nested : list annotation -> list event -> list annotation -> Prop :=
| nested_nil s : nested s [] s
| nested_open a s r s' : nested (a :: s) r s' -> nested s (Open a :: r) s'
| nested_close a s r s' : nested s r s' -> nested (a :: s) (Close a :: r) s'.
(** spans are disjoint or one contains the other *)
Definition laminar_pair (a b : span) : Prop :=
  end_ a <= start b \/ end_ b <= start a \/
  (start a <= start b /\ end_ b <= end_ a) \/ (start b <= start a /\ end_ a <= end_ b).
