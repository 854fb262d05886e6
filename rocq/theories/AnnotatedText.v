(** * Model of vistautils/annotated_text_utils.py *)
From Verif Require Import Prelude SortLib PyStr Order Range Span.
Local Open Scope Z_scope.

(** annotated_text_utils.py:25-49: an annotated span.  [attributes] is an immutabledict:
    its items in insertion order (keys are distinct).  Labels, keys and values are str. *)
Record annotation := MkAnn { label : str; ann_span : span; attributes : list (str * str) }.

(** annotated_text_utils.py:52-60 *)
Definition to_start_tag (a : annotation) : str :=
  let key_value_string :=
    py_join !!" " (map (fun kv => fst kv ++ !!"=""" ++ snd kv ++ !!"""")
                       (sorted_by str_pair_ltb (fun kv => kv) (attributes a))) in
  let attributes_string := match attributes a with [] => [] | _ => !!" " ++ key_value_string end in
  !!"<" ++ label a ++ attributes_string ++ !!">".
(** annotated_text_utils.py:63-67 *)
Definition to_end_tag (a : annotation) : str := !!"</" ++ label a ++ !!">".

(** annotated_text_utils.py:120-147 (_clip_to_offsets_and_shift); [if clipped_annotation_span]
    is truthiness of Optional[Span]: a Span has positive length, so only None is falsy. *)
Fixpoint clip_to_offsets_and_shift (anns : list annotation) (text_offsets : span) : res (list annotation) :=
  match anns with
  | [] => Ok []
  | a :: r =>
      let* clipped := clip_to (ann_span a) text_offsets in
      match clipped with
      | Some c =>
          let* shifted := shift c (- start text_offsets) in
          let* rest := clip_to_offsets_and_shift r text_offsets in
          Ok (MkAnn (label a) shifted (attributes a) :: rest)
      | None => clip_to_offsets_and_shift r text_offsets
      end
  end.

(** annotated_text_utils.py:149-153 *)
Record tag := MkTag { tag_string : str; is_start : bool; tag_offset : Z }.

(** annotated_text_utils.py:168-174 *)
Definition start_tag_key (a : annotation) : Z * Z := (start (ann_span a), - span_len (ann_span a)).
(** annotated_text_utils.py:172-174 *)
Definition end_tag_key (a : annotation) : Z * Z := (end_ (ann_span a), span_len (ann_span a)).
(** annotated_text_utils.py:196: key (offset, is_start), False < True *)
Definition tag_key_ltb (a b : Z * bool) : bool :=
  (fst a <? fst b) || ((fst a =? fst b) && (negb (snd a) && snd b)).
(** annotated_text_utils.py:189-194: the key of the final sort *)
Definition tag_key (t : tag) : Z * bool := (tag_offset t, is_start t).
(** annotated_text_utils.py:155-194 (_tag_sequence) *)
Definition start_tag_of (a : annotation) : tag := MkTag (to_start_tag a) true (start (ann_span a)).
(** annotated_text_utils.py:155-194, the end-tag part *)
Definition end_tag_of (a : annotation) : tag := MkTag (to_end_tag a) false (end_ (ann_span a)).
(** annotated_text_utils.py:155-194 *)
Definition tag_sequence (anns : list annotation) : list tag :=
  let start_tags := map start_tag_of (sorted_by key_ltb start_tag_key anns) in
  let end_tags := map end_tag_of (sorted_by key_ltb end_tag_key anns) in
  sorted_by tag_key_ltb tag_key (end_tags ++ start_tags).

(** annotated_text_utils.py:106-113: the copying loop; state (last_uncopied_offset, output). *)
Definition write_tag (text : str) (st : Z * str) (t : tag) : Z * str :=
  let (last, out) := st in
  if last <? tag_offset t then (tag_offset t, out ++ py_slice text last (tag_offset t) ++ tag_string t)
  else (last, out ++ tag_string t).
(** annotated_text_utils.py:72-118 ([if not text_offsets]: only None is falsy). *)
Definition annotated_text (text : str) (anns : list annotation) (text_offsets : option span) : res str :=
  let* w := match text_offsets with
            | None => from_inclusive_to_exclusive 0 (Z.of_nat (length text))
            | Some w => Ok w
            end in
  if negb (span_len w =? Z.of_nat (length text)) then Raise ValueError
  else
    let* processed := clip_to_offsets_and_shift anns w in
    let (last, out) := fold_left (write_tag text) (tag_sequence processed) (0, []) in
    Ok (if last <? end_ w then out ++ py_slice text last (end_ w) else out).
