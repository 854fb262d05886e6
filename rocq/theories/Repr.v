(** * Printed forms of ranges, range sets and spans (range.py:178-182, 211-215, 260-264, 297-301, 380-387, 597-602, 1075-1076; span.py:139-140) *)
From Verif Require Import Prelude PyStr Decimals Order Range RangeSet Misc Span.

(** the sign for infinity, range.py:179, 215 *)
Definition INF : N := 8734.
(** str(int) *)
Definition int_str (z : Z) : str := if (z <? 0)%Z then !!"-" ++ decimal (Z.to_N (- z)) else decimal (Z.to_N z).
(** What "%s" % x makes of x: a tuple is taken for the tuple of the arguments, so it must have one item; anything else is shown by str().
    [inl s]: no tuple, str(x) = s; [inr items]: a tuple, with the str() of its items. *)
Definition percent_s (x : str + list str) : res str :=
  match x with inl s => Ok s | inr [s] => Ok s | inr _ => Raise TypeError end.

Section Repr.
Context {T : Type} {O : TotalOrder T}.
Variable fmt : T -> res str.            (* "%s" % endpoint *)

(** describe_as_lower_bound: range.py:178-179, 211-212, 260-261, 297-298 *)
Definition describe_lower (c : cut T) : res str :=
  match c with
  | BelowAll => Ok (!!"(-" ++ [INF])
  | AboveAll => Raise AssertionError
  | BelowV x => let* s := fmt x in Ok (!!"[" ++ s)
  | AboveV x => let* s := fmt x in Ok (!!"(" ++ s)
  end.
(** describe_as_upper_bound: range.py:181-182, 214-215, 263-264, 300-301 *)
Definition describe_upper (c : cut T) : res str :=
  match c with
  | BelowAll => Raise AssertionError
  | AboveAll => Ok (!!"+" ++ [INF] ++ !!")")
  | BelowV x => let* s := fmt x in Ok (s ++ !!")")
  | AboveV x => let* s := fmt x in Ok (s ++ !!"]")
  end.
(** Range.__repr__, range.py:597-602 *)
Definition range_repr (r : range T) : res str :=
  let* l := describe_lower (lower r) in
  let* u := describe_upper (upper r) in
  Ok (l ++ !!".." ++ u).
(** range.py:380-387 with the message, which shows the range, formatted before the ValueError is raised
    (preconditions.py:31-36).  [mk_range] of Range.v is this for endpoints that can be formatted. *)
Definition construct (lb ub : cut T) : res (range T) :=
  if negb (cut_le lb ub) then let* _ := range_repr (MkRange lb ub) in Raise ValueError
  else if is_above_all lb then Raise ValueError
  else if is_below_all ub then Raise ValueError
  else Ok (MkRange lb ub).
(** _SortedDictRangeSet.__repr__, range.py:1075-1076: repr of the list of the ranges *)
Definition set_repr (d : rset T) : res str :=
  let* l := mapM range_repr (as_ranges d) in Ok (str_list (fun s => s) l).
End Repr.

(** Span.__repr__, span.py:139-140 *)
Definition span_repr (s : span) : str := !!"[" ++ int_str (start s) ++ !!":" ++ int_str (end_ s) ++ !!")".
