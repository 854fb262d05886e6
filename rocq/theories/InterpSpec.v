(** * Specification of interpolation: what the value of every parameter of a file is *)
From Coq Require Import Relations.
From Verif Require Import Prelude PyStr Params ParamsSpec Interp.

Section Spec.
Variable is_word : N -> bool.       (* the characters matched by \w *)
Variable float_truthy : N -> bool.  (* bool(float) *)

(** ** References in a string
    A reference is a '%', one or more word characters, dots or dashes, and a '%'.  References are
    found from left to right and do not overlap; every other character is itself. *)
Definition ref_char (c : N) : Prop := is_word c = true \/ c = dot \/ c = dash.
Definition ref_name (n : str) : Prop := n <> [] /\ Forall ref_char n.
Inductive tokenized : str -> list token -> Prop :=
| tk_nil : tokenized [] []
| tk_ref n rest ts : ref_name n -> tokenized rest ts -> tokenized (pct :: n ++ pct :: rest) (TRef n :: ts)
| tk_char c rest ts : (forall n r, ref_name n -> c :: rest <> pct :: n ++ pct :: r) ->
    tokenized rest ts -> tokenized (c :: rest) (TChar c :: ts).
Definition refers_to (s : str) (n : str) : Prop := exists ts, tokenized s ts /\ In (TRef n) ts.

(** ** The value of a parameter
    [file] is the nested dict read from the file, [ctx] the parameters available otherwise.
    The value of a parameter is either a plain value or "the namespace at path q of the file". *)
Variables file ctx : pv.
(** Python truth of such a value: a namespace is true when it is not empty. *)
Definition true_value (w : val) : Prop :=
  match w with
  | VDict q => exists k, view file (q ++ [k]) <> None
  | VLeaf v => truthy float_truthy v = true
  end.
Inductive Den : list str -> val -> Prop :=
(* a namespace is itself; a value that is not a string is itself *)
| den_namespace q : view file q = Some Namespace -> Den q (VDict q)
| den_const q v : view file q = Some (Leaf v) -> (forall s, v <> PStr s) -> Den q (VLeaf v)
(* a string that is just one reference has the value referred to, whatever its type *)
| den_whole q s n w : view file q = Some (Leaf (PStr s)) -> tokenized s [TRef n] -> Lookup n w -> Den q w
(* in any other string the references are replaced by strings *)
| den_text q s ts x : view file q = Some (Leaf (PStr s)) -> tokenized s ts -> (forall n, ts <> [TRef n]) ->
    Text ts x -> Den q (VLeaf (PStr x))
(* a reference means the file's own parameter if that is there and not falsy, else the context's *)
with Lookup : str -> val -> Prop :=
| lk_file n w : Den (py_split dot n) w -> true_value w -> Lookup n w
| lk_falsy n w v : Den (py_split dot n) w -> ~ true_value w -> Stored ctx n v -> Lookup n (VLeaf v)
| lk_context n v : view file (py_split dot n) = None -> Stored ctx n v -> Lookup n (VLeaf v)
with Text : list token -> str -> Prop :=
| tx_nil : Text [] []
| tx_char c ts x : Text ts x -> Text (TChar c :: ts) (c :: x)
| tx_ref n y ts x : Lookup n (VLeaf (PStr y)) -> Text ts x -> Text (TRef n :: ts) (y ++ x).

(** ** Reference graph: the string parameter [a] of the file refers to [b], present and not falsy
    in the file. *)
Definition present (b : str) : Prop :=
  match view file (py_split dot b) with
  | Some Namespace => exists k, view file (py_split dot b ++ [k]) <> None
  | Some (Leaf v) => truthy float_truthy v = true
  | None => False
  end.
Definition refers (a b : str) : Prop :=
  exists s, view file (py_split dot a) = Some (Leaf (PStr s)) /\ refers_to s b /\ present b.
Definition circular : Prop := exists a, clos_trans str refers a a.
(** Every parameter of the file has a value. *)
Definition all_defined : Prop := forall q v, view file q = Some (Leaf v) -> exists w, Den q w.
(** A namespace that contains itself: [q] directly contains [q']. *)
Definition holds_ns (q q' : list str) : Prop := exists k, Den (q ++ [k]) (VDict q').
Definition self_containing : Prop := exists q, clos_trans (list str) holds_ns q q.

(** No reference goes through a parameter of the file as if it were a namespace. *)
Definition refs_through_namespaces : Prop :=
  forall q s n p k r v, view file q = Some (Leaf (PStr s)) -> refers_to s n ->
    py_split dot n = p ++ k :: r -> view file p <> Some (Leaf v).

(** A reference with the parts p, k, r (say %p.k.r%) where p is a parameter [v] of the file and not
    a namespace.  It is passed over - as undefined in the file - when there are parts after k and [v] is
    a list without the element k, or a string without the substring k (and without references,
    which would change it). *)
Definition occurs (k s : str) : Prop := exists a b, s = a ++ k ++ b.
Definition passed_over (v : pv) (k : str) (r : list str) : Prop :=
  r <> [] /\
  ((exists s, v = PStr s /\ ~ occurs k s /\ forall n, ~ refers_to s n) \/
   (exists l, v = PList l /\ ~ In (PStr k) l)).
(** Every reference of the file goes through namespaces only, or is passed over. *)
Definition refs_passable : Prop :=
  forall q s n p k r v, view file q = Some (Leaf (PStr s)) -> refers_to s n ->
    py_split dot n = p ++ k :: r -> view file p = Some (Leaf v) -> passed_over v k r.
Lemma through_passable : refs_through_namespaces -> refs_passable.
Proof. intros H q s n p k r v V R E P. destruct (H q s n p k r v V R E P). Qed.

(** How a reference [n] fails at once.  The part of the name before the last one leads to a parameter:
    AttributeError ('int' object has no attribute 'get').  An earlier part does: TypeError, because the
    value cannot be searched (not iterable), or because it is a string or a list in which the next
    part is found (string indices must be integers). *)
Inductive broken : str -> exn -> Prop :=
| broken_end n p k v : py_split dot n = p ++ [k] -> view file p = Some (Leaf v) -> broken n AttributeError
| broken_inside n p k r v : py_split dot n = p ++ k :: r -> r <> [] -> view file p = Some (Leaf v) ->
    (match v with PStr s => occurs k s | PList l => In (PStr k) l | _ => True end) -> broken n TypeError.

(** What the result must look like: [t] has the namespaces of the file, the parameters of the file
    with their values, and nothing else. *)
Definition interpolated (t : pv) : Prop :=
  (forall q, view file q = Some Namespace -> view t q = Some Namespace) /\
  (forall q k, view file q = Some Namespace -> view file (q ++ [k]) = None -> view t (q ++ [k]) = None) /\
  (forall q v, view file q = Some (Leaf v) -> exists w, Den q w /\
     forall p, view t (q ++ p) = match w with VLeaf x => view x p | VDict q' => view t (q' ++ p) end).
End Spec.
