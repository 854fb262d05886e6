(** * Model of the warnings about defaults given to the optional getters of Parameters (parameters.py:1359-1363), with the state of Python's logging *)
From Verif Require Import Prelude PyStr Order Range Params Entry.

(** The logging state, and how many times the warning has been written by a handler so far. *)
Record console := MkConsole { c_log : logger; c_written : nat }.

(** logging.warning is a module-level function (Python's Lib/logging): if the root logger has no handler it first calls basicConfig(), which adds one
    that accepts every level (and writes to stderr). *)
Definition basic_config (lg : logger) : logger := match handlers lg with [] => MkLogger (root_level lg) [0%Z] | _ => lg end.
(** parameters.py:1359-1363 (_warn_about_default); WARNING is level 30 *)
Definition warn (c : console) : console := let lg := basic_config (c_log c) in MkConsole lg (c_written c + printed lg 30).
(** "if default is not None: self._warn_about_default()", parameters.py:515-516 and the other getters *)
Definition warn_for (default : pv) (c : console) : console := if is_none default then c else warn c.

(** The optional getters that take a default; one call of each kind, with its arguments besides the parameter's name.  A default is None when not given. *)
Inductive call :=
| OptString (valid : option (list str)) (default : pv)
| OptInteger (default : pv)
| OptPositive (default : pv)
| OptFloating (valid : option (N -> bool)) (default : pv)
| OptFloat (valid : option (N -> bool))
| OptBoolean (default : pv)
| OptBooleanDefault (default : pv)
| OptList (default : option (list pv))
| GetOptional (ty : pv -> bool) (default : pv).

(** parameters.py:1123-1148 (get_optional) *)
Definition get_optional_c (p : pv) (name : str) (ty : pv -> bool) (default : pv) (c : console) : console * res pv :=
  (warn_for default c, get_optional p name ty default).
(** parameters.py:710-719 (optional_boolean): warns, then get_optional warns again *)
Definition optional_boolean_c (p : pv) (name : str) (default : pv) (c : console) : console * res pv :=
  get_optional_c p name is_bool default (warn_for default c).
(** parameters.py:726-737 (optional_boolean_with_default) *)
Definition optional_boolean_with_default_c (p : pv) (name : str) (default : pv) (c : console) : console * res pv :=
  let '(c', r) := optional_boolean_c p name default (warn_for default c) in
  (c', let* ret := r in Ok (if is_none ret then default else ret)).
(** parameters.py:788-804 (optional_arbitrary_list), for a default that is a list *)
Definition optional_arbitrary_list_c (p : pv) (name : str) (default : option (list pv)) (c : console) : console * res pv :=
  let c' := match default with None => c | Some _ => warn c end in
  match default with
  | None | Some [] => get_optional_c p name is_list PNone c'
  | Some l => get_optional_c p name is_list (PList l) c'
  end.
Section Calls.
Variable float_truthy : N -> bool.
(** One call of a getter: parameters.py:501-520, 564-576, 602-619, 656-684, 686-694 (optional_float, no default), 710-737, 788-804, 1123-1148 *)
Definition run_call (p : pv) (name : str) (k : call) (c : console) : console * res pv :=
  match k with
  | OptString valid d => (warn_for d c, optional_string p name valid d)
  | OptInteger d => (warn_for d c, optional_integer p name d)
  | OptPositive d => (warn_for d c, optional_positive_integer p name d)
  | OptFloating valid d => (warn_for d c, optional_floating_point float_truthy p name valid d)
  | OptFloat valid => (c, optional_floating_point float_truthy p name valid PNone)
  | OptBoolean d => optional_boolean_c p name d c
  | OptBooleanDefault d => optional_boolean_with_default_c p name d c
  | OptList d => optional_arbitrary_list_c p name d c
  | GetOptional ty d => get_optional_c p name ty d c
  end.
(** A history of calls on any Parameters objects. *)
Fixpoint run_calls (h : list (pv * str * call)) (c : console) : console :=
  match h with
  | [] => c
  | (p, name, k) :: r => run_calls r (fst (run_call p name k c))
  end.
End Calls.
