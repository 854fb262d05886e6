(** * Model of evaluating parameters as Python code (parameters.py:798-1085, misc_utils.py:43-81) *)
From Verif Require Import Prelude PyStr Params.

Section Eval.
(** Python objects; a type (for isinstance) is the set of its instances, [object] is all of them. *)
Variable obj : Type.
Variable of_str : str -> obj.                       (* a str object *)
Variable import_module : str -> res obj.            (* importlib.import_module; side effects of imports are not modelled *)
Definition context := list (str * obj).
Variable eval : obj -> context -> res obj.          (* the builtin eval *)
Variable locals_of : pv -> str -> context.          (* locals() inside evaluate *)
Variable globals_ctx : context.                     (* globals() of vistautils.parameters *)
Variable is_class : obj -> bool.
Variable from_parameters : obj -> option (pv -> res obj).  (* getattr(factory, "from_parameters"), if it has it *)
Variable construct : obj -> res obj.                (* factory() *)
Variable callable : obj -> bool.
Variable call : obj -> pv -> res obj.               (* factory(params) *)
Variable none_obj : obj.                            (* None *)
Definition object_type : obj -> bool := fun _ => true.

(** The first 1, 2, ... elements of a list, joined by dots *)
Definition dotted_prefixes (parts : list str) : list str :=
  map (fun i => py_join [dot] (firstn (S i) parts)) (seq 0 (length parts)).
(** parameters.py:827-836 *)
Definition context_modules_from_prefix (s : str) : list str := dotted_prefixes (removelast (py_split dot s)).
(** misc_utils.py:66-73.  An element of the list of modules that is not a string has no [split]
    method, or one that does not accept a string. *)
Definition import_one (c : context) (name : str) : res context :=
  match dfind c name with Some _ => Ok c | None => let* m := import_module name in Ok (dput c name m) end.
(** see above *)
Definition import_all (c : context) (modules : list pv) : res context :=
  foldM (fun c m => match m with
                    | PStr s => foldM import_one (dotted_prefixes (py_split dot s)) c
                    | _ => Raise AttributeError
                    end) modules c.
(** misc_utils.py:43-81 (eval_in_context_of_modules) *)
Definition eval_in_context_of_modules (code : obj) (c : context) (modules : list pv) (ty : obj -> bool) : res obj :=
  let* c' := import_all c modules in
  let* r := eval code c' in
  if ty r then Ok r else Raise TypeError.

(** "context or d" (parameters.py:839-910, 1060) *)
Definition or_else (c : option context) (d : context) : context :=
  match c with Some (kv :: r) => kv :: r | _ => d end.
(** "except Exception as e: raise ParameterError(...)" (parameters.py:904-910) *)
Definition wrap_param {A} (r : res A) : res A := match r with Ok a => Ok a | Raise _ => Raise ParameterError end.
(** a value known to be a str *)
Definition str_of (v : pv) : str := match v with PStr s => s | _ => [] end.
(** a value known to be a list *)
Definition list_of (v : pv) : list pv := match v with PList l => l | _ => [] end.
(** the parameter naming modules to import (parameters.py:827-837) *)
Definition import_key : str := !!"import".
(** parameters.py:839-910 (evaluate); [special] may hold arbitrary objects (as
    object_from_parameters passes them) *)
Definition evaluate (p : pv) (name : str) (ty : obj -> bool) (ctx : option context) (value_param : str)
    (special : list (str * obj)) (default : option obj) : res obj :=
  let handle (s : str) := match dfind special s with Some o => o | None => of_str s end in
  let run (code : pv) (modules : list pv) :=
    eval_in_context_of_modules (handle (str_of code)) (or_else ctx (locals_of p name)) modules ty in
  let* ns := optional_namespace p name in
  wrap_param
    (if is_params ns then
       let* code := string_ ns value_param None PNone in
       let* mods := optional_arbitrary_list ns import_key None in
       run code (list_of mods)
     else if contains p name then
       let* code := string_ p name None PNone in
       run code (map PStr (context_modules_from_prefix (str_of code)))
     else match default with
          | Some d => Ok d
          | None => Raise ParameterError
          end).
(** parameters.py:802-825 (optional_evaluate) *)
Definition optional_evaluate (p : pv) (name : str) (ty : obj -> bool) (value_param : str) (special : list (str * obj)) : res (option obj) :=
  if contains p name then let* r := evaluate p name ty None value_param special None in Ok (Some r) else Ok None.

(** parameters.py:981-992 (apply_factory) *)
Definition apply_factory (factory : obj) (arg : pv) : res obj :=
  if is_class factory then
    match from_parameters factory with
    | Some f => f arg
    | None => construct factory
    end
  else if callable factory then call factory arg
  else Raise ParameterError.
(** parameters.py:1366-1371 (_extend_prefix): returns the characters of the new element *)
Definition extend_prefix (prefix : list str) (new : str) : list str := map (fun c => [c]) new.
(** parameters.py:912-1085 (object_from_parameters) *)
Definition object_from_parameters (p : pv) (name : str) (ty : obj -> bool) (ctx : option context)
    (value_param factory_param : str) (special_values special_factories : list (str * obj))
    (default_value default_factory : option obj) : res obj :=
  let validate (o : obj) : res obj := if ty o then Ok o else Raise ParameterError in
  if contains p name then
    if has_namespace p name then
      let* ns := namespace p name in
      let* _ := assert_exactly_one_present ns [value_param; factory_param] in
      if contains ns value_param then
        let* o := evaluate p name object_type ctx value_param special_values None in validate o
      else if contains ns factory_param then
        let* f := evaluate p name object_type ctx factory_param special_factories None in
        let* o := apply_factory f ns in validate o
      else Raise RuntimeError
    else
      let* v := string_ p name None PNone in
      let s := str_of v in
      match dfind special_values s with
      | Some o => validate o
      | None =>
          match dfind special_factories s with
          | Some _ =>
              let* e := empty_params (extend_prefix (params_prefix p) name) in
              let* o := apply_factory (match default_factory with Some f => f | None => none_obj end) e in validate o
          | None =>
              let* o := eval_in_context_of_modules (of_str s) (or_else ctx globals_ctx)
                          (map PStr (context_modules_from_prefix s)) ty in validate o
          end
      end
  else match default_value with
       | Some o => validate o
       | None =>
           match default_factory with
           | Some f => let* e := empty_params (extend_prefix (params_prefix p) name) in
                       let* o := apply_factory f e in validate o
           | None => Raise ParameterError
           end
       end.
End Eval.
