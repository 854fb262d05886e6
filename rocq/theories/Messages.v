(** * The texts of the errors for missing parameters and for clashes (parameters.py) *)
From Verif Require Import Prelude PyStr Order Range Params Misc PyRepr.

Section Messages.
Variable printable : N -> bool.                    (* str.isprintable of single characters beyond ASCII *)
Variable show : pv -> str.                         (* str(v) of a value that is no Parameters object *)

(** parameters.py:1344-1349 (_namespace_message) *)
Definition namespace_message (p : pv) : str :=
  match params_prefix p with
  | [] => []
  | pre => !!"In namespace " ++ py_join [dot] pre ++ !!": "
  end.
(** parameters.py:1304-1307 *)
Definition context_string (processed : list str) : str :=
  match processed with [] => !!"in root context" | _ => !!"in context " ++ py_join [dot] processed end.
(** parameters.py:1308-1321: the names of the parameters that are no namespaces, and of the namespaces, as str(list) prints them *)
Definition available_parameters (d : data_t) : str := str_list (repr_str printable) (map fst (filter (fun kv => negb (is_params (snd kv))) d)).
(** parameters.py:1315-1321 *)
Definition available_namespaces (d : data_t) : str := str_list (repr_str printable) (map fst (filter (fun kv => is_params (snd kv)) d)).
(** parameters.py:1322-1331 *)
Definition not_found_message (self : pv) (name : str) (processed : list str) (d : data_t) : str :=
  namespace_message self ++ !!"Parameter " ++ name ++ !!" not found. In " ++ context_string processed ++ !!" available parameters are " ++ available_parameters d ++
  !!", available namespaces are " ++ available_namespaces d.
(** parameters.py:1286-1295 *)
Definition leaf_message (self : pv) (name : str) (processed : list str) (v : pv) : str :=
  namespace_message self ++ !!"When getting parameter " ++ name ++ !!" expected " ++ py_join [dot] processed ++ !!" to be a map, but it is a leaf: " ++ show v ++
  !!". Maybe you mistakenly prefixed the map keys with '-'?".
(** parameters.py:1280-1336: the loop of _private_get without default; the message of the error it raises *)
Fixpoint explain (self : pv) (name : str) (cur : pv) (processed comps : list str) : option str :=
  match comps with
  | [] => None
  | c :: r => match cur with
              | PParams _ d => match dfind d c with
                               | Some v => explain self name v (processed ++ [c]) r
                               | None => Some (not_found_message self name processed d)
                               end
              | v => Some (leaf_message self name processed v)
              end
  end.
(** parameters.py:1272-1337 (_private_get without default, as get and the other getters call it): the message of its ParameterError; None if there is none *)
Definition get_message (p : pv) (name : str) : option str := explain p name p [] (py_split dot name).

(** parameters.py:215-226: the message when unify meets a parameter that is a namespace on one side only *)
Definition clash_message (prefix : list str) (key : str) : str :=
  !!"When unifying parameters, " ++ (match prefix with [] => key | _ => py_join [dot] prefix ++ [dot] ++ key end) ++ !!" is a parameter on one side and a namespace on the other".
(** parameters.py:188-242 (unify), the message of its IOError; None if there is none *)
Fixpoint unify_message (a b : pv) (prefix : list str) {struct a} : option str :=
  match a, b with
  | PParams _ da, PParams _ db =>
      (fix go (l : data_t) : option str :=
         match l with
         | [] => None
         | (k, old) :: r =>
             let here := if contains b k then
                           match dfind db k with
                           | None => None
                           | Some new => if negb (Bool.eqb (is_params old) (is_params new)) then Some (clash_message prefix k)
                                         else if is_params old then unify_message old new (prefix ++ [k]) else None
                           end
                         else None in
             match here with Some m => Some m | None => go r end
         end) da
  | _, _ => None
  end.
End Messages.
