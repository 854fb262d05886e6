(** * Model of the parameter loader and writer on a file system (parameters.py:1404-1528, 1735-1779)

    [Load.inner_load] takes reading a file, Path(base, f).resolve(strict=True) and Path.parent as functions.  Here they are those of the
    file system of Fs.v (no symbolic links, permissions or lone surrogates in names).  The YAML parser and emitter remain functions. *)
From Verif Require Import Prelude PyStr TextLib Utf8 Params Interp Load Fs OsPath Mains.

(** The parts of Path(s), without the root (parameters.py:1436, 1501): empty and "." components are dropped, ".." is kept *)
Definition parts (s : str) : list str := filter (fun c => negb (str_eqb c [] || str_eqb c !!".")) (py_split slash s).
(** str(Path(s).parent) (parameters.py:1441, 1506): the last part is dropped; a relative path without parts is "." *)
Definition parent_str (s : str) : str :=
  if is_abs s then slash :: py_join [slash] (removelast (parts s))
  else match removelast (parts s) with [] => !!"." | l => py_join [slash] l end.
Section LoadFs.
Notation fsys := (list (list str * fnode)) (only parsing).
Notation rpath := (list str) (only parsing).
Variable fs : fsys.
Variable cwd : rpath.

(** where a path starts (parameters.py:1439, 1494, 1504) *)
Definition start (s : str) : rpath := if is_abs s then [] else cwd.
(** Path.read_text(encoding="utf-8") (parameters.py:1439, 1504); reading a directory is an IsADirectoryError (an OSError).  Reading devices etc. is not modelled *)
Definition read_path (s : str) : res str :=
  if has_nul s then Raise ValueError
  else let* q := os_walk fs (start s) (parts s) in
       match look fs q with
       | None => Raise FileNotFoundError
       | Some (KFile b) => let* t := decode b in Ok (universal_newlines t)
       | Some _ => Raise IOError
       end.
(** Path.resolve(strict=True) (parameters.py:1492-1494), part by part: lstat of each must succeed, ".." drops the last one *)
Fixpoint strict_walk (q : rpath) (cs : list str) : res rpath :=
  match cs with
  | [] => Ok q
  | c :: r => if str_eqb c !!".." then strict_walk (tl q) r
              else match look fs (c :: q) with
                   | Some _ => strict_walk (c :: q) r
                   | None => match look fs q with Some KDir | None => Raise FileNotFoundError | Some _ => Raise NotADirectoryError end
                   end
  end.
(** the parts before the first with a NUL (parameters.py:1492-1494): lstat of that one is a ValueError *)
Fixpoint before_nul (cs : list str) : list str := match cs with [] => [] | c :: r => if has_nul c then [] else c :: before_nul r end.
(** Path(base, f).resolve(strict=True) for a relative f (parameters.py:1492-1494) *)
Definition resolve_strict (base f : str) : res str :=
  if has_nul base || has_nul f then let* _ := strict_walk (start base) (before_nul (parts base ++ parts f)) in Raise ValueError
  else let* q := strict_walk (start base) (parts base ++ parts f) in Ok (path_str q).

Variable is_word : N -> bool.
Variable float_truthy : N -> bool.
Variable parse : str -> res yaml.
Variable environ : list (str * str).
(** parameters.py:1404-1444: YAMLParametersLoader().load(f) *)
Definition load_file := load is_word float_truthy read_path parse resolve_strict parent_str environ.
(** parameters.py:1446-1464: YAMLParametersLoader().load_string(content) *)
Definition load_text := load_string is_word float_truthy read_path parse resolve_strict parent_str environ.

(** yaml.dump(v, default_flow_style=False, indent=4, width=78, sort_keys=False) (parameters.py:1742-1751) *)
Variable dump : pv -> str.
(** parameters.py:1736-1751 (YAMLParametersWriter.write) with a path: the file is opened - and emptied - before the parameters are converted *)
Definition write_file (p : pv) (s : str) : fsys * res unit :=
  if has_nul s then (fs, Raise ValueError)
  else match os_walk fs (start s) (parts s) with
       | Raise e => (fs, Raise e)
       | Ok q => match can_write fs q with
                 | Raise e => (fs, Raise e)
                 | Ok _ => match preprocess (dictify p) with
                           | Raise e => (set_node fs q [], Raise e)
                           | Ok y => match encode (dump y) with
                                     | Ok b => (set_node fs q b, Ok tt)
                                     | Raise e => (set_node fs q [], Raise e)
                                     end
                           end
                 end
       end.
End LoadFs.
