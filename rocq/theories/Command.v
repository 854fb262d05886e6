(** * Model of a script run from the command line: arguments, parameter file, logging, main function (parameters_only_entrypoint.py) *)
From Verif Require Import Prelude PyStr TextLib Params Interp Load Fs LoadFs Entry Io.

(** ** The command line (parameters_only_entrypoint.py:57-66, argparse)
    Modelled are command lines made of "-p" and of words that argparse takes for values: those that do not begin with "-", "-" itself and negative
    numbers in ASCII digits (a final newline after one is not modelled).  (Other words: "-h" shows a help text and ends; "-pNAME" gives the first value of -p; "--" ends the options; the rest are errors.) *)
Definition minus : N := 45%N.
(** argparse, for parameters_only_entrypoint.py:61-66: a digit of ^-\d+$|^-\d*\.\d+$ (after the "-") *)
Definition digit (c : N) : bool := ((48 <=? c) && (c <=? 57))%N.
(** argparse, for parameters_only_entrypoint.py:61-66: _negative_number_matcher, on the text after the "-" *)
Definition negative (s : str) : bool :=
  match s with
  | [] => false
  | _ => forallb digit s ||
         match py_split dot s with [a; b] => forallb digit a && negb (is_nil b) && forallb digit b | _ => false end
  end.
(** parameters_only_entrypoint.py:61-66: does argparse take the word for a value? *)
Definition is_value (w : str) : bool :=
  match w with
  | c :: r => if (c =? minus)%N then is_nil r || negative r else true
  | [] => true
  end.
(** parameters_only_entrypoint.py:61-66: the words outside of -p, and the pairs of -p (nargs=2, action="append") *)
Fixpoint scan (args : list str) : option (list str * list (str * str)) :=
  match args with
  | [] => Some ([], [])
  | a :: r =>
      if str_eqb a !!"-p" then
        match r with
        | n :: v :: r' => if is_value n && is_value v then match scan r' with Some (fs, ps) => Some (fs, (n, v) :: ps) | None => None end else None
        | _ => None
        end
      else match scan r with Some (fs, ps) => Some (a :: fs, ps) | None => None end
  end.
(** parameters_only_entrypoint.py:61-66: exactly one word outside of -p, the parameter file; otherwise argparse prints a usage message and ends the program *)
Definition parse_args (args : list str) : option (str * list (str * str)) :=
  match scan args with Some ([f], ps) => Some (f, ps) | _ => None end.

Section Command.
Notation fsys := (list (list str * fnode)) (only parsing).
Variable file_config : list N -> logger -> logger * res unit.
Variable is_word : N -> bool.
Variable float_truthy : N -> bool.
Variable parse : str -> res yaml.
Variable environ : list (str * str).
Variable cwd : list str.
Variable main : pv -> fsys -> fsys * option exn.

(** The end of the program: a usage message (SystemExit(2)), or the files, the logging state and the exception, if any (parameters_only_entrypoint.py:61-73) *)
Inductive outcome := Usage | Done (fs : fsys) (lg : logger) (e : option exn).
(** parameters_only_entrypoint.py:47-73, without parameters=.  A path with no parts (say, "") is the current directory *)
Definition command (fuel : nat) (args : list str) (fs : fsys) (lg : logger) : outcome :=
  match parse_args args with
  | None => Usage
  | Some (f, ps) =>
      let r := entry_point file_config false (load_file fs cwd is_word float_truthy parse environ fuel f None None []) ps cwd fs lg in
      match called_with r with
      | None => Done fs (log_after r) (failure r)
      | Some p => let (fs', e) := main p fs in Done fs' (log_after r) e
      end
  end.
End Command.
