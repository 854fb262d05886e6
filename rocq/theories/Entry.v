(** * Model of vistautils/logging_utils.py and vistautils/parameters_only_entrypoint.py *)
From Verif Require Import Prelude PyStr Params Fs.

(** The part of the logging module's state that matters: the level of the root logger and the levels of its
    handlers (each prints to sys.stdout).  Levels are the integers of the logging module. *)
Record logger := MkLogger { root_level : Z; handlers : list Z }.
(** The number of times a message of level [m], logged by the root logger or a logger without a level of its own, is
    printed: once per handler that lets it through. *)
Definition printed (lg : logger) (m : Z) : nat :=
  if (root_level lg <=? m)%Z then length (filter (fun h => (h <=? m)%Z) (handlers lg)) else 0.

(** logging_utils.py:12-20 *)
Definition levels : list (str * Z) :=
  [(!!"CRITICAL", 50%Z); (!!"FATAL", 50%Z); (!!"ERROR", 40%Z); (!!"WARNING", 30%Z); (!!"WARN", 30%Z); (!!"INFO", 20%Z); (!!"DEBUG", 10%Z)].
(** logging_utils.py:44-73 *)
Definition config_logging_from_params (p : pv) (lg : logger) : logger * res unit :=
  let level_name := if contains p !!"logging.root_level" then string_param p !!"logging.root_level" else Ok !!"INFO" in
  match level_name with
  | Raise e => (lg, Raise e)
  | Ok s => match dfind levels s with
            | None => (lg, Raise ParameterError)
            | Some level => (MkLogger level (handlers lg ++ [level]), Ok tt)
            end
  end.
(** logging_utils.py:25-41; [file_config] is logging.config.fileConfig on the contents of a file.  With log_params the
    parameters are logged (formatting them must succeed: str(params)). *)
Section Entry.
Variable file_config : list N -> logger -> logger * res unit.
(** logging_utils.py:25-41 *)
Definition configure_logging_from (cwd : list str) (fs : list (list str * fnode)) (p : pv) (log_params : bool) (lg : logger) : logger * res unit :=
  let '(lg', r) :=
    if contains p !!"logging.config_file" then
      match existing_file cwd p !!"logging.config_file" fs with
      | Raise e => (lg, Raise e)
      | Ok q => match look fs q with
                | Some (KFile b) => file_config b lg
                | _ => (lg, Raise IOError)   (* not reachable: existing_file returns files *)
                end
      end
    else config_logging_from_params p lg in
  match r with
  | Raise e => (lg', Raise e)
  | Ok _ => (lg', if log_params then let* _ := preprocess (dictify p) in Ok tt else Ok tt)
  end.

(** parameters_only_entrypoint.py:61-73, after argument parsing: [given]: whether the caller passed parameters= (then
    there is no positional argument and parsed_args.param_file does not exist); [loaded]: what
    YAMLParametersLoader().load(param_file) does; [overrides]: the -p pairs.  The result: the parameters main_method was
    called with, if it was; the logging state then; the exception otherwise.  (log.info("%s", params) only formats inside
    the handler, which swallows exceptions.) *)
Record run := MkRun { called_with : option pv; log_after : logger; failure : option exn }.
(** parameters_only_entrypoint.py:61-73 *)
Definition entry_point (given : bool) (loaded : res pv) (overrides : list (str * str)) (cwd : list str) (fs : list (list str * fnode)) (lg : logger) : run :=
  let params :=
    if given then Raise AttributeError
    else let* p := loaded in
         match overrides with
         | [] => Ok p
         | _ => let* o := from_key_value_pairs (map (fun kv => (fst kv, PStr (snd kv))) overrides) dot in unify_with p o []
         end in
  match params with
  | Raise e => MkRun None lg (Some e)
  | Ok p => match configure_logging_from cwd fs p false lg with
            | (lg', Raise e) => MkRun None lg' (Some e)
            | (lg', Ok _) => MkRun (Some p) lg' None
            end
  end.
End Entry.
