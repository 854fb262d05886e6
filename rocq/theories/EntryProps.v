(** * C74: logging configuration; C82: the parameters-only entry point. *)
From Verif Require Import Prelude PyStr Order Range Params ParamsSpec ParamsProofs ParamsGet ParamsGetProps ParamsPairs ParamsProps Fs FsProofs FsProps Entry.

(** The documented level names. *)
Inductive level_of : str -> Z -> Prop :=
| lv_critical : level_of !!"CRITICAL" 50 | lv_fatal : level_of !!"FATAL" 50 | lv_error : level_of !!"ERROR" 40
| lv_warning : level_of !!"WARNING" 30 | lv_warn : level_of !!"WARN" 30 | lv_info : level_of !!"INFO" 20 | lv_debug : level_of !!"DEBUG" 10.
Lemma levels_spec s l : dfind levels s = Some l <-> level_of s l.
Proof.
  split; [|destruct 1; reflexivity]. unfold levels. cbn [dfind].
  repeat match goal with |- context [str_eqb ?a s] => destruct (str_eqb a s) eqn:?E; [apply str_eqb_eq in E; subst s; intros H; injection H as <-; constructor|clear E] end. discriminate.
Qed.
(** The level the parameters ask for: INFO unless given. *)
Inductive asked_level (p : pv) : str -> Prop :=
| al_default : Absent p !!"logging.root_level" \/ Stored p !!"logging.root_level" PNone -> asked_level p !!"INFO"
| al_given s : Stored p !!"logging.root_level" (PStr s) -> asked_level p s.

Lemma string_param_spec p name : wf_params p ->
  (forall s, Stored p name (PStr s) -> string_param p name = Ok s) /\
  (forall v, Stored p name v -> (forall s, v <> PStr s) -> exists e, string_param p name = Raise e /\ wrong_type v e).
Proof.
  intros [W _]. unfold string_param, string_. destruct (get_spec p name is_str PNone W) as (G1 & G2 & _). split.
  - intros s H. rewrite (G1 (PStr s)); [reflexivity|now constructor|reflexivity].
  - intros v H N. destruct (G2 v) as (e & -> & X); [now constructor|destruct v; try reflexivity; now destruct (N s)|]. exists e. auto.
Qed.

(** C74: without a configuration file, the root logger's level becomes the one asked for and one more console handler of
    that level is added; an unknown name is a ParameterError and a value that is not a string is rejected, both leaving
    the logging state as it was. *)
Theorem C74_levels : forall file_config cwd fs p lg, wf_params p -> Absent p !!"logging.config_file" \/ Stored p !!"logging.config_file" PNone ->
  let result := configure_logging_from file_config cwd fs p false lg in
  (forall s l, asked_level p s -> level_of s l -> result = (MkLogger l (handlers lg ++ [l]), Ok tt)) /\
  (forall s, asked_level p s -> (forall l, ~ level_of s l) -> result = (lg, Raise ParameterError)) /\
  (forall v, Stored p !!"logging.root_level" v -> v <> PNone -> (forall s, v <> PStr s) -> exists e, result = (lg, Raise e) /\ wrong_type v e).
Proof.
  intros fc cwd fs p lg W A result. assert (Wp := proj1 W). unfold result, configure_logging_from. apply (contains_false _ _ Wp) in A. rewrite A. unfold config_logging_from_params.
  destruct (string_param_spec p !!"logging.root_level" W) as [S1 S2].
  assert (L : forall s, asked_level p s -> (if contains p !!"logging.root_level" then string_param p !!"logging.root_level" else Ok !!"INFO") = Ok s).
  { intros s [H|s' H].
    - apply (contains_false _ _ Wp) in H. now rewrite H.
    - assert (contains p !!"logging.root_level" = true) as -> by (apply contains_spec; [assumption|]; exists (PStr s'); split; [assumption|discriminate]). now apply S1. }
  split; [|split].
  - intros s l H K. rewrite (L s H). apply levels_spec in K. now rewrite K.
  - intros s H K. rewrite (L s H). destruct (dfind levels s) as [l|] eqn:D; [|reflexivity]. apply levels_spec in D. now destruct (K l).
  - intros v H N T. assert (contains p !!"logging.root_level" = true) as -> by (apply contains_spec; eauto). destruct (S2 v H T) as (e & -> & X). eauto.
Qed.
Print Assumptions C74_levels.

(** C74: the first configuration of a program prints each message of the level asked for or above exactly once, and no other. *)
Theorem C74_printed_once : forall file_config cwd fs p r s l, wf_params p -> Absent p !!"logging.config_file" -> asked_level p s -> level_of s l ->
  forall lg, configure_logging_from file_config cwd fs p false (MkLogger r []) = (lg, Ok tt) ->
  forall m, ((l <= m)%Z -> printed lg m = 1%nat) /\ ((m < l)%Z -> printed lg m = 0%nat).
Proof.
  intros fc cwd fs p r s l W A AL LV lg E m. destruct (C74_levels fc cwd fs p (MkLogger r []) W (or_introl A)) as (T & _). rewrite (T s l AL LV) in E. injection E as <-.
  unfold printed. simpl. destruct (Z.leb_spec l m); simpl; split; lia.
Qed.
Print Assumptions C74_printed_once.

(** C74, refuted: configuring again is not harmless; after n configurations every message is printed n times. *)
Fixpoint configure_times (fc : list N -> logger -> logger * res unit) cwd fs p (n : nat) (lg : logger) : logger :=
  match n with O => lg | S n' => configure_times fc cwd fs p n' (fst (configure_logging_from fc cwd fs p false lg)) end.
(** Configuring the logging n times is not the same as once: every message is then printed n times. *)
Theorem C74_idempotent_refuted : forall file_config cwd fs p r s l n, wf_params p -> Absent p !!"logging.config_file" -> asked_level p s -> level_of s l ->
  forall m, (l <= m)%Z -> printed (configure_times file_config cwd fs p (S n) (MkLogger r [])) m = S n.
Proof.
  intros fc cwd fs p r s l n W A AL LV m M.
  assert (G : forall n lg, configure_times fc cwd fs p (S n) lg = MkLogger l (handlers lg ++ repeat l (S n))).
  { clear n. assert (ST : forall lg, fst (configure_logging_from fc cwd fs p false lg) = MkLogger l (handlers lg ++ [l])).
    { intros lg. destruct (C74_levels fc cwd fs p lg W (or_introl A)) as (T & _). now rewrite (T s l AL LV). }
    induction n as [|n IH]; intros lg.
    - cbn [configure_times]. now rewrite ST.
    - change (configure_times fc cwd fs p (S (S n)) lg) with (configure_times fc cwd fs p (S n) (fst (configure_logging_from fc cwd fs p false lg))).
      rewrite IH, ST. cbn [handlers]. rewrite <- app_assoc. reflexivity. }
  rewrite G. unfold printed. cbn [root_level handlers]. apply Z.leb_le in M. rewrite M. rewrite <- (repeat_length l (S n)) at 2. f_equal. clear G. induction (S n) as [|k IH]; [reflexivity|]. cbn [repeat app filter]. rewrite M. f_equal. exact IH.
Qed.
Print Assumptions C74_idempotent_refuted.

(** C74: with a configuration file, logging is configured from its contents and logging.root_level is ignored; a path that is
    not an existing file is a ParameterError. *)
Theorem C74_config_file : forall file_config cwd fs p lg q, wf_params p -> Forall proper cwd -> names_path cwd p !!"logging.config_file" q ->
  (forall b, look fs q = Some (KFile b) -> snd (file_config b lg) = Ok tt -> configure_logging_from file_config cwd fs p false lg = file_config b lg) /\
  (forall b e, look fs q = Some (KFile b) -> snd (file_config b lg) = Raise e -> configure_logging_from file_config cwd fs p false lg = file_config b lg) /\
  ((forall b, look fs q <> Some (KFile b)) -> configure_logging_from file_config cwd fs p false lg = (lg, Raise ParameterError)).
Proof.
  intros fc cwd fs p lg q W C H. assert (Wp := proj1 W). unfold configure_logging_from. destruct (C80_existing cwd p !!"logging.config_file" fs W C) as (X1 & X2 & _).
  assert (contains p !!"logging.config_file" = true) as ->. { apply contains_spec; [assumption|]. destruct H as (s & H & _). exists (PStr s). split; [assumption|discriminate]. }
  split; [|split].
  - intros b L E. rewrite (X1 q b H L), L. destruct (fc b lg) as [lg' r]. simpl in E. subst r. reflexivity.
  - intros b e L E. rewrite (X1 q b H L), L. destruct (fc b lg) as [lg' r]. simpl in E. subst r. reflexivity.
  - intros L. now rewrite (X2 q H L).
Qed.
Print Assumptions C74_config_file.
(** C74: log_params only adds an exception when the parameters cannot be printed. *)
Theorem C74_log_params : forall file_config cwd fs p lg, wf_params p ->
  let quiet := configure_logging_from file_config cwd fs p false lg in let loud := configure_logging_from file_config cwd fs p true lg in
  fst loud = fst quiet /\ (forall e, snd quiet = Raise e -> snd loud = Raise e) /\
  (snd quiet = Ok tt -> (printable p -> snd loud = Ok tt) /\ (~ printable p -> snd loud = Raise RuntimeError)).
Proof.
  intros fc cwd fs p lg W quiet loud. unfold quiet, loud, configure_logging_from. destruct (if contains p !!"logging.config_file" then _ else _) as [lg' [u|e]]; cbn [fst snd].
  - split; [reflexivity|]. split; [discriminate|]. intros _. assert (K := preprocess_spec (dictify p)). assert (WD := writable_dictify p). destruct (preprocess (dictify p)) as [w|e]; cbn [bind]; rewrite WD in K.
    + split; [reflexivity|]. intros N. contradiction.
    + destruct K as [-> K]. split; [intros P; contradiction|reflexivity].
  - split; [reflexivity|]. split; [auto|discriminate].
Qed.
Print Assumptions C74_log_params.
Definition log_cfg (v : pv) : pv := PParams [] [(!!"logging", PParams [!!"logging"] [(!!"root_level", v)])].
Example C74_witness : forall fc cwd fs lg, wf_params (log_cfg (PStr !!"WARN")) /\ asked_level (log_cfg (PStr !!"WARN")) !!"WARN" /\
  configure_logging_from fc cwd fs (log_cfg (PStr !!"WARN")) false lg = (MkLogger 30 (handlers lg ++ [30%Z]), Ok tt) /\
  configure_logging_from fc cwd fs (log_cfg (PStr !!"info")) false lg = (lg, Raise ParameterError) /\
  configure_logging_from fc cwd fs (log_cfg (PInt 10)) false lg = (lg, Raise ParameterError) /\
  printed (MkLogger 30 [30%Z; 30%Z]) 40 = 2%nat.
Proof.
  intros. split; [|split].
  - split; [|reflexivity]. simpl. repeat split; repeat constructor; simpl; unfold dotless; simpl; intuition discriminate.
  - constructor. econstructor; [left; reflexivity|]. econstructor; [left; reflexivity|]. constructor.
  - repeat split.
Qed.

(** C82: the parameters main_method receives: those of the file, with the -p pairs on top (as strings), and it is called exactly when
    loading, overriding and configuring the logging succeed. *)
Definition override_leaves (overrides : list (str * str)) : list (list str * pv) := map (fun kv => (py_split dot (fst kv), PStr (snd kv))) overrides.
Theorem C82_entry_point : forall file_config loaded overrides cwd fs lg,
  (forall p, loaded = Ok p -> wf_params p) ->
  let r := entry_point file_config false loaded overrides cwd fs lg in
  (* main is called or an exception is raised, never both *)
  (called_with r = None <-> failure r <> None) /\
  (* what main is called with *)
  (forall P, called_with r = Some P -> exists p, loaded = Ok p /\ wf_params P /\
     (forall q, view P q = merge1 (view p q) (match overrides with [] => None | _ => decided (rev (override_leaves overrides)) q end)) /\
     (log_after r, Ok tt) = configure_logging_from file_config cwd fs P false lg) /\
  (* the exceptions before that *)
  (forall e, loaded = Raise e -> failure r = Some e /\ log_after r = lg).
Proof.
  intros fc loaded overrides cwd fs lg Wl r.
  set (params := let* p := loaded in match overrides with [] => Ok p | _ => let* o := from_key_value_pairs (map (fun kv => (fst kv, PStr (snd kv))) overrides) dot in unify_with p o [] end).
  assert (R : r = match params with Raise e => MkRun None lg (Some e) | Ok p => match configure_logging_from fc cwd fs p false lg with (lg', Raise e) => MkRun None lg' (Some e) | (lg', Ok _) => MkRun (Some p) lg' None end end) by reflexivity.
  split; [|split].
  - rewrite R. destruct params as [p|e]; [|simpl; split; congruence]. destruct (configure_logging_from fc cwd fs p false lg) as [lg' [u|e]]; simpl; split; congruence.
  - intros P E. rewrite R in *. destruct params as [p'|e] eqn:EP; [|discriminate]. destruct (configure_logging_from fc cwd fs p' false lg) as [lg' [u|e]] eqn:EC; [|discriminate].
    simpl in E. injection E as ->. unfold params in EP. destruct loaded as [p|e]; [|discriminate]. assert (W := Wl p eq_refl). exists p. split; [reflexivity|]. cbn [bind] in EP. cbn [log_after].
    destruct u. destruct overrides as [|kv0 kvs].
    + injection EP as ->. split; [assumption|]. split; [|now rewrite EC]. intros q. unfold merge1. destruct (view P q) as [[|v]|]; reflexivity.
    + cbn iota beta in EP. set (os := kv0 :: kvs) in *. assert (L : Forall (fun kv : str * pv => is_leaf (snd kv)) (map (fun kv : str * str => (fst kv, PStr (snd kv))) os)).
      { apply Forall_forall. intros x I. apply in_map_iff in I. destruct I as (y & <- & _). exact Logic.I. }
      assert (F := C42_from_pairs _ dot L). cbn zeta in F. destruct (from_key_value_pairs _ dot) as [o|e]; [|discriminate]. cbn [bind] in EP. destruct F as (Wo & _ & _ & _ & V).
      unfold unify_with in EP. rewrite (proj2 Wo) in EP. cbn [bind] in EP. assert (U := C44_unify p o [] W Wo). rewrite EP in U. destruct U as (WP & _ & VP & _).
      split; [assumption|]. split; [|now rewrite EC]. intros q. rewrite VP, V. rewrite map_map. reflexivity.
  - intros e ->. rewrite R. unfold params. simpl. auto.
Qed.
Print Assumptions C82_entry_point.

(** What the -p pairs put at a path, if there are any. *)
Definition over (overrides : list (str * str)) (q : list str) : option found := match overrides with [] => None | _ => decided (rev (override_leaves overrides)) q end.
(** At [q] the file has a parameter and the -p pairs a namespace, or the other way round. *)
Definition override_clash (p : pv) (overrides : list (str * str)) (q : list str) : Prop :=
  (exists v, view p q = Some (Leaf v) /\ over overrides q = Some Namespace) \/ (view p q = Some Namespace /\ exists v, over overrides q = Some (Leaf v)).
(** C82: every outcome when the file has been loaded.  Pairs with an empty name, or that give a value below an earlier one, are refused; so is a pair that makes a namespace of a parameter or a parameter of a namespace;
    nothing has happened then.  Otherwise the pairs are put on top and logging is configured from the result; main is called with it if that succeeds. *)
Theorem C82_outcomes : forall file_config p overrides cwd fs lg, wf_params p ->
  let r := entry_point file_config false (Ok p) overrides cwd fs lg in
  let names_given := Forall (fun kv => fst kv <> []) overrides in let consistent := no_extension (override_leaves overrides) in
  (~ names_given \/ ~ consistent -> r = MkRun None lg (Some RuntimeError) \/ r = MkRun None lg (Some TypeError)) /\
  (names_given -> ~ consistent -> r = MkRun None lg (Some TypeError)) /\
  (names_given -> consistent -> (exists q, override_clash p overrides q) -> r = MkRun None lg (Some IOError)) /\
  (names_given -> consistent -> (forall q, ~ override_clash p overrides q) ->
     exists P, wf_params P /\ (forall q, view P q = merge1 (view p q) (over overrides q)) /\
       r = match configure_logging_from file_config cwd fs P false lg with (lg', Ok _) => MkRun (Some P) lg' None | (lg', Raise e) => MkRun None lg' (Some e) end).
Proof.
  intros fc p overrides cwd fs lg W r names_given consistent.
  assert (R : r = match match overrides with [] => Ok p | _ => let* o := from_key_value_pairs (map (fun kv => (fst kv, PStr (snd kv))) overrides) dot in unify_with p o [] end with
                  | Raise e => MkRun None lg (Some e) | Ok p => match configure_logging_from fc cwd fs p false lg with (lg', Raise e) => MkRun None lg' (Some e) | (lg', Ok _) => MkRun (Some p) lg' None end end) by reflexivity.
  clearbody r. assert (Fin : forall P, match configure_logging_from fc cwd fs P false lg with (lg', Raise e) => MkRun None lg' (Some e) | (lg', Ok _) => MkRun (Some P) lg' None end =
    match configure_logging_from fc cwd fs P false lg with (lg', Ok _) => MkRun (Some P) lg' None | (lg', Raise e) => MkRun None lg' (Some e) end) by (intros P; destruct (configure_logging_from fc cwd fs P false lg) as [lg' [u|e]]; reflexivity).
  destruct overrides as [|kv0 kvs].
  - assert (NG : names_given) by constructor. assert (CO : consistent) by (intros l1 a v l2 b w l3 E; destruct l1; discriminate E).
    split; [intros [N|N]; contradiction|]. split; [intros _ N; contradiction|]. split.
    + intros _ _ (q & [(v & _ & X)|(_ & v & X)]); discriminate X.
    + intros _ _ _. exists p. split; [exact W|]. split; [intros q; unfold merge1, over; reflexivity|]. rewrite R. apply Fin.
  - set (os := kv0 :: kvs) in *. assert (L : Forall (fun kv : str * pv => is_leaf (snd kv)) (map (fun kv : str * str => (fst kv, PStr (snd kv))) os)).
    { apply Forall_forall. intros x I. apply in_map_iff in I. destruct I as (y & <- & _). exact Logic.I. }
    assert (ES : map (fun kv : str * pv => (py_split dot (fst kv), snd kv)) (map (fun kv : str * str => (fst kv, PStr (snd kv))) os) = override_leaves os) by (rewrite map_map; reflexivity).
    assert (NG : Forall (fun kv : str * pv => fst kv <> []) (map (fun kv : str * str => (fst kv, PStr (snd kv))) os) <-> names_given).
    { unfold names_given. rewrite !Forall_forall. split; intros H x I.
      - exact (H (fst x, PStr (snd x)) (in_map (fun kv => (fst kv, PStr (snd kv))) os x I)).
      - apply in_map_iff in I. destruct I as (y & <- & I). exact (H y I). }
    assert (F := C42_from_pairs _ dot L). assert (Su := C42_success _ L). cbn zeta in F, Su. rewrite ES in F, Su. change (no_extension (override_leaves os)) with consistent in F, Su.
    change (match os with [] => Ok p | _ => let* o := from_key_value_pairs (map (fun kv => (fst kv, PStr (snd kv))) os) dot in unify_with p o [] end)
      with (let* o := from_key_value_pairs (map (fun kv => (fst kv, PStr (snd kv))) os) dot in unify_with p o []) in R.
    destruct (from_key_value_pairs (map (fun kv : str * str => (fst kv, PStr (snd kv))) os) dot) as [o|e] eqn:EO.
    + destruct F as (Wo & N1 & N2 & _ & V). apply NG in N1. split; [intros [X|X]; contradiction|]. split; [intros _ X; contradiction|]. cbn [bind] in R. unfold unify_with in R. rewrite (proj2 Wo) in R. cbn [bind] in R.
      assert (Ov : forall q, over os q = view o q) by (intros q; rewrite V; reflexivity).
      assert (Cl : forall q, override_clash p os q <-> clash p o q).
      { intros q. unfold override_clash, clash. rewrite (Ov q). split.
        - intros [X|(X & v & Y)]; [now left|]. right. exists v. split; [exact X|]. split; [exact Y|]. intros ->. rewrite V in Y. clear -Y.
          assert (G : forall l, (forall e, In e l -> exists s, snd e = PStr s) -> decided l q <> Some (Leaf PNone)).
          { clear. induction l as [|[a w] l IH]; intros H; cbn [decided]; [destruct q; discriminate|]. destruct (H (a, w) (or_introl eq_refl)) as (s & E). cbn [snd] in E. subst w.
            destruct (is_prefix a q); [destruct (is_prefix q a); discriminate|]. destruct (is_prefix q a); [discriminate|]. apply IH. intros e I. apply H. now right. }
          revert Y. apply G. intros e I. apply in_rev in I. apply in_map_iff in I. destruct I as (y & <- & _). cbn [snd]. eauto.
        - intros [X|(v & X & Y & _)]; [now left|]. right. eauto. }
      assert (U := C44_unify p o [] W Wo). destruct (unify p o []) as [P|e].
      * destruct U as (WP & _ & VP & NC). split; [intros _ _ (q & X); apply Cl in X; exfalso; exact (NC q X)|]. intros _ _ _. exists P. split; [exact WP|]. split; [intros q; rewrite VP, Ov; reflexivity|]. rewrite R. apply Fin.
      * destruct U as (-> & q & X). split; [intros _ _ _; exact R|]. intros _ _ N. exfalso. apply (N q). now apply Cl.
    + cbn [bind] in R. assert (NoS : ~ (names_given /\ consistent)) by (intros (A & B); destruct (proj2 Su (conj (proj2 NG A) B)) as (o & X); discriminate X).
      assert (Er : e = RuntimeError /\ ~ names_given \/ e = TypeError).
      { destruct e; try contradiction; [|auto|].
        - exfalso. destruct F as (q & k & H & D). apply decided_component in H. destruct H as (a & v & I & J). apply in_rev in I. apply in_map_iff in I. destruct I as (kv & E & _). injection E as <- _. exact (py_split_parts _ _ _ J D).
        - left. split; [reflexivity|]. intros A. apply NG in A. rewrite Forall_forall in A. apply Exists_exists in F. destruct F as (x & I & X). exact (A x I X). }
      split; [intros _; rewrite R; destruct Er as [(-> & _)| ->]; auto|]. split; [intros A _; rewrite R; destruct Er as [(_ & X)| ->]; [contradiction|reflexivity]|].
      split; [intros A B; exfalso; exact (NoS (conj A B))|intros A B; exfalso; exact (NoS (conj A B))].
Qed.
Print Assumptions C82_outcomes.
(** C82: with -p name value, main sees the string [value] under [name] (unless a later -p replaces it or a namespace above it),
    and keeps every parameter of the file that no -p touches. *)
Theorem C82_overrides : forall file_config p o1 name value o2 cwd fs lg P, wf_params p ->
  called_with (entry_point file_config false (Ok p) (o1 ++ (name, value) :: o2) cwd fs lg) = Some P ->
  (forall k v, In (k, v) o2 -> ~ prefix_of (py_split dot k) (py_split dot name)) ->
  Stored P name (PStr value) /\
  (forall n v, Stored p n v -> is_leaf v -> (forall k w, In (k, w) (o1 ++ (name, value) :: o2) -> ~ prefix_of (py_split dot k) (py_split dot n) /\ ~ prefix_of (py_split dot n) (py_split dot k)) -> Stored P n v).
Proof.
  intros fc p o1 name value o2 cwd fs lg P W E H. set (os := o1 ++ (name, value) :: o2) in *.
  destruct (C82_entry_point fc (Ok p) os cwd fs lg) as (_ & R & _); [intros p' X; injection X as <-; assumption|]. destruct (R P E) as (p' & X & WP & V & _). injection X as <-.
  assert (NE : os <> []) by (unfold os; destruct o1; discriminate).
  assert (L : Forall (fun kv : str * pv => is_leaf (snd kv)) (map (fun kv : str * str => (fst kv, PStr (snd kv))) os)).
  { apply Forall_forall. intros x I. apply in_map_iff in I. destruct I as (y & <- & _). exact Logic.I. }
  assert (VP : forall q, view P q = merge1 (view p q) (decided (rev (override_leaves os)) q)) by (intros q; rewrite V; destruct os; [congruence|reflexivity]). clear V R.
  assert (EO : exists o, from_key_value_pairs (map (fun kv : str * str => (fst kv, PStr (snd kv))) os) dot = Ok o).
  { unfold entry_point in E. cbn [bind] in E. destruct os as [|x os']; [congruence|]. destruct (from_key_value_pairs _ dot) as [o|e]; [eauto|discriminate]. }
  destruct EO as (o & EO). assert (F := C42_from_pairs _ dot L). cbn zeta in F. rewrite EO, map_map in F. destruct F as (Wo & _ & _ & _ & VO). cbn [fst snd] in VO. change (map (fun x : str * str => (py_split dot (fst x), PStr (snd x))) os) with (override_leaves os) in VO. split.
  - assert (So : Stored o name (PStr value)).
    { unfold os in L, EO. rewrite map_app in L, EO. cbn [map fst snd] in L, EO. eapply C42_last_wins; [exact L|exact EO|]. intros k v I. apply in_map_iff in I. destruct I as ([k' v'] & X & I). injection X as <- <-. cbn [fst]. eapply H; eauto. }
    apply stored_walk in So; [|apply Wo]. apply stored_walk; [apply WP|]. apply view_leaf_walk; [|apply WP]. rewrite VP, <- VO. rewrite (walk_view o) by apply Wo. rewrite So. reflexivity.
  - intros n v Sn Lv D. apply stored_walk in Sn; [|apply W]. apply stored_walk; [apply WP|]. apply view_leaf_walk; [|apply WP]. rewrite VP. rewrite (walk_view p) by apply W. rewrite Sn.
    assert (decided (rev (override_leaves os)) (py_split dot n) = None) as ->; [|destruct v; try reflexivity; contradiction].
    assert (G : forall l, (forall e, In e l -> ~ prefix_of (fst e) (py_split dot n) /\ ~ prefix_of (py_split dot n) (fst e)) -> decided l (py_split dot n) = None).
    { induction l as [|[q w] l IH]; intros K; [cbn [decided]; destruct (py_split dot n) eqn:Z; [exfalso; now apply (py_split_nonnil dot n)|reflexivity]|]. cbn [decided]. destruct (K (q, w) (or_introl eq_refl)) as [K1 K2]. cbn [fst] in *.
      destruct (is_prefix q (py_split dot n)) eqn:P1; [apply is_prefix_spec in P1; contradiction|]. destruct (is_prefix (py_split dot n) q) eqn:P2; [apply is_prefix_spec in P2; contradiction|]. apply IH. intros e I. apply K. simpl; auto. }
    apply G. intros e I. apply in_rev in I. apply in_map_iff in I. destruct I as ([k w] & <- & I). cbn [fst]. eauto.
Qed.
Print Assumptions C82_overrides.

(** C82, refuted: overriding cannot supply anything but strings, so a program that asks for an integer fails on an overridden one. *)
Theorem C82_override_type_refuted : forall file_config cwd fs lg, exists p P, wf_params p /\ integer p !!"n" PNone all_ints = Ok (PInt 1) /\
  called_with (entry_point file_config false (Ok p) [(!!"n", !!"2")] cwd fs lg) = Some P /\ integer P !!"n" PNone all_ints = Raise ParameterError.
Proof.
  intros fc cwd fs lg. exists (PParams [] [(!!"n", PInt 1)]). eexists. split; [|repeat split]. split; [|reflexivity]. simpl. repeat split; repeat constructor; simpl; unfold dotless; simpl; intuition discriminate.
Qed.
Print Assumptions C82_override_type_refuted.
(** C82, refuted: the documented parameters= argument never works. *)
Theorem C82_given_parameters_refuted : forall file_config loaded overrides cwd fs lg,
  entry_point file_config true loaded overrides cwd fs lg = MkRun None lg (Some AttributeError).
Proof. reflexivity. Qed.
Print Assumptions C82_given_parameters_refuted.
Example C82_witness : forall fc cwd fs lg, exists P,
  called_with (entry_point fc false (Ok (PParams [] [(!!"a", PParams [!!"a"] [(!!"b", PInt 1); (!!"c", PInt 2)])])) [(!!"a.b", !!"x"); (!!"d", !!"y")] cwd fs lg) = Some P /\
  dictify P = PMap [(!!"a", PMap [(!!"b", PStr !!"x"); (!!"c", PInt 2)]); (!!"d", PStr !!"y")] /\
  failure (entry_point fc false (Ok (PParams [] [(!!"a", PInt 1)])) [(!!"a.b", !!"x")] cwd fs lg) = Some IOError.
Proof. intros. eexists. repeat split. Qed.
