(** * C95: from the command line to the files *)
From Coq Require Import Sorted.
From Verif Require Import Prelude PyStr SortLib TextLib Utf8 Order Range Params ParamsSpec ParamsProofs ParamsUnify ParamsPairs ParamsProps ParamsGet ParamsGetProps ParamsEval ParamsEvalProps Interp InterpSpec InterpProofs InterpWf InterpProps Load LoadSpec LoadProps
  InterpLoop InterpExpand Fs FsProofs FsProps PathLists PathListsProps Decimals Io IoProps KeyValue KeyValueProps KvParams KvParamsProps Scripts ScriptsProps OsPath OsPathSpec OsPathProofs Mains MainsProofs MainsProps LoadFs LoadFsSpec LoadFsProps Entry EntryProps Command.

(** ** Specification *)
(** Words that argparse takes for values: no "-" in front, "-" alone, or a negative number. *)
Definition digits (s : str) : Prop := forall c, In c s -> (48 <= c <= 57)%N.
Definition number (s : str) : Prop := s <> [] /\ digits s \/ exists a b, s = a ++ dot :: b /\ digits a /\ digits b /\ b <> [].
Definition value_word (w : str) : Prop := (forall r, w <> minus :: r) \/ w = !!"-" \/ exists r, w = minus :: r /\ number r.
(** "-p name value" any number of times *)
Inductive Pairs : list str -> list (str * str) -> Prop :=
| pairs_none : Pairs [] []
| pairs_more n v r ps : value_word n -> value_word v -> Pairs r ps -> Pairs (!!"-p" :: n :: v :: r) ((n, v) :: ps).
(** the parameter file with pairs before and after it *)
Definition Spells (args : list str) (f : str) (ps : list (str * str)) : Prop :=
  exists before after ps1 ps2, args = before ++ f :: after /\ value_word f /\ Pairs before ps1 /\ Pairs after ps2 /\ ps = ps1 ++ ps2.

(** ** Arguments *)
Lemma digits_spec s : forallb digit s = true <-> digits s.
Proof. unfold digits. rewrite forallb_forall. split; intros H c I; specialize (H c I); unfold digit in *; lia. Qed.
Lemma nil_spec {A} (l : list A) : is_nil l = true <-> l = [].
Proof. destruct l; simpl; split; congruence. Qed.
Lemma number_spec s : negative s = true <-> number s.
Proof.
  unfold negative, number. destruct s as [|c s].
  - split; [discriminate|]. intros [[H _]|(a & b & E & _)]; [congruence|]. now destruct a.
  - set (w := c :: s). rewrite orb_true_iff, digits_spec. split.
    + intros [H|H]; [left; split; [discriminate|assumption]|]. destruct (py_split dot w) as [|a [|b [|x l]]] eqn:E; try discriminate. right. exists a, b.
      apply andb_prop in H. destruct H as [H H3]. apply andb_prop in H. destruct H as [H1 H2]. apply digits_spec in H1, H3. split; [|split; [assumption|split; [assumption|now destruct b]]].
      rewrite <- (py_split_join dot w), E. reflexivity.
    + intros [[_ H]|(a & b & E & Da & Db & Nb)]; [now left|]. right. rewrite E.
      assert (ND : forall x, digits x -> ~ In dot x) by (intros x H I; specialize (H _ I); unfold dot in H; lia).
      rewrite py_split_app by (now apply ND). rewrite py_split_no by (now apply ND). apply digits_spec in Da, Db. rewrite Da, Db. destruct b; [congruence|reflexivity].
Qed.
Lemma value_spec w : is_value w = true <-> value_word w.
Proof.
  unfold is_value, value_word. destruct w as [|c r]; [split; [left; discriminate|reflexivity]|]. destruct (N.eqb_spec c minus) as [->|N].
  - rewrite orb_true_iff, nil_spec, number_spec. split.
    + intros [->|H]; [right; left; reflexivity|right; right; eauto].
    + intros [H|[H|(r' & E & H)]]; [now destruct (H r)|injection H as ->; now left|injection E as <-; now right].
  - split; [|reflexivity]. intros _. left. intros r' E. congruence.
Qed.
Lemma p_no_value : ~ value_word !!"-p".
Proof. intros H. apply value_spec in H. discriminate H. Qed.
Lemma scan_value a r : value_word a -> scan (a :: r) = match scan r with Some (fs, ps) => Some (a :: fs, ps) | None => None end.
Proof. intros V. cbn [scan]. destruct (str_eqb a !!"-p") eqn:E; [|reflexivity]. apply str_eqb_eq in E. subst. now destruct p_no_value. Qed.
Lemma scan_pairs l ps : Pairs l ps -> forall r, scan (l ++ r) = match scan r with Some (fs, qs) => Some (fs, ps ++ qs) | None => None end.
Proof.
  induction 1 as [|n v l ps Vn Vv _ IH]; intros r; [cbn [app]; now destruct (scan r) as [[]|]|]. cbn [app scan]. rewrite str_eqb_refl. apply value_spec in Vn, Vv. rewrite Vn, Vv. cbn [andb]. rewrite IH. now destruct (scan r) as [[]|].
Qed.
(** by induction on the length: what was scanned *)
Lemma scan_spells n : forall args fs ps, length args <= n -> Forall (fun w => value_word w \/ w = !!"-p") args -> scan args = Some (fs, ps) ->
  match fs with [] => Pairs args ps | [f] => Spells args f ps | _ => True end.
Proof.
  induction n as [|n IH]; intros args fs ps L F E; (destruct args as [|a r]; [injection E as <- <-; constructor|]); [simpl in L; lia|].
  cbn [scan] in E. inversion F as [|? ? Fa Fr]; subst. destruct (str_eqb a !!"-p") eqn:Ea.
  - apply str_eqb_eq in Ea. subst. destruct r as [|x [|y r]]; try discriminate. destruct (is_value x && is_value y) eqn:V; [|discriminate]. apply andb_prop in V. destruct V as [V1 V2]. apply value_spec in V1, V2.
    destruct (scan r) as [[fs' ps']|] eqn:Es; [|discriminate]. injection E as <- <-. inversion Fr as [|? ? _ Fr2]; subst. inversion Fr2 as [|? ? _ Fr3]; subst. specialize (IH r fs' ps' ltac:(simpl in L; lia) Fr3 Es).
    destruct fs' as [|f [|g fs']]; [now constructor| |exact I]. destruct IH as (b & c & p1 & p2 & -> & Vf & P1 & P2 & ->). exists (!!"-p" :: x :: y :: b), c, ((x, y) :: p1), p2. split; [reflexivity|]. split; [assumption|]. split; [now constructor|]. auto.
  - destruct (scan r) as [[fs' ps']|] eqn:Es; [|discriminate]. injection E as <- <-. specialize (IH r fs' ps' ltac:(simpl in L; lia) Fr Es). destruct fs' as [|g fs']; [|exact I]. destruct Fa as [Fa| ->]; [|rewrite str_eqb_refl in Ea; discriminate].
    exists [], r, [], ps'. split; [reflexivity|]. split; [assumption|]. split; [constructor|]. auto.
Qed.
(** C95: a command line of values and "-p" names a parameter file and gives pairs exactly if it is that file with pairs before and after; there is
    then no other way to read it.  Everything else is a usage error. *)
Theorem C95_arguments : forall args, Forall (fun w => value_word w \/ w = !!"-p") args ->
  (forall f ps, parse_args args = Some (f, ps) <-> Spells args f ps) /\
  (forall f ps f' ps', Spells args f ps -> Spells args f' ps' -> f = f' /\ ps = ps') /\
  (parse_args args = None <-> forall f ps, ~ Spells args f ps).
Proof.
  intros args F. assert (A : forall f ps, parse_args args = Some (f, ps) <-> Spells args f ps).
  { intros f ps. split.
    - unfold parse_args. destruct (scan args) as [[[|g [|h fs]] qs]|] eqn:E; try discriminate. intros H. injection H as <- <-. exact (scan_spells _ args [g] qs (le_n _) F E).
    - intros (b & c & p1 & p2 & -> & V & P1 & P2 & ->). unfold parse_args. rewrite (scan_pairs _ _ P1), (scan_value _ _ V). pose proof (scan_pairs _ _ P2 []) as H. rewrite app_nil_r in H. rewrite H. cbn [scan]. now rewrite app_nil_r. }
  split; [assumption|]. split.
  - intros f ps f' ps' H1 H2. apply A in H1, H2. rewrite H1 in H2. injection H2 as <- <-. auto.
  - split; [intros E f ps H; apply A in H; congruence|]. intros H. destruct (parse_args args) as [[f ps]|]; [|reflexivity]. destruct (H f ps). now apply A.
Qed.
Print Assumptions C95_arguments.

(** ** The parameters of a simple file *)
(** The file at [q] holds the mapping [m], without includes and references. *)
Definition simple_file (is_word : N -> bool) (parse : str -> res yaml) (fs : list (list str * fnode)) (q : list str) (m : data_t) : Prop :=
  (exists t ym, text_at fs q t /\ parse t = Ok (YMap ym) /\ string_keys (YMap ym) /\ to_pv (YMap ym) = PMap m) /\
  (forall k, nested_key (PMap m) k -> dotless k) /\ view (PMap m) [!!"_includes"] = None /\
  forall x t n, view (PMap m) x = Some (Leaf (PStr t)) -> ~ refers_to is_word t n.
(** C91: such a file, loaded by itself, gives exactly the parameters written in it. *)
Theorem C91_simple_file : forall fs cwd is_word ft parse environ s q m fuel ns, is_word pct = false -> (forall t y, parse t = Ok y -> yaml_wf y) ->
  leads fs cwd s q -> simple_file is_word parse fs q m -> (forall k v, In (k, v) environ -> ~ In dot k) -> fuel <> 0 ->
  exists R, load_file fs cwd is_word ft parse environ fuel s None None ns = Ok R /\ wf_params R /\ params_prefix R = ns /\ forall x, view R x = view (PMap m) x.
Proof.
  intros fs cwd is_word ft parse environ s q m fuel ns PW YW L ((t & ym & T & EP & SK & EY) & NDm & NI & NR) NE NF.
  assert (PLy : plain (PMap m)) by (rewrite <- EY; apply to_pv_plain; [exact (YW _ _ EP)|assumption]).
  assert (Dm : dfind m includes_key = None). { change (!!"_includes") with includes_key in NI. cbn [view] in NI. destruct (dfind m includes_key) as [w|]; [destruct w; discriminate NI|reflexivity]. }
  destruct (from_value_total _ NDm []) as (p' & Ep'). destruct (env_params environ NE) as (cx & Ec).
  assert (W0 : wf_params (PParams [] [])) by (split; [repeat split; constructor|reflexivity]).
  assert (Wc : wf_params cx /\ params_prefix cx = [] /\ forall x, view cx x = LoadSpec.fallback environ [PParams [] []] x).
  { apply (context_view environ (PParams [] []) [PParams [] []] cx); [assumption|intros x; symmetry; apply merged_one|exact Ec]. }
  destruct (C48_no_references is_word ft PW m cx p' PLy Ep' (proj1 Wc) (proj1 (proj2 Wc))) as (own & Eo & Wo & Vo); [exact NR|].
  assert (NoC : forall x, ~ clash (PParams [] []) own x).
  { intros x. destruct x as [|k x]; [|intros [(v & A & _)|(v & A & _)]; discriminate A]. intros [(v & A & _)|(v & _ & A & _)]; [discriminate A|]. rewrite Vo in A. discriminate A. }
  pose proof (unify_correct (PParams [] []) own ns W0 Wo) as U. destruct (unify (PParams [] []) own ns) as [R|e] eqn:Eu; [|exfalso; destruct U as (_ & x & U); exact (NoC x U)].
  destruct U as (WR & PRx & VR & _). exists R. split; [|split; [assumption|split; [assumption|]]].
  - rewrite load_inner. rewrite (proj2 (read_path_spec _ cwd s t)) by eauto. cbn [bind]. destruct fuel as [|f]; [congruence|]. unfold inner. cbn [given].
    apply (C51_without_includes is_word ft _ parse _ parent_str environ YW f t (PParams [] []) (Some (parent_str s)) ns (YMap ym) m W0 EP EY Dm (ex_intro _ ym eq_refl) SK R).
    exists p', cx, own. repeat (split; [assumption|]). assumption.
  - intros x. rewrite VR, Vo. destruct x as [|k x]; [reflexivity|]. cbn [view dfind merge1]. destruct (dfind m k) as [w|]; [|reflexivity]. now destruct (view w x) as [[|[]]|].
Qed.
Print Assumptions C91_simple_file.

(** ** Running a command *)
Lemma decided_leaf es k : (forall e, In e es -> fst e <> [] /\ exists t, snd e = PStr t) -> (exists v, In ([k], v) es) ->
  (forall l1 q w l2 v l3, es = l1 ++ (q, w) :: l2 ++ ([k], v) :: l3 -> ~ proper_prefix [k] q) -> exists t, decided es [k] = Some (Leaf (PStr t)).
Proof.
  induction es as [|[q w] es IH]; intros Fv (v & I) NX; [destruct I|]. destruct (Fv (q, w) (or_introl eq_refl)) as (Nq & t & Et). cbn [fst snd] in *. subst w. unfold decided; fold decided. destruct (is_prefix q [k]) eqn:P1.
  - apply is_prefix_spec in P1. destruct P1 as (r & E). destruct q as [|k' [|? ?]]; [congruence| |discriminate E]. injection E as <- _. rewrite is_prefix_refl. eauto.
  - destruct I as [E|I]; [injection E as -> <-; rewrite is_prefix_refl in P1; discriminate|]. destruct (is_prefix [k] q) eqn:P2.
    + exfalso. apply is_prefix_spec in P2. destruct P2 as (r & ->). destruct (in_split _ _ I) as (l2 & l3 & ->). apply (NX [] _ _ l2 v l3 eq_refl). destruct r as [|y r]; [rewrite app_nil_r, is_prefix_refl in P1; discriminate|]. now exists y, r.
    + apply IH; [intros e J; apply Fv; now right|eauto|]. intros l1 q' w' l2 v' l3 ->. exact (NX ((q, PStr t) :: l1) q' w' l2 v' l3 eq_refl).
Qed.
(** What the pairs of the command line make of the parameters [m] of the file: the last pair about a name wins, as a string. *)
Definition effective (m : data_t) (ps : list (str * str)) (x : list str) : option found := merge1 (view (PMap m) x) (decided (rev (override_leaves ps)) x).
(** No pair has an empty name or goes below another pair's name, and none makes a namespace of a parameter or a parameter of a namespace. *)
Definition compatible (m : data_t) (ps : list (str * str)) : Prop :=
  Forall (fun kv => fst kv <> []) ps /\ no_extension (override_leaves ps) /\
  forall x v, ~ (view (PMap m) x = Some (Leaf v) /\ decided (rev (override_leaves ps)) x = Some Namespace) /\ ~ (view (PMap m) x = Some Namespace /\ decided (rev (override_leaves ps)) x = Some (Leaf v)).
(** No parameter, or null. *)
Definition unset (f : option found) : Prop := f = None \/ f = Some (Leaf PNone).
(** What the logging parameters ask for: no configuration file; a level by its name, or none, which is INFO. *)
Inductive asks_level (V : list str -> option found) : Z -> Prop :=
| asks_default : unset (V [!!"logging"; !!"config_file"]) -> unset (V [!!"logging"; !!"root_level"]) -> asks_level V 20
| asks_given s l : unset (V [!!"logging"; !!"config_file"]) -> V [!!"logging"; !!"root_level"] = Some (Leaf (PStr s)) -> level_of s l -> asks_level V l.

Lemma view_stored P name v : wf_params P -> view P (py_split dot name) = Some (Leaf v) -> Stored P name v.
Proof. intros W V. apply stored_walk; [apply W|]. now apply view_leaf_walk; [|apply W]. Qed.
Lemma view_missing P name : wf_params P -> unset (view P (py_split dot name)) -> Missing P name.
Proof.
  intros W [V|V]; [left|right; now apply view_stored]. apply absent_walk; [apply W|]. rewrite walk_view in V by apply W. now destruct (walk P (py_split dot name)).
Qed.
Lemma view_params P k x f : wf_params P -> view P (k :: x) = Some f -> x <> [] -> exists ns, walk P [k] = Some ns /\ is_params ns = true /\ wf_params ns /\ forall y, view ns y = view P (k :: y).
Proof.
  intros W V N. destruct P as [| | | | | | | | |pre d|]; try (destruct W; discriminate). cbn [view] in V. destruct (dfind d k) as [ns|] eqn:D; [|discriminate]. exists ns. assert (Wn : wf ns) by (eapply wf_find; [apply W|exact D]).
  assert (is_params ns = true) as Ip. { destruct x as [|y x]; [congruence|]. destruct ns; try discriminate V; [now simpl in Wn|reflexivity]. }
  cbn [walk]. rewrite D. split; [reflexivity|]. split; [assumption|]. split; [now split|]. intros z. cbn [view]. now rewrite D.
Qed.
(** Two parameters "type: zip" and "path: ..." make a namespace that stands for a zip file. *)
Lemma view_typed cwd P k s q : wf_params P -> ~ In dot k -> view P [k; !!"type"] = Some (Leaf (PStr !!"zip")) -> unset (view P [k; !!"value"]) -> unset (view P [k; !!"import"]) ->
  view P [k; !!"path"] = Some (Leaf (PStr s)) -> resolve cwd s = Ok q -> exists ns, Typed P k !!"zip" ns /\ names_path cwd ns !!"path" q.
Proof.
  intros W D T V I Pa R. destruct (view_params P k _ _ W T) as (ns & Wk & Ip & Wn & Vn); [discriminate|]. exists ns. split.
  - split; [apply stored_walk; [apply W|]; now rewrite py_split_no|]. split; [assumption|]. split; [apply view_stored; [assumption|]; now rewrite <- Vn in T|]. split; apply view_missing; try assumption; now rewrite <- Vn in *.
  - exists s. split; [|assumption]. apply view_stored; [assumption|]. now rewrite <- Vn in Pa.
Qed.

Section P.
Variable file_config : list N -> logger -> logger * res unit.
Variable is_word : N -> bool.
Variable ft : N -> bool.
Hypothesis pct_word : is_word pct = false.
Variable parse : str -> res yaml.
Hypothesis parse_wf : forall t y, parse t = Ok y -> yaml_wf y.
Variable environ : list (str * str).
Hypothesis environ_names : forall k v, In (k, v) environ -> ~ In dot k.
Variable cwd : list str.
Notation fsys := (list (list str * fnode)) (only parsing).
Notation command main := (command file_config is_word ft parse environ cwd main).
Notation load fs fuel f := (load_file fs cwd is_word ft parse environ fuel f None None []).

(** C95: the main function is called once, with the parameters of the file overridden by the pairs, or the files stay as they were and there is an
    error; a command line that cannot be read does nothing. *)
Theorem C95_command : forall (main : pv -> fsys -> fsys * option exn) fuel args fs lg, wf_fs fs -> look fs cwd = Some KDir -> Forall proper cwd -> Forall (fun w => value_word w \/ w = !!"-p") args ->
  ((forall f ps, ~ Spells args f ps) -> command main fuel args fs lg = Usage) /\
  (forall f ps, Spells args f ps ->
     (exists p P lg' fs' e, load fs fuel f = Ok p /\ wf_params P /\ (forall x, view P x = merge1 (view p x) (decided (rev (override_leaves ps)) x)) /\
        configure_logging_from file_config cwd fs P false lg = (lg', Ok tt) /\ main P fs = (fs', e) /\ command main fuel args fs lg = Done fs' lg' e) \/
     (exists lg' e, command main fuel args fs lg = Done fs lg' (Some e))).
Proof using parse_wf.
  intros main fuel args fs lg WF C Pc F. destruct (C95_arguments args F) as (A & _ & N). split.
  - intros H. apply N in H. unfold Command.command. now rewrite H.
  - intros f ps S1. apply A in S1. unfold Command.command. rewrite S1. clear S1 A N.
    destruct (C82_entry_point file_config (load fs fuel f) ps cwd fs lg) as (E1 & E2 & _).
    { intros p E. destruct (C91_load fs WF is_word ft parse environ parse_wf cwd fuel f None [] p C Pc) as (q & t & cs & _ & _ & _ & W & _); [split; [repeat split; constructor|reflexivity]|exact E|exact W]. }
    destruct (called_with _) as [P|] eqn:CW.
    + left. destruct (E2 P eq_refl) as (p & Ep & WP & V & L). destruct (main P fs) as [fs' e] eqn:M. exists p, P, (log_after (entry_point file_config false (load fs fuel f) ps cwd fs lg)), fs', e.
      split; [assumption|]. split; [assumption|]. split; [|split; [now symmetry|split; [assumption|reflexivity]]]. intros x. rewrite V. destruct ps as [|kv ps]; [|reflexivity]. cbn. destruct x; [|now destruct (view p _) as [[]|]]. assert (view p [] = Some Namespace) as -> by (specialize (V []); destruct WP as [_ WP]; destruct P; try discriminate WP; destruct (view p []) as [[|[]]|]; cbn in V; congruence). reflexivity.
    + right. destruct (failure _) as [e|] eqn:Fe; [eauto|]. exfalso. now apply (proj1 E1).
Qed.

(** The parameters of a simple file, overridden: the main function sees [effective]. *)
Theorem C95_simple_file : forall (main : pv -> fsys -> fsys * option exn) fuel args f ps q m fs lg l, fuel <> 0 ->
  Forall (fun w => value_word w \/ w = !!"-p") args -> Spells args f ps -> leads fs cwd f q -> simple_file is_word parse fs q m -> compatible m ps -> asks_level (effective m ps) l ->
  exists P fs' e, wf_params P /\ (forall x, view P x = effective m ps x) /\ main P fs = (fs', e) /\
    command main fuel args fs lg = Done fs' (MkLogger l (handlers lg ++ [l])) e.
Proof using pct_word parse_wf environ_names.
  intros main fuel args f ps q m fs lg l NF F Sp L SF (NE & NX & NC) AL.
  destruct (C91_simple_file fs cwd is_word ft parse environ f q m fuel [] pct_word parse_wf L SF environ_names NF) as (p & Ep & Wp & _ & Vp).
  assert (EP : exists P, (match ps with [] => Ok p | _ => let* o := from_key_value_pairs (map (fun kv => (fst kv, PStr (snd kv))) ps) dot in unify_with p o [] end) = Ok P /\ wf_params P /\ forall x, view P x = effective m ps x).
  { destruct ps as [|kv0 kvs].
    - exists p. split; [reflexivity|]. split; [assumption|]. intros x. rewrite Vp. unfold effective. cbn. destruct x; [reflexivity|]. now destruct (view (PMap m) _) as [[]|].
    - set (ps := kv0 :: kvs) in *. assert (Lf : Forall (fun kv : str * pv => is_leaf (snd kv)) (map (fun kv : str * str => (fst kv, PStr (snd kv))) ps)).
      { apply Forall_forall. intros x I. apply in_map_iff in I. destruct I as (y & <- & _). exact Logic.I. }
      assert (Em : map (fun kv : str * pv => (py_split dot (fst kv), snd kv)) (map (fun kv : str * str => (fst kv, PStr (snd kv))) ps) = override_leaves ps) by (rewrite map_map; reflexivity).
      destruct (proj2 (C42_success _ Lf)) as (o & Eo).
      { split; [|now rewrite Em]. apply Forall_forall. intros x I. apply in_map_iff in I. destruct I as (y & <- & I). rewrite Forall_forall in NE. exact (NE y I). }
      pose proof (C42_from_pairs _ dot Lf) as H. cbn zeta in H. rewrite Eo, Em in H. destruct H as (Wo & _ & _ & _ & Vo). rewrite Eo. cbn [bind]. unfold unify_with. rewrite (proj2 Wo). cbn [bind].
      pose proof (C44_unify p o [] Wp Wo) as U. destruct (unify p o []) as [P|e].
      + destruct U as (WP & _ & V & _). exists P. split; [reflexivity|]. split; [assumption|]. intros x. rewrite V, Vp, Vo. reflexivity.
      + exfalso. destruct U as (_ & x & [(v & A & B)|(v & A & B & _)]); rewrite Vp in A; rewrite Vo in B; destruct (NC x v) as [N1 N2]; auto. }
  destruct EP as (P & EP & WP & VP). destruct (main P fs) as [fs' e] eqn:M. exists P, fs', e. split; [assumption|]. split; [assumption|]. split; [assumption|].
  unfold Command.command. rewrite (proj2 (proj1 (C95_arguments args F) f ps) Sp). unfold entry_point. rewrite Ep. cbn [bind]. rewrite EP.
  assert (configure_logging_from file_config cwd fs P false lg = (MkLogger l (handlers lg ++ [l]), Ok tt)) as ->; [|cbn [called_with log_after failure]; now rewrite M].
  assert (M1 : forall n, unset (effective m ps (py_split dot n)) -> Missing P n) by (intros n H; apply view_missing; [assumption|]; now rewrite VP).
  assert (A1 : Missing P !!"logging.config_file") by (apply M1; inversion AL; assumption).
  destruct (C74_levels file_config cwd fs P lg WP A1) as (T & _). inversion AL as [U1 U2 E|s l' U1 V2 Ll E]; subst.
  - apply (T !!"INFO" 20%Z); [|constructor]. apply al_default. exact (M1 !!"logging.root_level" U2).
  - apply (T s l); [|assumption]. apply al_given. apply view_stored; [assumption|]. now rewrite VP.
Qed.

(** ** The scripts from the command line *)
Variable X : Type.
Notation obj := (kv_obj X).
Variable import_module : str -> res obj.
Variable other_eval : str -> list (str * obj) -> res obj.
Variable builtin : str -> option obj.
Variable locals_of : pv -> str -> list (str * obj).
Variable x_is_class : X -> bool.
Variable x_from_parameters : X -> option (pv -> res obj).
Variable x_construct : X -> res obj.
Variable x_callable : X -> bool.
Variable x_call : X -> pv -> res obj.
Variables x_is_linear x_is_sink : X -> bool.
Variable other_globals : list (str * obj).
Variable ZC : zip_codec.
Variable torn : bytes.
Variable set_order : list str -> list str.
Variable seeded_shuffle : Z -> list str -> list str.
Variable other_source : obj -> fsys -> res (source bytes).
Variable oeq : pv -> pv -> bool.
Variable other_sink : obj -> fsys -> (fsys -> stream value) -> fsys * option exn.
Notation split_main := (split_main X import_module other_eval builtin locals_of x_is_class x_from_parameters x_construct x_callable x_call x_is_linear cwd other_globals ZC torn set_order seeded_shuffle other_source oeq).
Notation join_main := (join_main X import_module other_eval builtin locals_of x_is_class x_from_parameters x_construct x_callable x_call x_is_sink cwd other_globals ZC torn set_order other_sink).
Notation holds := (holds ZC).
Hypothesis set_order_perm : forall l, Permutation (set_order l) l.
Hypothesis seeded_perm : forall z l, Permutation (seeded_shuffle z l) l.
Hypothesis cwd_proper : Forall proper cwd.

(** The parameters say: [k] is the zip file at [q]. *)
Definition zip_file (V : list str -> option found) (k : str) (q : list str) : Prop :=
  V [k; !!"type"] = Some (Leaf (PStr !!"zip")) /\ unset (V [k; !!"value"]) /\ unset (V [k; !!"import"]) /\ exists s, V [k; !!"path"] = Some (Leaf (PStr s)) /\ resolve cwd s = Ok q.
(** ... [k] is the path of [q]. *)
Definition path_of (V : list str -> option found) (k : str) (q : list str) : Prop := exists s, V [k] = Some (Leaf (PStr s)) /\ resolve cwd s = Ok q.
(** ... the seed is [seed]. *)
Definition seed_is (V : list str -> option found) (seed : option Z) : Prop :=
  match seed with None => unset (V [!!"random_seed"]) | Some s => V [!!"random_seed"] = Some (Leaf (PInt s)) /\ (s > 0)%Z end.
Definition split_outs (dir : list str) (n : nat) : list (list str) := (!!"_slices.txt" :: dir) :: map (fun i => slice_name i :: dir) (seq 0 n).

(** C95: split_key_value_store from the command line.  The file says where the input is, how many slices to make and where; the pairs of the command line
    may change any of the names. *)
Theorem C95_split : forall fuel args f ps q m fs lg l qin ks val n seed dir, fuel <> 0 -> wf_fs fs ->
  Forall (fun w => value_word w \/ w = !!"-p") args -> Spells args f ps -> leads fs cwd f q -> simple_file is_word parse fs q m -> compatible m ps ->
  let V := effective m ps in
  asks_level V l -> zip_file V !!"input" qin -> V [!!"num_slices"] = Some (Leaf (PInt (Z.of_nat n))) -> n <> 0 -> unset (V [!!"explicit_split"]) -> seed_is V seed -> path_of V !!"output_dir" dir ->
  holds fs qin ks val -> (forall k, In k ks -> plain_key k) -> unblocked fs dir -> Forall encodable dir -> (forall o, In o (split_outs dir n) -> free fs o /\ o <> qin) ->
  exists fs' parts, command split_main fuel args fs lg = Done fs' (MkLogger l (handlers lg ++ [l])) None /\ wf_fs fs' /\
    length parts = n /\ Permutation (concat parts) ks /\ (forall i part, nth_error parts i = Some part -> holds fs' (slice_name i :: dir) part val /\ length part = (length ks + n - 1 - i) / n) /\
    only_writes fs fs' dir (split_outs dir n) /\ holds fs' qin ks val.
Proof using pct_word parse_wf environ_names set_order_perm seeded_perm cwd_proper.
  clear other_sink x_is_sink. intros fuel args f ps q m fs lg l qin ks val n seed dir NF WF F Sp L SF CP V AL (T & Uv & Ui & s & Pa & Rs) Vn N0 Ux Sd (d & Vd & Rd) H PK Ub En FO.
  destruct (C95_simple_file split_main fuel args f ps q m fs lg l NF F Sp L SF CP AL) as (P & fs' & e & WP & VP & M & E). fold V in VP.
  destruct (view_typed cwd P !!"input" s qin WP) as (ns & Ty & Nm); [vm_compute; intuition discriminate|rewrite VP; assumption|rewrite VP; assumption|rewrite VP; assumption|rewrite VP; assumption|assumption|].
  destruct (C84_split X import_module other_eval builtin locals_of x_is_class x_from_parameters x_construct x_callable x_call x_is_linear (fun _ => false) cwd other_globals ZC torn set_order seeded_shuffle (fun _ l => l) other_source oeq set_order_perm seeded_perm cwd_proper
    P fs ns qin ks val (PInt (Z.of_nat n)) n seed dir WP WF Ty Nm H PK) as (fs1 & parts & E1 & W1 & R1 & R2 & _ & R3 & _ & R4 & R5).
  - apply view_stored; [assumption|]. now rewrite VP.
  - constructor.
  - assumption.
  - apply view_missing; [assumption|]. now rewrite VP.
  - destruct seed as [z|]; cbn [seed_is seed_given] in *; [|apply view_missing; [assumption|]; now rewrite VP]. exists (PInt z). split; [|split; [constructor|apply Sd]]. apply view_stored; [assumption|]. rewrite VP. apply Sd.
  - exists d. split; [|assumption]. apply view_stored; [assumption|]. now rewrite VP.
  - assumption.
  - assumption.
  - exact FO.
  - rewrite E1 in M. injection M as <- <-. exists fs1, parts. repeat (split; [assumption|]). assumption.
Qed.
(** Documented: "The user may override parameters from the parameter file".  Refuted for numbers: with "-p num_slices 3" splitting fails with a ParameterError, after
    having made the output directory, whatever the file says. *)
Theorem C95_num_slices_override_refuted : forall fuel args f ps q m fs lg l qin ks val s dir, fuel <> 0 -> wf_fs fs ->
  Forall (fun w => value_word w \/ w = !!"-p") args -> Spells args f ps -> leads fs cwd f q -> simple_file is_word parse fs q m -> compatible m ps ->
  In (!!"num_slices", s) ps ->
  let V := effective m ps in
  asks_level V l -> zip_file V !!"input" qin -> unset (V [!!"explicit_split"]) -> path_of V !!"output_dir" dir -> holds fs qin ks val -> unblocked fs dir ->
  exists fs', command split_main fuel args fs lg = Done fs' (MkLogger l (handlers lg ++ [l])) (Some ParameterError) /\ only_writes fs fs' dir [] /\ look fs' dir = Some KDir.
Proof using pct_word parse_wf environ_names cwd_proper.
  clear other_sink x_is_sink. intros fuel args f ps q m fs lg l qin ks val s0 dir NF WF F Sp L SF CP In_ V AL (T & Uv & Ui & s & Pa & Rs) Ux (d & Vd & Rd) H Ub.
  destruct (C95_simple_file split_main fuel args f ps q m fs lg l NF F Sp L SF CP AL) as (P & fs' & e & WP & VP & M & E). fold V in VP.
  destruct (view_typed cwd P !!"input" s qin WP) as (ns & Ty & Nm); [vm_compute; intuition discriminate|rewrite VP; assumption|rewrite VP; assumption|rewrite VP; assumption|rewrite VP; assumption|assumption|].
  assert (Vn : exists t, V [!!"num_slices"] = Some (Leaf (PStr t))).
  { destruct (decided_leaf (rev (override_leaves ps)) !!"num_slices") as (t & Ht).
    - intros x I. apply in_rev in I. apply in_map_iff in I. destruct I as (kv & <- & _). cbn [fst snd]. split; [apply py_split_nonnil|eauto].
    - exists (PStr s0). apply in_rev. rewrite rev_involutive. apply in_map_iff. exists (!!"num_slices", s0). split; [reflexivity|assumption].
    - intros l1 q' w l2 v l3 Er. destruct CP as (_ & NX & _). apply (f_equal (@rev _)) in Er. rewrite rev_involutive in Er. rewrite !rev_app_distr in Er. cbn [rev] in Er. rewrite !rev_app_distr in Er. cbn [rev] in Er. rewrite <- !app_assoc in Er. cbn [app] in Er. exact (NX _ _ _ _ _ _ _ Er).
    - exists t. unfold V, effective. rewrite Ht. reflexivity. }
  destruct Vn as (t & Vn).
  destruct (C84_bad_num_slices X import_module other_eval builtin locals_of x_is_class x_from_parameters x_construct x_callable x_call x_is_linear (fun _ => false) cwd other_globals ZC torn set_order seeded_shuffle (fun _ l => l) other_source oeq cwd_proper
    P fs ns qin ks val (PStr t) dir WP WF Ty Nm H) as (fs1 & e1 & E1 & Wt & R1 & R2).
  - apply view_stored; [assumption|]. now rewrite VP.
  - discriminate.
  - intros z Hz. inversion Hz.
  - apply view_missing; [assumption|]. now rewrite VP.
  - exists d. split; [|assumption]. apply view_stored; [assumption|]. now rewrite VP.
  - assumption.
  - rewrite E1 in M. injection M as <- <-. exists fs1. split; [|auto]. rewrite E. inversion Wt as [|Hx]; [reflexivity|discriminate Hx].
Qed.

(** Writing files where files may be written leaves directories, and other files, in place. *)
Lemma dirs_stay fs fs' dir outs r : only_writes fs fs' dir outs -> (forall o, In o outs -> free fs o) -> look fs r = Some KDir -> look fs' r = Some KDir.
Proof.
  clear. intros OW FO Lr. assert (~ In r outs) as NI by (intros I; destruct (FO r I) as [H|(b & H)]; congruence). destruct (OW r NI) as (O1 & O2).
  destruct (at_or_below r dir) eqn:X0; [apply O1; now apply at_or_below_spec|]. rewrite O2; [assumption|]. intros X1. apply at_or_below_spec in X1. congruence.
Qed.
Lemma file_stays fs fs' dir outs q b : only_writes fs fs' dir outs -> unblocked fs dir -> ~ In q outs -> look fs q = Some (KFile b) -> look fs' q = Some (KFile b).
Proof.
  clear. intros OW U NI Lq. destruct (OW q NI) as (_ & O2). rewrite O2; [assumption|]. intros B. apply (U q B). exists (KFile b). split; [assumption|discriminate].
Qed.
Lemma simple_file_stays fs fs' dir outs f q m : only_writes fs fs' dir outs -> (forall o, In o outs -> free fs o) -> unblocked fs dir -> ~ In q outs -> leads fs cwd f q -> simple_file is_word parse fs q m ->
  leads fs' cwd f q /\ simple_file is_word parse fs' q m.
Proof.
  clear. intros OW FO U NI (L1 & L2) ((t & ym & (b & u & Lq & Eu & Et) & E) & R). assert (D := fun r => dirs_stay fs fs' dir outs r OW FO). split.
  - split; [assumption|]. destruct L2 as [[L2 L3]|[L2 L3]]; [left|right]; (split; [assumption|]); eapply opens_stay; eauto.
  - split; [|assumption]. exists t, ym. split; [|assumption]. exists b, u. split; [|auto]. eapply file_stays; eauto.
Qed.

(** C95: two commands in a row: splitting a store, and joining the listed slices, each with its own parameter file, give a store with exactly the pairs of the
    first. *)
Theorem C95_split_then_join : forall fuel args f ps q m fs lg l qin ks val n seed dir args2 f2 ps2 q2 m2 lg2 l2 c d, fuel <> 0 -> wf_fs fs ->
  Forall (fun w => value_word w \/ w = !!"-p") args -> Spells args f ps -> leads fs cwd f q -> simple_file is_word parse fs q m -> compatible m ps ->
  let V := effective m ps in
  asks_level V l -> zip_file V !!"input" qin -> V [!!"num_slices"] = Some (Leaf (PInt (Z.of_nat n))) -> n <> 0 -> unset (V [!!"explicit_split"]) -> seed_is V seed -> path_of V !!"output_dir" dir ->
  holds fs qin ks val -> (forall k, In k ks -> plain_key k) -> unblocked fs dir -> Forall encodable dir -> Forall unbroken dir -> (forall o, In o (split_outs dir n) -> free fs o /\ o <> qin) ->
  Forall (fun w => value_word w \/ w = !!"-p") args2 -> Spells args2 f2 ps2 -> leads fs cwd f2 q2 -> simple_file is_word parse fs q2 m2 -> compatible m2 ps2 -> ~ In q2 (split_outs dir n) ->
  let V2 := effective m2 ps2 in
  asks_level V2 l2 -> path_of V2 !!"input_store_list_file" (!!"_slices.txt" :: dir) -> zip_file V2 !!"output" (c :: d) ->
  unblocked fs d -> free fs (c :: d) -> (forall o, In o (split_outs dir n) -> ~ below o d) -> ~ below (c :: d) dir -> ~ In (c :: d) (split_outs dir n) ->
  exists fs1 fs2 lg1 lg3, command split_main fuel args fs lg = Done fs1 lg1 None /\ command join_main fuel args2 fs1 lg2 = Done fs2 lg3 None /\ holds fs2 (c :: d) ks val.
Proof using pct_word parse_wf environ_names set_order_perm seeded_perm cwd_proper.
  intros fuel args f ps q m fs lg l qin ks val n seed dir args2 f2 ps2 q2 m2 lg2 l2 c d NF WF F Sp L SF CP V AL (T & Uv & Ui & s & Pa & Rs) Vn N0 Ux Sd (dd & Vd & Rd) H PK Ub En Un FO F2 Sp2 L2 SF2 CP2 NI V2 AL2 (li & Vl & Rl) (T2 & Uv2 & Ui2 & s2 & Pa2 & Rs2) Ud Fd Bo Bd No.
  destruct (C95_simple_file split_main fuel args f ps q m fs lg l NF F Sp L SF CP AL) as (P & fs' & e & WP & VP & M & E). fold V in VP.
  destruct (view_typed cwd P !!"input" s qin WP) as (ns & Ty & Nm); [vm_compute; intuition discriminate|rewrite VP; assumption|rewrite VP; assumption|rewrite VP; assumption|rewrite VP; assumption|assumption|].
  assert (A1 : Stored P !!"num_slices" (PInt (Z.of_nat n))) by (apply view_stored; [assumption|]; now rewrite VP).
  assert (A2 : Missing P !!"explicit_split") by (apply view_missing; [assumption|]; now rewrite VP).
  assert (A3 : seed_given P seed).
  { destruct seed as [z|]; cbn [seed_is seed_given] in *; [|apply view_missing; [assumption|]; now rewrite VP]. exists (PInt z). split; [|split; [constructor|apply Sd]]. apply view_stored; [assumption|]. rewrite VP. apply Sd. }
  assert (A4 : names_path cwd P !!"output_dir" dir) by (exists dd; split; [|assumption]; apply view_stored; [assumption|]; now rewrite VP).
  destruct (C84_split X import_module other_eval builtin locals_of x_is_class x_from_parameters x_construct x_callable x_call x_is_linear (fun _ => false) cwd other_globals ZC torn set_order seeded_shuffle (fun _ l => l) other_source oeq set_order_perm seeded_perm cwd_proper
    P fs ns qin ks val (PInt (Z.of_nat n)) n seed dir WP WF Ty Nm H PK A1 (iv_int _) N0 A2 A3 A4 Ub En FO) as (fs1 & _ & E1 & _ & _ & _ & _ & _ & _ & OW & _).
  destruct (simple_file_stays fs fs1 dir (split_outs dir n) f2 q2 m2 OW (fun o I => proj1 (FO o I)) Ub NI L2 SF2) as (L3 & SF3).
  destruct (C95_simple_file join_main fuel args2 f2 ps2 q2 m2 fs1 lg2 l2 NF F2 Sp2 L3 SF3 CP2 AL2) as (P2 & fs2 & e2 & WP2 & VP2 & M2 & E2). fold V2 in VP2.
  destruct (view_typed cwd P2 !!"output" s2 (c :: d) WP2) as (ns2 & Ty2 & Nm2); [vm_compute; intuition discriminate|rewrite VP2; assumption|rewrite VP2; assumption|rewrite VP2; assumption|rewrite VP2; assumption|assumption|].
  destruct (C85_join_split X import_module other_eval builtin locals_of x_is_class x_from_parameters x_construct x_callable x_call x_is_linear (fun _ => false) x_is_sink cwd other_globals ZC torn set_order seeded_shuffle (fun _ l => l) other_source other_sink oeq set_order_perm seeded_perm cwd_proper
    P fs ns qin ks val (PInt (Z.of_nat n)) n seed dir P2 ns2 c d WP WF Ty Nm H PK A1 (iv_int _) N0 A2 A3 A4 Ub En Un FO WP2) as (fs1' & fs2' & E3 & E4 & Hh); try assumption.
  { exists li. split; [|assumption]. apply view_stored; [assumption|]. now rewrite VP2. }
  rewrite E1 in E3. injection E3 as <-. rewrite E4 in M2. injection M2 as <- <-. rewrite E1 in M. injection M as <- <-. eauto 8.
Qed.
End P.
Print Assumptions C95_command.
Print Assumptions C95_simple_file.
Print Assumptions C95_split.
Print Assumptions C95_num_slices_override_refuted.
Print Assumptions C95_split_then_join.
