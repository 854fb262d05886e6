(** * C91: loading parameter files from a file system *)
From Verif Require Import Prelude PyStr TextLib Utf8 Params ParamsSpec ParamsProofs ParamsUnify ParamsGet ParamsGetProps Interp InterpSpec InterpProofs InterpWf InterpProps Load LoadSpec LoadProps
  InterpLoop InterpExpand Fs FsProofs FsProps OsPath OsPathProofs Mains MainsProofs LoadFs LoadFsSpec.
Require Import Relations.

(** ** Paths *)
Lemma is_abs_spec s : is_abs s = true <-> exists r, s = slash :: r.
Proof.
  destruct s as [|c s]; simpl; [split; [discriminate|intros (r & E); discriminate]|]. rewrite N.eqb_eq. split; [intros ->; now exists s|]. intros (r & E). now injection E as -> _.
Qed.
Lemma is_abs_false s : is_abs s = false <-> forall r, s <> slash :: r.
Proof.
  split.
  - intros E r H. rewrite (proj2 (is_abs_spec s)) in E; [discriminate|eauto].
  - intros H. destruct (is_abs s) eqn:E; [|reflexivity]. apply is_abs_spec in E. destruct E as (r & E). now destruct (H r).
Qed.
Lemma strict_walk_spec fs cs : forall q q', strict_walk fs q (filter keep cs) = Ok q' <-> resolves fs q cs q'.
Proof.
  induction cs as [|c cs IH]; intros q q'; cbn [filter].
  - cbn. split; [intros E; injection E as <-; constructor|inversion 1; reflexivity].
  - destruct (keep c) eqn:K.
    + apply keep_true in K. destruct K as [K1 K2]. cbn [strict_walk]. destruct (str_eqb c !!"..") eqn:U.
      * apply str_eqb_eq in U. subst c. rewrite IH. split; [apply rs_up|].
        intros H. inversion H as [|? ? ? ? S|? ? ? L|? ? ? ? ? ? D]; subst; [absurd_str S|assumption|exfalso; now apply D].
      * apply str_eqb_neq in U. split.
        -- intros E. assert (look fs (c :: q) <> None) as L by (intros L; rewrite L in E; destruct (look fs q) as [[]|]; discriminate).
           apply rs_into; auto. apply IH. destruct (look fs (c :: q)); [assumption|congruence].
        -- intros H. inversion H as [|? ? ? ? S|? ? ? L|? ? ? ? ? ? D L]; subst; [absurd_str S|exfalso; now apply U|].
           match goal with |- match ?t with _ => _ end = _ => destruct t eqn:X end; [now apply IH|exfalso; apply L; exact X].
    + apply keep_false in K. rewrite IH. split; [now apply rs_stay|]. inversion 1; subst; auto; absurd_str K.
Qed.
Lemma strict_app fs a b : forall q, strict_walk fs q (a ++ b) = let* q' := strict_walk fs q a in strict_walk fs q' b.
Proof.
  induction a as [|c a IH]; intros q; [reflexivity|]. cbn [app strict_walk]. destruct (str_eqb c !!".."); [apply IH|]. destruct (look fs (c :: q)); [apply IH|].
  now destruct (look fs q) as [[]|].
Qed.
(** The operating system follows a path to an existing object only if it can be resolved. *)
Lemma os_strict fs cs : forall q d, os_walk fs q cs = Ok d -> look fs d <> None -> strict_walk fs q cs = Ok d.
Proof.
  induction cs as [|c cs IH]; intros q d E L; [exact E|]. cbn [os_walk strict_walk] in *. destruct (look fs q) as [[]|]; try discriminate. destruct (str_eqb c !!".."); [now apply IH|].
  assert (look fs (c :: q) <> None) as N.
  { intros N. destruct cs as [|c' cs]; cbn [os_walk] in E; [injection E as <-; congruence|]. rewrite N in E. discriminate. }
  destruct (look fs (c :: q)) eqn:X; [now apply IH|congruence].
Qed.
Lemma read_text_at fs q t : (match look fs q with None => Raise FileNotFoundError | Some (KFile b) => let* t := decode b in Ok (universal_newlines t) | Some _ => Raise IOError end) = Ok t <-> text_at fs q t.
Proof.
  unfold text_at. split.
  - destruct (look fs q) as [[b| |]|]; try discriminate. intros E. destruct (decode b) as [u|] eqn:D; [|discriminate]. cbn in E. injection E as <-. exists b, u. split; [reflexivity|]. split; [|reflexivity]. now apply C68_round_trip.
  - intros (b & u & -> & En & ->). apply C68_round_trip in En. now rewrite En.
Qed.
Lemma start_leads fs cwd s q : has_nul s = false -> (os_walk fs (start cwd s) (parts s) = Ok q <-> leads fs cwd s q).
Proof.
  intros N. apply has_nul_spec in N. unfold parts. rewrite os_walk_spec. unfold leads, start. destruct (is_abs s) eqn:A.
  - split; [intros H; split; [assumption|]; left; split; [now apply is_abs_spec|assumption]|]. intros [_ [[_ H]|[B _]]]; [assumption|]. apply is_abs_false in B. congruence.
  - split; [intros H; split; [assumption|]; right; split; [now apply is_abs_false|assumption]|]. intros [_ [[B _]|[_ H]]]; [|assumption]. apply is_abs_spec in B. congruence.
Qed.
Lemma read_path_spec fs cwd s t : read_path fs cwd s = Ok t <-> exists q, leads fs cwd s q /\ text_at fs q t.
Proof.
  unfold read_path. destruct (has_nul s) eqn:N.
  - split; [discriminate|]. intros (q & [H _] & _). apply has_nul_spec in H. congruence.
  - split.
    + intros E. apply bind_ok in E. destruct E as (q & E1 & E2). exists q. split; [now apply start_leads|now apply read_text_at].
    + intros (q & H1 & H2). apply (start_leads fs cwd s q N) in H1. rewrite H1. cbn [bind]. now apply read_text_at.
Qed.
Lemma leads_fun fs cwd s q q' : leads fs cwd s q -> leads fs cwd s q' -> q = q'.
Proof. intros H H'. assert (has_nul s = false) as N by (apply has_nul_spec, H). apply (start_leads fs cwd s _ N) in H, H'. congruence. Qed.
Lemma points_fun fs d s q q' : points fs d s q -> points fs d s q' -> q = q'.
Proof.
  intros (_ & [[A H]|[A (x & D & H)]]) (_ & [[A' H']|[A' (x' & D' & H')]]); try (apply is_abs_spec in A); try (apply is_abs_false in A); try (apply is_abs_spec in A'); try (apply is_abs_false in A'); try congruence.
  - apply os_walk_spec in H, H'. congruence.
  - apply strict_walk_spec in H, H'. congruence.
Qed.

(** ** Parents *)
Lemma parts_facts s c : In c (parts s) -> c <> [] /\ c <> !!"." /\ ~ In slash c.
Proof. unfold parts. intros I. apply filter_In in I. destruct I as [I K]. apply keep_true in K. destruct K. repeat split; auto. now apply (py_split_parts slash s). Qed.
Lemma removelast_in {A} (l : list A) x : In x (removelast l) -> In x l.
Proof. induction l as [|a l IH]; [auto|]. cbn. destruct l; [intros []|]. intros [->|I]; [now left|right; now apply IH]. Qed.
Lemma parts_parent s : parts (parent_str s) = removelast (parts s).
Proof.
  assert (H : forall c, In c (removelast (parts s)) -> c <> [] /\ c <> !!"." /\ ~ In slash c) by (intros c I; now apply (parts_facts s), removelast_in).
  unfold parent_str. destruct (is_abs s).
  - unfold parts at 1. rewrite split_slash_cons. cbn [filter]. now apply filter_split_join.
  - destruct (removelast (parts s)) as [|c l] eqn:E; [reflexivity|]. unfold parts at 1. now apply filter_split_join.
Qed.
Lemma abs_parent s : is_abs (parent_str s) = is_abs s.
Proof.
  unfold parent_str. destruct (is_abs s) eqn:A; [reflexivity|]. destruct (removelast (parts s)) as [|c l] eqn:E; [reflexivity|].
  assert (In c (parts s)) as I by (apply removelast_in; rewrite E; now left). apply parts_facts in I. destruct I as (I1 & _ & I3).
  destruct c as [|x c]; [congruence|]. destruct l; cbn; apply N.eqb_neq; intros ->; apply I3; now left.
Qed.
Lemma parts_no_nul s c : ~ In 0%N s -> In c (parts s) -> ~ In 0%N c.
Proof. intros N I J. apply N. unfold parts in I. apply filter_In in I. destruct I as [I _]. now apply (in_split_in slash s c). Qed.
Lemma nul_parent s : ~ In 0%N s -> ~ In 0%N (parent_str s).
Proof.
  intros N. assert (H : ~ In 0%N (py_join [slash] (removelast (parts s)))) by (apply nul_join; intros c I; apply (parts_no_nul s); [assumption|now apply removelast_in]).
  unfold parent_str. destruct (is_abs s); [intros [I|I]; [discriminate|exact (H I)]|]. destruct (removelast (parts s)) eqn:E; [|exact H]. intros [I|[]]. discriminate.
Qed.
(** [b] is a name of the existing directory [d]. *)
Definition base_ok fs cwd (b : str) (d : list str) : Prop := ~ In 0%N b /\ strict_walk fs (start cwd b) (parts b) = Ok d /\ look fs d = Some KDir.
Lemma last_part fs q l c : forall r, os_walk fs r (l ++ [c]) = Ok q -> exists d, os_walk fs r l = Ok d /\ look fs d = Some KDir /\ q = if str_eqb c !!".." then tl d else c :: d.
Proof.
  intros r E. rewrite os_app in E. apply bind_ok in E. destruct E as (d & E1 & E). exists d. split; [assumption|]. cbn [os_walk] in E. destruct (look fs d) as [[]|]; try discriminate. split; [reflexivity|].
  destruct (str_eqb c !!".."); now injection E as <-.
Qed.
Lemma parent_ok fs cwd s q b : wf_fs fs -> look fs cwd = Some KDir -> leads fs cwd s q -> look fs q = Some (KFile b) -> base_ok fs cwd (parent_str s) (tl q).
Proof.
  intros W C L Q. assert (N := proj1 L). assert (NN : has_nul s = false) by (now apply has_nul_spec). apply (start_leads fs cwd s q NN) in L. split; [now apply nul_parent|].
  rewrite parts_parent. assert (start cwd (parent_str s) = start cwd s) as -> by (unfold start; now rewrite abs_parent).
  assert (look fs (start cwd s) = Some KDir) as CS by (unfold start; destruct (is_abs s); [reflexivity|exact C]).
  destruct (parts s) as [|x xs] eqn:P; [cbn in L; injection L as <-; congruence|]. destruct (@exists_last _ (x :: xs)) as (l & c & E); [discriminate|]. rewrite E in *. rewrite removelast_last.
  destruct (last_part _ _ _ _ _ L) as (d & E1 & D & E2). destruct (str_eqb c !!".."); subst q.
  - exfalso. destruct d as [|y d]; [cbn in Q; discriminate|]. cbn [tl] in Q. rewrite (W _ _ _ D) in Q. discriminate.
  - cbn [tl]. split; [|assumption]. apply os_strict; [assumption|congruence].
Qed.
Lemma strict_proper fs cs : (forall c, In c cs -> c <> [] /\ c <> !!"." /\ ~ In slash c /\ ~ In 0%N c) -> forall q d, Forall proper q -> strict_walk fs q cs = Ok d -> Forall proper d.
Proof.
  induction cs as [|c cs IH]; intros H q d P E; [now injection E as <-|]. cbn [strict_walk] in E. assert (H' : forall x, In x cs -> x <> [] /\ x <> !!"." /\ ~ In slash x /\ ~ In 0%N x) by (intros; apply H; now right).
  destruct (str_eqb c !!"..") eqn:U; [apply (IH H' (tl q)); [destruct P; [constructor|assumption]|assumption]|].
  lazymatch type of E with match ?t with _ => _ end = _ => destruct t end; [|destruct (look fs q) as [[]|]; discriminate E]. apply (IH H' (c :: q)); [|assumption]. constructor; [|assumption]. destruct (H c (or_introl eq_refl)) as (? & ? & ? & ?). apply str_eqb_neq in U. repeat split; assumption.
Qed.
Lemma parts_path_str q : Forall proper q -> parts (path_str q) = rev q.
Proof.
  intros P. unfold parts, path_str. rewrite split_slash_cons. cbn [filter]. apply filter_split_join. intros c I. apply in_rev in I. rewrite Forall_forall in P. destruct (P c I) as (? & ? & _ & ? & _). auto.
Qed.
Lemma before_nul_app a b : (forall c, In c a -> ~ In 0%N c) -> before_nul (a ++ b) = a ++ before_nul b.
Proof.
  induction a as [|c a IH]; intros H; [reflexivity|]. cbn [app before_nul]. assert (has_nul c = false) as -> by (apply has_nul_spec, H; now left). f_equal. apply IH. intros; apply H. now right.
Qed.
Lemma resolve_base fs cwd b d f : base_ok fs cwd b d -> resolve_strict fs cwd b f = if has_nul f then let* _ := strict_walk fs d (before_nul (parts f)) in Raise ValueError else let* q := strict_walk fs d (parts f) in Ok (path_str q).
Proof.
  intros (N & E & _). unfold resolve_strict. apply has_nul_spec in N. rewrite N. cbn [orb]. destruct (has_nul f).
  - rewrite before_nul_app, strict_app, E; [reflexivity|]. intros c I. eapply parts_no_nul; [|exact I]; now apply has_nul_spec.
  - rewrite strict_app, E. reflexivity.
Qed.
(** Where an include leads: the place, and the file's own base. *)
Lemma strict_exists fs cs : forall d q, look fs d = Some KDir -> wf_fs fs -> strict_walk fs d cs = Ok q -> look fs q <> None.
Proof.
  intros d q D W. assert (look fs d <> None) as D' by congruence. clear D. revert d D'. induction cs as [|c cs IH]; intros d D E; [injection E as <-; assumption|]. cbn [strict_walk] in E. destruct (str_eqb c !!".."); [apply (IH (tl d)); auto|].
  - destruct d as [|x d]; [cbn; discriminate|]. cbn [tl]. destruct (look fs (x :: d)) eqn:X; [rewrite (W _ _ _ X)|]; congruence.
  - lazymatch type of E with match ?t with _ => _ end = _ => destruct t eqn:X end; [apply (IH (c :: d)); [intros Y; pose proof (eq_trans (eq_sym X) Y); discriminate|assumption]|]. destruct (look fs d) as [[]|]; discriminate.
Qed.
Lemma dir_proper fs cwd b d : Forall proper cwd -> base_ok fs cwd b d -> Forall proper d.
Proof.
  intros C (N & E & _). eapply strict_proper; [| |exact E].
  - intros c I. destruct (parts_facts _ _ I) as (? & ? & ?). repeat split; auto. eapply parts_no_nul; eauto.
  - unfold start. destruct (is_abs b); [constructor|assumption].
Qed.
Lemma include_spec fs cwd b d f : wf_fs fs -> look fs cwd = Some KDir -> Forall proper cwd -> (match b with Some b => exists d', d = Some d' /\ base_ok fs cwd b d' | None => d = None end) ->
  (forall path text, Load.locate (resolve_strict fs cwd) b f = Ok path -> read_path fs cwd path = Ok text -> exists q, points fs d f q /\ text_at fs q text /\ base_ok fs cwd (parent_str path) (tl q)) /\
  (forall q text, points fs d f q -> text_at fs q text -> exists path, Load.locate (resolve_strict fs cwd) b f = Ok path /\ read_path fs cwd path = Ok text).
Proof.
  intros W C P B. unfold Load.locate. destruct (is_abs f) eqn:A.
  - split.
    + intros path text E R. injection E as <-. apply read_path_spec in R. destruct R as (q & L & T). exists q. split; [|split; [assumption|]].
      * split; [apply L|]. left. destruct L as (_ & [L|[L _]]); [exact L|]. apply is_abs_false in L. congruence.
      * destruct T as (x & u & T & _). eapply parent_ok; eauto.
    + intros q text (N & [[_ H]|[H _]]) T; [|apply is_abs_false in H; congruence]. exists f. split; [reflexivity|]. apply read_path_spec. exists q. split; [|assumption]. split; [assumption|]. left. split; [now apply is_abs_spec|assumption].
  - destruct b as [b|].
    + destruct B as (d' & -> & B). rewrite (resolve_base fs cwd b d' f B). split.
      * intros path text E R. destruct (has_nul f) eqn:N; [apply bind_ok in E; destruct E as (? & _ & E); discriminate|]. apply bind_ok in E. destruct E as (q & E1 & E). injection E as <-.
        assert (Forall proper q) as Q. { eapply strict_proper; [|exact (dir_proper _ _ _ _ P B)|exact E1]. intros c I. destruct (parts_facts _ _ I) as (? & ? & ?). repeat split; auto. eapply parts_no_nul; eauto. now apply has_nul_spec. }
        assert (look fs q <> None) as X by (eapply strict_exists; [apply B|assumption|exact E1]).
        assert (L := path_str_leads fs cwd q W Q X). apply read_path_spec in R. destruct R as (q' & L' & T). rewrite (leads_fun _ _ _ _ _ L' L) in *. exists q. split; [|split; [assumption|]].
        -- split; [now apply has_nul_spec|]. right. split; [now apply is_abs_false|]. exists d'. split; [reflexivity|]. now apply strict_walk_spec.
        -- destruct T as (x & u & T & _). eapply parent_ok; eauto.
      * intros q text (N & [[H _]|[_ (d1 & E & H)]]) T; [apply is_abs_spec in H; congruence|]. injection E as <-. apply has_nul_spec in N. rewrite N. apply strict_walk_spec in H. unfold parts. rewrite H. cbn [bind].
        eexists. split; [reflexivity|]. apply read_path_spec. exists q. split; [|assumption]. apply path_str_leads; [assumption| |destruct T as (x & u & T & _); congruence].
        eapply strict_proper; [|exact (dir_proper _ _ _ _ P B)|exact H]. intros c I. destruct (parts_facts f c I) as (? & ? & ?). repeat split; auto. eapply parts_no_nul; eauto. now apply has_nul_spec.
    + subst d. split; [discriminate|]. intros q text (_ & [[H _]|[_ (d & E & _)]]); [apply is_abs_spec in H; congruence|discriminate].
Qed.

Section P.
Variable fs : list (list str * fnode).
Hypothesis fs_wf : wf_fs fs.
Variable is_word : N -> bool.
Variable ft : N -> bool.
Variable parse : str -> res yaml.
Variable environ : list (str * str).
Hypothesis parse_wf : forall t y, parse t = Ok y -> yaml_wf y.
Notation LoadsAt := (LoadsAt fs is_word ft parse environ).
Notation IncludedAt := (IncludedAt fs is_word ft parse environ).
Notation includes := (includes fs parse).
Definition inner cwd := inner_load is_word ft (read_path fs cwd) parse (resolve_strict fs cwd) parent_str environ.
Notation load_file cwd := (load_file fs cwd is_word ft parse environ).

Scheme Loads_ind2 := Induction for Loads Sort Prop with Included_ind2 := Induction for Included Sort Prop.
Definition same_base cwd (b : option str) (d : option (list str)) : Prop := match b with Some b => exists d', d = Some d' /\ base_ok fs cwd b d' | None => d = None end.
Lemma loads_at cwd before b content after : look fs cwd = Some KDir -> Forall proper cwd ->
  Loads is_word ft (read_path fs cwd) parse (resolve_strict fs cwd) parent_str environ before b content after -> forall d, same_base cwd b d -> LoadsAt before d content after.
Proof using fs_wf.
  intros C P H. induction H using Loads_ind2 with (P0 := fun before b incs after _ => forall d, same_base cwd b d -> IncludedAt before d incs after).
  - intros d B. eapply loads_at; eauto.
  - intros d B. constructor.
  - intros d B. destruct (proj1 (include_spec fs cwd base d f fs_wf C P B) path text) as (q & H1 & H2 & H3); auto. econstructor; eauto. apply IHLoads. exists (tl q). auto.
Qed.

Lemma inner_at cwd fuel content ctx b d ns R : look fs cwd = Some KDir -> Forall proper cwd -> wf_params ctx -> same_base cwd b d -> inner cwd fuel content ctx b ns = Ok R ->
  exists cs, LoadsAt [ctx] d content cs /\ wf_params R /\ params_prefix R = ns /\ forall x, view R x = merged cs x.
Proof using fs_wf parse_wf.
  intros C P W B E. destruct (C51_load is_word ft (read_path fs cwd) parse (resolve_strict fs cwd) parent_str environ parse_wf fuel content ctx b ns R W E) as (cs & L & H). exists cs. split; [|exact H]. eapply loads_at; eauto.
Qed.
Definition given (ic : option pv) : pv := match ic with Some c => c | None => PParams [] [] end.
Lemma load_inner cwd fuel s ic ns : load_file cwd fuel s None ic ns = let* t := read_path fs cwd s in inner cwd fuel t (given ic) (Some (parent_str s)) ns.
Proof.
  unfold LoadFs.load_file, inner. destruct (read_path fs cwd s) as [t|e] eqn:R.
  - exact (C51_load_file is_word ft (read_path fs cwd) parse (resolve_strict fs cwd) parent_str environ fuel s ic ns t R).
  - exact (C51_unreadable_file is_word ft (read_path fs cwd) parse (resolve_strict fs cwd) parent_str environ fuel s ic ns e R).
Qed.
(** C91: a successful load of the file [s]: [s] leads to the place of a file, whose text is loaded, its includes being taken relative to that place's
    directory (and the includes' includes relative to theirs); the result is the merge of the context and all these. *)
Theorem C91_load : forall cwd fuel s ic ns R, look fs cwd = Some KDir -> Forall proper cwd -> wf_params (given ic) -> load_file cwd fuel s None ic ns = Ok R ->
  exists q t cs, leads fs cwd s q /\ text_at fs q t /\ LoadsAt [given ic] (Some (tl q)) t cs /\ wf_params R /\ params_prefix R = ns /\ forall x, view R x = merged cs x.
Proof using fs_wf parse_wf.
  intros cwd fuel s ic ns R C P W E. rewrite load_inner in E. apply bind_ok in E. destruct E as (t & Er & E). apply read_path_spec in Er. destruct Er as (q & L & T). exists q, t.
  assert (same_base cwd (Some (parent_str s)) (Some (tl q))) as B. { exists (tl q). split; [reflexivity|]. destruct T as (b & u & T & _). eapply parent_ok; eauto. }
  destruct (inner_at _ _ _ _ _ _ _ _ C P W B E) as (cs & H). exists cs. tauto.
Qed.
(** ... and of a string: only absolute includes. *)
Theorem C91_load_string : forall cwd fuel content ctx ns R, look fs cwd = Some KDir -> Forall proper cwd -> wf_params ctx -> load_text fs cwd is_word ft parse environ fuel content ctx ns = Ok R ->
  exists cs, LoadsAt [ctx] None content cs /\ wf_params R /\ params_prefix R = ns /\ forall x, view R x = merged cs x.
Proof using fs_wf parse_wf. intros cwd fuel content ctx ns R C P W E. exact (inner_at cwd fuel content ctx None None ns R C P W eq_refl E). Qed.

(** C91: reading the file itself fails with the operating system's errors, not wrapped. *)
Theorem C91_unreadable : forall cwd fuel s ic ns,
  (In 0%N s -> load_file cwd fuel s None ic ns = Raise ValueError) /\
  (forall q, leads fs cwd s q -> look fs q = None -> load_file cwd fuel s None ic ns = Raise FileNotFoundError) /\
  (forall q, leads fs cwd s q -> look fs q = Some KDir -> load_file cwd fuel s None ic ns = Raise IOError) /\
  (forall q b, leads fs cwd s q -> look fs q = Some (KFile b) -> (forall u, encode u <> Ok b) -> load_file cwd fuel s None ic ns = Raise UnicodeDecodeError) /\
  (~ In 0%N s -> (forall q, ~ leads fs cwd s q) -> load_file cwd fuel s None ic ns = Raise FileNotFoundError \/ load_file cwd fuel s None ic ns = Raise NotADirectoryError).
Proof.
  intros cwd fuel s ic ns. rewrite load_inner. unfold read_path. split; [|split; [|split; [|split]]].
  - intros I. destruct (has_nul s) eqn:N; [reflexivity|]. now apply has_nul_spec in N.
  - intros q L H. assert (N : has_nul s = false) by (apply has_nul_spec, L). rewrite N. apply (start_leads fs cwd s q N) in L. rewrite L. cbn [bind]. now rewrite H.
  - intros q L H. assert (N : has_nul s = false) by (apply has_nul_spec, L). rewrite N. apply (start_leads fs cwd s q N) in L. rewrite L. cbn [bind]. now rewrite H.
  - intros q b L H D. assert (N : has_nul s = false) by (apply has_nul_spec, L). rewrite N. apply (start_leads fs cwd s q N) in L. rewrite L. cbn [bind]. rewrite H. cbn [bind].
    destruct (decode b) as [u|e] eqn:E; [apply C68_round_trip in E; now destruct (D u)|]. now rewrite (C68_decode_error _ _ E).
  - intros I H. apply has_nul_spec in I. rewrite I. destruct (os_walk fs (start cwd s) (parts s)) as [q|e] eqn:E.
    + exfalso. apply (H q). now apply start_leads.
    + cbn [bind]. clear H I. revert E. generalize (start cwd s). induction (parts s) as [|c cs IH]; intros q E; [discriminate|]. cbn [os_walk] in E.
      destruct (look fs q) as [[]|]; [injection E as <-; auto| |injection E as <-; auto|injection E as <-; auto]. destruct (str_eqb c !!".."); eapply IH; eauto.
Qed.
Lemma include_list_fun raw i1 i2 : include_list raw i1 -> include_list raw i2 -> i1 = i2.
Proof. intros (m & E & H) (m' & E' & H'). rewrite E in E'. injection E' as <-. destruct (dfind m includes_key); congruence. Qed.
Lemma included_in before d incs after f : IncludedAt before d incs after -> In f incs -> exists q t b a, points fs d f q /\ text_at fs q t /\ LoadsAt b (Some (tl q)) t a.
Proof. intros H. induction H; intros I; [destruct I|]. destruct I as [<-|I]; [do 4 eexists; eauto|auto]. Qed.
Lemma text_fun q t t' : text_at fs q t -> text_at fs q t' -> t = t'.
Proof. intros (b & u & L & E & ->) (b' & u' & L' & E' & ->). assert (b = b') by congruence. subst. apply C68_round_trip in E, E'. congruence. Qed.
Lemma fails cwd fuel s ic ns q t : look fs cwd = Some KDir -> Forall proper cwd -> wf_params (given ic) -> fuel <> 0 -> leads fs cwd s q -> text_at fs q t ->
  (forall cs, ~ LoadsAt [given ic] (Some (tl q)) t cs) -> load_file cwd fuel s None ic ns = Raise IOError.
Proof using fs_wf parse_wf.
  intros C P W F L T H. destruct (load_file cwd fuel s None ic ns) as [R|e] eqn:E.
  - exfalso. destruct (C91_load _ _ _ _ _ _ C P W E) as (q' & t' & cs & L' & T' & H' & _). rewrite (leads_fun _ _ _ _ _ L' L) in *. rewrite (text_fun _ _ _ T' T) in *. now apply (H cs).
  - f_equal. rewrite load_inner in E. rewrite (proj2 (read_path_spec fs cwd s t)) in E by eauto. cbn [bind] in E. exact (C51_load_error _ _ _ _ _ _ _ _ _ _ _ _ _ F E).
Qed.
(** C91: an include that is not a readable file makes the load an IOError. *)
Theorem C91_missing_include : forall cwd fuel s ic ns q t raw incs f, look fs cwd = Some KDir -> Forall proper cwd -> wf_params (given ic) -> fuel <> 0 ->
  leads fs cwd s q -> text_at fs q t -> parse t = Ok raw -> include_list raw incs -> In f incs ->
  (forall q' t', points fs (Some (tl q)) f q' -> ~ text_at fs q' t') -> load_file cwd fuel s None ic ns = Raise IOError.
Proof using fs_wf parse_wf.
  intros cwd fuel s ic ns q t raw incs f C P W F L T Pr IL I N. eapply fails; eauto. intros cs H. inversion H as [? ? ? raw' incs' mid own p cx c Pr' _ _ IL' Inc]; subst. rewrite Pr in Pr'. injection Pr' as <-.
  rewrite (include_list_fun _ _ _ IL' IL) in Inc. destruct (included_in _ _ _ _ _ Inc I) as (q' & t' & _ & _ & Z1 & Z2 & _). exact (N q' t' Z1 Z2).
Qed.
Scheme LoadsAt_ind2 := Induction for LoadFsSpec.LoadsAt Sort Prop with IncludedAt_ind2 := Induction for LoadFsSpec.IncludedAt Sort Prop.
Lemma loads_acc before d content after : LoadsAt before d content after -> forall q, d = Some (tl q) -> text_at fs q content -> Acc (fun a b => includes b a) q.
Proof using.
  intros H. induction H using LoadsAt_ind2 with (P0 := fun before d incs after _ => forall f q, In f incs -> points fs d f q -> Acc (fun a b => includes b a) q).
  - intros q -> T. constructor. intros q' (t & raw' & incs' & f & T' & Pr & IL & I & Pt). rewrite (text_fun _ _ _ T' T) in Pr.
    match goal with H1 : parse content = Ok ?r1, H2 : parse content = Ok ?r2 |- _ => assert (r1 = r2) by congruence end. subst.
    match goal with H1 : include_list ?r ?i1, H2 : include_list ?r ?i2 |- _ => pose proof (include_list_fun _ _ _ H1 H2) end. subst. eauto.
  - intros f q [].
  - intros f' q' [->|I] Pt; [|eauto]. match goal with H1 : points fs ?d ?f ?a, H2 : points fs ?d ?f ?b |- Acc _ ?b => pose proof (points_fun _ _ _ _ _ H1 H2) end. subst. eauto.
Qed.
(** C91: files that include themselves, directly or by way of others, cannot be loaded: IOError, whatever the recursion limit. *)
Theorem C91_cycle : forall cwd fuel s ic ns q q', look fs cwd = Some KDir -> Forall proper cwd -> wf_params (given ic) -> fuel <> 0 -> leads fs cwd s q -> (exists t, text_at fs q t) ->
  clos_refl_trans _ includes q q' -> clos_trans _ includes q' q' -> load_file cwd fuel s None ic ns = Raise IOError.
Proof using fs_wf parse_wf.
  intros cwd fuel s ic ns q q' C P W F L (t & T) H1 H2. eapply fails; eauto. intros cs H. pose proof (loads_acc _ _ _ _ H q eq_refl T) as A. clear - A H1 H2.
  assert (A' : Acc (fun a b => includes b a) q').
  { clear H2. induction H1 as [x y H|x|x y z _ IH1 _ IH2]; [apply (Acc_inv A); assumption|assumption|auto]. } clear A H1.
  assert (G : forall x, Acc (fun a b => includes b a) x -> forall y, clos_trans _ includes x y -> ~ clos_trans _ includes y x).
  { clear. intros x A. induction A as [x _ IH]. intros y H K. assert (clos_trans _ includes x x) as X by (eapply t_trans; eauto). apply clos_trans_t1n in X.
    assert (exists z, includes x z /\ clos_trans _ includes z x) as (z & Z1 & Z2).
    { inversion X as [? X1|z ? X1 X2]; subst; [exists x; split; [assumption|now apply t_step]|exists z; split; [assumption|now apply clos_t1n_trans]]. }
    apply (IH z Z1 x Z2). now apply t_step. }
  exact (G q' A' q' H2 H2).
Qed.
(** C91: the result does not depend on the current directory or on the way the file is named, only on where the file is. *)
Definition same_resolve cwd1 cwd2 (b1 b2 : option str) : Prop := forall f, Load.locate (resolve_strict fs cwd1) b1 f = Load.locate (resolve_strict fs cwd2) b2 f.
Lemma start_abs cwd1 cwd2 s : is_abs s = true -> start cwd1 s = start cwd2 s.
Proof. unfold start. now intros ->. Qed.
Lemma read_abs cwd1 cwd2 s : is_abs s = true -> read_path fs cwd1 s = read_path fs cwd2 s.
Proof. intros A. unfold read_path. now rewrite (start_abs cwd1 cwd2 s A). Qed.
Lemma locate_abs cwd b f p : Load.locate (resolve_strict fs cwd) b f = Ok p -> is_abs p = true.
Proof.
  unfold Load.locate. destruct (is_abs f) eqn:A; [intros E; now injection E as <-|]. destruct b as [b|]; [|discriminate]. unfold resolve_strict. destruct (has_nul b || has_nul f); intros E; [apply bind_ok in E; destruct E as (? & _ & E); discriminate|]. apply bind_ok in E. destruct E as (q & _ & E). now injection E as <-.
Qed.
Lemma same_abs cwd1 cwd2 b : is_abs b = true -> same_resolve cwd1 cwd2 (Some b) (Some b).
Proof. intros A f. unfold Load.locate, resolve_strict. now rewrite (start_abs cwd1 cwd2 b A). Qed.
Lemma foldM_ext {A B} (f g : B -> A -> res B) l : (forall b a, f b a = g b a) -> forall b, foldM f l b = foldM g l b.
Proof. intros H. induction l as [|a l IH]; intros b; [reflexivity|]. cbn [foldM]. rewrite H. destruct (g b a); [apply IH|reflexivity]. Qed.
Lemma inner_cwd cwd1 cwd2 fuel : forall content ctx b1 b2 ns, same_resolve cwd1 cwd2 b1 b2 -> inner cwd1 fuel content ctx b1 ns = inner cwd2 fuel content ctx b2 ns.
Proof using.
  induction fuel as [|f IH]; intros content ctx b1 b2 ns S; [reflexivity|]. unfold inner. cbn [inner_load]. f_equal. destruct (parse content) as [raw|]; [|reflexivity]. cbn [bind]. destruct (validate raw); [|reflexivity]. cbn [bind]. cbv zeta.
  destruct (dfind (as_dict (to_pv raw)) includes_key) as [v|]; [|reflexivity]. destruct (includes_of v) as [incs|]; [|reflexivity]. cbn [bind].
  match goal with |- bind ?x _ = bind ?y _ => enough (x = y) as -> by reflexivity end. apply foldM_ext. intros prev inc. rewrite S. destruct (Load.locate (resolve_strict fs cwd2) b2 inc) as [p|] eqn:Lp; [|reflexivity]. cbn [bind].
  assert (A := locate_abs _ _ _ _ Lp). rewrite (read_abs cwd1 cwd2 p A). destruct (read_path fs cwd2 p); [|reflexivity]. cbn [bind].
  match goal with |- bind ?x _ = bind ?y _ => enough (x = y) as -> by reflexivity end. apply IH. apply same_abs. now rewrite abs_parent.
Qed.
Theorem C91_place_decides : forall cwd1 cwd2 s1 s2 q fuel ic ns, look fs cwd1 = Some KDir -> look fs cwd2 = Some KDir -> leads fs cwd1 s1 q -> leads fs cwd2 s2 q ->
  load_file cwd1 fuel s1 None ic ns = load_file cwd2 fuel s2 None ic ns.
Proof using fs_wf.
  intros cwd1 cwd2 s1 s2 q fuel ic ns C1 C2 L1 L2. rewrite !load_inner.
  assert (R : forall cwd s, leads fs cwd s q -> read_path fs cwd s = match look fs q with None => Raise FileNotFoundError | Some (KFile b) => let* t := decode b in Ok (universal_newlines t) | Some _ => Raise IOError end).
  { intros cwd s L. assert (N : has_nul s = false) by (apply has_nul_spec, L). unfold read_path. rewrite N. apply (start_leads fs cwd s q N) in L. now rewrite L. }
  rewrite (R _ _ L1), (R _ _ L2). destruct (look fs q) as [[b| |]|] eqn:Q; try reflexivity. destruct (decode b) as [t|]; [|reflexivity]. cbn [bind]. apply inner_cwd.
  assert (B1 := parent_ok _ _ _ _ _ fs_wf C1 L1 Q). assert (B2 := parent_ok _ _ _ _ _ fs_wf C2 L2 Q). intros f. unfold Load.locate. now rewrite (resolve_base _ _ _ _ f B1), (resolve_base _ _ _ _ f B2).
Qed.
(** C91: a higher recursion limit does not change a successful load, ... *)
Lemma foldM_mono {A B} (f g : B -> A -> res B) l : (forall b a r, f b a = Ok r -> g b a = Ok r) -> forall b r, foldM f l b = Ok r -> foldM g l b = Ok r.
Proof. intros H. induction l as [|a l IH]; intros b r E; [exact E|]. cbn [foldM] in *. apply bind_ok in E. destruct E as (x & E1 & E). rewrite (H _ _ _ E1). cbn [bind]. auto. Qed.
Lemma inner_mono cwd fuel : forall content ctx b ns R fuel', inner cwd fuel content ctx b ns = Ok R -> fuel <= fuel' -> inner cwd fuel' content ctx b ns = Ok R.
Proof using.
  clear parse_wf fs_wf. induction fuel as [|f IH]; intros content ctx b ns R fuel' E Le; [discriminate|]. destruct fuel' as [|f']; [lia|]. assert (f <= f') as Lf by lia. clear Le. unfold inner in *. cbn [inner_load] in *. unfold wrap in *.
  match type of E with match ?x with _ => _ end = _ => destruct x as [r|] eqn:X; [|discriminate] end. injection E as ->.
  match goal with |- match ?y with _ => _ end = _ => enough (y = Ok R) as -> by reflexivity end. revert X. destruct (parse content) as [raw|]; [|discriminate]. cbn [bind]. destruct (validate raw); [|discriminate]. cbn [bind]. cbv zeta.
  destruct (dfind (as_dict (to_pv raw)) includes_key) as [v|]; [|auto]. destruct (includes_of v) as [incs|]; [|discriminate]. cbn [bind]. intros X. apply bind_ok in X. destruct X as (prev & X1 & X).
  match goal with |- bind ?y _ = _ => assert (y = Ok prev) as -> end; [|exact X]. eapply foldM_mono; [|exact X1]. clear - IH Lf. intros c i r E. cbv beta in *. apply bind_ok in E. destruct E as (p & -> & E). cbn [bind]. apply bind_ok in E. destruct E as (t & -> & E). cbn [bind].
  apply bind_ok in E. destruct E as (l & E1 & E). rewrite (IH _ _ _ _ _ _ E1 Lf). exact E.
Qed.
Theorem C91_recursion_limit : forall cwd s ic ns fuel fuel' R, load_file cwd fuel s None ic ns = Ok R -> fuel <= fuel' -> load_file cwd fuel' s None ic ns = Ok R.
Proof using.
  intros cwd s ic ns fuel fuel' R E Le. rewrite load_inner in *. apply bind_ok in E. destruct E as (t & -> & E). cbn [bind]. eapply inner_mono; eauto.
Qed.
(** ... and makes no difference at all once it exceeds the depth of the includes. *)
Lemma foldM_ext_in {A B} (f g : B -> A -> res B) l : (forall b a, In a l -> f b a = g b a) -> forall b, foldM f l b = foldM g l b.
Proof. induction l as [|a l IH]; intros H b; [reflexivity|]. cbn [foldM]. rewrite H by now left. destruct (g b a); [apply IH; intros; apply H; now right|reflexivity]. Qed.
Lemma inner_depth cwd n : look fs cwd = Some KDir -> Forall proper cwd -> forall q content ctx b ns fuel, include_depth fs parse n q -> text_at fs q content -> base_ok fs cwd b (tl q) -> n < fuel ->
  inner cwd fuel content ctx (Some b) ns = inner cwd (S n) content ctx (Some b) ns.
Proof using fs_wf.
  clear parse_wf. intros C P. induction n as [|n IH]; intros q content ctx b ns fuel D T B Lt; (destruct fuel as [|f]; [lia|]); assert (n_lt := Lt); apply Nat.succ_lt_mono in n_lt || clear n_lt;
  unfold inner; cbn [inner_load]; f_equal;
  (destruct (parse content) as [raw|] eqn:Pr; [|reflexivity]); cbn [bind]; (destruct (validate raw) as [[]|] eqn:V; [|reflexivity]); cbn [bind]; cbv zeta;
  (destruct (dfind (as_dict (to_pv raw)) includes_key) as [v|] eqn:Dv; [|reflexivity]); (destruct (includes_of v) as [incs|] eqn:Iv; [|reflexivity]); cbn [bind];
  (assert (IL : include_list raw incs) by (destruct (to_pv raw) as [| | | | | | | |m| |] eqn:Em; try discriminate Dv; exists m; split; [exact Em|]; cbn [as_dict] in Dv; now rewrite Dv));
  (match goal with |- bind ?x _ = bind ?y _ => enough (x = y) as -> by reflexivity end); apply foldM_ext_in; intros prev inc I;
  (destruct (Load.locate (resolve_strict fs cwd) (Some b) inc) as [p|] eqn:Lp; [|reflexivity]); cbn [bind]; (destruct (read_path fs cwd p) as [t|] eqn:Rp; [|reflexivity]); cbn [bind];
  (destruct (proj1 (include_spec fs cwd (Some b) (Some (tl q)) inc fs_wf C P (ex_intro _ (tl q) (conj eq_refl B))) p t Lp Rp) as (q' & Pt & T' & B'));
  (assert (Inc : includes q q') by (exists content, raw, incs, inc; auto)).
  - destruct (D q' Inc).
  - pose proof (D q' Inc) as D'. cbn in D'. match goal with |- bind ?x _ = bind ?y _ => enough (x = y) as -> by reflexivity end. apply (IH q'); auto.
Qed.
Theorem C91_enough_recursion : forall cwd s ic ns q n fuel, look fs cwd = Some KDir -> Forall proper cwd -> leads fs cwd s q -> include_depth fs parse n q -> n < fuel ->
  load_file cwd fuel s None ic ns = load_file cwd (S n) s None ic ns.
Proof using fs_wf.
  intros cwd s ic ns q n fuel C P L D Lt. rewrite !load_inner. destruct (read_path fs cwd s) as [t|] eqn:R; [|reflexivity]. cbn [bind]. apply read_path_spec in R. destruct R as (q' & L' & T). rewrite (leads_fun _ _ _ _ _ L' L) in *.
  apply (inner_depth cwd n C P q); auto. destruct T as (b & u & T & _). eapply parent_ok; eauto.
Qed.
End P.

(** ** Writing and loading again *)
Section NoRefs.
Variable is_word : N -> bool.
Variable ft : N -> bool.
Hypothesis pct_word : is_word pct = false.
Lemma text_chars_den m ctx q s : (forall n, ~ refers_to is_word s n) -> view (PMap m) q = Some (Leaf (PStr s)) -> Den is_word ft (PMap m) ctx q (VLeaf (PStr s)).
Proof using pct_word.
  intros N V. assert (refs (tokens is_word s) = []) as Er.
  { destruct (refs (tokens is_word s)) as [|n r] eqn:Er; [reflexivity|]. exfalso. apply (N n). apply refers_to_iff; [assumption|]. rewrite Er. simpl; auto. }
  apply (tokens_chars _ pct_word) in Er. eapply den_text; [eassumption|apply (tokens_tokenized _ pct_word)| |].
  - intros n K. rewrite Er in K. destruct s; discriminate.
  - rewrite Er. apply Text_chars.
Qed.
(** C48: a file without references is left as it is, whatever the context. *)
Theorem C48_no_references : forall m ctx p, plain (PMap m) -> from_mapping (PMap m) [] = Ok p -> wf_params ctx -> params_prefix ctx = [] ->
  (forall q s n, view (PMap m) q = Some (Leaf (PStr s)) -> ~ refers_to is_word s n) ->
  exists R, interpolate is_word ft p ctx = Ok R /\ wf_params R /\ forall q, view R q = view (PMap m) q.
Proof using pct_word.
  intros m ctx p PL FM WC PC NR. assert (loadable is_word m ctx p) as LD.
  { repeat (split; [assumption|]). intros q s n p0 k r v V Rf. now destruct (NR q s n V). }
  destruct (C48_outcomes is_word ft pct_word m ctx p LD) as (_ & _ & _ & [_ OK] & _).
  destruct OK as (R & E).
  - split; [|split].
    + intros (a & H). apply clos_trans_t1n in H. assert (exists b, refers is_word ft (PMap m) a b) as (b & s & V & Rf & _) by (inversion H; eauto). exact (NR _ _ _ V Rf).
    + intros q v V. assert ((exists s, v = PStr s) \/ forall s, v <> PStr s) as [(s & ->)|NS]; [destruct v; try (right; congruence); left; eauto| |].
      * exists (VLeaf (PStr s)). apply text_chars_den; [|assumption]. intros n. exact (NR q s n V).
      * exists (VLeaf v). now apply den_const.
    + intros (q & H). assert (forall a b, clos_trans _ (holds_ns is_word ft (PMap m) ctx) a b -> length a < length b) as G.
      { clear q H. intros a b H. induction H as [a b (k & D)|a b c _ IH1 _ IH2]; [|lia]. enough (b = a ++ [k]) as -> by (rewrite app_length; simpl; lia).
        inversion D as [q V E1 E2| |q s n w V T L E1 E2|]; subst; [reflexivity|]. exfalso. apply (NR _ s n V). exists [TRef n]. split; [assumption|now left]. }
      specialize (G _ _ H). lia.
  - exists R. split; [assumption|]. destruct (C48_result is_word ft pct_word m ctx p R LD E) as (WR & PR & I1 & I2 & I3). split; [assumption|].
    assert (forall q, view (PMap m) q = None -> view R q = None) as G.
    { intros q. induction q as [|k q IH] using rev_ind; [discriminate|]. intros V. destruct (view (PMap m) q) as [[|v]|] eqn:V'.
      - now apply I2.
      - destruct (view R (q ++ [k])) eqn:X; [|reflexivity]. exfalso.
        assert (view R q = Some (Leaf v)) as X2. { apply (C48_unreferenced_kept is_word ft pct_word m ctx p R q v LD E V'). intros s n ->. exact (NR q s n V'). }
        rewrite (view_app R q [k]) in X2; [discriminate|congruence|discriminate].
      - destruct (view R (q ++ [k])) eqn:X; [|reflexivity]. exfalso. rewrite (view_app R q [k]) in IH; [now specialize (IH eq_refl)|congruence|discriminate]. }
    intros q. destruct (view (PMap m) q) as [[|v]|] eqn:V; [now apply I1| |now apply G].
    apply (C48_unreferenced_kept is_word ft pct_word m ctx p R q v LD E V). intros s n ->. exact (NR q s n V).
Qed.
End NoRefs.
(** The parameters [p] as written: every Path is a string. *)
Definition converted (f : option found) : option found := match f with Some (Leaf v) => Some (Leaf (to_yaml v)) | o => o end.
Lemma walk_set fs q b cs : free fs q -> q <> [] -> forall r x, os_walk fs r cs = Ok x -> os_walk (set_node fs q b) r cs = Ok x.
Proof.
  intros F N. induction cs as [|c cs IH]; intros r x E; [exact E|]. cbn [os_walk] in *. destruct (look fs r) as [[]|] eqn:L; try discriminate.
  rewrite look_set_other; [rewrite L|assumption|intros ->; destruct F as [F|(y & F)]; congruence]. destruct (str_eqb c !!".."); auto.
Qed.
Lemma leads_dir fs cwd s q : wf_fs fs -> look fs cwd = Some KDir -> leads fs cwd s q -> free fs q -> exists c d, q = c :: d /\ look fs d = Some KDir.
Proof.
  intros W C L F. assert (NN : has_nul s = false) by (apply has_nul_spec, L). apply (start_leads fs cwd s q NN) in L.
  assert (look fs (start cwd s) = Some KDir) as CS by (unfold start; destruct (is_abs s); [reflexivity|exact C]).
  assert (ND : look fs q <> Some KDir) by (destruct F as [F|(x & F)]; congruence).
  destruct (parts s) as [|x xs] eqn:P; [cbn in L; injection L as <-; congruence|]. destruct (@exists_last _ (x :: xs)) as (l & c & E); [discriminate|]. rewrite E in *.
  destruct (last_part _ _ _ _ _ L) as (d & E1 & D & E2). destruct (str_eqb c !!".."); subst q; [|eauto]. exfalso. destruct d as [|y d]; [now apply ND|]. cbn [tl] in ND. now rewrite (W _ _ _ D) in ND.
Qed.
Lemma leads_set fs cwd s q b : q <> [] -> free fs q -> leads fs cwd s q -> leads (set_node fs q b) cwd s q.
Proof.
  intros N F L. assert (NN : has_nul s = false) by (apply has_nul_spec, L). apply (start_leads fs cwd s q NN) in L. apply start_leads; [assumption|]. now apply walk_set.
Qed.
Lemma converted_dotless v : wf v -> forall k, nested_key (to_yaml (dictify v)) k -> dotless k.
Proof.
  induction v using pv_ind_nested; intros W k K; try (inversion K; fail); [now simpl in W|]. apply wf_map in W. destruct W as (_ & Fd & Fv). cbn [dictify to_yaml] in K. rewrite map_map in K. cbn [fst snd] in K. rewrite Forall_forall in *.
  inversion K as [m0 k0 x I E1 E2|m0 k1 x k0 I I2 E1 E2]; subst; apply in_map_iff in I; destruct I as ([k' v'] & E & I); injection E as <- <-.
  - apply Fd. apply in_map_iff. now exists (k', v').
  - apply (H _ I); [exact (Fv _ I)|assumption].
Qed.
Lemma env_params environ : (forall k v, In (k, v) environ -> ~ In dot k) -> exists cx, from_mapping (PMap (add_environ environ (as_dict (dictify (PParams [] []))))) [] = Ok cx.
Proof.
  intros NE. apply from_value_total. intros k K. assert (forall k x, In (k, x) (add_environ environ []) -> In k (map fst environ) /\ exists t, x = PStr t) as H.
  { clear. intros k x I. apply in_dfind in I; [|apply add_environ_nodup; constructor]. rewrite add_environ_find in I. cbn [dfind] in I. destruct (dfind environ k) as [t|] eqn:D; [|discriminate]. injection I as <-.
    split; [|eauto]. apply dfind_in in D. apply in_map_iff. now exists (k, t). }
  inversion K as [m0 k0 x I E1 E2|m0 k1 x k0 I I2 E1 E2]; subst; destruct (H _ _ I) as (J & t & ->); [|inversion I2]. apply in_map_iff in J. destruct J as ([k' v'] & E & J). cbn [fst] in E. subst. exact (NE _ _ J).
Qed.
(** C91: parameters without references and includes, written to a file and loaded from there by themselves, are the same parameters, except that
    paths have become strings.  The YAML text is assumed to be parsed to what it was made of. *)
Theorem C91_write_load : forall fs cwd is_word ft parse environ dump p s q ym b fuel ns, is_word pct = false -> (forall t y, parse t = Ok y -> yaml_wf y) ->
  wf_fs fs -> look fs cwd = Some KDir -> leads fs cwd s q -> free fs q -> wf_params p -> printable p ->
  let y := to_yaml (dictify p) in
  parse (dump y) = Ok (YMap ym) -> string_keys (YMap ym) -> to_pv (YMap ym) = y -> encode (dump y) = Ok b -> ~ In CR (dump y) ->
  view p [!!"_includes"] = None -> (forall x t n, converted (view p x) = Some (Leaf (PStr t)) -> ~ refers_to is_word t n) ->
  (forall k v, In (k, v) environ -> ~ In dot k) -> fuel <> 0 ->
  exists fs' R, write_file fs cwd dump p s = (fs', Ok tt) /\ look fs' q = Some (KFile b) /\ (forall q', q' <> q -> look fs' q' = look fs q') /\
    load_file fs' cwd is_word ft parse environ fuel s None None ns = Ok R /\ params_prefix R = ns /\ forall x, view R x = converted (view p x).
Proof.
  intros fs cwd is_word ft parse environ dump p s q ym b fuel ns PW YW W C L F WP PR y EP SK EY EB NC NI NR NE NF.
  destruct (leads_dir fs cwd s q W C L F) as (c & d & -> & D). exists (set_node fs (c :: d) b).
  assert (V : forall x, view y x = converted (view p x)).
  { destruct (C54_no_entry_lost p WP) as [H _]. destruct (H PR) as (y' & E1 & _ & V). destruct (C54_preprocess (dictify p)) as [H' _]. rewrite (H' (proj2 (writable_dictify p) PR)) in E1. injection E1 as <-. intros x. unfold y. rewrite V. now destruct (view p x) as [[]|]. }
  assert (E1 : preprocess (dictify p) = Ok y) by (apply C54_preprocess; now apply writable_dictify).
  assert (NN : has_nul s = false) by (apply has_nul_spec, L). assert (Ew : write_file fs cwd dump p s = (set_node fs (c :: d) b, Ok tt)).
  { unfold write_file. rewrite NN. rewrite (proj2 (start_leads fs cwd s _ NN) L). rewrite (can_write_ok fs c d W D F), E1, EB. reflexivity. }
  assert (L' : leads (set_node fs (c :: d) b) cwd s (c :: d)) by (apply leads_set; [discriminate|assumption|assumption]).
  assert (Lk : look (set_node fs (c :: d) b) (c :: d) = Some (KFile b)) by (now apply look_set_same).
  assert (T : text_at (set_node fs (c :: d) b) (c :: d) (dump y)). { exists b, (dump y). split; [assumption|]. split; [assumption|]. symmetry. now apply universal_id. }
  assert (EYm : exists m, y = PMap m). { unfold y. destruct WP as [_ IP]. destruct p; try discriminate. eexists. reflexivity. } destruct EYm as (m & Em).
  assert (PLy : plain (PMap m)). { rewrite <- Em, <- EY. apply to_pv_plain; [exact (YW _ _ EP)|assumption]. }
  assert (NDm : forall k, nested_key (PMap m) k -> dotless k) by (intros k K; rewrite <- Em in K; exact (converted_dotless p (proj1 WP) k K)).
  assert (Dm : dfind m includes_key = None). { specialize (V [includes_key]). rewrite (NI : view p [includes_key] = None), Em in V. cbn [view converted] in V. destruct (dfind m includes_key) as [w|]; [destruct w; discriminate V|reflexivity]. }
  destruct (from_value_total _ NDm []) as (p' & Ep'). destruct (env_params environ NE) as (cx & Ec).
  assert (Wc : wf_params cx /\ params_prefix cx = [] /\ forall x, view cx x = LoadSpec.fallback environ [PParams [] []] x).
  { apply (context_view environ (PParams [] []) [PParams [] []] cx); [split; [repeat split; constructor|reflexivity]|intros x; symmetry; apply merged_one|exact Ec]. }
  destruct (C48_no_references is_word ft PW m cx p' PLy Ep' (proj1 Wc) (proj1 (proj2 Wc))) as (own & Eo & Wo & Vo).
  { intros x t n Vx. apply (NR x t n). rewrite <- V, Em. exact Vx. }
  assert (W0 : wf_params (PParams [] [])) by (split; [repeat split; constructor|reflexivity]).
  assert (NoC : forall x, ~ clash (PParams [] []) own x).
  { intros x. destruct x as [|k x]; [|intros [(v & A & _)|(v & A & _)]; discriminate A]. intros [(v & A & _)|(v & _ & A & _)]; [discriminate A|]. rewrite Vo in A. discriminate A. }
  pose proof (unify_correct (PParams [] []) own ns W0 Wo) as U. destruct (unify (PParams [] []) own ns) as [R|e] eqn:Eu; [|exfalso; destruct U as (_ & x & U); exact (NoC x U)].
  destruct U as (WR & PRx & VR & _). exists R. split; [assumption|]. split; [assumption|]. split; [intros q' Nq; apply look_set_other; [discriminate|congruence]|]. split; [|split; [assumption|]].
  - rewrite load_inner. rewrite (proj2 (read_path_spec _ cwd s (dump y))) by eauto. cbn [bind]. destruct fuel as [|f]; [congruence|]. unfold inner. cbn [given].
    apply (C51_without_includes is_word ft _ parse _ parent_str environ YW f (dump y) (PParams [] []) (Some (parent_str s)) ns (YMap ym) m W0 EP (eq_trans EY Em) Dm (ex_intro _ ym eq_refl) SK R).
    exists p', cx, own. repeat (split; [assumption|]). assumption.
  - intros x. rewrite VR, Vo, <- V, Em. destruct x as [|k x]; [reflexivity|]. cbn [view dfind merge1]. destruct (dfind m k) as [w|]; [|reflexivity]. now destruct (view w x) as [[|[]]|].
Qed.
Print Assumptions C91_write_load.
(** C91: parameters that cannot be written (say, with a null among them): RuntimeError, and the file, if it existed, has lost its contents. *)
Theorem C91_failed_write_empties_file : forall fs cwd dump p s q, wf_fs fs -> look fs cwd = Some KDir -> leads fs cwd s q -> free fs q -> wf_params p -> ~ printable p ->
  exists fs', write_file fs cwd dump p s = (fs', Raise RuntimeError) /\ look fs' q = Some (KFile []) /\ forall q', q' <> q -> look fs' q' = look fs q'.
Proof.
  intros fs cwd dump p s q W C L F WP NP. destruct (leads_dir fs cwd s q W C L F) as (c & d & -> & D). exists (set_node fs (c :: d) []). assert (NN : has_nul s = false) by (apply has_nul_spec, L).
  split; [|split; [now apply look_set_same|intros q' Nq; apply look_set_other; [discriminate|congruence]]].
  unfold write_file. rewrite NN. rewrite (proj2 (start_leads fs cwd s _ NN) L). rewrite (can_write_ok fs c d W D F). destruct (C54_no_entry_lost p WP) as [_ H]. now rewrite (H NP).
Qed.
Print Assumptions C91_failed_write_empties_file.

(** ** A concrete case: the files of LoadProps.v in a file system, and two files including each other *)
Definition at_p (l : list str) : list str := rev (!!"p" :: l).
Definition wfs : list (list str * fnode) :=
  [(at_p [], KDir); (at_p [!!"main.yaml"], KFile !!"main"); (at_p [!!"inc"], KDir); (at_p [!!"inc"; !!"a.yaml"], KFile !!"a"); (at_p [!!"inc"; !!"base.yaml"], KFile !!"base");
   (at_p [!!"b.yaml"], KFile !!"b"); (at_p [!!"x.yaml"], KFile !!"x"); (at_p [!!"y.yaml"], KFile !!"y"); (at_p [!!"z.yaml"], KFile !!"z"); (at_p [!!"latin"], KFile [233%N]); ([!!"u"; !!"home"], KDir); ([!!"home"], KDir)].
Definition wyaml : list (str * yaml) :=
  (!!"x", YMap [(KStr includes_key, YList [ys !!"b.yaml"; ys !!"/p/y.yaml"])]) :: (!!"y", YMap [(KStr includes_key, YList [ys !!"inc/../x.yaml"])]) ::
  (!!"z", YMap [(KStr includes_key, YList [ys !!"b.yaml"; ys !!"nowhere/../b.yaml"])]) :: ex_yaml.
Definition wparse (t : str) : res yaml := match dfind wyaml t with Some t => Ok t | None => Raise AnyError end.
Definition wload cwd s := load_file wfs cwd word_ascii ft1 wparse [] 5 s None None [].
Lemma wfs_wf : wf_fs wfs.
Proof.
  intros c q k L. unfold look in L. assert (exists v, In (c :: q, v) wfs) as (v & I) by (apply find_path_in; congruence). clear L. cbn [wfs In at_p rev app] in I.
  repeat match type of I with _ \/ _ => destruct I as [I|I] end; try contradiction; injection I as <- <- _; reflexivity.
Qed.
Ltac op := repeat (first [apply op_end|apply op_stay; [first [now left|now right]|]|apply op_up; [reflexivity|]; cbn [tl]|apply op_into; [discriminate|discriminate|discriminate|reflexivity|]]).
Ltac rsv := repeat (first [apply rs_end|apply rs_stay; [first [now left|now right]|]|apply rs_up; cbn [tl]|apply rs_into; [discriminate|discriminate|discriminate|vm_compute; discriminate|]]).
Example C91_witness : wf_fs wfs /\ leads wfs [!!"u"; !!"home"] !!"../.././p/main.yaml" (at_p [!!"main.yaml"]) /\ leads wfs (at_p []) !!"main.yaml" (at_p [!!"main.yaml"]) /\
  wload [!!"u"; !!"home"] !!"../.././p/main.yaml" = wload (at_p []) !!"main.yaml" /\
  shown (wload (at_p []) !!"main.yaml") = Ok (PMap [(!!"top", PStr !!"/data"); (!!"x", PInt 3); (!!"sub", PMap [(!!"z", PBool true); (!!"y", PInt 3)]); (!!"root", PStr !!"/data/a"); (!!"HOME", PStr !!"home-of-b"); (!!"out", PStr !!"/data/a/home-of-b")]).
Proof.
  split; [exact wfs_wf|]. split; [|split; [|split; vm_compute; reflexivity]].
  - split; [vm_compute; intuition discriminate|]. right. split; [discriminate|]. vm_compute py_split. op.
  - split; [vm_compute; intuition discriminate|]. right. split; [discriminate|]. vm_compute py_split. op.
Qed.
Lemma ascii_text q t : look wfs q = Some (KFile t) -> encode t = Ok t -> universal_newlines t = t -> text_at wfs q t.
Proof. intros L E U. exists t, t. auto. Qed.
Example C91_parse_witness : forall t y, wparse t = Ok y -> yaml_wf y.
Proof.
  intros t y. unfold wparse. destruct (dfind wyaml t) as [z|] eqn:E; [|discriminate]. intros H. injection H as <-. apply dfind_in in E. simpl in E.
  repeat (destruct E as [E|E]; [injection E as _ <-; yaml_wf_tac|]). all: contradiction.
Qed.
(** x.yaml includes /p/y.yaml, which includes inc/../x.yaml *)
Example C91_cycle_witness : includes wfs wparse (at_p [!!"x.yaml"]) (at_p [!!"y.yaml"]) /\ includes wfs wparse (at_p [!!"y.yaml"]) (at_p [!!"x.yaml"]) /\ wload (at_p []) !!"x.yaml" = Raise IOError.
Proof.
  split; [|split; [|vm_compute; reflexivity]].
  - exists !!"x", (YMap [(KStr includes_key, YList [ys !!"b.yaml"; ys !!"/p/y.yaml"])]), [!!"b.yaml"; !!"/p/y.yaml"], !!"/p/y.yaml". split; [apply ascii_text; reflexivity|]. split; [reflexivity|].
    split; [eexists; split; reflexivity|]. split; [now right; left|]. split; [vm_compute; intuition discriminate|]. left. split; [eexists; reflexivity|]. vm_compute py_split. op.
  - exists !!"y", (YMap [(KStr includes_key, YList [ys !!"inc/../x.yaml"])]), [!!"inc/../x.yaml"], !!"inc/../x.yaml". split; [apply ascii_text; reflexivity|]. split; [reflexivity|].
    split; [eexists; split; reflexivity|]. split; [now left|]. split; [vm_compute; intuition discriminate|]. right. split; [discriminate|]. exists (at_p []). split; [reflexivity|]. vm_compute py_split. rsv.
Qed.
(** z.yaml includes nowhere/../b.yaml: there is a file b.yaml, but no directory nowhere *)
Example C91_missing_witness : leads wfs (at_p []) !!"z.yaml" (at_p [!!"z.yaml"]) /\ (forall q t, points wfs (Some (at_p [])) !!"nowhere/../b.yaml" q -> ~ text_at wfs q t) /\ wload (at_p []) !!"z.yaml" = Raise IOError /\
  wload (at_p []) !!"latin" = Raise UnicodeDecodeError /\ wload (at_p []) !!"inc" = Raise IOError /\ wload (at_p []) !!"nowhere/z.yaml" = Raise FileNotFoundError /\ wload (at_p []) !!"b.yaml/z.yaml" = Raise NotADirectoryError.
Proof.
  split; [split; [vm_compute; intuition discriminate|]; right; split; [discriminate|]; vm_compute py_split; op|]. split; [|repeat split; vm_compute; reflexivity].
  intros q t (_ & [[(r & E) _]|[_ (d & E & R)]]); [discriminate E|]. injection E as <-. apply strict_walk_spec in R. vm_compute in R. discriminate R.
Qed.
(** the includes of main.yaml are two deep *)
Ltac inc_inv H := destruct H as (t & raw & incs & f & T & Pr & IL & I & Pt).
Lemma wfs_text q t u : look wfs q = Some (KFile u) -> decode u = Ok u -> universal_newlines u = u -> text_at wfs q t -> t = u.
Proof. intros L D U (b & v & L' & E & ->). rewrite L in L'. injection L' as <-. apply C68_round_trip in E. congruence. Qed.
Lemma points_is d f q q' : points wfs d f q -> points wfs d f q' -> q = q'.
Proof. apply points_fun. Qed.
Example C91_depth_witness : include_depth wfs wparse 2 (at_p [!!"main.yaml"]).
Proof.
  assert (leaf : forall q u m, look wfs q = Some (KFile u) -> decode u = Ok u -> universal_newlines u = u -> wparse u = Ok (YMap m) -> dfind (as_dict (to_pv (YMap m))) includes_key = None -> forall q', ~ includes wfs wparse q q').
  { intros q u m L D U P N q' H. inc_inv H. rewrite (wfs_text _ _ _ L D U T) in Pr. rewrite P in Pr. injection Pr as <-. destruct IL as (m' & E & IL). rewrite E in N. cbn [as_dict] in N. rewrite N in IL. subst incs. destruct I. }
  intros q H. inc_inv H. assert (t = !!"main") as -> by (apply (wfs_text (at_p [!!"main.yaml"])); [reflexivity..|assumption]). vm_compute in Pr. injection Pr as <-. destruct IL as (m & E & IL). injection E as <-. vm_compute in IL. injection IL as <-.
  destruct I as [<-|[<-|[]]].
  - assert (q = at_p [!!"inc"; !!"a.yaml"]) as ->.
    { eapply points_is; [exact Pt|]. split; [vm_compute; intuition discriminate|]. right. split; [discriminate|]. exists (at_p []). split; [reflexivity|]. vm_compute py_split. rsv. }
    clear T Pt. intros q H. inc_inv H. assert (t = !!"a") as -> by (apply (wfs_text (at_p [!!"inc"; !!"a.yaml"])); [reflexivity..|assumption]). vm_compute in Pr. injection Pr as <-. destruct IL as (m & E & IL). injection E as <-. vm_compute in IL. injection IL as <-.
    destruct I as [<-|[]]. assert (q = at_p [!!"inc"; !!"base.yaml"]) as ->.
    { eapply points_is; [exact Pt|]. split; [vm_compute; intuition discriminate|]. right. split; [discriminate|]. exists (at_p [!!"inc"]). split; [reflexivity|]. vm_compute py_split. rsv. }
    intros q H. eapply (leaf (at_p [!!"inc"; !!"base.yaml"]) !!"base"); try reflexivity. exact H.
  - assert (q = at_p [!!"b.yaml"]) as ->.
    { eapply points_is; [exact Pt|]. split; [vm_compute; intuition discriminate|]. right. split; [discriminate|]. exists (at_p []). split; [reflexivity|]. vm_compute py_split. rsv. }
    intros q H. exfalso. eapply (leaf (at_p [!!"b.yaml"]) !!"b"); try reflexivity. exact H.
Qed.
(** Writing and loading again *)
Definition wp : pv := PParams [] [(!!"a", PPath !!"/x"); (!!"n", PParams [!!"n"] [(!!"b", PInt 1); (!!"l", PList [PPath !!"y"; PStr !!"50%"])])].
Definition wdumped : yaml := YMap [(KStr !!"a", ys !!"/x"); (KStr !!"n", YMap [(KStr !!"b", YLeaf (PInt 1)); (KStr !!"l", YList [ys !!"y"; ys !!"50%"])])].
Definition wdump (v : pv) : str := !!"dumped".
Definition wparse2 (t : str) : res yaml := if str_eqb t !!"dumped" then Ok wdumped else wparse t.
Example C91_write_load_witness : wf_params wp /\ printable wp /\ wparse2 (wdump (to_yaml (dictify wp))) = Ok wdumped /\ to_pv wdumped = to_yaml (dictify wp) /\ view wp [!!"_includes"] = None /\
  (forall x t n, converted (view wp x) = Some (Leaf (PStr t)) -> ~ refers_to word_ascii t n) /\
  (let (fs', r) := write_file wfs (at_p []) wdump wp !!"b.yaml" in r = Ok tt /\
   shown (load_file fs' (at_p []) word_ascii ft1 wparse2 [] 5 !!"b.yaml" None None []) = Ok (PMap [(!!"a", PStr !!"/x"); (!!"n", PMap [(!!"b", PInt 1); (!!"l", PList [PStr !!"y"; PStr !!"50%"])])])) /\
  ~ printable (PParams [] [(!!"a", PNone)]) /\
  (let (fs', r) := write_file wfs (at_p []) wdump (PParams [] [(!!"a", PNone)]) !!"b.yaml" in r = Raise RuntimeError /\ look fs' (at_p [!!"b.yaml"]) = Some (KFile [])).
Proof.
  repeat match goal with |- _ /\ _ => split end; try (vm_compute; reflexivity); try (vm_compute; split; reflexivity).
  - repeat (split || constructor || (intros [|[]]) || (intros H; destruct H as [H|H]) || (intros H)); try discriminate; try contradiction; exact Logic.I.
  - apply writable_dictify. cbn. repeat (constructor; cbn; intros; repeat match goal with H : _ \/ _ |- _ => destruct H | H : (_, _) = (_, _) |- _ => injection H as <- <- | H : _ = _ |- writable _ => subst end; try contradiction).
  - intros x t n V. assert (H : x = [!!"a"] /\ t = !!"/x").
    { destruct x as [|k x]; [discriminate|]. cbn [view wp dfind] in V. destruct (str_eqb !!"a" k) eqn:K; [apply str_eqb_eq in K; subst k; destruct x; [injection V as <-; auto|discriminate]|].
      destruct (str_eqb !!"n" k); [|discriminate]. destruct x as [|k2 x]; [discriminate|]. cbn [view dfind] in V. destruct (str_eqb !!"b" k2); [destruct x; discriminate|]. destruct (str_eqb !!"l" k2); [destruct x; discriminate|discriminate]. }
    destruct H as [_ ->]. intros R. apply refers_to_iff in R; [|reflexivity]. vm_compute in R. exact R.
  - intros H. inversion H as [pre d H'|]; [|discriminate]. specialize (H' !!"a" PNone (or_introl eq_refl)). inversion H' as [|v' _ H2]; subst. inversion H2.
Qed.
Print Assumptions C91_load.
Print Assumptions C91_place_decides.
Print Assumptions C91_cycle.
Print Assumptions C91_enough_recursion.
