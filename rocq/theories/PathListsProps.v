(** * C81: lists and maps of paths from files. *)
From Verif Require Import Prelude PyStr Order Range Params ParamsSpec ParamsProofs ParamsGet ParamsGetProps TextLib Utf8 Fs FsProofs FsProps SortLib Io IoProps Decimals PathLists.

(** ** Specification *)
(** The pieces of a text between line breaks (\r\n counting as one). *)
Definition unbroken (l : str) : Prop := forall c, In c l -> line_break c = false.
Inductive pieces : str -> list str -> Prop :=
| pc_none : pieces [] []
| pc_last l : l <> [] -> unbroken l -> pieces l [l]
| pc_crlf l r ls : unbroken l -> pieces r ls -> pieces (l ++ CR :: LF :: r) (l :: ls)
| pc_break l c r ls : unbroken l -> line_break c = true -> (c = CR -> forall r', r <> LF :: r') -> pieces r ls -> pieces (l ++ c :: r) (l :: ls).
(** The lines that are kept, without white space at their ends: not blank, not beginning with # (after white space). *)
Inductive keeps : list str -> list str -> Prop :=
| ke_nil : keeps [] []
| ke_blank l ls ms : stripped is_space l [] -> keeps ls ms -> keeps (l :: ls) ms
| ke_comment l r ls ms : stripped is_space l (hash :: r) -> keeps ls ms -> keeps (l :: ls) ms
| ke_keep l c r ls ms : stripped is_space l (c :: r) -> c <> hash -> keeps ls ms -> keeps (l :: ls) ((c :: r) :: ms).
(** Paths: a relative path is taken below the base, an absolute one replaces it. *)
Definition placed (relative_to : option ppath) (s : str) (q : ppath) : Prop :=
  match relative_to with
  | Some b => p_root (parse_path s) = 0%N /\ q = MkPath (p_root b) (p_parts b ++ p_parts (parse_path s)) \/ p_root (parse_path s) <> 0%N /\ q = parse_path s
  | None => q = parse_path s
  end.
Lemma to_path_placed rel s : placed rel s (to_path rel s).
Proof. destruct rel as [b|]; simpl; [|reflexivity]. unfold join_path. destruct (N.eqb_spec (p_root (parse_path s)) 0); auto. Qed.
Lemma placed_fun rel s q : placed rel s q -> q = to_path rel s.
Proof. destruct rel as [b|]; cbn [placed to_path]; [|auto]. unfold join_path. destruct (N.eqb_spec (p_root (parse_path s)) 0); intros [[A ->]|[A ->]]; reflexivity || congruence. Qed.

(** The path object made of a string, said separately: its parts are the pieces between slashes, without the empty ones and "."; it is relative, or has the root
    "/" (one slash, or three and more) or "//" (exactly two). *)
Inductive starts_with_slashes : nat -> str -> Prop :=
| sws_none s : (forall r, s <> slash :: r) -> starts_with_slashes 0 s
| sws_more n s : starts_with_slashes n s -> starts_with_slashes (S n) (slash :: s).
Inductive kept_parts : list str -> list str -> Prop :=
| kp_nil : kept_parts [] []
| kp_drop c cs ds : c = [] \/ c = !!"." -> kept_parts cs ds -> kept_parts (c :: cs) ds
| kp_keep c cs ds : c <> [] -> c <> !!"." -> kept_parts cs ds -> kept_parts (c :: cs) (c :: ds).
(** C81: the path object of a string. *)
Theorem C81_paths : forall s n cs, starts_with_slashes n s -> py_join [slash] cs = s -> cs <> [] -> (forall c, In c cs -> ~ In slash c) ->
  forall q, q = parse_path s <-> (n = 0 /\ p_root q = 0%N \/ n = 2 /\ p_root q = 2%N \/ n <> 0 /\ n <> 2 /\ p_root q = 1%N) /\ kept_parts cs (p_parts q).
Proof.
  intros s n cs N J NE NS q. assert (Ec : py_split slash s = cs) by (rewrite <- J; now apply py_join_split).
  assert (Er : root_of s = match n with 0 => 0%N | 2 => 2%N | _ => 1%N end).
  { clear -N. assert (F : forall s, (forall r, s <> slash :: r) -> match s with c :: _ => (c =? slash)%N = false | [] => True end) by (intros [|c t] H; [exact I|]; destruct (N.eqb_spec c slash) as [->|]; [now destruct (H t)|reflexivity]).
    unfold root_of. destruct N as [s H|n s N]; [specialize (F s H); destruct s; [reflexivity|now rewrite F]|]. rewrite N.eqb_refl.
    destruct N as [s H|n s N]; [specialize (F s H); destruct s; [reflexivity|now rewrite F]|]. rewrite N.eqb_refl.
    destruct N as [s H|n s N]; [specialize (F s H); destruct s; [reflexivity|now rewrite F]|]. reflexivity. }
  assert (Ep : forall ds, kept_parts cs ds <-> ds = filter (fun c => negb (str_eqb c [] || str_eqb c !!".")) cs).
  { clear. induction cs as [|c cs IH]; intros ds; [split; [intros H; inversion H; reflexivity|intros ->; constructor]|]. cbn [filter]. destruct (str_eqb c []) eqn:E1.
    - apply str_eqb_eq in E1. subst c. cbn [orb negb]. rewrite <- IH. split; [intros H; inversion H; subst; [assumption|congruence]|intros H; apply kp_drop; auto].
    - destruct (str_eqb c !!".") eqn:E2.
      + apply str_eqb_eq in E2. subst c. cbn [orb negb]. rewrite <- IH. split; [intros H; inversion H; subst; [assumption|exfalso; auto]|intros H; apply kp_drop; auto].
      + cbn [orb negb]. assert (c <> [] /\ c <> !!".") as [N1 N2] by (split; intros ->; discriminate). split.
        * intros H. inversion H as [|? ? ? D H'|? ? ? _ _ H']; subst; [destruct D; contradiction|]. apply IH in H'. now f_equal.
        * intros ->. apply kp_keep; [assumption|assumption|]. now apply IH. }
  unfold parse_path. rewrite Ec, Er. split.
  - intros ->. cbn [p_root p_parts]. split; [|now apply Ep]. destruct n as [|[|[|n]]]; [left|right; right|right; left|right; right]; repeat split; discriminate.
  - intros [R K]. apply Ep in K. destruct q as [r ds]. cbn [p_root p_parts] in *. subst ds. f_equal. destruct n as [|[|[|n]]]; destruct R as [[A ->]|[[A ->]|(A & B & ->)]]; congruence || reflexivity.
Qed.
Print Assumptions C81_paths.
Example C81_paths_witness : starts_with_slashes 3 !!"///a/./b" /\ py_join [slash] [[]; []; []; !!"a"; !!"."; !!"b"] = !!"///a/./b" /\ parse_path !!"///a/./b" = MkPath 1 [!!"a"; !!"b"] /\ parse_path !!"//a" = MkPath 2 [!!"a"].
Proof. split; [repeat apply sws_more; apply sws_none; discriminate|]. repeat split. Qed.

Lemma splitlines_spec n : forall s, (length s <= n)%nat -> pieces s (splitlines s).
Proof.
  induction n as [|n IH]; intros [|c s] L; simpl in *; try constructor; [lia|].
  assert (IH1 : pieces s (splitlines s)) by (apply IH; lia). destruct (line_break c) eqn:B.
  - destruct (N.eqb_spec c CR) as [->|N].
    + destruct s as [|d s]; [apply (pc_break [] CR [] []); [intros x []|reflexivity|discriminate|constructor]|].
      destruct (N.eqb_spec d LF) as [->|ND].
      * apply (pc_crlf [] s); [intros x []|]. apply IH. simpl in L. lia.
      * apply (pc_break [] CR (d :: s)); [intros x []|reflexivity|congruence|assumption].
    + apply (pc_break [] c s); [intros x []|assumption|congruence|assumption].
  - assert (U : forall l, unbroken l -> unbroken (c :: l)) by (intros l H x [<-|I]; auto).
    destruct IH1 as [|l N Ul|l r ls Ul P|l b r ls Ul Bb C P].
    + apply pc_last; [discriminate|]. apply U. intros x [].
    + apply pc_last; [discriminate|]. now apply U.
    + apply (pc_crlf (c :: l) r ls); auto.
    + apply (pc_break (c :: l) b r ls); auto.
Qed.
Lemma line_break_cr : line_break CR = true. Proof. reflexivity. Qed.
Lemma line_break_lf : line_break LF = true. Proof. reflexivity. Qed.
Lemma break_split l c r l' c' r' : unbroken l -> unbroken l' -> line_break c = true -> line_break c' = true ->
  l ++ c :: r = l' ++ c' :: r' -> l = l' /\ c = c' /\ r = r'.
Proof.
  revert l'. induction l as [|x l IH]; intros [|y l'] U U' B B' E; simpl in E; injection E as E1 E2.
  - auto.
  - subst. rewrite (U' y) in B by (simpl; auto). discriminate.
  - subst. rewrite (U c') in B' by (simpl; auto). discriminate.
  - subst. destruct (IH l') as (-> & -> & ->); auto; intros z I; [apply U|apply U']; simpl; auto.
Qed.
Lemma pieces_fun s a : pieces s a -> forall b, pieces s b -> a = b.
Proof.
  assert (NB : forall l c r, unbroken (l ++ c :: r) -> line_break c = false) by (intros l c r U; apply U, in_or_app; simpl; auto).
  induction 1 as [|l N U|l r ls U P IH|l c r ls U B C P IH]; intros b Q.
  - inversion Q as [|? N'|x r ls ? ? E|x c r ls ? ? ? ? E]; subst; try reflexivity; try congruence; symmetry in E || idtac; exfalso; destruct x; discriminate.
  - inversion Q as [E|? N'|x r ls Ux Px E|x c r ls Ux Bx Cx Px E]; subst; try reflexivity; try congruence; exfalso.
    + apply NB in U. discriminate.
    + apply NB in U. congruence.
  - inversion Q as [E|? N' U'|x r' ls' Ux Px E|x c r' ls' Ux Bx Cx Px E]; subst.
    + exfalso; destruct l; discriminate.
    + exfalso. apply NB in U'. discriminate.
    + apply break_split in E; auto. destruct E as (-> & _ & E). injection E as ->. f_equal. auto.
    + apply break_split in E; auto. destruct E as (-> & -> & ->). now destruct (Cx eq_refl r).
  - inversion Q as [E|? N' U'|x r' ls' Ux Px E|x c' r' ls' Ux Bx Cx Px E]; subst.
    + exfalso; destruct l; discriminate.
    + exfalso. apply NB in U'. congruence.
    + apply break_split in E; auto. destruct E as (-> & <- & <-). now destruct (C eq_refl r').
    + apply break_split in E; auto. destruct E as (-> & <- & ->). f_equal. auto.
Qed.
(** Translating newlines first makes no difference. *)
Lemma splitlines_universal n : forall s, (length s <= n)%nat -> splitlines (universal_newlines s) = splitlines s.
Proof.
  induction n as [|n IH]; intros [|c s] L; simpl in *; try reflexivity; [lia|].
  destruct (N.eqb_spec c CR) as [->|N].
  - simpl. destruct s as [|d s]; [reflexivity|]. simpl in L. destruct (N.eqb_spec d LF) as [->|ND].
    + f_equal. apply IH. lia.
    + f_equal. apply IH. simpl. lia.
  - simpl. rewrite IH by lia. destruct (line_break c) eqn:B; [|reflexivity]. f_equal. destruct (N.eqb_spec c CR); [congruence|]. reflexivity.
Qed.

Lemma keeps_spec ls : keeps ls (map py_strip (filter (fun l => negb (is_nil (py_strip l)) && negb (starts_hash (py_strip l))) ls)).
Proof.
  induction ls as [|l ls IH]; simpl; [constructor|]. assert (Sp := strip_spec l). destruct (py_strip l) as [|c r] eqn:E; simpl.
  - now apply ke_blank.
  - destruct (N.eqb_spec c hash) as [->|N]; simpl.
    + eapply ke_comment; eauto.
    + rewrite E. now apply ke_keep.
Qed.
Lemma keeps_fun ls a : keeps ls a -> forall b, keeps ls b -> a = b.
Proof.
  induction 1 as [|l ls ms S K IH|l r ls ms S K IH|l c r ls ms S N K IH]; intros b Q; inversion Q as [|? ? ? S'|? ? ? ? S'|? ? ? ? ? S' N']; subst; try reflexivity;
  try (assert (X := stripped_unique _ _ _ _ S S'); try discriminate X; try (injection X as <- <-); try congruence); auto; f_equal; auto.
Qed.

Lemma strip_idem s : py_strip (py_strip s) = py_strip s.
Proof. apply strip_trim. destruct (strip_spec s) as (a & b & _ & _ & _ & H1 & H2). split; assumption. Qed.

(** C81: path_list_from_file. *)
Theorem C81_path_list : forall cwd p name rel fs, wf_params p -> Forall proper cwd ->
  let result := path_list_from_file cwd p name rel fs in
  (forall q b t ls ms, names_path cwd p name q -> look fs q = Some (KFile b) -> decode b = Ok t -> pieces t ls -> keeps ls ms ->
     exists r, result = Ok r /\ Forall2 (placed rel) ms r) /\
  (forall q b e, names_path cwd p name q -> look fs q = Some (KFile b) -> decode b = Raise e -> result = Raise e) /\
  (forall q, names_path cwd p name q -> (forall b, look fs q <> Some (KFile b)) -> result = Raise ParameterError) /\
  (forall vs ss, Stored p name (PList vs) -> vs = map PStr ss -> exists r, result = Ok r /\ Forall2 (fun s q => exists m, stripped is_space s m /\ placed rel m q) ss r) /\
  (forall vs v, Stored p name (PList vs) -> In v vs -> (forall s, v <> PStr s) -> result = Raise AttributeError \/ result = Raise TypeError) /\
  (forall v, Stored p name v -> (forall s, v <> PStr s) -> (forall l, v <> PList l) -> exists e, result = Raise e /\ wrong_type v e) /\
  (Absent p name -> result = Raise ParameterError).
Proof.
  intros cwd p name rel fs W C result. assert (Wp := proj1 W). unfold result, path_list_from_file. destruct (private_get_spec p name false PNone Wp) as [G1 G2].
  destruct (C80_existing cwd p name fs W C) as (X1 & X2 & _ & _ & _). destruct (table_of_get p name PNone is_list acc_list Wp) as (L1 & L2 & _).
  { intros v. unfold acc_list. destruct v; simpl; split; try discriminate; try (intros (l0 & H); discriminate); eauto. }
  fold (arbitrary_list p name PNone) in *.
  assert (G : forall q, names_path cwd p name q -> exists s, private_get p name false PNone = Ok (PStr s)).
  { intros q (s & H & _). exists s. apply G1. now constructor. }
  split; [|split; [|split; [|split; [|split; [|split]]]]].
  - intros q b t ls ms H L D P K. destruct (G q H) as (s & ->). cbn [bind]. rewrite (X1 q b H L). cbn [bind]. unfold read_text. rewrite L, D. cbn [bind].
    rewrite (splitlines_universal (length t)) by lia. assert (splitlines t = ls) as -> by (eapply pieces_fun; [apply (splitlines_spec (length t)); lia|assumption]).
    eexists. split; [reflexivity|]. assert (KS := keeps_spec ls). set (ss := map py_strip _) in *. assert (ss = ms) as E by (eapply keeps_fun; eauto).
    rewrite <- E. unfold ss. rewrite map_map. clear. induction (filter _ ls) as [|l l' IH]; simpl; constructor; [|assumption]. rewrite strip_idem. apply to_path_placed.
  - intros q b e H L D. destruct (G q H) as (s & ->). cbn [bind]. rewrite (X1 q b H L). cbn [bind]. unfold read_text. now rewrite L, D.
  - intros q H L. destruct (G q H) as (s & ->). cbn [bind]. now rewrite (X2 q H L).
  - intros vs ss H ->. rewrite (G1 (PList (map PStr ss))) by now constructor. cbn [bind]. rewrite (L1 (PList (map PStr ss))); [|now constructor|eexists; reflexivity]. cbn [bind].
    clear. induction ss as [|s ss (r & E & F)]; [exists []; split; [reflexivity|constructor]|]. cbn [map mapM list_path bind]. rewrite E. cbn [bind].
    eexists. split; [reflexivity|]. constructor; [|assumption]. exists (py_strip s). split; [apply strip_spec|apply to_path_placed].
  - intros vs v H I N. rewrite (G1 (PList vs)) by now constructor. cbn [bind]. rewrite (L1 (PList vs)); [|now constructor|eexists; reflexivity]. cbn [bind].
    clear H. induction vs as [|x vs IH]; [destruct I|]. cbn [mapM]. destruct I as [->|I].
    + destruct v; cbn [list_path bind]; auto. now destruct (N s).
    + destruct x; cbn [list_path bind]; auto. destruct (IH I) as [->| ->]; cbn [bind]; auto.
  - intros v H N1 N2. rewrite (G1 v) by now constructor. cbn [bind]. destruct (L2 v) as (e & E & X); [now constructor|intros (l & ->); now destruct (N2 l)|].
    exists e. split; [|assumption]. rewrite E. destruct v; try reflexivity. now destruct (N1 s).
  - intros A. rewrite G2; [reflexivity|]. now apply no_candidate.
Qed.
Print Assumptions C81_path_list.

(** The last value given for a key. *)
Definition last_for {A} (kvs : list (str * A)) (k : str) (v : A) : Prop := exists l r, kvs = l ++ (k, v) :: r /\ ~ In k (map fst r).
Lemma last_for_spec {A} (kvs : list (str * A)) : let d := fold_left (fun d kv => dput d (fst kv) (snd kv)) kvs [] in
  NoDup (keys d) /\ (forall k v, dfind d k = Some v <-> last_for kvs k v) /\ keys d = dedup (map fst kvs).
Proof.
  intros d. assert (G : forall kvs (d0 : list (str * A)), NoDup (keys d0) -> let d := fold_left (fun d kv => dput d (fst kv) (snd kv)) kvs d0 in
    NoDup (keys d) /\ (forall k v, dfind d k = Some v <-> last_for kvs k v \/ ~ In k (map fst kvs) /\ dfind d0 k = Some v)).
  { clear. induction kvs as [|[k0 v0] kvs IH]; intros d0 N; simpl.
    - split; [assumption|]. intros k v. split; [auto|]. intros [(l & r & E & _)|[_ H]]; [destruct l; discriminate|assumption].
    - destruct (IH (dput d0 k0 v0) (dput_nodup _ _ _ N)) as [N' F]. split; [assumption|]. intros k v. rewrite F, dfind_dput. split.
      + intros [(l & r & -> & Nr)|[Nk H]].
        * left. exists ((k0, v0) :: l), r. auto.
        * destruct (str_eqb k0 k) eqn:E.
          -- apply str_eqb_eq in E. subst. injection H as <-. left. exists [], kvs. auto.
          -- apply str_eqb_neq in E. right. split; [|assumption]. intros [->|K]; auto.
      + intros [(l & r & E & Nr)|[Nk H]].
        * destruct l as [|x l]; injection E as E1 E2.
          -- try (injection E1 as -> ->). subst. right. rewrite str_eqb_refl. auto.
          -- subst. left. exists l, r. auto.
        * right. split; [tauto|]. assert (k0 <> k) as NE by tauto. apply str_eqb_neq in NE. now rewrite NE. }
  destruct (G kvs [] ltac:(constructor)) as [N F]. split; [assumption|]. split.
  - intros k v. unfold d. rewrite F. split; [intros [H|[_ H]]; [assumption|discriminate]|auto].
  - unfold d, dedup. assert (K : forall kvs (d0 : list (str * A)) seen, (forall k, In k seen <-> In k (keys d0)) -> keys (fold_left (fun d kv => dput d (fst kv) (snd kv)) kvs d0) = keys d0 ++ dedup_from seen (map fst kvs)); [|apply (K kvs [] []); simpl; tauto].
    clear. induction kvs as [|[k v] kvs IH]; intros d0 seen H; simpl; [now rewrite app_nil_r|]. destruct (existsb (str_eqb k) seen) eqn:E.
    + apply existsb_str in E. apply H in E as E'. rewrite (IH _ seen).
      * rewrite dput_keys. destruct (in_dec (list_eq_dec N.eq_dec) k (keys d0)); [reflexivity|contradiction].
      * intros x. rewrite dput_in_keys, H. split; [auto|]. intros [->|]; auto.
    + apply existsb_str_false in E. assert (~ In k (keys d0)) as E' by (rewrite <- H; assumption). rewrite (IH _ (k :: seen)).
      * rewrite dput_keys. destruct (in_dec (list_eq_dec N.eq_dec) k (keys d0)); [contradiction|]. now rewrite <- app_assoc.
      * intros x. rewrite dput_in_keys. simpl. rewrite H. split; intros [->|]; auto.
Qed.

Lemma map_fold rel : forall lines (d0 : list (str * ppath)), foldM (fun d line => let* kv := parse_map_line line in Ok (dput d (fst kv) (to_path rel (snd kv)))) lines d0 =
  let* kvs := mapM parse_map_line lines in Ok (fold_left (fun d kv => dput d (fst kv) (snd kv)) (map (fun kv => (fst kv, to_path rel (snd kv))) kvs) d0).
Proof.
  induction lines as [|l lines IH]; intros d0; cbn [foldM mapM bind]; [reflexivity|]. destruct (parse_map_line l) as [[k v]|e]; cbn [bind]; [|reflexivity].
  rewrite IH. destruct (mapM parse_map_line lines); cbn [bind]; reflexivity.
Qed.

(** C81: path_map_from_file: every line must have exactly two tab-separated fields; the later of two lines with the same key counts. *)
Definition fields (l : str) (kv : str * str) : Prop := exists x y, l = x ++ [TAB] ++ y /\ ~ In TAB x /\ ~ In TAB y /\ stripped is_space x (fst kv) /\ stripped is_space y (snd kv).
Theorem C81_path_map : forall cwd p name rel fs, wf_params p -> Forall proper cwd ->
  let result := path_map_from_file cwd p name rel fs in
  (forall q b t t' ls, names_path cwd p name q -> look fs q = Some (KFile b) -> decode b = Ok t -> newlines_read t t' -> lines_of t' ls ->
     (forall kvs, Forall2 fields ls kvs -> exists d, result = Ok d /\ NoDup (keys d) /\ distinct_in_order (map fst kvs) (keys d) /\
        forall k path, dfind d k = Some path <-> exists s, last_for kvs k s /\ placed rel s path) /\
     (forall l, In l ls -> ~ one_tab l -> result = Raise IOError)) /\
  (forall q b e, names_path cwd p name q -> look fs q = Some (KFile b) -> decode b = Raise e -> result = Raise UnicodeDecodeError \/ result = Raise IOError) /\
  (forall q, names_path cwd p name q -> (forall b, look fs q <> Some (KFile b)) -> result = Raise ParameterError) /\
  (forall e, names_none p name e -> result = Raise e).
Proof.
  intros cwd p name rel fs W C result. unfold result, path_map_from_file. destruct (C80_existing cwd p name fs W C) as (X1 & X2 & _ & _ & X3).
  split; [|split; [|split]].
  - intros q b t t' ls H L D NR LO. rewrite (X1 q b H L). cbn [bind]. unfold read_text. rewrite L, D. cbn [bind]. rewrite (newlines_read_fun _ _ (universal_spec t) _ NR).
    rewrite map_fold. destruct (C67_read toy_zip (fun _ => Raise IOError) (fun _ => Raise IOError) (fun _ => None) (CString t') t' eq_refl) as [R1 R2].
    unfold read_doc_id_to_file_map in R1, R2. cbn [text bind] in R1, R2. split.
    + intros kvs F. assert (mapM parse_map_line (text_lines t') = Ok kvs) as -> by (apply R1; exists ls; split; [assumption|exact F]). cbn [bind].
      eexists. split; [reflexivity|]. destruct (last_for_spec (map (fun kv : str * str => (fst kv, to_path rel (snd kv))) kvs)) as (N & FD & K). split; [assumption|]. split.
      * rewrite K, map_map. cbn [fst]. apply dedup_spec.
      * intros k path. rewrite FD. split.
        -- intros (l & r & E & Nr). apply map_eq_app in E. destruct E as (l1 & l2 & -> & <- & E). destruct l2 as [|[k' s] l2]; [discriminate|]. injection E as -> E1 <-.
           exists s. split; [exists l1, l2; split; [reflexivity|]; rewrite map_map in Nr; exact Nr|]. subst path. apply to_path_placed.
        -- intros (s & (l & r & -> & Nr) & P). apply placed_fun in P. subst path. exists (map (fun kv => (fst kv, to_path rel (snd kv))) l), (map (fun kv => (fst kv, to_path rel (snd kv))) r).
           split; [now rewrite map_app|]. rewrite map_map. exact Nr.
    + intros l I N. assert (mapM parse_map_line (text_lines t') = Raise IOError) as -> by (apply R2; split; [reflexivity|]; exists ls, l; auto). reflexivity.
  - intros q b e H L D. rewrite (X1 q b H L). cbn [bind]. unfold read_text. rewrite L, D. simpl. left. f_equal. exact (C68_decode_error _ _ D).
  - intros q H L. now rewrite (X2 q H L).
  - intros e H. now rewrite (proj1 (X3 e H)).
Qed.
Print Assumptions C81_path_map.

(** C81: the list of slices that split_key_value_store writes is read back as exactly these files, in order (unless the
    name of the output directory contains a line-break character). *)
Lemma no_break_join outdir : Forall proper outdir -> Forall unbroken outdir -> forall i, unbroken (path_str (slice_file outdir i)) /\ Forall proper (slice_file outdir i).
Proof.
  intros P U i. assert (SB : line_break slash = false) by reflexivity.
  assert (N0 : unbroken (decimal (N.of_nat i) ++ !!".zip")).
  { intros c I. apply in_app_or in I. destruct I as [I|I]; [|simpl in I; repeat destruct I as [<-|I]; try reflexivity; destruct I]. apply decimal_digits in I.
    unfold line_break. cbn [existsb]. clear -I. lia. }
  split.
  - intros c [<-|I]; [assumption|]. assert (F : Forall unbroken (rev (slice_file outdir i))) by (apply Forall_rev; constructor; assumption). revert I. generalize F. clear -SB.
    induction (rev (slice_file outdir i)) as [|a l IH]; intros F I; [destruct I|]. inversion F as [|? ? F1 F2]; subst. destruct l as [|b l]; [apply F1; exact I|].
    change (py_join [slash] (a :: b :: l)) with (a ++ slash :: py_join [slash] (b :: l)) in I. apply in_app_or in I. destruct I as [I|[<-|I]]; auto.
  - constructor; [|assumption]. assert (D : forall c, In c (decimal (N.of_nat i)) -> (48 <= c <= 57)%N) by apply decimal_digits.
    assert (NZ : ~ In slash (decimal (N.of_nat i) ++ !!".zip") /\ ~ In 0%N (decimal (N.of_nat i) ++ !!".zip")).
    { split; intros I; apply in_app_or in I; destruct I as [I|I]; try (apply D in I; unfold slash in I; lia); simpl in I; intuition discriminate. }
    repeat split; try apply NZ; intros E; apply (f_equal (@rev N)) in E; rewrite rev_app_distr in E; discriminate.
Qed.
Lemma parse_printed q : Forall proper q -> q <> [] -> parse_path (path_str q) = abs_path q.
Proof.
  intros P N. unfold parse_path, path_str, abs_path. apply Forall_rev in P. assert (rev q <> []) as N' by (intros E; apply (f_equal (@rev _)) in E; rewrite rev_involutive in E; auto).
  generalize dependent (rev q). clear N. intros l P N. f_equal.
  - destruct l as [|a l]; [congruence|]. inversion P as [|? ? (N1 & _ & _ & N2 & _) P2]; subst. destruct a as [|x a]; [congruence|].
    assert (x <> slash) as NX by (intros ->; apply N2; simpl; auto). unfold root_of. rewrite N.eqb_refl. destruct l as [|b l]; simpl; apply N.eqb_neq in NX; now rewrite NX.
  - change (slash :: py_join [slash] l) with ([] ++ slash :: py_join [slash] l). rewrite py_split_app by (intros []). rewrite py_join_split; [|assumption|intros c I; rewrite Forall_forall in P; apply P in I; apply I].
    cbn [filter]. rewrite str_eqb_refl. cbn [orb negb]. clear N. induction P as [|c l (N1 & N2 & _) P IH]; [reflexivity|]. cbn [filter]. apply str_eqb_neq in N1, N2. rewrite N1, N2. cbn [orb negb]. now rewrite IH.
Qed.
Lemma slices_pieces outdir n : Forall proper outdir -> Forall unbroken outdir ->
  let ls := map (fun i => path_str (slice_file outdir i)) (seq 0 n) in pieces (py_join [LF] ls) ls /\ keeps ls ls.
Proof.
  intros P U ls.
  assert (PC : pieces (slices_text outdir n) ls).
  { unfold slices_text. fold ls. assert (F : Forall (fun l => unbroken l /\ l <> []) ls).
    { apply Forall_forall. intros l I. apply in_map_iff in I. destruct I as (i & <- & _). split; [apply (no_break_join outdir P U i)|discriminate]. }
    clear -F. induction F as [|l ls (U & N) F IH]; [constructor|]. destruct ls as [|l2 ls]; [now constructor|].
    change (py_join [LF] (l :: l2 :: ls)) with (l ++ LF :: py_join [LF] (l2 :: ls)). apply pc_break; [assumption|reflexivity|discriminate|assumption]. }
  assert (KE : keeps ls ls).
  { unfold ls. clear -P U. induction (seq 0 n) as [|i l IH]; cbn [map]; [constructor|]. unfold path_str at 1. apply ke_keep; [|discriminate|exact IH].
    exists [], []. split; [now rewrite app_nil_r|]. split; [intros c []|]. split; [intros c []|]. split; [intros c r E; injection E as <- _; reflexivity|].
    intros c r E. clear IH l.
    assert (exists pre, py_join [slash] (rev (slice_file outdir i)) = pre ++ !!".zip") as (pre & Q).
    { unfold slice_file. cbn [rev]. induction (rev outdir) as [|a l (pre & Q)]; [exists (decimal (N.of_nat i)); reflexivity|]. destruct l as [|a2 l].
      - exists (a ++ slash :: decimal (N.of_nat i)). simpl. now rewrite <- app_assoc.
      - exists (a ++ slash :: pre). etransitivity; [exact (f_equal (fun z => a ++ slash :: z) Q)|]. now rewrite <- app_assoc. }
    rewrite Q in E. change (slash :: pre ++ !!".zip") with ((slash :: pre) ++ !!".zip") in E. change (!!".zip") with (!!".zi" ++ [112%N]) in E. rewrite app_assoc in E. apply app_inj_tail in E. destruct E as [_ <-]. reflexivity. }
  split; assumption.
Qed.
Theorem C81_slices_round_trip : forall cwd p name fs q outdir n b, wf_params p -> Forall proper cwd -> Forall proper outdir -> Forall unbroken outdir ->
  names_path cwd p name q -> encode (slices_text outdir n) = Ok b -> look fs q = Some (KFile b) ->
  path_list_from_file cwd p name None fs = Ok (map (fun i => abs_path ((decimal (N.of_nat i) ++ !!".zip") :: outdir)) (seq 0 n)).
Proof.
  intros cwd p name fs q outdir n b W C P U H E L. assert (D : decode b = Ok (slices_text outdir n)) by now apply C68_round_trip.
  set (ls := map (fun i => path_str (slice_file outdir i)) (seq 0 n)).
  destruct (slices_pieces outdir n P U) as (PC & KE).
  destruct (C81_path_list cwd p name None fs W C) as (T & _). destruct (T q b _ ls ls H L D PC KE) as (r & -> & F). f_equal.
  unfold ls in F. clear -F P U. revert r F. induction (seq 0 n) as [|i l IH]; intros r F; inversion F as [|? y ? r' PL F']; subst; [reflexivity|]. cbn [map]. f_equal; [|auto].
  simpl in PL. subst y. apply (parse_printed (slice_file outdir i)); [apply (no_break_join outdir P U i)|discriminate].
Qed.
Print Assumptions C81_slices_round_trip.

(** C81, the limit: a listed path that begins with # is silently left out. *)
Definition list_fs (t : str) : list (list str * fnode) := [([!!"list"], KFile t)].
Definition list_cfg : pv := PParams [] [(!!"in", PStr !!"/list")].
(** A path that begins with # cannot be listed: the line is taken as a comment and silently skipped. *)
Theorem C81_hash_path_refuted : exists cwd fs, wf_params list_cfg /\ look fs [!!"list"] = Some (KFile !!"#1.txt") /\ path_list_from_file cwd list_cfg !!"in" None fs = Ok [].
Proof.
  exists [], (list_fs !!"#1.txt"). split; [|split; reflexivity]. split; [|reflexivity]. simpl. repeat split; repeat constructor; simpl; unfold dotless; simpl; intuition discriminate.
Qed.
Print Assumptions C81_hash_path_refuted.
Example C81_witness :
  path_list_from_file [] list_cfg !!"in" (Some (abs_path [!!"d"])) (list_fs (!!"  a/./b " ++ [CR; LF; LF] ++ !!"# no" ++ [LF] ++ !!"/c")) =
    Ok [MkPath 1 [!!"d"; !!"a"; !!"b"]; MkPath 1 [!!"c"]] /\
  path_map_from_file [] list_cfg !!"in" None (list_fs (!!"k" ++ [TAB] ++ !!"x" ++ [LF] ++ !!"j" ++ [TAB] ++ !!"y" ++ [LF] ++ !!"k" ++ [TAB] ++ !!"z")) =
    Ok [(!!"k", MkPath 0 [!!"z"]); (!!"j", MkPath 0 [!!"y"])] /\
  path_map_from_file [] list_cfg !!"in" None (list_fs (!!"k" ++ [TAB] ++ !!"x" ++ [LF; LF])) = Raise IOError /\
  slices_text [!!"out"] 2 = !!"/out/0.zip" ++ [LF] ++ !!"/out/1.zip" /\ names_path [] list_cfg !!"in" [!!"list"].
Proof.
  repeat split; try reflexivity. exists !!"/list". split; [|reflexivity]. econstructor; [left; reflexivity|constructor].
Qed.
