(** * C97: join_key_value_stores into a directory store, stopped half way *)
From Coq Require Import Sorted.
From Verif Require Import Prelude PyStr SortLib TextLib Utf8 Params ParamsSpec ParamsProofs ParamsGetProps ParamsEvalProps Fs FsProofs FsProps PathLists PathListsProps Io IoProps KeyValue KeyValueProps KvParams KvParamsProps Scripts ScriptsProps Mains MainsProofs MainsProps OsPath OsPathSpec OsPathProofs LoadFs DirFs DirFsProps DirMains.

Section Puts.
Variable cwd : list str.
(** ** Puts that are refused *)
Lemma put_blocked bytes_ d fs m k v cs a b : wf_fs fs -> look fs d = Some KDir -> Forall proper d -> DirFsProps.plain_key k cs -> below a (rev cs ++ d) -> a <> rev cs ++ d -> look fs a = Some (KFile b) ->
  exists e, fs_put cwd bytes_ d fs m k v = (fs, m, Raise e) /\ (e = FileExistsError \/ e = NotADirectoryError).
Proof.
  intros W D Pd K B N L. destruct (file_cons d cs ltac:(apply K) (plain_proper _ _ K) Pd) as (c & q & E & P1 & B1).
  unfold fs_put. rewrite (out_plain d k _ K). rewrite E in B, N |- *. rewrite write_plain by assumption.
  assert (M := mkdir_p_spec fs q W). assert (NU : ~ unblocked fs q). { intros U. apply (U a); [now apply (below_cons_iff _ c)|]. exists (KFile b). split; [exact L|discriminate]. }
  destruct (mkdir_p fs q) as [fs2 [u|e]]; [exfalso; now apply NU|]. destruct M as (-> & M). exists e. split; [reflexivity|]. destruct M as [(-> & _)|(-> & _)]; auto.
Qed.
Lemma mkdir_there fs q : wf_fs fs -> look fs q = Some KDir -> mkdir_p fs q = (fs, Ok tt).
Proof.
  intros W L. rewrite mkdir_p_unfold. assert (os_mkdir fs q = Raise FileExistsError) as ->; [|unfold is_dir; now rewrite L].
  destruct q as [|c q]; [reflexivity|]. unfold os_mkdir. assert (look fs q = Some KDir) as L' by (eapply dir_all_above; [exact W|exact L|apply below_cons, below_refl]).
  assert (S1 := search_spec fs q W). destruct (search fs q) as [u|e]; cbn [bind]; [now rewrite L|]. exfalso. destruct S1 as [(_ & N & _)|(_ & a & B & kk & K & NK)]; [congruence|]. apply NK. assert (look fs a = Some KDir) by (eapply dir_all_above; eassumption). congruence.
Qed.
Lemma put_on_directory bytes_ d fs m k v cs : wf_fs fs -> look fs d = Some KDir -> Forall proper d -> DirFsProps.plain_key k cs -> look fs (rev cs ++ d) = Some KDir ->
  fs_put cwd bytes_ d fs m k v = (fs, m, Raise IOError).
Proof.
  intros W D Pd K L. destruct (file_cons d cs ltac:(apply K) (plain_proper _ _ K) Pd) as (c & q & E & P1 & B1).
  destruct (C97_put cwd bytes_ d fs m k v cs W D Pd K) as (fs2 & m2 & o & E2 & _ & G). destruct G as (_ & -> & G); [intros (_ & [Q|(b' & Q)]); cbv zeta in Q; congruence|].
  assert (U : unblocked fs (tl (rev cs ++ d))). { intros a B (kk & Kk & NK). assert (look fs a = Some KDir); [|congruence]. eapply dir_all_above; [exact W|exact L|]. rewrite E in B |- *. cbn [tl] in B. now apply below_cons. }
  assert (o = Raise IOError) as -> by (destruct G as [(_ & O)|[(_ & a & B & _ & O)|(-> & _)]]; [destruct (U _ (below_refl _) O)|destruct (U a B O)|reflexivity]).
  rewrite E2. f_equal. f_equal. revert E2. unfold fs_put. rewrite (out_plain d k _ K), E. rewrite write_plain by assumption.
  rewrite mkdir_there; [|assumption|eapply dir_all_above; [exact W|exact L|rewrite E; apply below_cons, below_refl]].
  destruct (can_write fs (c :: q)) as [u|e] eqn:C; [|intros Q; now inversion Q].
  destruct (snd (content bytes_ v)); intros Q; inversion Q; subst. exfalso. rewrite E in L. unfold can_write in C. rewrite L in C. destruct (search fs q); discriminate.
Qed.
(** Puts that all succeed leave a file for each key. *)
Lemma puts_keep bytes_ d ops : forall fs m fs2 m2, wf_fs fs -> look fs d = Some KDir -> Forall proper d -> (forall k v, In (k, v) ops -> exists cs, DirFsProps.plain_key k cs) ->
  fs_puts cwd bytes_ d fs m ops = (fs2, m2, map (fun _ => Ok tt) ops) ->
  (forall a b, look fs a = Some (KFile b) -> exists b', look fs2 a = Some (KFile b')) /\ (forall k v cs, In (k, v) ops -> DirFsProps.plain_key k cs -> exists b, look fs2 (rev cs ++ d) = Some (KFile b)) /\
  wf_fs fs2 /\ look fs2 d = Some KDir.
Proof.
  induction ops as [|[k v] ops IH]; intros fs m fs2 m2 W D Pd H E; cbn [fs_puts map] in E; [inversion E; subst; split; [eauto|split; [intros ? ? ? []|auto]]|].
  destruct (fs_put cwd bytes_ d fs m k v) as [[fs1 m1] o] eqn:Ep. destruct (fs_puts cwd bytes_ d fs1 m1 ops) as [[f2 mm2] os] eqn:Q. inversion E; subst. clear E.
  destruct (H k v (or_introl eq_refl)) as (cs & K). destruct (C97_put cwd bytes_ d fs m k v cs W D Pd K) as (fs' & m' & o' & E' & G1 & G2). rewrite Ep in E'. inversion E'; subst. clear E'.
  destruct (puts_inside cwd bytes_ d [(k, v)] fs m) as (W1 & D1 & _); [intros k0 v0 [I|[]]; inversion I; subst; eauto|assumption|assumption|assumption|]. cbn [fs_puts] in W1, D1. rewrite Ep in W1, D1. cbn [fst] in W1, D1.
  destruct (IH fs' m' fs2 m2 W1 D1 Pd (fun k0 v0 I => H k0 v0 (or_intror I)) Q) as (A & B & W2 & D2).
  assert (Wr : writable fs (rev cs ++ d)). { assert (writable fs (rev cs ++ d) \/ ~ writable fs (rev cs ++ d)) as [Y|N]; [destruct (file_cons d cs ltac:(apply K) (plain_proper _ _ K) Pd) as (c & q & -> & _); apply writable_dec|exact Y|]. destruct (G2 N) as (_ & _ & [(X & _)|[(X & _)|(X & _)]]); discriminate. }
  assert (F : exists b, filed fs fs' (rev cs ++ d) b). { destruct (G1 Wr) as (Ga & Gr). destruct (accepts_or_rejects bytes_ v) as [(b & Ab)|(e & Re)]; [exists b; apply (Ga b Ab)|]. destruct (Gr e Re) as (X & _). discriminate. }
  destruct F as (b & F1 & F2 & F3). split; [|split; [|auto]].
  - intros a b0 L. destruct (at_or_below a (rev cs ++ d)) eqn:Bl.
    + apply at_or_below_spec in Bl. destruct (list_eq_dec (list_eq_dec N.eq_dec) a (rev cs ++ d)) as [->|N]; [exact (A _ _ F1)|]. exfalso. apply (proj1 Wr a Bl N). exists (KFile b0). split; [exact L|discriminate].
    + apply (A a b0). rewrite F3; [exact L|]. intros X. apply at_or_below_spec in X. congruence.
  - intros k0 v0 cs0 [I|I] K0; [|exact (B k0 v0 cs0 I K0)]. inversion I; subst. rewrite (plain_fun _ _ _ K0 K). exact (A _ _ F1).
Qed.
(** Up to the first refused put. *)
Lemma until_refused bytes_ d fs m ops fs2 m2 k v e rest : fs_puts cwd bytes_ d fs m ops = (fs2, m2, map (fun _ => Ok tt) ops) -> fs_put cwd bytes_ d fs2 m2 k v = (fs2, m2, Raise e) ->
  fs_put_until cwd bytes_ d fs m (ops ++ (k, v) :: rest) = (fs2, m2, Some e).
Proof.
  revert fs m. induction ops as [|[k0 v0] ops IH]; intros fs m E R; cbn [fs_puts fs_put_until map app] in *; [inversion E; subst; now rewrite R|].
  destruct (fs_put cwd bytes_ d fs m k0 v0) as [[fs1 m1] o]. destruct (fs_puts cwd bytes_ d fs1 m1 ops) as [[f2 mm2] os] eqn:Q. inversion E; subst. auto.
Qed.
End Puts.

Section DirStopped.
Variable X : Type.
Notation obj := (kv_obj X).
Variable import_module : str -> res obj.
Variable other_eval : str -> list (str * obj) -> res obj.
Variable builtin : str -> option obj.
Variable locals_of : pv -> str -> list (str * obj).
Variable x_is_class : X -> bool.
Variable x_from_parameters : X -> option (pv -> res obj).
Variable x_construct : X -> res obj.
Variable x_callable : X -> bool.
Variable x_call : X -> pv -> res obj.
Variable x_is_sink : X -> bool.
Variable cwd : list str.
Variable other_globals : list (str * obj).
Variable ZC : zip_codec.
Variable torn : bytes.
Variable set_order : list str -> list str.
Variable user_sink : obj -> list (list str * fnode) -> (list (list str * fnode) -> stream value) -> list (list str * fnode) * option exn.
Notation join_main := (join_main X import_module other_eval builtin locals_of x_is_class x_from_parameters x_construct x_callable x_call x_is_sink cwd other_globals ZC torn set_order (dir_sink cwd user_sink)).
Hypothesis cwd_proper : Forall proper cwd.

(** ** Specification *)
(** The key [k] names a file below that of a key in [K], or a directory above it. *)
Definition clashes (K : list str) (k : str) : Prop := exists k' cs x, In k' K /\ x <> [] /\
  (DirFsProps.plain_key k' cs /\ DirFsProps.plain_key k (cs ++ x) \/ DirFsProps.plain_key k cs /\ DirFsProps.plain_key k' (cs ++ x)).

(** ** Proofs *)
Lemma clash_refused d fs fs2 m m2 val ks k v : wf_fs fs -> look fs d = Some KDir -> Forall proper d -> (forall k, In k ks -> exists cs, DirFsProps.plain_key k cs) ->
  fs_puts cwd true d fs m (pairs val ks) = (fs2, m2, map (fun _ => Ok tt) (pairs val ks)) -> clashes ks k ->
  exists e, fs_put cwd true d fs2 m2 k v = (fs2, m2, Raise e) /\ (e = FileExistsError \/ e = NotADirectoryError \/ e = IOError).
Proof.
  clear cwd_proper. intros W D Pd H E (k' & cs & x & I & Nx & C).
  assert (Ik : In (k', VBytes (val k')) (pairs val ks)) by (unfold pairs; apply in_map_iff; exists k'; auto).
  destruct (puts_keep cwd true d (pairs val ks) fs m fs2 m2 W D Pd) as (_ & F & W2 & D2); [|exact E|].
  { intros k0 v0 J. unfold pairs in J. apply in_map_iff in J. destruct J as (k1 & Q & J). inversion Q; subst. auto. }
  assert (Nl : rev cs ++ d <> rev (cs ++ x) ++ d). { intros Q. apply (f_equal (@length _)) in Q. rewrite !app_length, !rev_length, app_length in Q. destruct x; [congruence|]. cbn [length] in Q. clear -Q. lia. }
  assert (Bl : below (rev cs ++ d) (rev (cs ++ x) ++ d)) by (rewrite rev_app_distr; exists (rev x); now rewrite app_assoc).
  destruct C as [(K' & K)|(K & K')].
  - destruct (F _ _ _ Ik K') as (b & L). destruct (put_blocked cwd true d fs2 m2 k v (cs ++ x) (rev cs ++ d) b W2 D2 Pd K Bl Nl L) as (e & Ee & [->| ->]); eauto.
  - destruct (F _ _ _ Ik K') as (b & L). exists IOError. split; [|auto]. apply (put_on_directory cwd true d fs2 m2 k v cs W2 D2 Pd K). eapply wf_above; [exact W2|exact L|exact Bl|exact Nl].
Qed.
(** What the stream after the pairs that can be put is: nothing, or a pair that is refused. *)
Lemma stopped_stream d fs fs1 fs' val ks rest st e : fs_enter d fs = (fs1, Ok tt) -> fs_session cwd true d fs (pairs val ks) = (fs', (Ok tt, map (fun _ => Ok tt) (pairs val ks), Ok tt)) ->
  (rest = [] /\ st fs1 = (pairs val ks, Some e) \/ exists k v, fst (st fs1) = pairs val ks ++ (k, v) :: rest /\ forall fs2 m2, fs_puts cwd true d fs1 [] (pairs val ks) = (fs2, m2, map (fun _ => Ok tt) (pairs val ks)) -> fs_put cwd true d fs2 m2 k v = (fs2, m2, Raise e)) ->
  fs_write_stream cwd true d fs st = (fs', Some e).
Proof.
  clear. intros En E C. unfold fs_session in E. unfold fs_write_stream. rewrite En in E |- *. destruct (fs_puts cwd true d fs1 [] (pairs val ks)) as [[fs2 m] os] eqn:P. destruct (fs_exit cwd d fs2 m) as [fs3 x] eqn:Ex. inversion E; subst.
  destruct C as [(-> & S1)|(k & v & S1 & R)].
  - rewrite S1. cbn [fst snd]. rewrite (puts_until _ _ _ _ _ _ _ _ P), Ex. reflexivity.
  - rewrite S1. assert (R1 := R _ _ eq_refl). rewrite (until_refused _ _ _ _ _ _ _ _ _ _ _ _ P R1), Ex. reflexivity.
Qed.

(** C97: joining into an empty directory meets an input whose every key clashes with a key written already: the first of them ends the script with an OSError.  The directory's store
    has exactly the pairs of the inputs before; of the inputs after it - which need not exist - nothing is there. *)
Theorem C97_join_clash : forall p fs ns d before q ks v after, wf_params p -> wf_fs fs -> lists_inputs cwd p fs (map (fun x => fst (fst x)) before ++ q :: after) ->
  stores_ok ZC fs (before ++ [(q, ks, v)]) -> NoDup (stored_keys before) -> good_keys d (fun k => In k (stored_keys before)) -> ks <> [] -> (forall k, In k ks -> clashes (stored_keys before) k) ->
  Typed p !!"output" !!"file-map" ns -> names_path cwd ns !!"path" d -> d <> [] -> look fs d = Some KDir -> (forall x, look fs (x :: d) = None) ->
  exists fs' e val, join_main p fs = (fs', Some e) /\ (e = FileExistsError \/ e = NotADirectoryError \/ e = IOError) /\ wf_fs fs' /\ only_inside fs fs' d /\
    stored_in X cwd fs' d (stored_keys before) val /\ (forall q0 ks0 v0 k, In (q0, ks0, v0) before -> In k ks0 -> val k = v0 k).
Proof using cwd_proper.
  intros p fs ns d xs q ks v after W F LI Ok_ ND G Nk Cl T H Nd D Em. assert (Pd := named_proper cwd cwd_proper _ _ _ H). destruct (listed_paths cwd cwd_proper p fs _ W LI) as (paths & Ep & Eq).
  destruct (C97_enter d fs F) as (En & _). destruct d as [|c0 d0]; [congruence|]. set (d := c0 :: d0) in *. destruct (En c0 d0 eq_refl D Em) as (fs1 & E1 & W1 & S1). clear En.
  set (ys := map (fun x => (disk_at ZC fs1 (fst (fst x)), snd (fst x), snd x)) xs : list (disk * list str * (str -> bytes))).
  assert (Dk : forall q, disk_at ZC fs1 q = disk_at ZC fs q) by (intros q'; unfold disk_at; now rewrite S1).
  assert (O : inputs_ok ys). { intros q0 ks0 v0 I. apply in_map_iff in I. destruct I as ([[q1 ks1] v1] & E & I). inversion E; subst. cbn [fst snd]. rewrite Dk. apply (Ok_ q1 ks0 v0). apply in_or_app. auto. }
  assert (K : all_keys ys = stored_keys xs). { unfold all_keys, stored_keys, ys. rewrite flat_map_concat_map, map_map, <- flat_map_concat_map. reflexivity. }
  assert (ND' : NoDup (all_keys ys)) by now rewrite K. destruct (union_val_exists ys ND') as (val & U).
  destruct (join_inputs_then val (map (disk_at ZC fs1) (q :: after)) ys [] O ND' (fun k _ I => I) U) as (kb & w & J & P & Iw). rewrite K in P.
  destruct (Ok_ q ks v) as (Hq & PKq); [apply in_or_app; right; left; reflexivity|]. destruct (contains_serves _ ks v Hq) as (z & ks' & Ez & P' & Ks & NDk & Iz).
  (* the first key of that input *)
  destruct ks' as [|k ks']; [apply Permutation_nil in P'; congruence|]. assert (Ck : clashes (stored_keys xs) k) by (apply Cl, (Permutation_in _ P'); now left).
  assert (Fresh : ~ In k (stored_keys xs)).
  { intros I. destruct G as (_ & G2). destruct Ck as (k' & cs & x & I' & Nx & [(A & B)|(A & B)]).
    - assert (k' = k) as -> by exact (G2 k' k cs x I' I A B). assert (Q := plain_fun _ _ _ A B). apply (f_equal (@length _)) in Q. rewrite app_length in Q. destruct x; [congruence|]. cbn [length] in Q. clear -Q. lia.
    - assert (k = k') as -> by exact (G2 k k' cs x I I' A B). assert (Q := plain_fun _ _ _ A B). apply (f_equal (@length _)) in Q. rewrite app_length in Q. destruct x; [congruence|]. cbn [length] in Q. clear -Q. lia. }
  assert (exists rest, fst (join_inputs w (map (disk_at ZC fs1) (q :: after))) = (k, VBytes (v k)) :: rest) as (rest & Er).
  { cbn [map join_inputs]. rewrite Dk, Ez. cbv zeta. rewrite Ks. cbn [join_keys]. rewrite (proj2 (existsb_str_false k w)) by (rewrite Iw, K; intros [I|[]]; auto). rewrite (Iz k (or_introl eq_refl)).
    destruct (join_keys (zip_source same_name bytes_value z) (k :: w) ks') as [[ys' w'] [e0|]]; [eexists; reflexivity|]. destruct (join_inputs w' (map (disk_at ZC fs1) after)) as [zs e']. eexists. reflexivity. }
  destruct (join_inputs w (map (disk_at ZC fs1) (q :: after))) as [zs e0]. cbn [fst] in Er. subst zs.
  assert (NDb : NoDup kb) by (eapply Permutation_NoDup; [symmetry; exact P|exact ND]).
  assert (Gk : good_keys d (fun k => In k kb)). { destruct G as (G1 & G2). split; [intros k0 I; apply G1; now apply (Permutation_in _ P)|]. intros k0 k' cs x I I'. apply G2; now apply (Permutation_in _ P). }
  destruct (pairs_stored X cwd cwd_proper d fs kb val F Pd Nd D Em NDb Gk) as (fs' & Es & W' & OI & SI).
  assert (exists fs2 m2, fs_puts cwd true d fs1 [] (pairs val kb) = (fs2, m2, map (fun _ => Ok tt) (pairs val kb))) as (fs2 & m2 & Eputs).
  { revert Es. unfold fs_session. rewrite E1. destruct (fs_puts cwd true d fs1 [] (pairs val kb)) as [[fs2 m2] os]. destruct (fs_exit cwd d fs2 m2). intros Q. inversion Q; subst. eauto. }
  destruct (clash_refused d fs1 fs2 [] m2 val kb k (VBytes (v k)) W1) as (e & Re & He); [now rewrite S1|exact Pd| |exact Eputs| |].
  { intros k0 I. destruct (proj1 Gk k0 I) as (_ & cs & Kc & _). eauto. }
  { destruct Ck as (k' & cs & x & I' & R). exists k', cs, x. split; [now apply (Permutation_in _ (Permutation_sym P))|exact R]. }
  exists fs', e, val. split; [|split; [exact He|split; [assumption|split; [assumption|split]]]].
  - unfold Mains.join_main. rewrite Ep. rewrite (output_directory X import_module other_eval builtin locals_of x_is_class x_from_parameters x_construct x_callable x_call x_is_sink cwd other_globals cwd_proper fs p ns d join_locals W T H D) by (simpl; intuition discriminate). unfold write_sink. cbn [dir_sink].
    eapply (stopped_stream d fs fs1 fs' val kb rest); [exact E1|exact Es|]. right. exists k, (VBytes (v k)). split.
    + transitivity (fst (join_inputs [] (map (fun x => fst (fst x)) ys ++ map (disk_at ZC fs1) (q :: after)))).
      { f_equal. cbv beta. f_equal. etransitivity; [apply (listed_disks cwd ZC fs); [intros r L; now rewrite S1|exact Eq]|]. rewrite map_app. f_equal. unfold ys. now rewrite !map_map. }
      rewrite J. reflexivity.
    + intros fs2' m2' Q. rewrite Eputs in Q. inversion Q; subst. exact Re.
  - intros p' Wp Np. destruct (SI p' Wp Np) as (files & M & (l & Kl & Pl) & I1 & I2). exists files. split; [assumption|]. cbv zeta. split; [exists l; split; [assumption|now rewrite Pl]|].
    split; [intros k0 I; apply I1; now apply (Permutation_in _ (Permutation_sym P))|intros k0 I; apply I2; intros J'; apply I; now apply (Permutation_in _ P)].
  - intros q0 ks0 v0 k0 I Ik. apply (U (disk_at ZC fs1 q0) ks0 v0 k0); [|assumption]. apply in_map_iff. exists (q0, ks0, v0). auto.
Qed.
(** C97: joining into an empty directory meets an input that is no readable zip file: the script fails, and the directory's store has exactly the pairs of the inputs before. *)
Theorem C97_join_unreadable : forall p fs ns d ms m rest xs, wf_params p -> wf_fs fs -> lists_paths cwd p fs (ms ++ m :: rest) -> Forall2 (leads fs cwd) ms (map (fun x => fst (fst x)) xs) ->
  stores_ok ZC fs xs -> NoDup (stored_keys xs) -> good_keys d (fun k => In k (stored_keys xs)) ->
  (forall q b a, resolve cwd m = Ok q -> look fs q = Some (KFile b) -> unzip ZC b <> Ok a) -> (forall q, resolve cwd m = Ok q -> ~ below d q) ->
  Typed p !!"output" !!"file-map" ns -> names_path cwd ns !!"path" d -> d <> [] -> look fs d = Some KDir -> (forall x, look fs (x :: d) = None) ->
  exists fs' e val, join_main p fs = (fs', Some e) /\ wf_fs fs' /\ only_inside fs fs' d /\
    stored_in X cwd fs' d (stored_keys xs) val /\ (forall q0 ks0 v0 k, In (q0, ks0, v0) xs -> In k ks0 -> val k = v0 k).
Proof using cwd_proper.
  intros p fs ns d ms m rest xs W F LI FL Ok_ ND G Bad _ T H Nd D Em. assert (Pd := named_proper cwd cwd_proper _ _ _ H). assert (Ep := listed_texts cwd cwd_proper p fs _ W LI).
  destruct (C97_enter d fs F) as (En & _). destruct d as [|c0 d0]; [congruence|]. set (d := c0 :: d0) in *. destruct (En c0 d0 eq_refl D Em) as (fs1 & E1 & W1 & S1). clear En.
  set (ys := map (fun x => (disk_at ZC fs1 (fst (fst x)), snd (fst x), snd x)) xs : list (disk * list str * (str -> bytes))).
  assert (Dk : forall q, disk_at ZC fs1 q = disk_at ZC fs q) by (intros q'; unfold disk_at; now rewrite S1).
  assert (O : inputs_ok ys). { intros q0 ks0 v0 I. apply in_map_iff in I. destruct I as ([[q1 ks1] v1] & E & I). inversion E; subst. cbn [fst snd]. rewrite Dk. now apply (Ok_ q1 ks0 v0). }
  assert (K : all_keys ys = stored_keys xs). { unfold all_keys, stored_keys, ys. rewrite flat_map_concat_map, map_map, <- flat_map_concat_map. reflexivity. }
  assert (ND' : NoDup (all_keys ys)) by now rewrite K. destruct (union_val_exists ys ND') as (val & U).
  assert (exists e, source_enter (disk_of cwd ZC fs1 (parse_path m)) = Raise e) as (e & Ee).
  { unfold disk_of. destruct (os_find cwd fs1 (parse_path m)) as [q|] eqn:Of; [|eexists; reflexivity]. apply find_leads in Of. assert (Rq := leads_resolve _ _ _ _ Of).
    rewrite Dk. unfold disk_at. destruct (look fs q) as [[b| |]|] eqn:L; try (eexists; reflexivity). destruct (unzip ZC b) as [a|] eqn:E; [now destruct (Bad q b a Rq L)|eexists; reflexivity]. }
  destruct (join_inputs_then val (map (disk_of cwd ZC fs1) (parse_path m :: map parse_path rest)) ys [] O ND' (fun k _ I => I) U) as (kb & w & J & P & Iw). rewrite K in P.
  cbn [map join_inputs] in J. rewrite Ee, app_nil_r in J.
  assert (NDb : NoDup kb) by (eapply Permutation_NoDup; [symmetry; exact P|exact ND]).
  assert (Gk : good_keys d (fun k => In k kb)). { destruct G as (G1 & G2). split; [intros k0 I; apply G1; now apply (Permutation_in _ P)|]. intros k0 k' cs x I I'. apply G2; now apply (Permutation_in _ P). }
  destruct (pairs_stored X cwd cwd_proper d fs kb val F Pd Nd D Em NDb Gk) as (fs' & Es & W' & OI & SI).
  exists fs', e, val. split; [|split; [assumption|split; [assumption|split]]].
  - unfold Mains.join_main. rewrite Ep. rewrite (output_directory X import_module other_eval builtin locals_of x_is_class x_from_parameters x_construct x_callable x_call x_is_sink cwd other_globals cwd_proper fs p ns d join_locals W T H D) by (simpl; intuition discriminate). unfold write_sink. cbn [dir_sink].
    eapply (stopped_stream d fs fs1 fs' val kb []); [exact E1|exact Es|]. left. split; [reflexivity|]. cbv beta. etransitivity; [|exact J]. f_equal. rewrite !map_app. cbn [map]. f_equal.
    assert (map (fun x => fst (fst x)) ys = map (disk_at ZC fs1) (map (fun x => fst (fst x)) xs)) as -> by (unfold ys; now rewrite !map_map).
    apply (listed_disks cwd ZC fs); [intros r L; now rewrite S1|]. clear -FL. induction FL; cbn [map]; constructor; eauto.
  - intros p' Wp Np. destruct (SI p' Wp Np) as (files & M & (l & Kl & Pl) & I1 & I2). exists files. split; [assumption|]. cbv zeta. split; [exists l; split; [assumption|now rewrite Pl]|].
    split; [intros k0 I; apply I1; now apply (Permutation_in _ (Permutation_sym P))|intros k0 I; apply I2; intros J'; apply I; now apply (Permutation_in _ P)].
  - intros q0 ks0 v0 k0 I Ik. apply (U (disk_at ZC fs1 q0) ks0 v0 k0); [|assumption]. apply in_map_iff. exists (q0, ks0, v0). auto.
Qed.
(** C97: joining into a directory that has something in it already: the script fails with an OSError and changes nothing, whatever the inputs hold. *)
Theorem C97_join_not_empty : forall p fs ns d ms x k, wf_params p -> wf_fs fs -> lists_paths cwd p fs ms ->
  Typed p !!"output" !!"file-map" ns -> names_path cwd ns !!"path" d -> look fs d = Some KDir -> look fs (x :: d) = Some k ->
  join_main p fs = (fs, Some IOError).
Proof using cwd_proper.
  intros p fs ns d ms x k W F LI T H D L. assert (Ep := listed_texts cwd cwd_proper p fs _ W LI). destruct (C97_enter d fs F) as (_ & En & _).
  unfold Mains.join_main. rewrite Ep. rewrite (output_directory X import_module other_eval builtin locals_of x_is_class x_from_parameters x_construct x_callable x_call x_is_sink cwd other_globals cwd_proper fs p ns d join_locals W T H D) by (simpl; intuition discriminate).
  unfold write_sink. cbn [dir_sink]. unfold fs_write_stream. now rewrite (En D (ex_intro _ x (ex_intro _ k L))).
Qed.
End DirStopped.
