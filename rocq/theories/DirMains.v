(** * C97: join_key_value_stores and directory_to_key_value_store writing into a directory store *)
From Coq Require Import Sorted.
From Verif Require Import Prelude PyStr SortLib TextLib Utf8 Params ParamsSpec ParamsProofs ParamsGetProps ParamsEvalProps Fs FsProofs FsProps PathLists PathListsProps Io IoProps KeyValue KeyValueProps KvParams KvParamsProps Scripts ScriptsProps Mains MainsProofs MainsProps OsPath OsPathProofs LoadFs DirFs DirFsProps.

Section DirMains.
Variable X : Type.
Notation obj := (kv_obj X).
Variable import_module : str -> res obj.
Variable other_eval : str -> list (str * obj) -> res obj.
Variable builtin : str -> option obj.
Variable locals_of : pv -> str -> list (str * obj).
Variable x_is_class : X -> bool.
Variable x_from_parameters : X -> option (pv -> res obj).
Variable x_construct : X -> res obj.
Variable x_callable : X -> bool.
Variable x_call : X -> pv -> res obj.
Variable x_is_sink : X -> bool.
Variable cwd : list str.
Variable other_globals : list (str * obj).
Variable ZC : zip_codec.
Variable torn : bytes.
Variable set_order : list str -> list str.
Variable rglob_order : list (list str * bytes) -> list (list str * bytes).
Variable user_sink : obj -> list (list str * fnode) -> (list (list str * fnode) -> stream value) -> list (list str * fnode) * option exn.
Notation join_main := (join_main X import_module other_eval builtin locals_of x_is_class x_from_parameters x_construct x_callable x_call x_is_sink cwd other_globals ZC torn set_order (dir_sink cwd user_sink)).
Notation directory_main := (directory_main X import_module other_eval builtin locals_of x_is_class x_from_parameters x_construct x_callable x_call x_is_sink cwd other_globals ZC torn set_order rglob_order (dir_sink cwd user_sink)).
Hypothesis rglob_perm : forall l, Permutation (rglob_order l) l.
Hypothesis cwd_proper : Forall proper cwd.

(** ** Specification *)
(** Keys for the directory [d]: each names a file below it, which is not the index or below it, no file lies below another's or is named twice,
    and key and path fit into a line of the index. *)
Definition good_keys (d : list str) (K : str -> Prop) : Prop :=
  (forall k, K k -> field_ok k /\ exists cs, DirFsProps.plain_key k cs /\ field_ok (path_str (rev cs ++ d)) /\ hd [] cs <> index_name) /\
  (forall k k' cs x, K k -> K k' -> DirFsProps.plain_key k cs -> DirFsProps.plain_key k' (cs ++ x) -> k = k').
(** The store of the directory [d] has exactly the keys [ks], with the values [val]. *)
Definition stored_in (fs : list (list str * fnode)) (d : list str) (ks : list str) (val : str -> bytes) : Prop :=
  forall p, wf_params p -> names_path cwd p !!"path" (index_name :: d) -> exists files, map_source_from_params X cwd fs true p = Ok (OMapSource true files) /\
    let src := byte_map_source cwd fs files in (exists l, src_keys src = Ok (Some l) /\ Permutation l ks) /\
    (forall k, In k ks -> src_item src k = Ok (val k)) /\ (forall k, ~ In k ks -> src_item src k = Raise KeyError).
(** Nothing outside the directory [d] changes. *)
Definition only_inside (fs fs' : list (list str * fnode)) (d : list str) : Prop := forall a, ~ (below d a /\ a <> d) -> look fs' a = look fs a.

(** ** Proofs *)
Lemma puts_until bytes_ d ops : forall fs m fs2 m2, fs_puts cwd bytes_ d fs m ops = (fs2, m2, map (fun _ => Ok tt) ops) -> fs_put_until cwd bytes_ d fs m ops = (fs2, m2, None).
Proof.
  clear. induction ops as [|[k v] ops IH]; intros fs m fs2 m2 E; cbn [fs_puts fs_put_until map] in *; [inversion E; reflexivity|].
  destruct (fs_put cwd bytes_ d fs m k v) as [[fs1 m1] o]. destruct (fs_puts cwd bytes_ d fs1 m1 ops) as [[f2 mm2] os] eqn:Q. inversion E; subst. auto.
Qed.
Lemma session_stream bytes_ d fs fs1 fs' ops st : fs_enter d fs = (fs1, Ok tt) -> fs_session cwd bytes_ d fs ops = (fs', (Ok tt, map (fun _ => Ok tt) ops, Ok tt)) -> st fs1 = (ops, None) ->
  fs_write_stream cwd bytes_ d fs st = (fs', None).
Proof.
  clear. intros En E S1. unfold fs_session in E. unfold fs_write_stream. rewrite En in E |- *. rewrite S1. cbn [fst snd]. destruct (fs_puts cwd bytes_ d fs1 [] ops) as [[fs2 m] os] eqn:P. destruct (fs_exit cwd d fs2 m) as [fs3 x] eqn:Ex. inversion E; subst.
  rewrite (puts_until _ _ _ _ _ _ _ P), Ex. reflexivity.
Qed.
Lemma last_pair val k cs ks : NoDup ks -> In k ks -> DirFsProps.plain_key k cs -> (forall k', In k' ks -> DirFsProps.plain_key k' cs -> k' = k) -> last_write cs (VBytes (val k)) (pairs val ks).
Proof.
  clear. induction ks as [|a ks IH]; intros ND I K U; [destruct I|]. inversion ND as [|? ? N1 N2]; subst. destruct I as [->|I].
  - apply (lw_here cs (VBytes (val k)) k); [exact K|]. intros k' v' J K'. apply in_map_iff in J. destruct J as (x & E & J). inversion E; subst. assert (k' = k) as -> by (apply U; [now right|exact K']). contradiction.
  - apply lw_later. apply IH; [assumption|assumption|assumption|]. intros k' J. apply U. now right.
Qed.
(** Writing pairs with good keys into an empty directory. *)
Lemma pairs_stored d fs ks val : wf_fs fs -> Forall proper d -> d <> [] -> look fs d = Some KDir -> (forall x, look fs (x :: d) = None) -> NoDup ks -> good_keys d (fun k => In k ks) ->
  exists fs', fs_session cwd true d fs (pairs val ks) = (fs', (Ok tt, map (fun _ => Ok tt) (pairs val ks), Ok tt)) /\ wf_fs fs' /\ only_inside fs fs' d /\ stored_in fs' d ks val.
Proof using cwd_proper.
  intros W Pd Nd D Em ND (G1 & G2).
  assert (Ik : forall k v, In (k, v) (pairs val ks) <-> In k ks /\ v = VBytes (val k)).
  { intros k v. unfold pairs. rewrite in_map_iff. split; [intros (x & E & I); inversion E; subst; auto|intros (I & ->); eauto]. }
  assert (Mk : map fst (pairs val ks) = ks) by (unfold pairs; rewrite map_map; apply map_id).
  destruct (C97_round_trip cwd X true d fs (pairs val ks) W Pd cwd_proper Nd D Em) as (fs' & E & W' & OI & R).
  - intros k v I. apply Ik in I. destruct I as (I & ->). destruct (G1 k I) as (Fk & cs & K & Fp & _). split; [eexists; constructor|]. split; [assumption|]. exists cs. auto.
  - split.
    + intros k v k' v' cs cs' x I I' K K' ->. apply Ik in I, I'. assert (k = k') as <- by (apply (G2 k k' cs x); [exact (proj1 I)|exact (proj1 I')|exact K|exact K']). assert (Q := plain_fun k cs (cs ++ x) K K'). apply (f_equal (@length _)) in Q. rewrite app_length in Q. destruct x; [reflexivity|]. simpl in Q. clear -Q. lia.
    + intros k v cs I K. apply Ik in I. destruct I as (I & _). destruct (G1 k I) as (_ & cs' & K' & _ & N). now rewrite (plain_fun k cs cs' K K').
  - exists fs'. split; [assumption|]. split; [assumption|]. split; [exact OI|]. intros p Wp Np. destruct (R p Wp Np) as (files & Em' & (l & Kl & _ & So & Il) & B & _ & N). exists files. split; [assumption|]. cbv zeta. rewrite Mk in *. split; [|split].
    + exists l. split; [assumption|]. apply NoDup_Permutation; [|assumption|assumption]. clear -So. induction So as [|a l So IH F]; constructor; [|assumption]. intros I. rewrite Forall_forall in F. specialize (F a I). rewrite (AnnotatedTextProps.str_ltb_asym _ _ F) in F. discriminate.
    + intros k I. destruct (G1 k I) as (_ & cs & K & _). apply (B k cs (val k) I K); [|reflexivity]. apply last_pair; [assumption|assumption|assumption|]. intros k' I' K'. symmetry. apply (G2 k k' cs []); [assumption|assumption|assumption|now rewrite app_nil_r].
    + intros k I. apply (N k I).
Qed.
Lemma output_directory fs p ns d names : wf_params p -> Typed p !!"output" !!"file-map" ns -> names_path cwd ns !!"path" d -> look fs d = Some KDir -> ~ In (sink_class_name false true) names ->
  the_sink X import_module other_eval builtin locals_of x_is_class x_from_parameters x_construct x_callable x_call x_is_sink cwd other_globals fs p (map (fun n => (n, ONone)) names) = Ok (ODirSink true d).
Proof using cwd_proper.
  intros W T H D N. unfold the_sink. assert (S1 : silent (Some (map (fun n => (n, @ONone X)) names)) (sink_class_name false true)).
  { intros u E I. injection E as <-. unfold keys in I. rewrite map_map in I. cbn [fst] in I. rewrite map_id in I. auto. }
  destruct (C83_directory_sink X import_module other_eval builtin locals_of x_is_class x_from_parameters x_construct x_callable x_call x_is_sink cwd other_globals fs true p !!"output" ns _ W cwd_proper T S1) as (M & _). exact (M d H D).
Qed.
Lemma named_proper p name q : names_path cwd p name q -> Forall proper q.
Proof using cwd_proper. intros (s & _ & R). eapply resolve_proper; eassumption. Qed.
(** C97: joining zip stores without a common key into an empty directory: the directory's store has exactly the pairs of the inputs, and nothing else changes. *)
Theorem C97_join : forall p fs ns d xs, wf_params p -> wf_fs fs -> lists_inputs cwd p fs (map (fun x => fst (fst x)) xs) -> stores_ok ZC fs xs -> NoDup (stored_keys xs) ->
  Typed p !!"output" !!"file-map" ns -> names_path cwd ns !!"path" d -> d <> [] -> look fs d = Some KDir -> (forall x, look fs (x :: d) = None) -> good_keys d (fun k => In k (stored_keys xs)) ->
  exists fs' val, join_main p fs = (fs', None) /\ wf_fs fs' /\ only_inside fs fs' d /\ stored_in fs' d (stored_keys xs) val /\ (forall q ks v k, In (q, ks, v) xs -> In k ks -> val k = v k).
Proof using cwd_proper.
  intros p fs ns d xs W F LI Ok_ ND T H Nd D Em G. assert (Pd := named_proper _ _ _ H). destruct (listed_paths cwd cwd_proper p fs _ W LI) as (paths & Ep & Eq).
  destruct (C97_enter d fs F) as (En & _). destruct d as [|c0 d0]; [congruence|]. set (d := c0 :: d0) in *. destruct (En c0 d0 eq_refl D Em) as (fs1 & E1 & W1 & S1). clear En.
  set (ys := map (fun x => (disk_at ZC fs1 (fst (fst x)), snd (fst x), snd x)) xs : list (disk * list str * (str -> bytes))).
  assert (Dk : forall q, disk_at ZC fs1 q = disk_at ZC fs q) by (intros q; unfold disk_at; now rewrite S1).
  assert (O : inputs_ok ys). { intros q ks v I. apply in_map_iff in I. destruct I as ([[q0 ks0] v0] & E & I). inversion E; subst. cbn [fst snd]. rewrite Dk. exact (Ok_ q0 ks v I). }
  assert (K : all_keys ys = stored_keys xs). { unfold all_keys, stored_keys, ys. rewrite flat_map_concat_map, map_map, <- flat_map_concat_map. reflexivity. }
  assert (ND' : NoDup (all_keys ys)) by now rewrite K. destruct (union_val_exists ys ND') as (val & U).
  destruct (join_inputs_ok val ys [] O ND' (fun k _ I => I) U) as (ks & J & P). rewrite K in P.
  assert (NDk : NoDup ks) by (eapply Permutation_NoDup; [symmetry; exact P|exact ND]).
  assert (Gk : good_keys d (fun k => In k ks)). { destruct G as (G1 & G2). split; [intros k I; apply G1; now apply (Permutation_in _ P)|]. intros k k' cs x I I'. apply G2; now apply (Permutation_in _ P). }
  destruct (pairs_stored d fs ks val F Pd Nd D Em NDk Gk) as (fs' & Es & W' & OI & SI). exists fs', val. split; [|split; [assumption|split; [assumption|split]]].
  - unfold Mains.join_main. rewrite Ep. rewrite (output_directory fs p ns d join_locals W T H D) by (simpl; intuition discriminate). unfold write_sink. cbn [dir_sink].
    eapply session_stream; [exact E1|exact Es|]. cbv beta. etransitivity; [|exact J]. f_equal. etransitivity; [apply (listed_disks cwd ZC fs); [intros r L; now rewrite S1|exact Eq]|]. unfold ys. now rewrite !map_map.
  - intros p' Wp Np. destruct (SI p' Wp Np) as (files & M & (l & Kl & Pl) & I1 & I2). exists files. split; [assumption|]. cbv zeta. split; [exists l; split; [assumption|now rewrite Pl]|].
    split; [intros k I; apply I1; now apply (Permutation_in _ (Permutation_sym P))|intros k I; apply I2; intros J'; apply I; now apply (Permutation_in _ P)].
  - intros q ks0 v k I Ik. apply (U (disk_at ZC fs1 q) ks0 v k); [|assumption]. apply in_map_iff. exists (q, ks0, v). auto.
Qed.
(** C97: collecting the files below a directory, with different keys, into an empty directory outside it. *)
Theorem C97_directory : forall p fs ns d i strip, wf_params p -> wf_fs fs -> names_path cwd p !!"input_directory" i -> look fs i = Some KDir -> key_choice p strip ->
  Typed p !!"output" !!"file-map" ns -> names_path cwd ns !!"path" d -> d <> [] -> look fs d = Some KDir -> (forall x, look fs (x :: d) = None) -> ~ below i d ->
  good_keys d (fun k => exists q b, file_under fs i q b /\ file_key strip q k) ->
  (forall q q' b b' k, file_under fs i q b -> file_under fs i q' b' -> file_key strip q k -> file_key strip q' k -> q = q') ->
  exists fs' ks val, directory_main p fs = (fs', None) /\ wf_fs fs' /\ only_inside fs fs' d /\ stored_in fs' d ks val /\
    (forall k, In k ks <-> exists q b, file_under fs i q b /\ file_key strip q k) /\ (forall q b k, file_under fs i q b -> file_key strip q k -> val k = b).
Proof using cwd_proper rglob_perm.
  intros p fs ns d i strip W F Hi Li Kc T H Nd D Em _ G Df. assert (Pd := named_proper _ _ _ H).
  destruct (C97_enter d fs F) as (En & _). destruct d as [|c0 d0]; [congruence|]. set (d := c0 :: d0) in *. destruct (En c0 d0 eq_refl D Em) as (fs1 & E1 & W1 & S1). clear En.
  set (fl := rglob_order (files_under fs1 i)). set (kf := fun f : list str * bytes => let name := hd [] (fst f) in if strip then stem name else name).
  assert (Fl : forall q b, In (q, b) fl <-> file_under fs i q b).
  { intros q b. transitivity (file_under fs1 i q b); [|unfold file_under; now rewrite S1]. rewrite <- files_under_in. split; apply Permutation_in; [apply rglob_perm|symmetry; apply rglob_perm]. }
  assert (NR : forall q b, file_under fs i q b -> q <> []) by (intros q b U; eapply under_nonroot; exact U).
  assert (KF : forall q b k, file_under fs i q b -> (file_key strip q k <-> k = kf (q, b))) by (intros q b k U; apply file_key_spec; eapply NR; exact U).
  assert (NF : NoDup (map fst fl)) by (apply (Permutation_NoDup (l := map fst (files_under fs1 i))); [apply Permutation_map; symmetry; apply rglob_perm|apply files_under_nodup]).
  assert (ND : NoDup (map kf fl)).
  { apply nodup_map; [eapply NoDup_map_inv; exact NF|]. intros [q b] [q' b'] I I' E. assert (q = q') as ->.
    - apply (Df q q' b b' (kf (q, b))); [now apply Fl|now apply Fl| |]; [apply (KF q b); [now apply Fl|reflexivity]|apply (KF q' b'); [now apply Fl|exact E]].
    - f_equal. apply Fl in I, I'. unfold file_under in I, I'. destruct I as (_ & _ & I), I' as (_ & _ & I'). congruence. }
  destruct (pairs_of kf snd fl ND) as (val & Ep & V).
  assert (Ik : forall k, In k (map kf fl) <-> exists q b, file_under fs i q b /\ file_key strip q k).
  { intros k. rewrite in_map_iff. split; [intros ([q b] & <- & I); apply Fl in I; exists q, b; split; [assumption|]; now apply (KF q b)|]. intros (q & b & U & K). exists (q, b). split; [symmetry; now apply (KF q b)|now apply Fl]. }
  assert (Gk : good_keys d (fun k => In k (map kf fl))). { destruct G as (G1 & G2). split; [intros k I; apply G1; now apply Ik|]. intros k k' cs x I I'. apply G2; now apply Ik. }
  destruct (pairs_stored d fs (map kf fl) val F Pd Nd D Em ND Gk) as (fs' & Es & W' & OI & SI). exists fs', (map kf fl), val. split; [|split; [assumption|split; [assumption|split; [assumption|split; [exact Ik|]]]]].
  - unfold Mains.directory_main. destruct (C80_existing cwd p !!"input_directory" fs W cwd_proper) as (_ & _ & Ex & _). rewrite (Ex i Hi Li).
    assert (key_function p = Ok strip) as ->.
    { unfold key_function. destruct (C46_optional_getters (fun _ => true) p !!"key_function" W) as (Go & _). destruct (Go (Some [!!"identity"; !!"strip_one_extension"]) PNone) as (Go1 & _ & Go3). unfold key_choice in Kc.
      destruct strip; [|destruct Kc as [Kc|Kc]].
      - rewrite (Go1 _ Kc); [reflexivity|discriminate|]. eexists. split; [reflexivity|]. intros l El. injection El as <-. simpl. auto.
      - rewrite (Go3 Kc). reflexivity.
      - rewrite (Go1 _ Kc); [reflexivity|discriminate|]. eexists. split; [reflexivity|]. intros l El. injection El as <-. simpl. auto. }
    rewrite (output_directory fs p ns d directory_locals W T H D) by (simpl; intuition discriminate). unfold write_sink. cbn [dir_sink].
    eapply session_stream; [exact E1|exact Es|]. cbv beta. f_equal. exact Ep.
  - intros q b k U K. apply (KF q b) in K; [|assumption]. subst k. apply (V (q, b)). now apply Fl.
Qed.
End DirMains.
