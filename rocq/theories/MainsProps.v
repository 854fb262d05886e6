(** * Properties C84 - C88: the scripts, from parameters and files to files *)
From Coq Require Import Sorted.
From Verif Require Import Prelude PyStr SortLib TextLib Utf8 Order Range Params ParamsSpec ParamsProofs ParamsGet ParamsGetProps ParamsEq SubNamespaces ParamsEval ParamsEvalProps Fs FsProofs FsProps PathLists PathListsProps Decimals Io IoProps KeyValue KeyValueProps KvParams KvParamsProps OsPath OsPathSpec OsPathProofs Scripts ScriptsProps Mains MainsProofs.

(** ** Specification *)
(** [fs'] is [fs] with the directory [dir] made (if it was missing, with those above it), and new contents for the files [outs]. *)
Definition only_writes (fs fs' : list (list str * fnode)) (dir : list str) (outs : list (list str)) : Prop :=
  forall r, ~ In r outs -> (below r dir -> look fs' r = Some KDir) /\ (~ below r dir -> look fs' r = look fs r).
(** The name of the i-th slice: "0.zip", "1.zip", ... *)
Definition slice_name (i : nat) : str := decimal (N.of_nat i) ++ !!".zip".

(** random_seed: absent (or null), or a positive integer. *)
Definition seed_given (p : pv) (seed : option Z) : Prop :=
  match seed with None => Missing p !!"random_seed" | Some s => exists sv, Stored p !!"random_seed" sv /\ int_value sv s /\ (s > 0)%Z end.

(** The list of keys in the zip store at [q], in the order in which it is written there. *)
Definition key_list (ZC : zip_codec) (fs : list (list str * fnode)) (q : list str) (l : list str) : Prop :=
  exists b a, look fs q = Some (KFile b) /\ unzip ZC b = Ok a /\ read_keys a = Ok (Some l).
(** random_seed as downsample_key_value_store reads it: 0 unless given. *)
Definition sample_seed (p : pv) (s : Z) : Prop :=
  ParamsSpec.Absent p !!"random_seed" /\ s = 0%Z \/ exists sv, Stored p !!"random_seed" sv /\ int_value sv s.

Section P.
Variable X : Type.
Notation obj := (kv_obj X).
Variable import_module : str -> res obj.
Variable other_eval : str -> list (str * obj) -> res obj.
Variable builtin : str -> option obj.
Variable locals_of : pv -> str -> list (str * obj).
Variable x_is_class : X -> bool.
Variable x_from_parameters : X -> option (pv -> res obj).
Variable x_construct : X -> res obj.
Variable x_callable : X -> bool.
Variable x_call : X -> pv -> res obj.
Variables x_is_linear x_is_source x_is_sink : X -> bool.
Variable cwd : list str.
Variable other_globals : list (str * obj).
Variable ZC : zip_codec.
Variable torn : bytes.
Variable set_order : list str -> list str.
Variables seeded_shuffle random_shuffle : Z -> list str -> list str.
Variable rglob_order : list (list str * bytes) -> list (list str * bytes).
Variable other_source : obj -> list (list str * fnode) -> res (source bytes).
Variable other_sink : obj -> list (list str * fnode) -> (list (list str * fnode) -> stream value) -> list (list str * fnode) * option exn.
Variable oeq : pv -> pv -> bool.
Notation the_linear_source := (the_linear_source X import_module other_eval builtin locals_of x_is_class x_from_parameters x_construct x_callable x_call x_is_linear cwd other_globals).
Notation the_source := (the_source X import_module other_eval builtin locals_of x_is_class x_from_parameters x_construct x_callable x_call x_is_source cwd other_globals).
Notation the_sink := (the_sink X import_module other_eval builtin locals_of x_is_class x_from_parameters x_construct x_callable x_call x_is_sink cwd other_globals).
Notation open_source := (open_source X cwd ZC other_source).
Notation split_main := (split_main X import_module other_eval builtin locals_of x_is_class x_from_parameters x_construct x_callable x_call x_is_linear cwd other_globals ZC torn set_order seeded_shuffle other_source oeq).
Notation join_main := (join_main X import_module other_eval builtin locals_of x_is_class x_from_parameters x_construct x_callable x_call x_is_sink cwd other_globals ZC torn set_order other_sink).
Notation downsample_main := (downsample_main X import_module other_eval builtin locals_of x_is_class x_from_parameters x_construct x_callable x_call x_is_source cwd other_globals ZC torn set_order random_shuffle other_source).
Notation directory_main := (directory_main X import_module other_eval builtin locals_of x_is_class x_from_parameters x_construct x_callable x_call x_is_sink cwd other_globals ZC torn set_order rglob_order other_sink).
Notation holds := (holds ZC).
Notation put_disk := (put_disk ZC torn).
Notation put_slices := (put_slices ZC torn).
Hypothesis set_order_perm : forall l, Permutation (set_order l) l.
Hypothesis seeded_perm : forall z l, Permutation (seeded_shuffle z l) l.
Hypothesis random_perm : forall z l, Permutation (random_shuffle z l) l.
Hypothesis rglob_perm : forall l, Permutation (rglob_order l) l.
Hypothesis cwd_proper : Forall proper cwd.

(** ** Opening the input *)
Lemma input_opens fs p ns q ks val : wf_params p -> Typed p !!"input" !!"zip" ns -> names_path cwd ns !!"path" q -> holds fs q ks val ->
  exists later z ks', (let* o := the_linear_source fs p in let* src := open_source fs o in Ok (read_later X cwd ZC other_source o src)) = Ok later /\
    (let* o := the_source fs p in let* src := open_source fs o in Ok (read_later X cwd ZC other_source o src)) = Ok later /\
    (forall f w, ~ In q w -> later f w = zip_source same_name bytes_value z) /\ (forall f w, In q w -> later f w = lost (zip_source same_name bytes_value z)) /\
    Permutation ks' ks /\ serves (zip_source same_name bytes_value z) ks' val /\
    (forall k, In k ks -> src_get (zip_source same_name bytes_value z) k = Ok (Some (val k))) /\ (forall k, plain_key k -> ~ In k ks -> src_get (zip_source same_name bytes_value z) k = Ok None) /\ source_enter (disk_at ZC fs q) = Ok z.
Proof.
  clear random_perm rglob_perm seeded_perm set_order_perm.
  intros W T H C. destruct (holds_file ZC fs q ks val C) as (b & a & L & U & D).
  assert (S0 : silent (@None (list (str * obj))) (source_class_name true true)) by (intros u E; discriminate).
  destruct (C83_zip_source X import_module other_eval builtin locals_of x_is_class x_from_parameters x_construct x_callable x_call x_is_linear x_is_source cwd other_globals fs true p !!"input" ns None W cwd_proper T S0) as (E & F & _).
  specialize (F q b H L). destruct C as (z & Ez & (ks' & Kz & Nz & P) & I & O). exists (read_later X cwd ZC other_source (OZipSource true q) (zip_source same_name bytes_value z)), z, ks'. assert (Sv : serves (zip_source same_name bytes_value z) ks' val) by (split; [assumption|]; split; [assumption|]; intros k Hk; apply I; now apply (Permutation_in _ P)). unfold Mains.the_linear_source, Mains.the_source. rewrite E, F. cbn [bind Mains.open_source]. rewrite Ez. cbn [bind]. split; [reflexivity|]. split; [reflexivity|].
  split; [intros f w N; unfold read_later; destruct (existsb (rpath_eqb q) w) eqn:Xw; [exfalso; apply N; apply existsb_exists in Xw; destruct Xw as (r & Ir & Er); destruct (rpath_eqb_spec q r) as [->|]; [exact Ir|discriminate Er]|reflexivity]|].
  split; [intros f w I0; unfold read_later; rewrite (proj2 (existsb_exists _ _)); [reflexivity|]; exists q; split; [exact I0|destruct (rpath_eqb_spec q q); congruence]|]. split; [assumption|]. split; [assumption|]. split; [intros k Hk; now apply I|]. split; [intros k Pk Nk; now apply O|reflexivity].
Qed.

Lemma slice_order_perm sv l : Permutation (slice_order seeded_shuffle sv l) l.
Proof.
  clear random_perm rglob_perm set_order_perm cwd_proper.
  unfold slice_order. assert (P : Permutation (sorted_by str_ltb (fun k => k) l) l) by apply sorted_perm. destruct (is_int sv); [rewrite seeded_perm|]; assumption.
Qed.

(** Reading from a file that has been overwritten fails at the first key. *)
Lemma split_lost reorder n src ks val ds : (forall l, Permutation (reorder l) l) -> serves src ks val -> ks <> [] ->
  exists ds', split_even set_order reorder n (lost src) ds = (ds', Some AnyError) /\ forall j, j < n -> contains (ds' j) [] (fun _ => []).
Proof.
  clear random_perm rglob_perm seeded_perm cwd_proper.
  intros P (K & _ & I) N. unfold split_even, lost. cbn [src_keys src_item]. rewrite K. cbv zeta.
  assert (Pk := P ks). destruct (reorder ks) as [|k r] eqn:Er; [exfalso; apply N; now apply Permutation_nil|].
  cbn [split_loop src_item]. rewrite (I k) by (apply (Permutation_in _ Pk); now left). eexists. split; [reflexivity|].
  intros j L. cbv beta. rewrite (proj2 (Nat.ltb_lt j n) L).
  destruct (write_stream_pairs set_order set_order_perm (ds j) [] (fun _ => []) None) as (d & E & C); [constructor|intros ? []|].
  unfold write_stream in E. destruct (sink_enter true (ds j) new_sink) as [[d1 s1] x] eqn:En. destruct x as [[]|x]; [|discriminate].
  cbn [pairs map fst put_until] in E. cbn [fst snd]. destruct (KeyValue.sink_exit set_order d1 s1) as [[d3 s3] y]. cbn [fst]. now inversion E; subst.
Qed.

(** ** C84: split_key_value_store with num_slices.
    The slices are files 0.zip, 1.zip, ... in output_dir; together they hold exactly the pairs of the input, each pair in exactly one, their sizes
    differing by at most one; _slices.txt lists them; the input and all other files stay as they were. *)
Theorem C84_split : forall p fs ns qin ks val nv n seed dir, wf_params p -> wf_fs fs ->
  Typed p !!"input" !!"zip" ns -> names_path cwd ns !!"path" qin -> holds fs qin ks val -> (forall k, In k ks -> plain_key k) ->
  Stored p !!"num_slices" nv -> int_value nv (Z.of_nat n) -> n <> 0 -> Missing p !!"explicit_split" ->
  seed_given p seed ->
  names_path cwd p !!"output_dir" dir -> unblocked fs dir -> Forall encodable dir ->
  let outs := (!!"_slices.txt" :: dir) :: map (fun i => slice_name i :: dir) (seq 0 n) in
  (forall o, In o outs -> free fs o /\ o <> qin) ->
  exists fs' parts, split_main p fs = (fs', None) /\ wf_fs fs' /\
    length parts = n /\ Permutation (concat parts) ks /\
    (exists l, Permutation l ks /\ StronglySorted (fun a b => str_ltb a b = true) l /\
       forall i part, nth_error parts i = Some part -> forall k, In k part <-> in_slice n i (match seed with Some s => seeded_shuffle s l | None => l end) k) /\
    (forall i part, nth_error parts i = Some part -> holds fs' (slice_name i :: dir) part val /\ length part = (length ks + n - 1 - i) / n) /\
    (exists b, look fs' (!!"_slices.txt" :: dir) = Some (KFile b) /\ decode b = Ok (py_join [LF] (map (fun i => path_str (slice_name i :: dir)) (seq 0 n)))) /\
    only_writes fs fs' dir outs /\ holds fs' qin ks val.
Proof.
  clear random_perm rglob_perm other_sink.
  intros p fs ns qin ks val nv n seed dir W F T Hin C PK Sn In_ N0 Me Hs Hd U Enc outs FO.
  destruct (input_opens fs p ns qin ks val W T Hin C) as (later & z & ks' & Eo & _ & La & _ & Pk & Sv & _).
  assert (NN : nv <> PNone) by (intros ->; inversion In_).
  assert (Pn : present_ p !!"num_slices") by (exists nv; auto).
  unfold Mains.split_main. rewrite (proj2 (exactly_one p !!"num_slices" !!"explicit_split" (proj1 W))) by (left; auto). rewrite Eo.
  rewrite (proj2 (present_contains _ _ (proj1 W)) Pn). unfold split_slices.
  destruct (C80_creatable cwd p !!"output_dir" fs W cwd_proper F) as (CD & _). destruct (CD dir Hd) as (CD1 & _). destruct (CD1 U) as (fs1 & -> & M).
  assert (W1 := made_wf _ _ _ F M). assert (D1 : look fs1 dir = Some KDir) by (apply (proj1 M), below_refl).
  assert (positive_integer p !!"num_slices" PNone = Ok nv) as ->.
  { destruct (C46_required_getters p !!"num_slices" PNone W) as (_ & _ & (G & _) & _). apply G; [now constructor|]. exists (Z.of_nat n). split; [assumption|lia]. }
  assert (exists sv, optional_positive_integer p !!"random_seed" PNone = Ok sv /\ forall l, slice_order seeded_shuffle sv l = match seed with Some s => seeded_shuffle s (sorted_by str_ltb (fun k => k) l) | None => sorted_by str_ltb (fun k => k) l end) as (sv & -> & So0).
  { destruct (C46_optional_getters (fun _ => true) p !!"random_seed" W) as (_ & _ & _ & (G1 & _ & G3) & _). destruct seed as [s|]; [destruct Hs as (sv & S1 & I1 & P1)|exists PNone; auto].
    exists sv. split; [|intros l; inversion I1; subst; reflexivity]. apply G1; [assumption|intros ->; inversion I1|]. exists s. auto. }
  assert (int_of nv = Z.of_nat n) as -> by (inversion In_; reflexivity). rewrite Nat2Z.id.
  assert (Fo1 : forall o, In o outs -> free fs1 o).
  { intros o I. destruct (FO o I) as (Fo & _). assert (exists c, o = c :: dir) as (c & ->). { destruct I as [<-|I]; [eauto|]. apply in_map_iff in I. destruct I as (i & <- & _). eauto. }
    assert (Ec : look fs1 (c :: dir) = look fs (c :: dir)) by apply (proj2 M), not_below_tail. unfold free. rewrite Ec. exact Fo. }
  destruct (slices_text_encodes dir n Enc) as (lb & El). unfold write_text.
  rewrite (can_write_ok fs1 _ dir W1 D1) by (apply Fo1; now left). rewrite El. set (fs2 := set_node fs1 (!!"_slices.txt" :: dir) lb).
  assert (NS : forall i, !!"_slices.txt" :: dir <> slice_file dir i).
  { intros i E. unfold slice_file in E. injection E as E. assert (I0 := decimal_digits (N.of_nat i)). destruct (decimal (N.of_nat i)) as [|c l]; simpl in E; [discriminate|]. injection E as E _. specialize (I0 c (or_introl eq_refl)). subst c. lia. }
  assert (W2 : wf_fs fs2) by (unfold fs2; apply set_wf; [assumption|assumption|apply Fo1; now left]).
  assert (D2 : look fs2 dir = Some KDir). { unfold fs2. rewrite look_set_other; [assumption|discriminate|]. intros E. apply (f_equal (@length _)) in E. simpl in E. lia. }
  assert (Fo2 : forall i, i < n -> free fs2 (slice_file dir i)).
  { intros i L. unfold free, fs2. rewrite look_set_other; [|discriminate|apply NS]. apply Fo1. right. apply in_map_iff. exists i. split; [reflexivity|]. apply in_seq. lia. }
  rewrite first_failure_none by (intros j L; apply can_write_ok; [assumption|assumption|apply Fo2; lia]).
  rewrite La by (intros I; now apply (FO qin)).
  assert (PK' : forall k, In k ks' -> plain_key k) by (intros k I; apply PK; now apply (Permutation_in _ Pk)).
  destruct (C61_split set_order set_order_perm (slice_order seeded_shuffle sv) n (zip_source same_name bytes_value z) ks' val (fun i => disk_at ZC fs2 (slice_file dir i))
    (slice_order_perm sv) N0 Sv PK') as (ds & parts & E & Ln & Pp & H & _). rewrite E.
  assert (So := split_even_sound _ _ _ _ _ _ _ E). clear E.
  destruct (slices_written ZC torn dir ds (seq 0 n) fs2 (seq_NoDup n 0) W2 D2) as (W3 & L3 & H3); [intros i I; apply Fo2; apply in_seq in I; lia|].
  fold (put_slices fs2 dir n ds) in W3, L3, H3. set (fs3 := put_slices fs2 dir n ds) in *.
  assert (Fr : only_writes fs fs3 dir outs).
  { intros r Nr. assert (Er : look fs3 r = look fs1 r).
    { rewrite L3; [unfold fs2; apply look_set_other; [discriminate|]; intros E; apply Nr; now left|]. intros i I E. apply Nr. right. apply in_map_iff. exists i. split; [symmetry; exact E|assumption]. }
    rewrite Er. split; [apply (proj1 M)|apply (proj2 M)]. }
  exists fs3, parts. split; [reflexivity|]. split; [assumption|]. split; [assumption|]. split; [now rewrite Pp|].
  split; [exists (sorted_by str_ltb (fun k => k) ks'); split; [rewrite sorted_perm; assumption|]; split; [apply sorted_strict; apply Sv|]; intros i part Hi; rewrite <- So0; apply (H i part Hi)|]. split; [|split; [|split; [assumption|]]].
  - intros i part Hi. destruct (H i part Hi) as (Ci & Li & _). rewrite (Permutation_length Pk) in Li. split; [|assumption]. destruct (contains_zip _ _ _ Ci) as (a & Ea).
    assert (i < n) as Lin by (rewrite <- Ln; apply nth_error_Some; congruence). unfold MainsProofs.holds. change (slice_name i :: dir) with (slice_file dir i). rewrite (H3 i a); [now rewrite <- Ea|apply in_seq; lia|assumption|]. apply (So i Lin). assumption.
  - exists lb. split; [|now apply C68_round_trip]. rewrite L3 by (intros i _; apply NS). unfold fs2. now apply look_set_same.
  - destruct (holds_file ZC fs qin ks val C) as (b0 & a0 & Lq & _). apply (holds_same ZC fs); [assumption|]. apply (Fr qin).
    + intros I. now apply (FO qin I).
    + intros B. apply (U qin B). exists (KFile b0). split; [assumption|discriminate].
Qed.

(** Nothing is said about where the input may be.  Refuted: if the input is itself one of the files written - a store 0.zip in output_dir, say -, it is overwritten before
    it is read: the script fails, all slices are empty, and the pairs of the input are gone. *)
Theorem C84_input_overwritten_refuted : forall p fs ns qin ks val nv n seed dir, wf_params p -> wf_fs fs ->
  Typed p !!"input" !!"zip" ns -> names_path cwd ns !!"path" qin -> holds fs qin ks val -> (forall k, In k ks -> plain_key k) ->
  Stored p !!"num_slices" nv -> int_value nv (Z.of_nat n) -> n <> 0 -> Missing p !!"explicit_split" ->
  seed_given p seed ->
  names_path cwd p !!"output_dir" dir -> unblocked fs dir -> Forall encodable dir ->
  let outs := (!!"_slices.txt" :: dir) :: map (fun i => slice_name i :: dir) (seq 0 n) in
  (forall o, In o outs -> free fs o) -> In qin outs -> ks <> [] ->
  exists fs' e, split_main p fs = (fs', Some e) /\ wf_fs fs' /\ (forall i, i < n -> holds fs' (slice_name i :: dir) [] (fun _ => [])) /\
    (exists b, look fs' (!!"_slices.txt" :: dir) = Some (KFile b) /\ decode b = Ok (py_join [LF] (map (fun i => path_str (slice_name i :: dir)) (seq 0 n)))) /\
    only_writes fs fs' dir outs.
Proof.
  clear random_perm rglob_perm other_sink.
  intros p fs ns qin ks val nv n seed dir W F T Hin C PK Sn In_ N0 Me Hs Hd U Enc outs FO Iq Ne.
  destruct (input_opens fs p ns qin ks val W T Hin C) as (later & z & ks' & Eo & _ & _ & Lo & Pk & Sv & _).
  assert (NN : nv <> PNone) by (intros ->; inversion In_).
  assert (Pn : present_ p !!"num_slices") by (exists nv; auto).
  unfold Mains.split_main. rewrite (proj2 (exactly_one p !!"num_slices" !!"explicit_split" (proj1 W))) by (left; auto). rewrite Eo.
  rewrite (proj2 (present_contains _ _ (proj1 W)) Pn). unfold split_slices.
  destruct (C80_creatable cwd p !!"output_dir" fs W cwd_proper F) as (CD & _). destruct (CD dir Hd) as (CD1 & _). destruct (CD1 U) as (fs1 & -> & M).
  assert (W1 := made_wf _ _ _ F M). assert (D1 : look fs1 dir = Some KDir) by (apply (proj1 M), below_refl).
  assert (positive_integer p !!"num_slices" PNone = Ok nv) as ->.
  { destruct (C46_required_getters p !!"num_slices" PNone W) as (_ & _ & (G & _) & _). apply G; [now constructor|]. exists (Z.of_nat n). split; [assumption|lia]. }
  assert (exists sv, optional_positive_integer p !!"random_seed" PNone = Ok sv /\ forall l, slice_order seeded_shuffle sv l = match seed with Some s => seeded_shuffle s (sorted_by str_ltb (fun k => k) l) | None => sorted_by str_ltb (fun k => k) l end) as (sv & -> & So0).
  { destruct (C46_optional_getters (fun _ => true) p !!"random_seed" W) as (_ & _ & _ & (G1 & _ & G3) & _). destruct seed as [s|]; [destruct Hs as (sv & S1 & I1 & P1)|exists PNone; auto].
    exists sv. split; [|intros l; inversion I1; subst; reflexivity]. apply G1; [assumption|intros ->; inversion I1|]. exists s. auto. }
  assert (int_of nv = Z.of_nat n) as -> by (inversion In_; reflexivity). rewrite Nat2Z.id.
  assert (Fo1 : forall o, In o outs -> free fs1 o).
  { intros o I. assert (Fo := FO o I). assert (exists c, o = c :: dir) as (c & ->). { destruct I as [<-|I]; [eauto|]. apply in_map_iff in I. destruct I as (i & <- & _). eauto. }
    assert (Ec : look fs1 (c :: dir) = look fs (c :: dir)) by apply (proj2 M), not_below_tail. unfold free. rewrite Ec. exact Fo. }
  destruct (slices_text_encodes dir n Enc) as (lb & El). unfold write_text.
  rewrite (can_write_ok fs1 _ dir W1 D1) by (apply Fo1; now left). rewrite El. set (fs2 := set_node fs1 (!!"_slices.txt" :: dir) lb).
  assert (NS : forall i, !!"_slices.txt" :: dir <> slice_file dir i).
  { intros i E. unfold slice_file in E. injection E as E. assert (I0 := decimal_digits (N.of_nat i)). destruct (decimal (N.of_nat i)) as [|c l]; simpl in E; [discriminate|]. injection E as E _. specialize (I0 c (or_introl eq_refl)). subst c. lia. }
  assert (W2 : wf_fs fs2) by (unfold fs2; apply set_wf; [assumption|assumption|apply Fo1; now left]).
  assert (D2 : look fs2 dir = Some KDir). { unfold fs2. rewrite look_set_other; [assumption|discriminate|]. intros E. apply (f_equal (@length _)) in E. simpl in E. lia. }
  assert (Fo2 : forall i, i < n -> free fs2 (slice_file dir i)).
  { intros i L. unfold free, fs2. rewrite look_set_other; [|discriminate|apply NS]. apply Fo1. right. apply in_map_iff. exists i. split; [reflexivity|]. apply in_seq. lia. }
  rewrite first_failure_none by (intros j L; apply can_write_ok; [assumption|assumption|apply Fo2; lia]).
  rewrite Lo by exact Iq.
  destruct (split_lost (slice_order seeded_shuffle sv) n (zip_source same_name bytes_value z) ks' val (fun i => disk_at ZC fs2 (slice_file dir i)) (slice_order_perm sv) Sv) as (ds & E & H).
  { intros ->. apply Ne. now apply Permutation_nil. }
  rewrite E. assert (So := split_even_sound _ _ _ _ _ _ _ E). clear E.
  destruct (slices_written ZC torn dir ds (seq 0 n) fs2 (seq_NoDup n 0) W2 D2) as (W3 & L3 & H3); [intros i I; apply Fo2; apply in_seq in I; lia|].
  fold (put_slices fs2 dir n ds) in W3, L3, H3. set (fs3 := put_slices fs2 dir n ds) in *.
  exists fs3, AnyError. split; [reflexivity|]. split; [assumption|]. split; [|split].
  - intros i Hi. assert (Ci := H i Hi). destruct (contains_zip _ _ _ Ci) as (a & Ea).
    unfold MainsProofs.holds. change (slice_name i :: dir) with (slice_file dir i). rewrite (H3 i a); [now rewrite <- Ea|apply in_seq; lia|assumption|]. apply (So i Hi). assumption.
  - exists lb. split; [|now apply C68_round_trip]. rewrite L3 by (intros i _; apply NS). unfold fs2. now apply look_set_same.
  - intros r Nr. assert (Er : look fs3 r = look fs1 r).
    { rewrite L3; [unfold fs2; apply look_set_other; [discriminate|]; intros E; apply Nr; now left|]. intros i I E. apply Nr. right. apply in_map_iff. exists i. split; [symmetry; exact E|assumption]. }
    rewrite Er. split; [apply (proj1 M)|apply (proj2 M)].
Qed.

(** C84: exactly one of num_slices and explicit_split must be given; otherwise a ParameterError, before anything is read or written. *)
Theorem C84_choice : forall p fs, wf_params p ->
  Missing p !!"num_slices" /\ Missing p !!"explicit_split" \/ present_ p !!"num_slices" /\ present_ p !!"explicit_split" -> split_main p fs = (fs, Some ParameterError).
Proof.
  clear. intros p fs (W & _) H. unfold Mains.split_main, assert_exactly_one_present. cbn [filter]. destruct H as [[M1 M2]|[P1 P2]].
  - apply (contains_false _ _ W) in M1. apply (contains_false _ _ W) in M2. now rewrite M1, M2.
  - apply (present_contains _ _ W) in P1. apply (present_contains _ _ W) in P2. now rewrite P1, P2.
Qed.
(** C84: a num_slices that is not a positive integer is rejected; but by then output_dir has been made (nothing else is written). *)
Theorem C84_bad_num_slices : forall p fs ns qin ks val nv dir, wf_params p -> wf_fs fs ->
  Typed p !!"input" !!"zip" ns -> names_path cwd ns !!"path" qin -> holds fs qin ks val ->
  Stored p !!"num_slices" nv -> nv <> PNone -> (forall z, int_value nv z -> (z <= 0)%Z) -> Missing p !!"explicit_split" -> names_path cwd p !!"output_dir" dir -> unblocked fs dir ->
  exists fs' e, split_main p fs = (fs', Some e) /\ wrong_type nv e /\ only_writes fs fs' dir [] /\ look fs' dir = Some KDir.
Proof.
  clear random_perm rglob_perm other_sink seeded_perm set_order_perm.
  intros p fs ns qin ks val nv dir W F T Hin C Sn NN Bad Me Hd U.
  destruct (input_opens fs p ns qin ks val W T Hin C) as (later & z & ks' & Eo & _ & La & _ & Pk & Sv & _).
  assert (Pn : present_ p !!"num_slices") by (exists nv; auto).
  unfold Mains.split_main. rewrite (proj2 (exactly_one p !!"num_slices" !!"explicit_split" (proj1 W))) by (left; auto). rewrite Eo.
  rewrite (proj2 (present_contains _ _ (proj1 W)) Pn). unfold split_slices.
  destruct (C80_creatable cwd p !!"output_dir" fs W cwd_proper F) as (CD & _). destruct (CD dir Hd) as (CD1 & _). destruct (CD1 U) as (fs1 & -> & M).
  destruct (C46_required_getters p !!"num_slices" PNone W) as (_ & _ & (_ & G & _) & _).
  destruct (G nv) as (e & -> & WT); [now constructor|intros (z0 & I0 & P0); specialize (Bad z0 I0); lia|]. exists fs1, e. split; [reflexivity|]. split; [assumption|].
  split; [intros r _; split; [apply (proj1 M)|apply (proj2 M)]|]. apply (proj1 M), below_refl.
Qed.

(** ** C85: join_key_value_stores *)
(** The input paths: the lines of a file (see C81), or a list of strings. *)
Inductive lists_paths (p : pv) (fs : list (list str * fnode)) (ms : list str) : Prop :=
| li_file q b t ls : names_path cwd p !!"input_store_list_file" q -> look fs q = Some (KFile b) -> decode b = Ok t -> pieces t ls -> keeps ls ms -> lists_paths p fs ms
| li_list ss : Stored p !!"input_store_list_file" (PList (map PStr ss)) -> Forall2 (stripped is_space) ss ms -> lists_paths p fs ms.
(** [qs]: the places they lead to. *)
Definition lists_inputs (p : pv) (fs : list (list str * fnode)) (qs : list (list str)) : Prop := exists ms, lists_paths p fs ms /\ Forall2 (leads fs cwd) ms qs.
Lemma listed_texts p fs ms : wf_params p -> lists_paths p fs ms -> path_list_from_file cwd p !!"input_store_list_file" None fs = Ok (map parse_path ms).
Proof.
  clear random_perm rglob_perm seeded_perm set_order_perm.
  intros W H. destruct (C81_path_list cwd p !!"input_store_list_file" None fs W cwd_proper) as (P1 & _ & _ & P2 & _). destruct H as [q b t ls Hq L D Pc K|ss Hs F].
  - destruct (P1 q b t ls ms Hq L D Pc K) as (r & -> & G). f_equal. clear -G. induction G as [|m x ms r Pl G IH]; [reflexivity|]. cbn [map]. f_equal; [exact Pl|assumption].
  - destruct (P2 _ ss Hs eq_refl) as (r & -> & G). f_equal. clear -F G. revert ms F. induction G as [|m x ss r Pl G IH]; intros ms F; inversion F as [|? q' ? qs' R F']; subst; [reflexivity|].
    cbn [map]. f_equal; [|auto]. destruct Pl as (m1 & S1 & Pl). assert (m1 = q') as -> by (eapply stripped_unique; eassumption). exact Pl.
Qed.
Lemma listed_paths p fs qs : wf_params p -> lists_inputs p fs qs -> exists paths, path_list_from_file cwd p !!"input_store_list_file" None fs = Ok paths /\
  Forall2 (fun x q => exists m, x = parse_path m /\ leads fs cwd m q) paths qs.
Proof.
  clear random_perm rglob_perm seeded_perm set_order_perm.
  intros W (ms & H & F). exists (map parse_path ms). split; [now apply listed_texts|]. clear -F. induction F as [|m q ms qs L F IH]; [constructor|]. cbn [map]. constructor; [eauto|assumption].
Qed.
(** The inputs' zip files are those of the listed places, also after directories were made and files written. *)
Lemma listed_disks fs fs' paths qs : (forall r, look fs r = Some KDir -> look fs' r = Some KDir) -> Forall2 (fun x q => exists m, x = parse_path m /\ leads fs cwd m q) paths qs ->
  map (disk_of cwd ZC fs') paths = map (disk_at ZC fs') qs.
Proof.
  clear. intros D H. induction H as [|x q l l' (m & -> & L) H IH]; [reflexivity|]. cbn [map]. f_equal; [|assumption]. apply disk_leads. eapply leads_stay; eassumption.
Qed.
Lemma put_dirs fs q b r : free fs q -> q <> [] -> look fs r = Some KDir -> look (put_disk fs q b) r = Some KDir.
Proof.
  clear. intros F N L. destruct (list_eq_dec (list_eq_dec N.eq_dec) q r) as [<-|D]; [destruct F as [F|(x & F)]; congruence|]. now rewrite look_put_other.
Qed.
Lemma output_sink fs p ns c d names : wf_params p -> wf_fs fs -> Typed p !!"output" !!"zip" ns -> names_path cwd ns !!"path" (c :: d) -> unblocked fs d ->
  ~ In (sink_class_name true true) names ->
  exists fs1, made fs fs1 d /\ the_sink fs p (map (fun n => (n, ONone)) names) = Ok (OZipSink true (c :: d) fs1).
Proof.
  clear random_perm rglob_perm seeded_perm set_order_perm.
  intros W F T H U N. unfold Mains.the_sink.
  assert (S1 : silent (Some (map (fun n => (n, @ONone X)) names)) (sink_class_name true true)).
  { intros u E I. injection E as <-. unfold keys in I. rewrite map_map in I. cbn [fst] in I. rewrite map_id in I. auto. }
  destruct (C83_zip_sink X import_module other_eval builtin locals_of x_is_class x_from_parameters x_construct x_callable x_call x_is_sink cwd other_globals fs true p !!"output" ns _ W cwd_proper F T S1) as (M & _).
  destruct (M c d H) as (fs' & r & Mk & E). destruct Mk as (M1 & _). destruct (M1 U) as (fs1 & E1 & Md). injection E1 as -> ->. exists fs1. split; [assumption|exact E].
Qed.
Lemma join_silent : ~ In (sink_class_name true true) join_locals.
Proof. clear. simpl. intuition discriminate. Qed.
(** The files given, with their contents. *)
Definition stores := list (list str * list str * (str -> bytes)).
Definition stores_ok (fs : list (list str * fnode)) (xs : stores) : Prop := forall q ks val, In (q, ks, val) xs -> holds fs q ks val /\ forall k, In k ks -> plain_key k.
Definition stored_keys (xs : stores) : list str := flat_map (fun x => snd (fst x)) xs.
(** What is common to the cases: everything is determined by the files as they are while the output is being written. *)
Lemma join_texts p fs ns c d ms : wf_params p -> wf_fs fs -> lists_paths p fs ms ->
  Typed p !!"output" !!"zip" ns -> names_path cwd ns !!"path" (c :: d) -> unblocked fs d -> free fs (c :: d) ->
  exists fs1, made fs fs1 d /\ forall dd e ks val, join_stores set_order (map (disk_of cwd ZC (put_disk fs1 (c :: d) Partial)) (map parse_path ms)) (disk_at ZC fs1 (c :: d)) = (dd, e) -> contains dd ks val ->
  exists fs', join_main p fs = (fs', e) /\ wf_fs fs' /\ holds fs' (c :: d) ks val /\ only_writes fs fs' d [c :: d].
Proof.
  clear random_perm rglob_perm seeded_perm set_order_perm.
  intros W F LI T H U Fr. assert (Ep := listed_texts p fs ms W LI). destruct (output_sink fs p ns c d join_locals W F T H U join_silent) as (fs1 & M & Es).
  exists fs1. split; [assumption|]. intros dd e ks val J C.
  unfold Mains.join_main. rewrite Ep, Es. unfold write_sink. assert (W1 := made_wf _ _ _ F M). assert (D1 : look fs1 d = Some KDir) by (apply (proj1 M), below_refl).
  assert (Ec : look fs1 (c :: d) = look fs (c :: d)) by apply (proj2 M), not_below_tail.
  destruct (write_zip_frame ZC torn set_order fs1 c d (fun fs2 => join_inputs [] (map (disk_of cwd ZC fs2) (map parse_path ms))) ks val dd e W1 D1) as (fs' & E & Hh & W' & Fr').
  - unfold free. rewrite Ec. exact Fr.
  - exact J.
  - exact C.
  - exists fs'. split; [exact E|]. split; [assumption|]. split; [assumption|]. intros r Nr. assert (r <> c :: d) as Nr' by (intros ->; apply Nr; now left). rewrite (Fr' r Nr'). split; [apply (proj1 M)|apply (proj2 M)].
Qed.
(** Directories of before are still there while the output is being written. *)
Lemma dirs_then fs fs1 c d r : made fs fs1 d -> free fs (c :: d) -> look fs r = Some KDir -> look (put_disk fs1 (c :: d) Partial) r = Some KDir.
Proof.
  clear. intros M F L. apply put_dirs; [|discriminate|eapply made_dirs; eassumption]. unfold free. assert (look fs1 (c :: d) = look fs (c :: d)) as -> by apply (proj2 M), not_below_tail. exact F.
Qed.
Lemma join_run p fs ns c d qs : wf_params p -> wf_fs fs -> lists_inputs p fs qs ->
  Typed p !!"output" !!"zip" ns -> names_path cwd ns !!"path" (c :: d) -> unblocked fs d -> free fs (c :: d) ->
  exists fs1, made fs fs1 d /\ forall dd e ks val, join_stores set_order (map (disk_at ZC (put_disk fs1 (c :: d) Partial)) qs) (disk_at ZC fs1 (c :: d)) = (dd, e) -> contains dd ks val ->
  exists fs', join_main p fs = (fs', e) /\ wf_fs fs' /\ holds fs' (c :: d) ks val /\ only_writes fs fs' d [c :: d].
Proof.
  clear random_perm rglob_perm seeded_perm set_order_perm.
  intros W F (ms & LI & FL) T H U Fr. destruct (join_texts p fs ns c d ms W F LI T H U Fr) as (fs1 & M & R). exists fs1. split; [assumption|]. intros dd e ks val J C. apply (R dd e ks val); [|exact C].
  rewrite (listed_disks fs (put_disk fs1 (c :: d) Partial) _ qs); [exact J|intros r L; eapply dirs_then; eassumption|]. clear -FL. induction FL; cbn [map]; constructor; eauto.
Qed.
(** While the output is being written, the other files are as they were. *)
Lemma still_holds fs fs1 c d q ks val : unblocked fs d -> made fs fs1 d -> holds fs q ks val -> q <> c :: d -> contains (disk_at ZC (put_disk fs1 (c :: d) Partial) q) ks val.
Proof.
  clear. intros U M H N. destruct (holds_file ZC fs q ks val H) as (b & a & L & _). apply (holds_same ZC fs _ q ks val H). rewrite look_put_other by (discriminate || congruence). apply (proj2 M).
  intros B. apply (U q B). exists (KFile b). split; [assumption|discriminate].
Qed.
Lemma inputs_still_ok fs fs1 c d xs : unblocked fs d -> made fs fs1 d -> stores_ok fs xs -> ~ In (c :: d) (map (fun x => fst (fst x)) xs) ->
  let ys := map (fun x => (disk_at ZC (put_disk fs1 (c :: d) Partial) (fst (fst x)), snd (fst x), snd x)) xs in inputs_ok ys /\ all_keys ys = stored_keys xs.
Proof.
  clear. intros U M Ok_ N ys. split.
  - intros d0 ks val I. apply in_map_iff in I. destruct I as ([[q ks0] v0] & E & I). injection E as <- <- <-. destruct (Ok_ q ks0 v0 I) as (Hh & P). split; [|assumption]. cbn [fst snd]. eapply still_holds; try eassumption.
    intros ->. apply N. apply in_map_iff. eexists. split; [|eassumption]. reflexivity.
  - unfold all_keys, stored_keys, ys. induction xs as [|x xs IH]; [reflexivity|]. cbn [map flat_map]. cbn [fst snd]. f_equal. apply IH; [intros q k v I; apply Ok_; now right|]. intros I. apply N. now right.
Qed.
Lemma only_writes_ok fs fs' c d xs : unblocked fs d -> stores_ok fs xs -> ~ In (c :: d) (map (fun x => fst (fst x)) xs) -> only_writes fs fs' d [c :: d] -> stores_ok fs' xs.
Proof.
  clear. intros U Ok_ N OW q ks0 v I. destruct (Ok_ q ks0 v I) as (Hq & Pq). split; [|assumption]. apply (holds_same ZC fs); [assumption|]. destruct (holds_file ZC fs q ks0 v Hq) as (b & a & L & _).
  apply OW.
  - intros [E'|[]]. apply N. rewrite E'. apply in_map_iff. exists (q, ks0, v). auto.
  - intros B. apply (U q B). exists (KFile b). split; [assumption|discriminate].
Qed.
(** C85: if no key occurs in two inputs, the output holds exactly the pairs of all inputs, which stay as they were. *)
Theorem C85_join : forall p fs ns c d xs, wf_params p -> wf_fs fs -> lists_inputs p fs (map (fun x => fst (fst x)) xs) -> stores_ok fs xs -> NoDup (stored_keys xs) ->
  Typed p !!"output" !!"zip" ns -> names_path cwd ns !!"path" (c :: d) -> unblocked fs d -> free fs (c :: d) -> ~ In (c :: d) (map (fun x => fst (fst x)) xs) ->
  exists fs' val, join_main p fs = (fs', None) /\ wf_fs fs' /\ holds fs' (c :: d) (stored_keys xs) val /\
    (forall q ks v k, In (q, ks, v) xs -> In k ks -> val k = v k) /\ only_writes fs fs' d [c :: d] /\ stores_ok fs' xs.
Proof.
  clear random_perm rglob_perm seeded_perm.
  intros p fs ns c d xs W F LI Ok_ ND T H U Fr N.
  destruct (join_run p fs ns c d _ W F LI T H U Fr) as (fs1 & M & R). destruct (inputs_still_ok fs fs1 c d xs U M Ok_ N) as (O & K).
  set (ys := map (fun x => (disk_at ZC (put_disk fs1 (c :: d) Partial) (fst (fst x)), snd (fst x), snd x)) xs) in *. rewrite <- K in ND.
  destruct (C63_join set_order set_order_perm ys (disk_at ZC fs1 (c :: d)) O ND) as (dd & val & J & V & C). rewrite K in C. unfold ys in J. rewrite map_map in J. cbn [fst] in J.
  destruct (R dd None (stored_keys xs) val) as (fs' & E & W' & Hh & OW); [rewrite map_map; exact J|exact C|].
  exists fs', val. split; [assumption|]. split; [assumption|]. split; [assumption|]. split; [|split; [assumption|]].
  - intros q ks0 v k I Ik. apply (V (disk_at ZC (put_disk fs1 (c :: d) Partial) q) ks0 v k); [|assumption]. apply in_map_iff. exists (q, ks0, v). auto.
  - exact (only_writes_ok fs fs' c d xs U Ok_ N OW).
Qed.
(** C85: a key occurring in two inputs is an error (RuntimeError); the output then holds pairs of the inputs, which stay as they were. *)
Theorem C85_duplicate : forall p fs ns c d xs, wf_params p -> wf_fs fs -> lists_inputs p fs (map (fun x => fst (fst x)) xs) -> stores_ok fs xs -> ~ NoDup (stored_keys xs) ->
  Typed p !!"output" !!"zip" ns -> names_path cwd ns !!"path" (c :: d) -> unblocked fs d -> free fs (c :: d) -> ~ In (c :: d) (map (fun x => fst (fst x)) xs) ->
  exists fs' ks val, join_main p fs = (fs', Some RuntimeError) /\ wf_fs fs' /\ holds fs' (c :: d) ks val /\
    (forall k, In k ks -> exists q ks0 v0, In (q, ks0, v0) xs /\ In k ks0 /\ val k = v0 k) /\ only_writes fs fs' d [c :: d] /\ stores_ok fs' xs.
Proof.
  clear random_perm rglob_perm seeded_perm.
  intros p fs ns c d xs W F LI Ok_ ND T H U Fr N.
  destruct (join_run p fs ns c d _ W F LI T H U Fr) as (fs1 & M & R). destruct (inputs_still_ok fs fs1 c d xs U M Ok_ N) as (O & K).
  set (ys := map (fun x => (disk_at ZC (put_disk fs1 (c :: d) Partial) (fst (fst x)), snd (fst x), snd x)) xs) in *. rewrite <- K in ND.
  destruct (C63_duplicate set_order set_order_perm ys (disk_at ZC fs1 (c :: d)) O ND) as (dd & ks & val & J & C & _ & V). unfold ys in J. rewrite map_map in J. cbn [fst] in J.
  destruct (R dd (Some RuntimeError) ks val) as (fs' & E & W' & Hh & OW); [rewrite map_map; exact J|exact C|].
  exists fs', ks, val. split; [assumption|]. split; [assumption|]. split; [assumption|]. split; [|split; [assumption|exact (only_writes_ok fs fs' c d xs U Ok_ N OW)]].
  intros k I. destruct (V k I) as (d0 & ks0 & v0 & I1 & I2 & I3). apply in_map_iff in I1. destruct I1 as ([[q ks1] v1] & E1 & I1). injection E1 as <- <- <-. exists q, ks1, v1. auto.
Qed.
(** C85: which pairs that are: those of the inputs before the first one repeating a key, completely; of that one only pairs with new keys; none of the others. *)
Theorem C85_first_duplicate : forall p fs ns c d before q ks v after, wf_params p -> wf_fs fs ->
  let xs := before ++ (q, ks, v) :: after in
  lists_inputs p fs (map (fun x => fst (fst x)) xs) -> stores_ok fs xs -> NoDup (stored_keys before) -> (exists k, In k ks /\ In k (stored_keys before)) ->
  Typed p !!"output" !!"zip" ns -> names_path cwd ns !!"path" (c :: d) -> unblocked fs d -> free fs (c :: d) -> ~ In (c :: d) (map (fun x => fst (fst x)) xs) ->
  exists fs' part val, join_main p fs = (fs', Some RuntimeError) /\ wf_fs fs' /\ holds fs' (c :: d) (stored_keys before ++ part) val /\
    (forall q0 ks0 v0 k, In (q0, ks0, v0) before -> In k ks0 -> val k = v0 k) /\
    (forall k, In k part -> In k ks /\ ~ In k (stored_keys before) /\ val k = v k) /\ only_writes fs fs' d [c :: d] /\ stores_ok fs' xs.
Proof.
  clear random_perm rglob_perm seeded_perm.
  intros p fs ns c d before q ks v after W F xs LI Ok_ ND Dup T H U Fr N.
  destruct (join_run p fs ns c d _ W F LI T H U Fr) as (fs1 & M & R). destruct (inputs_still_ok fs fs1 c d xs U M Ok_ N) as (O & K).
  set (now_ := fun x : list str * list str * (str -> bytes) => (disk_at ZC (put_disk fs1 (c :: d) Partial) (fst (fst x)), snd (fst x), snd x)) in *.
  assert (Kb : all_keys (map now_ before) = stored_keys before).
  { unfold all_keys, stored_keys. clear. induction before as [|x l IH]; [reflexivity|]. cbn [map flat_map]. rewrite IH. reflexivity. }
  destruct (C63_first_duplicate set_order set_order_perm (map now_ before) (disk_at ZC (put_disk fs1 (c :: d) Partial) q) ks v (map (fun x => fst (fst (now_ x))) after) (disk_at ZC fs1 (c :: d))) as (dd & part & val & J & C & V & Pt).
  { intros d0 ks0 v0 I. apply O. unfold xs. rewrite map_app. apply in_app_iff in I. apply in_or_app. destruct I as [I|[I|[]]]; [now left|right; left; exact I]. }
  { now rewrite Kb. } { now rewrite Kb. }
  rewrite Kb in C, Pt.
  destruct (R dd (Some RuntimeError) (stored_keys before ++ part) val) as (fs' & E & W' & Hh & OW); [|exact C|].
  { rewrite <- J. f_equal. unfold xs. rewrite map_map, !map_app, map_map. cbn [map]. reflexivity. }
  exists fs', part, val. split; [assumption|]. split; [assumption|]. split; [assumption|]. split; [|split; [exact Pt|split; [assumption|exact (only_writes_ok fs fs' c d xs U Ok_ N OW)]]].
  intros q0 ks0 v0 k I Ik. apply (V (disk_at ZC (put_disk fs1 (c :: d) Partial) q0) ks0 v0 k); [|assumption]. apply in_map_iff. exists (q0, ks0, v0). auto.
Qed.
(** C85: if an input is no readable zip file (there is nothing, or something else; it may be the output), joining fails; the output then holds exactly the pairs of the inputs before it, which stay
    as they were. *)
Theorem C85_unreadable_input : forall p fs ns c d ms m rest xs, wf_params p -> wf_fs fs -> lists_paths p fs (ms ++ m :: rest) -> Forall2 (leads fs cwd) ms (map (fun x => fst (fst x)) xs) ->
  stores_ok fs xs -> NoDup (stored_keys xs) -> (forall q b a, resolve cwd m = Ok q -> look fs q = Some (KFile b) -> q <> c :: d -> unzip ZC b <> Ok a) -> (forall a, unzip ZC torn <> Ok a) ->
  Typed p !!"output" !!"zip" ns -> names_path cwd ns !!"path" (c :: d) -> unblocked fs d -> free fs (c :: d) -> ~ In (c :: d) (map (fun x => fst (fst x)) xs) ->
  exists fs' e val, join_main p fs = (fs', Some e) /\ wf_fs fs' /\ holds fs' (c :: d) (stored_keys xs) val /\
    (forall q ks v k, In (q, ks, v) xs -> In k ks -> val k = v k) /\ only_writes fs fs' d [c :: d] /\ stores_ok fs' xs.
Proof.
  clear random_perm rglob_perm seeded_perm.
  intros p fs ns c d ms m rest xs W F LI FL Ok_ ND Bad Tn T H U Fr N.
  destruct (join_texts p fs ns c d _ W F LI T H U Fr) as (fs1 & M & R). destruct (inputs_still_ok fs fs1 c d xs U M Ok_ N) as (O & K).
  set (ys := map (fun x => (disk_at ZC (put_disk fs1 (c :: d) Partial) (fst (fst x)), snd (fst x), snd x)) xs) in *. rewrite <- K in ND.
  assert (exists e, source_enter (disk_of cwd ZC (put_disk fs1 (c :: d) Partial) (parse_path m)) = Raise e) as (e & Ee).
  { unfold disk_of. destruct (os_find cwd (put_disk fs1 (c :: d) Partial) (parse_path m)) as [q|] eqn:Of; [|eexists; reflexivity]. apply find_leads in Of. assert (Rq := leads_resolve _ _ _ _ Of).
    destruct (list_eq_dec (list_eq_dec N.eq_dec) q (c :: d)) as [->|Nq].
    - unfold disk_at, Mains.put_disk. rewrite look_set_same by discriminate. destruct (unzip ZC torn) as [a|] eqn:E; [now destruct (Tn a)|eexists; reflexivity].
    - unfold disk_at. rewrite look_put_other by (discriminate || congruence). destruct (look fs1 q) as [[b| |]|] eqn:L; try (eexists; reflexivity). assert (look fs q = Some (KFile b)) as L'.
      { destruct (at_or_below q d) eqn:B; [apply at_or_below_spec in B; apply (proj1 M) in B; congruence|]. rewrite <- (proj2 M); [assumption|]. intros B'. apply at_or_below_spec in B'. congruence. }
      destruct (unzip ZC b) as [a|] eqn:E; [now destruct (Bad q b a Rq L' Nq)|eexists; reflexivity]. }
  destruct (C63_bad_input set_order set_order_perm ys _ e (map (disk_of cwd ZC (put_disk fs1 (c :: d) Partial)) (map parse_path rest)) (disk_at ZC fs1 (c :: d)) O ND Ee) as (dd & val & J & V & C). rewrite K in C.
  destruct (R dd (Some e) (stored_keys xs) val) as (fs' & E & W' & Hh & OW); [|exact C|].
  - rewrite <- J. rewrite !map_app. cbn [map]. f_equal. f_equal. assert (map (fun x => fst (fst x)) ys = map (disk_at ZC (put_disk fs1 (c :: d) Partial)) (map (fun x => fst (fst x)) xs)) as -> by (unfold ys; now rewrite !map_map).
    apply (listed_disks fs); [intros r L; eapply dirs_then; eassumption|]. clear -FL. induction FL; cbn [map]; constructor; eauto.
  - exists fs', e, val. split; [assumption|]. split; [assumption|]. split; [assumption|]. split; [|split; [assumption|exact (only_writes_ok fs fs' c d xs U Ok_ N OW)]].
    intros q ks0 v k I Ik. apply (V (disk_at ZC (put_disk fs1 (c :: d) Partial) q) ks0 v k); [|assumption]. apply in_map_iff. exists (q, ks0, v). auto.
Qed.
(** Documented: "Combine multiple key-value stores".  Refuted if the output file is among the inputs: it is emptied before it is read, so joining fails and
    what it held is lost (here: as the first input, and the output holds nothing). *)
Theorem C85_output_among_inputs_refuted : forall p fs ns c d qs, wf_params p -> wf_fs fs -> lists_inputs p fs ((c :: d) :: qs) -> (forall a, unzip ZC torn <> Ok a) ->
  Typed p !!"output" !!"zip" ns -> names_path cwd ns !!"path" (c :: d) -> unblocked fs d -> free fs (c :: d) ->
  exists fs' e, join_main p fs = (fs', Some e) /\ holds fs' (c :: d) [] (fun _ => []) /\ only_writes fs fs' d [c :: d].
Proof.
  clear random_perm rglob_perm seeded_perm.
  intros p fs ns c d qs W F LI Tn T H U Fr. destruct (join_run p fs ns c d _ W F LI T H U Fr) as (fs1 & M & R).
  assert (Ed : disk_at ZC (put_disk fs1 (c :: d) Partial) (c :: d) = Partial).
  { unfold disk_at, Mains.put_disk. rewrite look_set_same by discriminate. destruct (unzip ZC torn) as [a|e] eqn:E; [now destruct (Tn a)|reflexivity]. }
  destruct (write_stream_pairs set_order set_order_perm (disk_at ZC fs1 (c :: d)) [] (fun _ => []) (Some AnyError)) as (dd & J & C); [constructor|intros ? []|].
  destruct (R dd (Some AnyError) [] (fun _ => [])) as (fs' & E & _ & Hh & OW).
  - unfold join_stores. cbn [map]. rewrite Ed. exact J.
  - exact C.
  - exists fs', AnyError. auto.
Qed.
(** C85: splitting (C84) and then joining the listed slices gives back a store with exactly the pairs of the input. *)
Theorem C85_join_split : forall p fs ns qin ks val nv n seed dir p' ns' c d, wf_params p -> wf_fs fs ->
  Typed p !!"input" !!"zip" ns -> names_path cwd ns !!"path" qin -> holds fs qin ks val -> (forall k, In k ks -> plain_key k) ->
  Stored p !!"num_slices" nv -> int_value nv (Z.of_nat n) -> n <> 0 -> Missing p !!"explicit_split" -> seed_given p seed ->
  names_path cwd p !!"output_dir" dir -> unblocked fs dir -> Forall encodable dir -> Forall unbroken dir ->
  let outs := (!!"_slices.txt" :: dir) :: map (fun i => slice_name i :: dir) (seq 0 n) in
  (forall o, In o outs -> free fs o /\ o <> qin) ->
  wf_params p' -> names_path cwd p' !!"input_store_list_file" (!!"_slices.txt" :: dir) -> Typed p' !!"output" !!"zip" ns' -> names_path cwd ns' !!"path" (c :: d) ->
  unblocked fs d -> free fs (c :: d) -> (forall o, In o outs -> ~ below o d) -> ~ below (c :: d) dir -> ~ In (c :: d) outs ->
  exists fs1 fs2, split_main p fs = (fs1, None) /\ join_main p' fs1 = (fs2, None) /\ holds fs2 (c :: d) ks val.
Proof.
  clear random_perm rglob_perm.
  intros p fs ns qin ks val nv n seed dir p' ns' c d W F T Hin C PK Sn In_ N0 Me Hs Hd U Enc Unb outs FO W' Hl T' Ho Ud Fd Bd Bd2 No.
  destruct (C84_split p fs ns qin ks val nv n seed dir W F T Hin C PK Sn In_ N0 Me Hs Hd U Enc FO) as (fs1 & parts & E & W1 & Ln & Pp & _ & Hp & (b & Lb & Db) & OW & _).
  assert (Pd : Forall proper dir) by (destruct Hd as (s & _ & R); eapply resolve_proper; [exact cwd_proper|exact R]).
  set (xs := map (fun i => (slice_name i :: dir, nth i parts [], val)) (seq 0 n)).
  assert (Xq : map (fun x => fst (fst x)) xs = map (fun i => slice_name i :: dir) (seq 0 n)) by (unfold xs; rewrite map_map; reflexivity).
  assert (Xk : stored_keys xs = concat parts).
  { unfold xs, stored_keys. rewrite flat_map_concat_map, map_map. cbn [fst snd]. f_equal. clear -Ln. subst n. induction parts as [|x l IH]; [reflexivity|]. cbn [length seq map nth]. f_equal. rewrite <- seq_shift, map_map. exact IH. }
  assert (Ok_ : stores_ok fs1 xs).
  { intros q k0 v I. apply in_map_iff in I. destruct I as (i & E1 & I). injection E1 as <- <- <-. apply in_seq in I. destruct (nth_error parts i) as [part|] eqn:Ni; [|apply nth_error_None in Ni; lia].
    rewrite (nth_error_nth _ _ _ Ni). destruct (Hp i part Ni) as (Hi & _). split; [assumption|]. intros k Ik. apply PK. apply (Permutation_in _ Pp). apply in_concat. exists part. split; [|assumption]. eapply nth_error_In; eassumption. }
  assert (ND : NoDup (stored_keys xs)) by (rewrite Xk; apply (Permutation_NoDup (Permutation_sym Pp)); eapply contains_nodup; exact C).
  assert (LI : lists_inputs p' fs1 (map (fun x => fst (fst x)) xs)).
  { rewrite Xq. set (lines := map (fun i => path_str (slice_name i :: dir)) (seq 0 n)) in *.
    assert (PL : pieces (py_join [LF] lines) lines /\ keeps lines lines).
    { apply (slices_pieces dir n Pd Unb). }
    destruct PL as (PL & KL). exists lines. split; [exact (li_file p' fs1 _ (!!"_slices.txt" :: dir) b _ lines Hl Lb Db PL KL)|].
    assert (Ex : forall i, In i (seq 0 n) -> look fs1 (slice_name i :: dir) <> None).
    { intros i I. apply in_seq in I. destruct (nth_error parts i) as [part|] eqn:Ni; [|apply nth_error_None in Ni; lia]. destruct (Hp i part Ni) as (Hi & _). destruct (holds_file ZC fs1 _ _ _ Hi) as (x & a & Lx & _). change (look fs1 (slice_name i :: dir) = Some (KFile x)) in Lx. rewrite Lx. discriminate. }
    unfold lines. clear -Pd Unb Ex W1. induction (seq 0 n) as [|i l IH]; cbn [map]; constructor; [|apply IH; intros j J; apply Ex; now right]. apply path_str_leads; [assumption| |apply Ex; now left].
    exact (proj2 (no_break_join dir Pd Unb i)). }
  assert (Ud1 : unblocked fs1 d).
  { intros r B O. destruct O as (k & Lk & Nk). destruct (in_dec (list_eq_dec (list_eq_dec N.eq_dec)) r outs) as [I|I]; [now apply (Bd r I)|].
    destruct (OW r I) as (O1 & O2). destruct (at_or_below r dir) eqn:X0; [apply at_or_below_spec in X0; rewrite (O1 X0) in Lk; congruence|].
    assert (~ below r dir) as X1 by (intros X1; apply at_or_below_spec in X1; congruence). rewrite (O2 X1) in Lk. apply (Ud r B). exists k. auto. }
  assert (Fd1 : free fs1 (c :: d)).
  { destruct (OW (c :: d) No) as (_ & O2). unfold free. rewrite (O2 Bd2). exact Fd. }
  destruct (C85_join p' fs1 ns' c d xs W' W1 LI Ok_ ND T' Ho Ud1 Fd1) as (fs2 & v2 & E2 & _ & Hh & V & _).
  { rewrite Xq. intros I. apply No. now right. }
  exists fs1, fs2. split; [assumption|]. split; [assumption|]. rewrite Xk in Hh. apply (contains_ext _ _ v2); [apply (contains_perm _ (concat parts)); assumption|].
  intros k Ik. apply (Permutation_in _ (Permutation_sym Pp)) in Ik. rewrite <- Xk in Ik. unfold stored_keys in Ik. apply in_flat_map in Ik. destruct Ik as ([[q k0] v0] & I1 & I2). cbn [fst snd] in I2. rewrite (V q k0 v0 k I1 I2).
  apply in_map_iff in I1. destruct I1 as (i & E1 & _). now injection E1 as _ _ <-.
Qed.

(** ** C86: downsample_key_value_store *)
(** The list of keys in a finished zip store: the keys put, as Python's set gives them. *)
Lemma puts_keys : forall val ks d s d2 s2, s_state s <> NotOpened -> puts same_name d s (pairs val ks) = (d2, s2, map (fun _ => Ok tt) (pairs val ks)) -> s_keys s2 = s_keys s ++ ks.
Proof.
  clear. intros val. induction ks as [|k ks IH]; intros d s d2 s2 N E; cbn [pairs map puts] in E; [injection E as _ <-; now rewrite app_nil_r|].
  destruct (put same_name d s k (VBytes (val k))) as [[d3 s3] o] eqn:P. destruct (puts same_name d3 s3 (map (fun k => (k, VBytes (val k))) ks)) as [[d4 s4] os] eqn:Q.
  inversion E; subst; clear E. unfold put in P. destruct (s_state s) as [|a|] eqn:St; [congruence| |].
  - destruct (in_keys k (s_keys s)); [discriminate P|]. cbn [s_keys] in P. destruct (writestr a (same_name k) (val k)) as [a'|]; [|discriminate P]. injection P as _ <-.
    apply IH in Q; [|discriminate]. rewrite Q. cbn [s_keys]. rewrite <- app_assoc. reflexivity.
  - destruct (in_keys k (s_keys s)); cbv zeta in P; discriminate P.
Qed.
Lemma stream_key_list so d val ks a : (forall l, Permutation (so l) l) -> NoDup ks -> (forall k, In k ks -> plain_key k) -> write_stream so d (pairs val ks, None) = (Zip a, None) -> read_keys a = Ok (Some (so ks)).
Proof.
  clear. intros PO ND PK E. destruct (session_pairs so PO d ks val ND PK) as (a0 & s' & Es & _). unfold write_stream in E. unfold KeyValue.session in Es.
  destruct (sink_enter true d new_sink) as [[d1 s1] x] eqn:En. destruct x as [[]|x]; [|congruence]. destruct (puts same_name d1 s1 (pairs val ks)) as [[d2 s2] os] eqn:P.
  destruct (sink_exit so d2 s2) as [[d3 s3] y] eqn:X. inversion Es; subst; clear Es. cbn [fst snd] in E. rewrite (puts_until_ok _ _ _ _ _ P), X in E. inversion E; subst; clear E.
  unfold sink_enter in En. cbn in En. inversion En; subst; clear En. pose proof P as K; apply puts_keys in K; [|discriminate]. cbn [s_keys app] in K.
  unfold sink_exit in X. destruct (s_state s2) as [|b|]; [discriminate X| |destruct (encode _); discriminate X]. rewrite K in X.
  assert (In' : forall k, In k (so ks) <-> In k ks) by (intros k; split; apply Permutation_in; [apply PO|symmetry; apply PO]).
  destruct (C58_round_trip b (so ks)) as (a' & Wr & _ & R); [apply (Permutation_NoDup (Permutation_sym (PO ks))), ND|intros k I; apply PK, In', I|].
  rewrite Wr in X. injection X as -> _. apply R. split; [intros k I; apply PK, In', I|]. intros E. assert (In ([] : str) ks) as I by (apply In'; rewrite E; simpl; auto). now destruct (PK _ I).
Qed.
Lemma kept_stream src ks val kept (shuffle : list str -> list str) n : serves src ks val -> incl kept ks -> Permutation (shuffle ks) ks -> kept = firstn n (shuffle ks) ->
  yield_all (fun k => let* b := src_item src k in Ok (Some (k, VBytes b))) (firstn (Nat.min n (length ks)) (shuffle ks)) = (pairs val kept, None).
Proof.
  clear. intros (_ & _ & I) IN PS E.
  assert (firstn (Nat.min n (length ks)) (shuffle ks) = kept) as ->.
  { rewrite E. destruct (Nat.min_spec n (length ks)) as [(_ & ->)|(H & ->)]; [reflexivity|]. rewrite <- (Permutation_length PS) in H |- *. rewrite firstn_all. symmetry. now apply firstn_all2. }
  clear E. induction kept as [|k l IH]; [reflexivity|]. cbn [yield_all]. rewrite (I k) by (apply IN; simpl; auto). cbn [bind]. rewrite IH; [reflexivity|]. intros x Hx. apply IN. simpl; auto.
Qed.
Lemma downsample_lost shuffle n src ks val d : (forall l, Permutation (shuffle l) l) -> serves src ks val -> ks <> [] -> n <> 0 ->
  exists d', downsample set_order shuffle n (lost src) d = (d', Some AnyError) /\ exists st, write_stream set_order d st = (d', Some AnyError) /\ contains d' [] (fun _ => []).
Proof.
  clear random_perm rglob_perm seeded_perm cwd_proper.
  intros P (K & _ & I) N N0. unfold downsample, lost. cbn [src_keys src_item]. rewrite K. cbv zeta.
  assert (Pk := P ks). destruct (shuffle ks) as [|k r] eqn:Er; [exfalso; apply N; now apply Permutation_nil|].
  destruct n as [|n]; [congruence|]. destruct ks as [|k0 ks]; [congruence|]. cbn [length Nat.min firstn yield_all src_item].
  rewrite (I k) by (apply (Permutation_in _ Pk); now left). cbn [bind].
  destruct (write_stream_pairs set_order set_order_perm d [] (fun _ => []) (Some AnyError)) as (d' & E & C); [constructor|intros ? []|]. exists d'. split; [exact E|]. exists ([], Some AnyError). auto.
Qed.
(** C86: which pairs the output holds: those whose keys come first when the input's list of keys is shuffled with the seed.  So it depends on nothing but the input, the seed and num_to_sample. *)
Theorem C86_which : forall p fs ns qin ks val nv n s c d, wf_params p -> wf_fs fs ->
  Typed p !!"input" !!"zip" ns -> names_path cwd ns !!"path" qin -> holds fs qin ks val -> (forall k, In k ks -> plain_key k) ->
  Stored p !!"num_to_sample" nv -> int_value nv (Z.of_nat n) -> n <> 0 ->
  sample_seed p s ->
  names_path cwd p !!"output_zip_path" (c :: d) -> unblocked fs d -> free fs (c :: d) -> c :: d <> qin ->
  exists fs' kept, downsample_main p fs = (fs', None) /\ wf_fs fs' /\ holds fs' (c :: d) kept val /\
    NoDup kept /\ incl kept ks /\ length kept = Nat.min n (length ks) /\ only_writes fs fs' d [c :: d] /\ holds fs' qin ks val /\
    (exists l, key_list ZC fs qin l /\ kept = firstn n (random_shuffle s l)) /\ key_list ZC fs' (c :: d) (set_order kept).
Proof. clear oeq.
  clear seeded_perm rglob_perm.
  intros p fs ns qin ks val nv n s c d W F T Hin C PK Sn In_ N0 Hs Ho U Fr Nq.
  assert (KL : forall z l, source_enter (disk_at ZC fs qin) = Ok z -> src_keys (zip_source same_name bytes_value z) = Ok (Some l) -> key_list ZC fs qin l).
  { intros z l Ez Kz. destruct (holds_file ZC fs qin ks val C) as (b0 & a0 & Lq & Uq & Dq). rewrite Dq in Ez. unfold source_enter in Ez. exists b0, a0. destruct (read_keys a0) as [o|]; [|discriminate Ez]. injection Ez as <-. cbn in Kz. split; [exact Lq|]. split; [exact Uq|]. congruence. }
  destruct (input_opens fs p ns qin ks val W T Hin C) as (later & z & ks' & _ & Eo & La & _ & Pk & Sv & _ & _ & Ez).
  unfold Mains.downsample_main. rewrite Eo. assert (Sk := proj1 Sv). rewrite (La fs []) by (intros []). rewrite Sk.
  assert (positive_integer p !!"num_to_sample" PNone = Ok nv) as ->.
  { destruct (C46_required_getters p !!"num_to_sample" PNone W) as (_ & _ & (G & _) & _). apply G; [now constructor|]. exists (Z.of_nat n). split; [assumption|lia]. }
  assert (exists seed, integer p !!"random_seed" (PInt 0) (MkRange BelowAll AboveAll) = Ok seed /\ int_of seed = s) as (seed & -> & Es).
  { destruct (C46_required_getters p !!"random_seed" (PInt 0) W) as (_ & G & _). destruct (G (MkRange BelowAll AboveAll)) as (G1 & _).
    destruct Hs as [(A & ->)|(sv & Ss & Is)]; [exists (PInt 0); split; [apply G1; [constructor; [assumption|discriminate]|]; exists 0%Z; split; [constructor|reflexivity]|reflexivity]|].
    exists sv. split; [apply G1; [now constructor|]; exists s; split; [assumption|reflexivity]|inversion Is; reflexivity]. }
  destruct (C80_creatable cwd p !!"output_zip_path" fs W cwd_proper F) as (_ & CF & _). destruct (CF c d Ho) as (CF1 & _). destruct (CF1 U) as (fs1 & -> & M).
  assert (W1 := made_wf _ _ _ F M). assert (D1 : look fs1 d = Some KDir) by (apply (proj1 M), below_refl).
  assert (Ec : look fs1 (c :: d) = look fs (c :: d)) by apply (proj2 M), not_below_tail.
  assert (Fr1 : free fs1 (c :: d)) by (unfold free; rewrite Ec; exact Fr). rewrite (can_write_ok fs1 c d W1 D1 Fr1).
  assert (int_of nv = Z.of_nat n) as -> by (inversion In_; reflexivity). rewrite Nat2Z.id.
  rewrite La by (intros [E0|[]]; exact (Nq E0)).
  assert (PK' : forall k, In k ks' -> plain_key k) by (intros k I; apply PK; now apply (Permutation_in _ Pk)).
  destruct (C64_downsample set_order set_order_perm (random_shuffle (int_of seed)) n (zip_source same_name bytes_value z) ks' val (disk_at ZC fs1 (c :: d)) (random_perm _) Sv PK') as (dd & kept & E & Cd & Nk & Ik & Lk & Wk).
  rewrite E. unfold downsample in E. rewrite Sk in E.
  assert (KO : key_list ZC (put_disk fs1 (c :: d) dd) (c :: d) (set_order kept)).
  { cbv zeta in E. rewrite (kept_stream _ ks' val kept (random_shuffle (int_of seed)) n Sv Ik (random_perm _ _) Wk) in E. destruct (contains_zip _ _ _ Cd) as (a1 & ->).
    destruct (write_stream_sound _ _ _ _ _ E) as (_ & Zo). exists (dozip ZC [] a1), a1. cbn [Mains.put_disk]. split; [apply look_set_same; discriminate|]. split; [apply unzip_dozip; now apply Zo|].
    eapply stream_key_list; [exact set_order_perm|exact Nk|intros k I; exact (PK' k (Ik k I))|exact E]. }
  assert (OW : only_writes fs (put_disk fs1 (c :: d) dd) d [c :: d]).
  { intros r Nr. rewrite look_put_other; [split; [apply (proj1 M)|apply (proj2 M)]|discriminate|]. intros E1. apply Nr. left. exact E1. }
  exists (put_disk fs1 (c :: d) dd), kept. split; [reflexivity|]. split; [now apply put_wf|]. split; [eapply put_disk_holds; [discriminate|exact E|exact Cd]|].
  split; [assumption|]. split; [intros k I; apply (Permutation_in _ Pk); auto|]. split; [now rewrite Lk, (Permutation_length Pk)|]. split; [assumption|]. split; [|split; [exists ks'; split; [exact (KL z ks' Ez Sk)|rewrite Wk, Es; reflexivity]|exact KO]].
  destruct (holds_file ZC fs qin ks val C) as (b0 & a0 & Lq & _). apply (holds_same ZC fs); [assumption|]. apply (OW qin).
  - intros [E1|[]]. congruence.
  - intros B. apply (U qin B). exists (KFile b0). split; [assumption|discriminate].
Qed.

(** The output holds min(num_to_sample, number of keys) distinct pairs of the input, which stays as it was; output directories are made as needed, nothing else changes. *)
Theorem C86_downsample : forall p fs ns qin ks val nv n sv c d, wf_params p -> wf_fs fs ->
  Typed p !!"input" !!"zip" ns -> names_path cwd ns !!"path" qin -> holds fs qin ks val -> (forall k, In k ks -> plain_key k) ->
  Stored p !!"num_to_sample" nv -> int_value nv (Z.of_nat n) -> n <> 0 ->
  (ParamsSpec.Absent p !!"random_seed" \/ exists s, Stored p !!"random_seed" sv /\ int_value sv s) ->
  names_path cwd p !!"output_zip_path" (c :: d) -> unblocked fs d -> free fs (c :: d) -> c :: d <> qin ->
  exists fs' kept, downsample_main p fs = (fs', None) /\ wf_fs fs' /\ holds fs' (c :: d) kept val /\
    NoDup kept /\ incl kept ks /\ length kept = Nat.min n (length ks) /\ only_writes fs fs' d [c :: d] /\ holds fs' qin ks val.
Proof. clear oeq.
  clear seeded_perm rglob_perm.
  intros p fs ns qin ks val nv n sv c d W F T Hin C PK Sn In_ N0 Hs Ho U Fr Nq.
  assert (exists s, sample_seed p s) as (s & Sd) by (destruct Hs as [A|(s & A)]; [exists 0%Z; left; auto|exists s; right; eauto]).
  destruct (C86_which p fs ns qin ks val nv n s c d W F T Hin C PK Sn In_ N0 Sd Ho U Fr Nq) as (fs' & kept & E & W' & H & Nk & Ik & Lk & O & Hi & _). exists fs', kept. auto 10.
Qed.

(** A store cannot be reduced in place.  Refuted, if that was meant to be possible: with the input as output_zip_path, the file is emptied before the first pair is read; the script
    fails and leaves an empty store. *)
Theorem C86_in_place_refuted : forall p fs ns ks val nv n sv c d, wf_params p -> wf_fs fs ->
  Typed p !!"input" !!"zip" ns -> names_path cwd ns !!"path" (c :: d) -> holds fs (c :: d) ks val ->
  Stored p !!"num_to_sample" nv -> int_value nv (Z.of_nat n) -> n <> 0 ->
  (ParamsSpec.Absent p !!"random_seed" \/ exists s, Stored p !!"random_seed" sv /\ int_value sv s) ->
  names_path cwd p !!"output_zip_path" (c :: d) -> unblocked fs d -> free fs (c :: d) -> ks <> [] ->
  exists fs' e, downsample_main p fs = (fs', Some e) /\ wf_fs fs' /\ holds fs' (c :: d) [] (fun _ => []) /\ only_writes fs fs' d [c :: d].
Proof. clear oeq.
  clear seeded_perm rglob_perm.
  intros p fs ns ks val nv n sv c d W F T Hin C Sn In_ N0 Hs Ho U Fr Ne.
  destruct (input_opens fs p ns (c :: d) ks val W T Hin C) as (later & z & ks' & _ & Eo & La & Lo & Pk & Sv & _).
  unfold Mains.downsample_main. rewrite Eo. assert (Sk := proj1 Sv). rewrite (La fs []) by (intros []). rewrite Sk.
  assert (positive_integer p !!"num_to_sample" PNone = Ok nv) as ->.
  { destruct (C46_required_getters p !!"num_to_sample" PNone W) as (_ & _ & (G & _) & _). apply G; [now constructor|]. exists (Z.of_nat n). split; [assumption|lia]. }
  assert (exists seed, integer p !!"random_seed" (PInt 0) (MkRange BelowAll AboveAll) = Ok seed) as (seed & ->).
  { destruct (C46_required_getters p !!"random_seed" (PInt 0) W) as (_ & G & _). destruct (G (MkRange BelowAll AboveAll)) as (G1 & _).
    destruct Hs as [A|(s & Ss & Is)]; [exists (PInt 0); apply G1; [constructor; [assumption|discriminate]|]; exists 0%Z; split; [constructor|reflexivity]|].
    exists sv. apply G1; [now constructor|]. exists s. split; [assumption|reflexivity]. }
  destruct (C80_creatable cwd p !!"output_zip_path" fs W cwd_proper F) as (_ & CF & _). destruct (CF c d Ho) as (CF1 & _). destruct (CF1 U) as (fs1 & -> & M).
  assert (W1 := made_wf _ _ _ F M). assert (D1 : look fs1 d = Some KDir) by (apply (proj1 M), below_refl).
  assert (Ec : look fs1 (c :: d) = look fs (c :: d)) by apply (proj2 M), not_below_tail.
  assert (Fr1 : free fs1 (c :: d)) by (unfold free; rewrite Ec; exact Fr). rewrite (can_write_ok fs1 c d W1 D1 Fr1).
  assert (int_of nv = Z.of_nat n) as -> by (inversion In_; reflexivity). rewrite Nat2Z.id.
  rewrite Lo by now left.
  destruct (downsample_lost (random_shuffle (int_of seed)) n (zip_source same_name bytes_value z) ks' val (disk_at ZC fs1 (c :: d)) (random_perm _) Sv) as (dd & E & st & E' & Cd); [|exact N0|].
  { intros ->. apply Ne. now apply Permutation_nil. }
  rewrite E.
  exists (put_disk fs1 (c :: d) dd), AnyError. split; [reflexivity|]. split; [now apply put_wf|]. split; [eapply put_disk_holds; [discriminate|exact E'|exact Cd]|].
  intros r Nr. rewrite look_put_other; [split; [apply (proj1 M)|apply (proj2 M)]|discriminate|]. intros E1. apply Nr. left. exact E1.
Qed.
(** C86: a num_to_sample that is not a positive integer is rejected before anything is written; nothing changes. *)
Theorem C86_bad_num_to_sample : forall p fs ns qin ks val nv, wf_params p -> 
  Typed p !!"input" !!"zip" ns -> names_path cwd ns !!"path" qin -> holds fs qin ks val ->
  Stored p !!"num_to_sample" nv -> (forall z, int_value nv z -> (z <= 0)%Z) ->
  exists e, downsample_main p fs = (fs, Some e) /\ wrong_type nv e.
Proof. clear oeq.
  clear seeded_perm rglob_perm set_order_perm random_perm.
  intros p fs ns qin ks val nv W T Hin C Sn Bad.
  destruct (input_opens fs p ns qin ks val W T Hin C) as (later & z & ks' & _ & Eo & La & _ & Pk & Sv & _).
  unfold Mains.downsample_main. rewrite Eo. assert (Sk := proj1 Sv). rewrite (La fs []) by (intros []). rewrite Sk.
  destruct (C46_required_getters p !!"num_to_sample" PNone W) as (_ & _ & (_ & G & _) & _).
  destruct (G nv) as (e & -> & WT); [now constructor|intros (z0 & I0 & P0); specialize (Bad z0 I0); lia|]. exists e. auto.
Qed.
(** C86: an input that is missing or no zip file is an error, and nothing is written. *)
Theorem C86_bad_input : forall p fs ns qin, wf_params p -> Typed p !!"input" !!"zip" ns -> names_path cwd ns !!"path" qin ->
  (forall b a, look fs qin = Some (KFile b) -> unzip ZC b <> Ok a) ->
  exists e, downsample_main p fs = (fs, Some e).
Proof.
  clear seeded_perm rglob_perm set_order_perm random_perm.
  intros p fs ns qin W T Hin Bad.
  assert (S0 : silent (@None (list (str * obj))) (source_class_name true true)) by (intros u E; discriminate).
  destruct (C83_zip_source X import_module other_eval builtin locals_of x_is_class x_from_parameters x_construct x_callable x_call x_is_linear x_is_source cwd other_globals fs true p !!"input" ns None W cwd_proper T S0) as (_ & F & G & _).
  unfold Mains.downsample_main, Mains.the_source. destruct (look fs qin) as [[b| |]|] eqn:L.
  - rewrite (F qin b Hin L). cbn [bind Mains.open_source]. unfold disk_at. rewrite L. destruct (unzip ZC b) as [a|x] eqn:Ux; [destruct (Bad b a eq_refl Ux)|]. cbn. eauto.
  - rewrite (G qin Hin) by congruence. cbn. eauto.
  - rewrite (G qin Hin) by congruence. cbn. eauto.
  - rewrite (G qin Hin) by congruence. cbn. eauto.
Qed.

(** ** C87: directory_to_key_value_store *)
(** A regular file below the directory [d], at any depth. *)
Definition file_under (fs : list (list str * fnode)) (d q : list str) (b : bytes) : Prop := below d q /\ q <> d /\ look fs q = Some (KFile b).
(** The key of a file: its name, without its last extension if asked for. *)
Definition file_key (strip : bool) (q : list str) (k : str) : Prop := exists d, if strip then exists name, q = name :: d /\ drops_extension name k else q = k :: d.
(** key_function: absent (or null), "identity", "strip_one_extension". *)
Definition key_choice (p : pv) (strip : bool) : Prop :=
  if strip then Stored p !!"key_function" (PStr !!"strip_one_extension") else Missing p !!"key_function" \/ Stored p !!"key_function" (PStr !!"identity").
Lemma files_under_in fs d q b : In (q, b) (files_under fs d) <-> file_under fs d q b.
Proof.
  clear. unfold files_under, file_under. rewrite in_flat_map. split.
  - intros (q' & I & J). apply filter_In in I. destruct I as (I & B). apply andb_true_iff in B. destruct B as (B & N). apply at_or_below_spec in B. destruct (look fs q') as [[b'| |]|] eqn:L; try destruct J. injection H as <- <-.
    split; [assumption|]. split; [|assumption]. destruct (rpath_eqb_spec q' d); [discriminate|assumption]. destruct H.
  - intros (B & N & L). exists q. rewrite L. split; [|now left]. apply filter_In. split.
    + apply nodup_In. destruct q as [|x q]; [destruct d; [congruence|]; apply below_nil in B; discriminate|]. simpl in L. apply in_map_iff.
      assert (exists v, In (x :: q, v) fs) as (v & I) by (apply find_path_in; simpl in *; congruence). exists (x :: q, v). auto.
    + apply andb_true_iff. split; [now apply at_or_below_spec|]. destruct (rpath_eqb_spec q d); [contradiction|reflexivity].
Qed.
Lemma files_under_nodup fs d : NoDup (map fst (files_under fs d)).
Proof.
  clear. unfold files_under. assert (N : NoDup (filter (fun q => at_or_below d q && negb (rpath_eqb q d)) (nodup (list_eq_dec (list_eq_dec N.eq_dec)) (map fst fs)))) by apply NoDup_filter, NoDup_nodup.
  induction N as [|q l Nq N IH]; [constructor|]. cbn [flat_map]. rewrite map_app. destruct (look fs q) as [[b| |]|]; try exact IH. simpl. constructor; [|exact IH].
  intros I. apply Nq. apply in_map_iff in I. destruct I as ([q' b'] & <- & I). apply in_flat_map in I. destruct I as (q2 & I & J). destruct (look fs q2) as [[b2| |]|]; try destruct J. injection H as <- <-. assumption. destruct H.
Qed.

(** The key of a file in the model. *)
Notation key_of_file strip := (fun f : list str * bytes => let name := hd [] (fst f) in if strip : bool then stem name else name).
Lemma file_key_spec strip q b k : q <> [] -> (file_key strip q k <-> k = key_of_file strip (q, b)).
Proof.
  clear. intros N. destruct q as [|name d]; [congruence|]. unfold file_key. cbn [fst hd]. split.
  - intros (d' & H). destruct strip; [|now injection H as -> ->]. destruct H as (n & E & D). injection E as <- <-. exact (C75_stem_unique name k (stem name) D (C75_stem name)).
  - intros ->. exists d. destruct strip; [|reflexivity]. exists name. split; [reflexivity|apply C75_stem].
Qed.
Lemma under_nonroot fs d q b : file_under fs d q b -> q <> [].
Proof. clear. intros (B & N & L) ->. simpl in L. discriminate. Qed.
Lemma directory_run p fs ns c o d strip : wf_params p -> wf_fs fs -> names_path cwd p !!"input_directory" d -> look fs d = Some KDir -> key_choice p strip ->
  Typed p !!"output" !!"zip" ns -> names_path cwd ns !!"path" (c :: o) -> unblocked fs o -> free fs (c :: o) ->
  exists fs1, made fs fs1 o /\ forall dd e ks val, write_stream set_order (disk_at ZC fs1 (c :: o)) (map (fun f => (key_of_file strip f, VBytes (snd f))) (rglob_order (files_under (put_disk fs1 (c :: o) Partial) d)), None) = (dd, e) -> contains dd ks val ->
  exists fs', directory_main p fs = (fs', e) /\ wf_fs fs' /\ holds fs' (c :: o) ks val /\ only_writes fs fs' o [c :: o].
Proof. clear oeq.
  clear random_perm rglob_perm seeded_perm set_order_perm.
  intros W F Hd Ld Kc T H U Fr. assert (Ns : ~ In (sink_class_name true true) directory_locals) by (simpl; intuition discriminate).
  destruct (output_sink fs p ns c o directory_locals W F T H U Ns) as (fs1 & M & Es). exists fs1. split; [assumption|]. intros dd e ks val J C.
  unfold Mains.directory_main. destruct (C80_existing cwd p !!"input_directory" fs W cwd_proper) as (_ & _ & E1 & _). rewrite (E1 d Hd Ld).
  assert (key_function p = Ok strip) as ->.
  { unfold key_function. destruct (C46_optional_getters (fun _ => true) p !!"key_function" W) as (G & _). destruct (G (Some [!!"identity"; !!"strip_one_extension"]) PNone) as (G1 & _ & G3). unfold key_choice in Kc.
    destruct strip; [|destruct Kc as [Kc|Kc]].
    - rewrite (G1 _ Kc); [reflexivity|discriminate|]. eexists. split; [reflexivity|]. intros l El. injection El as <-. simpl. auto.
    - rewrite (G3 Kc). reflexivity.
    - rewrite (G1 _ Kc); [reflexivity|discriminate|]. eexists. split; [reflexivity|]. intros l El. injection El as <-. simpl. auto. }
  rewrite Es. unfold write_sink. assert (W1 := made_wf _ _ _ F M). assert (D1 : look fs1 o = Some KDir) by (apply (proj1 M), below_refl).
  assert (Ec : look fs1 (c :: o) = look fs (c :: o)) by apply (proj2 M), not_below_tail.
  match goal with |- context [write_zip _ _ _ _ _ ?st] => destruct (write_zip_frame ZC torn set_order fs1 c o st ks val dd e W1 D1) as (fs' & E & Hh & W' & Fr') end.
  - unfold free. rewrite Ec. exact Fr.
  - exact J.
  - exact C.
  - exists fs'. split; [exact E|]. split; [assumption|]. split; [assumption|]. intros r Nr. assert (r <> c :: o) as Nr' by (intros ->; apply Nr; now left). rewrite (Fr' r Nr'). split; [apply (proj1 M)|apply (proj2 M)].
Qed.
(** The files seen while the output is being written: those that were there, with the unfinished output among them if it is below the directory. *)
Definition files_seen (fs : list (list str * fnode)) (out d q : list str) (b : bytes) : Prop := q <> out /\ file_under fs d q b \/ q = out /\ below d out /\ out <> d /\ b = torn.
Lemma files_seen_spec fs fs1 c o d q b : unblocked fs o -> made fs fs1 o -> (file_under (put_disk fs1 (c :: o) Partial) d q b <-> files_seen fs (c :: o) d q b).
Proof.
  clear. intros U M. unfold file_under, files_seen. destruct (list_eq_dec (list_eq_dec N.eq_dec) q (c :: o)) as [->|Nq].
  - unfold Mains.put_disk. rewrite look_set_same by discriminate. split; [intros (B & N & E); injection E as <-; auto|]. intros [(X0 & _)|(_ & B & N & ->)]; [congruence|auto].
  - rewrite look_put_other by (discriminate || congruence).
    assert (E : look fs1 q = Some (KFile b) <-> look fs q = Some (KFile b)).
    { destruct (at_or_below q o) eqn:B.
      - apply at_or_below_spec in B. rewrite (proj1 M q B). split; [discriminate|]. intros L. destruct (U q B). exists (KFile b). split; [assumption|discriminate].
      - assert (~ below q o) as B' by (intros B'; apply at_or_below_spec in B'; congruence). rewrite (proj2 M q B'). tauto. }
    rewrite E. unfold file_under. tauto.
Qed.
(** What is common to the theorems below. *)
Lemma directory_copy p fs ns c o d strip : wf_params p -> wf_fs fs -> names_path cwd p !!"input_directory" d -> look fs d = Some KDir -> key_choice p strip ->
  Typed p !!"output" !!"zip" ns -> names_path cwd ns !!"path" (c :: o) -> unblocked fs o -> free fs (c :: o) ->
  (forall q b k, files_seen fs (c :: o) d q b -> file_key strip q k -> plain_key k) ->
  ((forall q q' b b' k, files_seen fs (c :: o) d q b -> files_seen fs (c :: o) d q' b' -> file_key strip q k -> file_key strip q' k -> q = q') ->
   exists fs' ks val, directory_main p fs = (fs', None) /\ wf_fs fs' /\ holds fs' (c :: o) ks val /\
    (forall k, In k ks <-> exists q b, files_seen fs (c :: o) d q b /\ file_key strip q k) /\
    (forall q b k, files_seen fs (c :: o) d q b -> file_key strip q k -> val k = b) /\ only_writes fs fs' o [c :: o]) /\
  (forall q q' b b' k, files_seen fs (c :: o) d q b -> files_seen fs (c :: o) d q' b' -> file_key strip q k -> file_key strip q' k -> q <> q' ->
   exists fs' ks val, directory_main p fs = (fs', Some ValueError) /\ wf_fs fs' /\ holds fs' (c :: o) ks val /\
    (forall k, In k ks -> exists q b, files_seen fs (c :: o) d q b /\ file_key strip q k /\ val k = b) /\ only_writes fs fs' o [c :: o]).
Proof. clear oeq.
  clear random_perm seeded_perm.
  intros W F Hd Ld Kc T H U Fr PK. destruct (directory_run p fs ns c o d strip W F Hd Ld Kc T H U Fr) as (fs1 & M & R).
  set (fl := rglob_order (files_under (put_disk fs1 (c :: o) Partial) d)) in *. set (kf := key_of_file strip) in *.
  assert (Fl : forall q b, In (q, b) fl <-> files_seen fs (c :: o) d q b).
  { intros q b. rewrite <- (files_seen_spec fs fs1 c o d q b U M), <- files_under_in. split; apply Permutation_in; [apply rglob_perm|symmetry; apply rglob_perm]. }
  assert (NR : forall q b, files_seen fs (c :: o) d q b -> q <> []). { intros q b S1. apply (files_seen_spec fs fs1 c o d q b U M) in S1. eapply under_nonroot; exact S1. }
  assert (KF : forall q b k, files_seen fs (c :: o) d q b -> (file_key strip q k <-> k = kf (q, b))) by (intros q b k S1; apply file_key_spec; eapply NR; exact S1).
  assert (NF : NoDup (map fst fl)) by (apply (Permutation_NoDup (l := map fst (files_under (put_disk fs1 (c :: o) Partial) d))); [apply Permutation_map; symmetry; apply rglob_perm|apply files_under_nodup]).
  assert (PKf : forall f, In f fl -> plain_key (kf f)). { intros [q b] I. apply (PK q b); [now apply Fl|]. apply (KF q b); [now apply Fl|reflexivity]. }
  split.
  - intros D. assert (ND : NoDup (map kf fl)).
    { apply nodup_map; [eapply NoDup_map_inv; exact NF|]. intros [q b] [q' b'] I I' E. assert (q = q') as ->.
      - apply (D q q' b b' (kf (q, b))); [now apply Fl|now apply Fl| |]; [apply (KF q b); [now apply Fl|reflexivity]|apply (KF q' b'); [now apply Fl|exact E]].
      - f_equal. clear -NF I I'. induction fl as [|[q0 b0] l IH]; [destruct I|]. cbn [map fst] in NF. inversion NF as [|? ? N1 N2]; subst. destruct I as [E|I], I' as [E'|I'].
        + congruence.
        + injection E as -> ->. destruct N1. apply in_map_iff. exists (q', b'). auto.
        + injection E' as -> ->. destruct N1. apply in_map_iff. exists (q', b). auto.
        + auto. }
    destruct (pairs_of kf snd fl ND) as (val & Ep & V). destruct (write_stream_pairs set_order set_order_perm (disk_at ZC fs1 (c :: o)) (map kf fl) val None ND) as (dd & E & C).
    { intros k I. apply in_map_iff in I. destruct I as (f & <- & I). auto. }
    rewrite <- Ep in E. destruct (R dd None (map kf fl) val E C) as (fs' & E' & W' & Hh & OW). exists fs', (map kf fl), val. split; [assumption|]. split; [assumption|]. split; [assumption|]. split; [|split; [|assumption]].
    + intros k. rewrite in_map_iff. split.
      * intros ([q b] & <- & I). exists q, b. apply Fl in I. split; [assumption|]. now apply (KF q b).
      * intros (q & b & S1 & K1). exists (q, b). split; [symmetry; now apply (KF q b)|now apply Fl].
    + intros q b k S1 K1. apply (KF q b) in K1; [|assumption]. subst k. apply (V (q, b)). now apply Fl.
  - intros q q' b b' k S1 S2 K1 K2 Nq. assert (ND : ~ NoDup (map kf fl)).
    { intros ND. apply Nq. apply (KF q b) in K1; [|assumption]. apply (KF q' b') in K2; [|assumption]. rewrite K1 in K2. apply Fl in S1, S2. clear -ND K2 S1 S2.
      induction fl as [|f l IH]; [destruct S1|]. cbn [map] in ND. inversion ND as [|? ? N1 N2]; subst. destruct S1 as [E|I], S2 as [E'|I'].
      - congruence.
      - subst f. destruct N1. rewrite K2. now apply in_map.
      - subst f. destruct N1. rewrite <- K2. now apply in_map.
      - auto. }
    destruct (first_repetition kf fl ND) as (l1 & a & l2 & El & N1 & I1). destruct (pairs_of kf snd l1 N1) as (val & Ep & V).
    destruct (write_stream_dup set_order set_order_perm (disk_at ZC fs1 (c :: o)) (map kf l1) val (kf a) (snd a) (map (fun f => (kf f, VBytes (snd f))) l2) None N1) as (dd & E & C).
    { intros x I. apply in_map_iff in I. destruct I as (f & <- & I). apply PKf. rewrite El. apply in_or_app. auto. }
    { exact I1. }
    destruct (R dd (Some ValueError) (map kf l1) val) as (fs' & E' & W' & Hh & OW).
    { refine (eq_trans _ E). do 2 f_equal. rewrite El, map_app. exact (f_equal (fun x => x ++ _) Ep). }
    { exact C. }
    exists fs', (map kf l1), val. split; [assumption|]. split; [assumption|]. split; [assumption|]. split; [|assumption].
    intros x I. apply in_map_iff in I. destruct I as ([q0 b0] & <- & I). exists q0, b0. assert (S0 : files_seen fs (c :: o) d q0 b0) by (apply Fl; rewrite El; apply in_or_app; auto). split; [assumption|]. split; [now apply (KF q0 b0)|]. exact (V (q0, b0) I).
Qed.
(** C87: with the output elsewhere, the output holds exactly one pair for each file at any depth below the directory: its key and its contents. *)
Theorem C87_copy : forall p fs ns c o d strip, wf_params p -> wf_fs fs -> names_path cwd p !!"input_directory" d -> look fs d = Some KDir -> key_choice p strip ->
  Typed p !!"output" !!"zip" ns -> names_path cwd ns !!"path" (c :: o) -> unblocked fs o -> free fs (c :: o) -> ~ below d (c :: o) ->
  (forall q b k, file_under fs d q b -> file_key strip q k -> plain_key k) ->
  (forall q q' b b' k, file_under fs d q b -> file_under fs d q' b' -> file_key strip q k -> file_key strip q' k -> q = q') ->
  exists fs' ks val, directory_main p fs = (fs', None) /\ wf_fs fs' /\ holds fs' (c :: o) ks val /\
    (forall k, In k ks <-> exists q b, file_under fs d q b /\ file_key strip q k) /\
    (forall q b k, file_under fs d q b -> file_key strip q k -> val k = b) /\ only_writes fs fs' o [c :: o].
Proof. clear oeq.
  clear random_perm seeded_perm.
  intros p fs ns c o d strip W F Hd Ld Kc T H U Fr Nb PK D.
  assert (Q : forall q b, files_seen fs (c :: o) d q b <-> file_under fs d q b).
  { intros q b. unfold files_seen. split; [intros [(_ & G)|(_ & B & _)]; [assumption|contradiction]|]. intros G. left. split; [|assumption]. intros ->. apply Nb. apply G. }
  destruct (directory_copy p fs ns c o d strip W F Hd Ld Kc T H U Fr) as (R & _); [intros q b k S1; apply PK with b; now apply Q|].
  destruct R as (fs' & ks & val & E & W' & Hh & K & V & OW); [intros q q' b b' k S1 S2; apply (D q q' b b' k); now apply Q|].
  exists fs', ks, val. split; [assumption|]. split; [assumption|]. split; [assumption|]. split; [|split; [|assumption]].
  - intros k. rewrite K. split; intros (q & b & G); exists q, b; now rewrite Q in *.
  - intros q b k S1. apply V. now apply Q.
Qed.
(** C87: two files with the same key (in whatever directories) are an error; the output then holds some of the files. *)
Theorem C87_duplicate : forall p fs ns c o d strip q q' b b' k, wf_params p -> wf_fs fs -> names_path cwd p !!"input_directory" d -> look fs d = Some KDir -> key_choice p strip ->
  Typed p !!"output" !!"zip" ns -> names_path cwd ns !!"path" (c :: o) -> unblocked fs o -> free fs (c :: o) -> ~ below d (c :: o) ->
  (forall q b k, file_under fs d q b -> file_key strip q k -> plain_key k) ->
  file_under fs d q b -> file_under fs d q' b' -> file_key strip q k -> file_key strip q' k -> q <> q' ->
  exists fs' ks val, directory_main p fs = (fs', Some ValueError) /\ wf_fs fs' /\ holds fs' (c :: o) ks val /\
    (forall k, In k ks -> exists q b, file_under fs d q b /\ file_key strip q k /\ val k = b) /\ only_writes fs fs' o [c :: o].
Proof. clear oeq.
  clear random_perm seeded_perm.
  intros p fs ns c o d strip q q' b b' k W F Hd Ld Kc T H U Fr Nb PK F1 F2 K1 K2 Nq.
  assert (Q : forall q b, files_seen fs (c :: o) d q b <-> file_under fs d q b).
  { intros q0 b0. unfold files_seen. split; [intros [(_ & G)|(_ & B & _)]; [assumption|contradiction]|]. intros G. left. split; [|assumption]. intros ->. apply Nb. apply G. }
  destruct (directory_copy p fs ns c o d strip W F Hd Ld Kc T H U Fr) as (_ & R); [intros q0 b0 k0 S1; apply PK with b0; now apply Q|].
  destruct (R q q' b b' k) as (fs' & ks & val & E & W' & Hh & V & OW); try assumption; try now apply Q.
  exists fs', ks, val. split; [assumption|]. split; [assumption|]. split; [assumption|]. split; [|assumption].
  intros k0 I. destruct (V k0 I) as (q0 & b0 & S1 & G). exists q0, b0. split; [now apply Q|assumption].
Qed.
(** Documented: "Each file in the input directory will become one entry".  Refuted when the output lies below the input directory: the output becomes an
    entry of itself, with what was in the unfinished file as value. *)
Theorem C87_output_inside_refuted : forall p fs ns c o d, wf_params p -> wf_fs fs -> names_path cwd p !!"input_directory" d -> look fs d = Some KDir -> key_choice p false ->
  Typed p !!"output" !!"zip" ns -> names_path cwd ns !!"path" (c :: o) -> unblocked fs o -> look fs (c :: o) = None -> below d o ->
  (forall name q b, file_under fs d (name :: q) b -> plain_key name) -> plain_key c ->
  (forall name q q' b b', file_under fs d (name :: q) b -> file_under fs d (name :: q') b' -> q = q') -> (forall q b, ~ file_under fs d (c :: q) b) ->
  exists fs' ks val, directory_main p fs = (fs', None) /\ holds fs' (c :: o) ks val /\ In c ks /\ val c = torn.
Proof. clear oeq.
  clear random_perm seeded_perm.
  intros p fs ns c o d W F Hd Ld Kc T H U L0 B PK Pc D Nc.
  assert (Q : forall q b, files_seen fs (c :: o) d q b -> (exists name q0, q = name :: q0 /\ name <> c /\ file_under fs d q b) \/ q = c :: o /\ b = torn).
  { intros q b [(N & G)|(-> & _ & _ & ->)]; [left|auto]. assert (N0 := under_nonroot _ _ _ _ G). destruct q as [|name q0]; [congruence|]. exists name, q0. split; [reflexivity|]. split; [intros ->; exact (Nc _ _ G)|assumption]. }
  assert (Fk : forall q k, file_key false q k -> exists q0, q = k :: q0) by (intros q k (q0 & E); eauto).
  assert (Me : files_seen fs (c :: o) d (c :: o) torn).
  { right. split; [reflexivity|]. split; [now apply below_cons|]. split; [|reflexivity]. intros E. rewrite E in L0. congruence. }
  destruct (directory_copy p fs ns c o d false W F Hd Ld Kc T H U) as (R & _).
  - left. assumption.
  - intros q b k S1 K1. apply Fk in K1. destruct K1 as (q0 & ->). destruct (Q _ _ S1) as [(name & q1 & E & _ & G)|(E & _)]; [injection E as <- <-; exact (PK _ _ _ G)|now injection E as -> _].
  - destruct R as (fs' & ks & val & E & _ & Hh & K & V & _).
    + intros q q' b b' k S1 S2 K1 K2. apply Fk in K1, K2. destruct K1 as (q0 & ->), K2 as (q1 & ->). destruct (Q _ _ S1) as [(name & qa & E & N & G)|(E & _)], (Q _ _ S2) as [(name' & qb & E' & N' & G')|(E' & _)].
      * f_equal. exact (D _ _ _ _ _ G G').
      * injection E as <- <-. injection E' as -> _. congruence.
      * injection E' as <- <-. injection E as -> _. congruence.
      * congruence.
    + exists fs', ks, val. split; [assumption|]. split; [assumption|]. assert (K1 : file_key false (c :: o) c) by (exists o; reflexivity). split; [apply K; exists (c :: o), torn; auto|]. exact (V _ _ _ Me K1).
Qed.

(** ** C88: split_key_value_store with explicit_split *)
(** The file [q] lists the keys [ks], one per line (blank lines do not count). *)
Definition key_file (fs : list (list str * fnode)) (q : list str) (ks : list str) : Prop :=
  exists b t t' ls, look fs q = Some (KFile b) /\ decode b = Ok t /\ newlines_read t t' /\ lines_of t' ls /\ forall k, In k ks <-> In k ls /\ k <> [].
(** One split: its namespace, its keys_file and the keys listed there, its output_file. *)
Record split := { sp_ns : pv; sp_file : list str; sp_keys : list str; sp_out : list str }.
Definition split_ok (fs : list (list str * fnode)) (s : split) : Prop :=
  (wf_params (sp_ns s) /\ no_list_inside (sp_ns s)) /\ names_path cwd (sp_ns s) !!"keys_file" (sp_file s) /\ key_file fs (sp_file s) (sp_keys s) /\ NoDup (sp_keys s) /\ (forall k, In k (sp_keys s) -> plain_key k) /\
  names_path cwd (sp_ns s) !!"output_file" (sp_out s) /\ sp_out s <> [] /\ unblocked fs (tl (sp_out s)) /\ free fs (sp_out s).
(** The outputs are different files, none lies where another needs a directory, and none is a keys_file of a split. *)
Definition apart (xs : list split) : Prop :=
  NoDup (map sp_out xs) /\ (forall s s', In s xs -> In s' xs -> ~ below (sp_out s) (tl (sp_out s')) /\ sp_file s' <> sp_out s).
(** Only the outputs are written; otherwise only directories on the way to them are made. *)
Definition writes_all (fs fs' : list (list str * fnode)) (outs : list (list str)) : Prop :=
  forall r, ~ In r outs -> look fs' r = look fs r \/ look fs r = None /\ look fs' r = Some KDir /\ exists o, In o outs /\ below r o.
(** must_be_exhaustive at the top level: true if absent. *)
Definition exhaustive_given (p : pv) (b : bool) : Prop := ParamsSpec.Absent p !!"must_be_exhaustive" /\ b = true \/ Stored p !!"must_be_exhaustive" (PBool b).

Lemma key_file_read fs q ks : key_file fs q ks -> NoDup ks -> exists l, (let* t := read_text fs q in Ok (dedup (filter (fun l => negb (is_nil l)) (py_split LF t)))) = Ok l /\ Permutation l ks.
Proof.
  clear. intros (b & t & t' & ls & L & D & NR & LO & K) ND. unfold read_text. rewrite L, D. cbn [bind]. rewrite (newlines_read_fun _ _ (universal_spec t) _ NR). eexists. split; [reflexivity|].
  assert (E : filter (fun l => negb (is_nil l)) (py_split LF t') = filter (fun l => negb (is_nil l)) ls).
  { destruct LO as (H & E).
    assert (Sp : forall ls (r : str), (forall l, In l ls -> ~ In LF l) -> py_split LF (flat_map (fun l => l ++ [LF]) ls ++ r) = ls ++ py_split LF r).
    { clear. induction ls as [|l ls IH]; intros r H; [reflexivity|]. cbn [flat_map app]. rewrite <- !app_assoc. simpl. rewrite py_split_app by (apply H; simpl; auto). f_equal. apply IH. intros; apply H; simpl; auto. }
    destruct E as [->|(r & l & -> & _ & ->)].
    - rewrite <- (app_nil_r (flat_map _ _)), (Sp ls [] H), filter_app. simpl. now rewrite app_nil_r.
    - rewrite Sp by (intros; apply H; apply in_or_app; auto). rewrite py_split_no by (apply H; apply in_or_app; simpl; auto). reflexivity. }
  rewrite E. destruct (dedup_spec (filter (fun l => negb (is_nil l)) ls)) as (N & I & _). apply NoDup_Permutation; [assumption|assumption|]. intros k. rewrite I, K, filter_In. split; intros (A & B); (split; [assumption|]); destruct k; simpl in *; congruence.
Qed.
(** One split. *)
Lemma one_split later (P : list rpath -> Prop) val fs s l e : wf_fs fs -> split_ok fs s -> (forall ks, Permutation ks (sp_keys s) -> exists r, ks = l ks ++ r /\ forall f w, P w -> explicit_keys (later f (sp_out s :: w)) ks = (pairs val (l ks), e)) ->
  exists fs' ks, wf_fs fs' /\ Permutation ks (sp_keys s) /\ holds fs' (sp_out s) (l ks) val /\ only_writes fs fs' (tl (sp_out s)) [sp_out s] /\
    forall rest written copied, P written -> split_namespaces cwd ZC torn set_order later fs (sp_ns s :: rest) written copied =
      match e with Some x => (fs', copied, Some x) | None => split_namespaces cwd ZC torn set_order later fs' rest (sp_out s :: written) (copied ++ l ks) end.
Proof.
  clear random_perm seeded_perm rglob_perm.
  intros F ((W & NL) & Hk & Kf & ND & PK & Ho & No & U & Fr) Ex. destruct (sp_out s) as [|c o] eqn:Eo; [congruence|]. cbn [tl] in *. clear No.
  destruct (key_file_read fs _ _ Kf ND) as (ks & Ek & Pk). destruct (Ex ks Pk) as (r & Er & Ee).
  destruct (C80_existing cwd (sp_ns s) !!"keys_file" fs W cwd_proper) as (E1 & _). assert (Kf' := Kf). destruct Kf' as (b & t & t' & ls & L & _). assert (E0 := E1 _ b Hk L).
  destruct (C80_creatable cwd (sp_ns s) !!"output_file" fs W cwd_proper F) as (_ & CF & _). destruct (CF c o Ho) as (CF1 & _). destruct (CF1 U) as (fs1 & Ec & M).
  assert (W1 := made_wf _ _ _ F M). assert (D1 : look fs1 o = Some KDir) by (apply (proj1 M), below_refl).
  assert (El : look fs1 (c :: o) = look fs (c :: o)) by apply (proj2 M), not_below_tail.
  assert (Nl : NoDup (l ks) /\ incl (l ks) (sp_keys s)).
  { assert (NoDup ks) as Nk by (apply (Permutation_NoDup (Permutation_sym Pk)); assumption). split; [|intros k I; apply (Permutation_in _ Pk); rewrite Er; apply in_or_app; auto]. rewrite Er in Nk. clear -Nk. induction (l ks) as [|x m IH]; [constructor|]. inversion Nk as [|? ? N1 N2]; subst. constructor; [intros I; apply N1; apply in_or_app; auto|auto]. }
  destruct (write_stream_pairs set_order set_order_perm (disk_at ZC fs1 (c :: o)) (l ks) val e (proj1 Nl)) as (dd & Es & Cd); [intros k I; apply PK; now apply Nl|].
  destruct (write_zip_frame ZC torn set_order fs1 c o (fun _ => (pairs val (l ks), e)) (l ks) val dd e W1 D1) as (fs' & Ew & Hh & W' & Fr').
  { unfold free. rewrite El. exact Fr. } { exact Es. } { exact Cd. }
  exists fs', ks. split; [assumption|]. split; [assumption|]. split; [assumption|]. split.
  - intros x Nx. assert (x <> c :: o) as Nx' by (intros ->; apply Nx; now left). rewrite (Fr' x Nx'). split; [apply (proj1 M)|apply (proj2 M)].
  - intros rest written copied Nw. cbn [split_namespaces]. rewrite E0. cbn [bind]. rewrite Ek, Ec. cbn zeta. rewrite (Ee _ _ Nw), Ew. destruct e; [reflexivity|]. cbn [fst]. now rewrite pairs_keys.
Qed.
Lemma split_ok_step fs fs' s xs : In s xs -> apart xs -> split_ok fs s -> only_writes fs fs' (tl (sp_out s)) [sp_out s] -> forall s', In s' xs -> sp_out s' <> sp_out s -> split_ok fs s' -> split_ok fs' s'.
Proof.
  clear. intros I (ND & A) (_ & _ & _ & _ & _ & _ & _ & U & _) OW s' I' N (W & Hk & (b & t & t' & ls & L & Kf) & ND' & PK & Ho & No & U' & Fr).
  assert (Same : forall r, r <> sp_out s -> ~ below r (tl (sp_out s)) -> look fs' r = look fs r) by (intros r N1 N2; apply OW; [intros [E|[]]; congruence|assumption]).
  split; [assumption|]. split; [assumption|]. split; [|split; [assumption|]; split; [assumption|]; split; [assumption|]; split; [assumption|]; split].
  - exists b, t, t', ls. rewrite Same; [auto| |].
    + apply (A s s'); assumption.
    + intros B. apply (U _ B). exists (KFile b). split; [assumption|discriminate].
  - intros r B (k & Lk & Nk). destruct (list_eq_dec (list_eq_dec N.eq_dec) r (sp_out s)) as [->|Nr]; [exact (proj1 (A s s' I I') B)|].
    destruct (at_or_below r (tl (sp_out s))) eqn:X.
    + apply at_or_below_spec in X. destruct (OW r) as (O1 & _); [intros [E|[]]; congruence|]. rewrite (O1 X) in Lk. congruence.
    + assert (~ below r (tl (sp_out s))) as X1 by (intros X1; apply at_or_below_spec in X1; congruence). rewrite (Same r Nr X1) in Lk. apply (U' r B). exists k. auto.
  - unfold free. rewrite Same; [exact Fr|assumption|]. apply (A s' s I' I).
Qed.
Lemma writes_step fs fs1 fs2 s outs : only_writes fs fs1 (tl (sp_out s)) [sp_out s] -> sp_out s <> [] -> unblocked fs (tl (sp_out s)) -> writes_all fs1 fs2 outs -> writes_all fs fs2 (sp_out s :: outs).
Proof.
  clear. intros OW N0 U WA r Nr. assert (r <> sp_out s /\ ~ In r outs) as (N1 & N2) by (split; intros H; apply Nr; [left; now symmetry|now right]).
  destruct (OW r) as (O1 & O2); [intros [E|[]]; congruence|]. destruct (at_or_below r (tl (sp_out s))) eqn:X.
  - apply at_or_below_spec in X. assert (below r (sp_out s)) as B by (destruct (sp_out s) as [|c o]; [congruence|now apply below_cons]). specialize (O1 X).
    assert (look fs2 r = Some KDir) as L2 by (destruct (WA r N2) as [E|(E & _)]; congruence).
    destruct (look fs r) as [k|] eqn:L; [|right; split; [reflexivity|]; split; [assumption|]; exists (sp_out s); split; [now left|assumption]].
    left. destruct k; try congruence; exfalso; apply (U r X); eexists; (split; [eassumption|discriminate]).
  - assert (~ below r (tl (sp_out s))) as X1 by (intros X1; apply at_or_below_spec in X1; congruence). rewrite <- (O2 X1). destruct (WA r N2) as [E|(E & E' & o & Io & B)]; [auto|]. right. split; [assumption|]. split; [assumption|]. exists o. split; [now right|assumption].
Qed.
Lemma all_splits later (P : list rpath -> Prop) val ys : forall xs fs, wf_fs fs -> (forall s, In s (xs ++ ys) -> split_ok fs s) -> apart (xs ++ ys) ->
  (forall s w, In s xs -> P w -> P (sp_out s :: w)) -> (forall s f w l, In s xs -> P w -> Permutation l (sp_keys s) -> explicit_keys (later f (sp_out s :: w)) l = (pairs val l, None)) ->
  exists fs', wf_fs fs' /\ (forall s, In s xs -> holds fs' (sp_out s) (sp_keys s) val) /\ writes_all fs fs' (map sp_out xs) /\ (forall s, In s ys -> split_ok fs' s) /\
    forall written copied, P written -> exists more, (forall k, In k more <-> exists s, In s xs /\ In k (sp_keys s)) /\
      forall rest, split_namespaces cwd ZC torn set_order later fs (map sp_ns xs ++ rest) written copied = split_namespaces cwd ZC torn set_order later fs' rest (rev (map sp_out xs) ++ written) (copied ++ more).
Proof.
  clear random_perm seeded_perm rglob_perm.
  induction xs as [|s xs IH]; intros fs F Ok_ A St Ex.
  - exists fs. split; [assumption|]. split; [intros ? []|]. split; [intros r _; auto|]. split; [auto|]. intros written copied Nw. exists []. split; [intros k; split; [intros []|intros (s & [] & _)]|]. intros rest. now rewrite app_nil_r.
  - assert (Os := Ok_ s (or_introl eq_refl)). destruct (one_split later P val fs s (fun l => l) None F Os) as (fs1 & ks & F1 & Pk & Hh & OW & E).
    { intros ks Pk. exists []. rewrite app_nil_r. split; [reflexivity|]. intros f w Pw. apply Ex; [now left|assumption|assumption]. }
    assert (A' : apart (xs ++ ys)). { destruct A as (N & A). cbn [app map] in N. inversion N as [|? ? N1 N2]; subst. split; [assumption|]. intros s1 s2 I1 I2. apply A; now right. }
    assert (Ns : forall s', In s' (xs ++ ys) -> sp_out s' <> sp_out s). { intros s' I' E'. destruct A as (N & _). cbn [app map] in N. inversion N as [|? ? N1 _]; subst. apply N1. rewrite <- E'. now apply in_map. }
    destruct (IH fs1 F1) as (fs' & F' & Hs & WA & Keep & More).
    { intros s' I'. apply (split_ok_step fs fs1 s (s :: xs ++ ys)); auto; [now left|now right|apply Ok_; now right]. }
    { assumption. } { intros s' w I'. apply St. now right. } { intros s' f w l I'. apply Ex. now right. }
    assert (No : sp_out s <> []) by apply Os. assert (Us : unblocked fs (tl (sp_out s))) by apply Os.
    exists fs'. split; [assumption|]. split; [|split; [exact (writes_step fs fs1 fs' s _ OW No Us WA)|split; [assumption|]]].
    + intros s' [<-|I']; [|auto]. destruct (holds_file ZC fs1 (sp_out s) ks val Hh) as (b & a & L & _). apply (holds_same ZC fs1); [exact (contains_perm _ _ _ _ Hh Pk)|].
      destruct (WA (sp_out s)) as [E'|(E' & _)]; [|assumption|congruence]. intros I. apply in_map_iff in I. destruct I as (s' & E' & I'). apply (Ns s'); [|assumption]. apply in_or_app. now left.
    + intros written copied Nw. destruct (More (sp_out s :: written) (copied ++ ks)) as (more & M1 & M2). { apply St; [now left|assumption]. } exists (ks ++ more). split.
      * intros k. rewrite in_app_iff, M1. split.
        -- intros [I|(s' & I1 & I2)]; [exists s; split; [now left|]; now apply (Permutation_in _ Pk)|exists s'; split; [now right|assumption]].
        -- intros (s' & [<-|I1] & I2); [left; now apply (Permutation_in _ (Permutation_sym Pk))|right; eauto].
      * intros rest. cbn [map app rev]. rewrite (E _ _ _ Nw), M2. rewrite <- !app_assoc. reflexivity.
Qed.
(** As long as nothing has been written over the input. *)
Lemma splits_from later qin src ks0 val ys : (forall f w, ~ In qin w -> later f w = src) -> (forall k, In k ks0 -> src_get src k = Ok (Some (val k))) -> forall xs fs, wf_fs fs -> (forall s, In s (xs ++ ys) -> split_ok fs s) -> (forall s, In s xs -> sp_out s <> qin) -> apart (xs ++ ys) -> (forall s k, In s xs -> In k (sp_keys s) -> In k ks0) ->
  exists fs', wf_fs fs' /\ (forall s, In s xs -> holds fs' (sp_out s) (sp_keys s) val) /\ writes_all fs fs' (map sp_out xs) /\ (forall s, In s ys -> split_ok fs' s) /\
    forall written copied, ~ In qin written -> exists more, ~ In qin (rev (map sp_out xs) ++ written) /\ (forall k, In k more <-> exists s, In s xs /\ In k (sp_keys s)) /\
      forall rest, split_namespaces cwd ZC torn set_order later fs (map sp_ns xs ++ rest) written copied = split_namespaces cwd ZC torn set_order later fs' rest (rev (map sp_out xs) ++ written) (copied ++ more).
Proof.
  clear random_perm seeded_perm rglob_perm.
  intros La G xs fs F Ok_ Nq A In0. destruct (all_splits later (fun w => ~ In qin w) val ys xs fs F Ok_ A) as (fs' & F' & Hs & WA & Keep & More).
  - intros s w I Nw [E|I']; [exact (Nq s I E)|exact (Nw I')].
  - intros s f w l I Nw Pk. rewrite La by (intros [E|I']; [exact (Nq s I E)|exact (Nw I')]). apply explicit_keys_ok. intros k Ik. apply G. apply (In0 s); [assumption|]. now apply (Permutation_in _ Pk).
  - exists fs'. split; [assumption|]. split; [assumption|]. split; [assumption|]. split; [assumption|]. intros written copied Nw. destruct (More written copied Nw) as (more & M1 & M2). exists more. split; [|split; assumption].
    rewrite in_app_iff, <- in_rev, in_map_iff. intros [(s & E & I)|I]; [exact (Nq s I E)|exact (Nw I)].
Qed.
Lemma exhaustive_spec p b : wf_params p -> exhaustive_given p b -> boolean p !!"must_be_exhaustive" (PBool true) = Ok (PBool b).
Proof.
  clear. intros (W & _) H. unfold boolean. destruct (get_spec p !!"must_be_exhaustive" is_bool (PBool true) W) as (G & _). apply G; [|reflexivity].
  destruct H as [(A & ->)|S1]; [apply cand_default; [exact A|discriminate]|now constructor].
Qed.
Lemma opens_explicit fs p ns qin ks val sns : wf_params p -> Typed p !!"input" !!"zip" ns -> names_path cwd ns !!"path" qin -> holds fs qin ks val ->
  Missing p !!"num_slices" -> Stored p !!"explicit_split" sns -> is_params sns = true -> (forall c, In c (children sns) -> no_list_inside c) ->
  exists later z ks', split_main p fs = split_explicit cwd ZC torn set_order oeq later p fs /\
    (forall f w, ~ In qin w -> later f w = zip_source same_name bytes_value z) /\ (forall f w, In qin w -> later f w = lost (zip_source same_name bytes_value z)) /\
    (let* n := namespace p !!"explicit_split" in sub_namespaces oeq n) = Ok (first_of_equal (peq oeq) [] (children sns)) /\ Permutation ks' ks /\ src_keys (zip_source same_name bytes_value z) = Ok (Some ks') /\
    (forall k, In k ks -> src_get (zip_source same_name bytes_value z) k = Ok (Some (val k))) /\ (forall k, plain_key k -> ~ In k ks -> src_get (zip_source same_name bytes_value z) k = Ok None).
Proof.
  clear random_perm rglob_perm seeded_perm set_order_perm.
  intros W T Hin C Mn Se Te NL. destruct (input_opens fs p ns qin ks val W T Hin C) as (later & z & ks' & Eo & _ & La & Lo & Pk & Sv & G1 & G2 & _). exists later, z, ks'.
  assert (NN : sns <> PNone) by (intros ->; discriminate). assert (Pe : present_ p !!"explicit_split") by (exists sns; auto).
  assert (Cn : Params.contains p !!"num_slices" = false). { destruct (Params.contains p !!"num_slices") eqn:E; [|reflexivity]. apply (present_contains _ _ (proj1 W)) in E. destruct E as (v & S1 & N1). destruct Mn as [A|S2]; [destruct (A v S1)|]. destruct (N1 (stored_unique _ _ _ _ (proj1 W) S1 S2)). }
  split; [|split; [exact La|]; split; [exact Lo|]; split; [|split; [assumption|]; split; [apply Sv|]; split; assumption]].
  - unfold Mains.split_main. rewrite (proj2 (exactly_one p !!"num_slices" !!"explicit_split" (proj1 W))) by (right; auto). rewrite Eo, Cn. now rewrite (proj2 (present_contains _ _ (proj1 W)) Pe).
  - assert (namespace p !!"explicit_split" = Ok sns) as ->. { unfold namespace. destruct (get_spec p !!"explicit_split" is_params PNone (proj1 W)) as (G & _). apply G; [now constructor|assumption]. }
    cbn [bind]. apply sub_namespaces_spec; [exact (conj (stored_wf _ _ _ (proj1 W) Se) Te)|exact NL].
Qed.
Lemma peq_walk_str v w q s t : peq oeq v w = true -> wf v -> wf w -> walk v q = Some (PStr s) -> walk w q = Some (PStr t) -> s = t.
Proof.
  clear. revert v w. induction q as [|k q IH]; intros v w E Wv Ww A B; cbn [walk] in A, B.
  - injection A as ->. injection B as ->. cbn [peq] in E. now apply str_eqb_iff in E.
  - destruct v; try discriminate A. destruct w; try discriminate B. apply peq_params in E. destruct E as (_ & E). rewrite dict_eq_spec in E by (apply Wv || apply Ww). specialize (E k).
    destruct (dfind data k) as [x|] eqn:Ex; [|discriminate A]. destruct (dfind data0 k) as [y|] eqn:Ey; [|discriminate B]. exact (IH x y E (wf_find _ _ _ _ Wv Ex) (wf_find _ _ _ _ Ww Ey) A B).
Qed.
Lemma splits_unequal fs xs : (forall s, In s xs -> split_ok fs s) -> NoDup (map sp_out xs) -> no_two_equal (peq oeq) (map sp_ns xs).
Proof.
  clear. induction xs as [|s xs IH]; intros Ok_ N; [constructor|]. cbn [map] in *. inversion N as [|? ? N1 N2]; subst. constructor; [|apply IH; [intros s' I; apply Ok_; now right|assumption]].
  apply Forall_forall. intros c I. apply in_map_iff in I. destruct I as (s' & <- & I). destruct (peq oeq (sp_ns s) (sp_ns s')) eqn:Q; [|reflexivity]. exfalso. apply N1. apply in_map_iff. exists s'. split; [|exact I].
  destruct (Ok_ s (or_introl eq_refl)) as ((W & _) & _ & _ & _ & _ & (t & S1 & R1) & _), (Ok_ s' (or_intror I)) as ((W' & _) & _ & _ & _ & _ & (t' & S1' & R1') & _).
  assert (t = t') by (apply (peq_walk_str (sp_ns s) (sp_ns s') (py_split dot !!"output_file")); [exact Q|apply W|apply W'|apply walk_reaches; [apply W|exact S1]|apply walk_reaches; [apply W'|exact S1']]). subst t'. congruence.
Qed.
Lemma writes_keeps fs fs' outs q ks val : writes_all fs fs' outs -> ~ In q outs -> holds fs q ks val -> holds fs' q ks val.
Proof. clear. intros WA N H. apply (holds_same ZC fs); [assumption|]. destruct (holds_file ZC fs q ks val H) as (b & a & L & _). destruct (WA q N) as [E|(E & _)]; congruence. Qed.

(** Every output holds the pairs of the input whose keys its keys_file lists; the script fails if the split must be exhaustive and some key of the
    input is not listed (the outputs are there nevertheless), and only then. *)
Theorem C88_explicit : forall p fs ns qin ks val sns xs b, wf_params p -> wf_fs fs ->
  Typed p !!"input" !!"zip" ns -> names_path cwd ns !!"path" qin -> holds fs qin ks val ->
  Missing p !!"num_slices" -> Stored p !!"explicit_split" sns -> is_params sns = true -> children sns = map sp_ns xs -> exhaustive_given p b ->
  (forall s, In s xs -> split_ok fs s /\ sp_out s <> qin) -> apart xs -> (forall s k, In s xs -> In k (sp_keys s) -> In k ks) ->
  exists fs' e, split_main p fs = (fs', e) /\ wf_fs fs' /\
    (forall s, In s xs -> holds fs' (sp_out s) (sp_keys s) val) /\ writes_all fs fs' (map sp_out xs) /\ holds fs' qin ks val /\
    ((b = true -> forall k, In k ks -> exists s, In s xs /\ In k (sp_keys s)) -> e = None) /\
    (forall k, b = true -> In k ks -> (forall s, In s xs -> ~ In k (sp_keys s)) -> e = Some RuntimeError).
Proof.
  clear random_perm rglob_perm seeded_perm.
  intros p fs ns qin ks val sns xs b W F T Hin C Mn Se Te Ch Ex Ok_ A In0.
  assert (NL : forall c, In c (children sns) -> no_list_inside c). { rewrite Ch. intros c I. apply in_map_iff in I. destruct I as (s & <- & I). apply (Ok_ s I). }
  destruct (opens_explicit fs p ns qin ks val sns W T Hin C Mn Se Te NL) as (later & z & ks' & -> & La & _ & En & Pk & Kz & G1 & _).
  destruct (splits_from later qin (zip_source same_name bytes_value z) ks val [] La G1 xs fs F) as (fs' & F' & Hs & WA & _ & More).
  { intros s I. rewrite app_nil_r in I. now apply Ok_. } { intros s I. now apply Ok_. } { now rewrite app_nil_r. } { assumption. }
  destruct (More [] []) as (more & _ & M1 & M2); [intros []|]. specialize (M2 []). rewrite app_nil_r in M2. cbn [split_namespaces app] in M2.
  assert (Kq : holds fs' qin ks val). { apply (writes_keeps fs fs' (map sp_out xs)); [assumption| |assumption]. intros I. apply in_map_iff in I. destruct I as (s & E & I). now apply (Ok_ s I). }
  unfold split_explicit. rewrite En, Ch, (first_all _ _ (splits_unequal fs xs (fun s I => proj1 (Ok_ s I)) (proj1 A))), M2, (exhaustive_spec p b W Ex), (La fs []), Kz by (intros []).
  eexists fs', _. split; [reflexivity|]. split; [assumption|]. split; [assumption|]. split; [assumption|]. split; [assumption|]. destruct b; [|split; [reflexivity|intros k E; discriminate]]. split.
  - intros H. assert (forallb (fun k => existsb (str_eqb k) more) ks' = true) as ->; [|reflexivity]. apply forallb_forall. intros k I. apply existsb_exists. exists k. split; [|apply str_eqb_refl]. apply M1. apply H; [reflexivity|]. now apply (Permutation_in _ Pk).
  - intros k _ I H. destruct (forallb (fun k => existsb (str_eqb k) more) ks') eqn:E; [|reflexivity]. exfalso. rewrite forallb_forall in E. specialize (E k (Permutation_in _ (Permutation_sym Pk) I)). apply existsb_exists in E. destruct E as (k' & I' & E'). apply str_eqb_eq in E'. subst k'. apply M1 in I'. destruct I' as (s & I1 & I2). exact (H s I1 I2).
Qed.
(** A listed key that the input does not have is an error; the outputs of the splits before it are complete, that of its own split holds some of
    the pairs asked for, and nothing else is written. *)
Theorem C88_missing : forall p fs ns qin ks val sns xs s rest k, wf_params p -> wf_fs fs ->
  Typed p !!"input" !!"zip" ns -> names_path cwd ns !!"path" qin -> holds fs qin ks val ->
  Missing p !!"num_slices" -> Stored p !!"explicit_split" sns -> is_params sns = true -> children sns = map sp_ns xs ++ sp_ns s :: rest -> (forall c, In c rest -> no_list_inside c) ->
  (forall s', In s' (xs ++ [s]) -> split_ok fs s' /\ sp_out s' <> qin) -> apart (xs ++ [s]) -> (forall s' k, In s' xs -> In k (sp_keys s') -> In k ks) ->
  In k (sp_keys s) -> ~ In k ks ->
  exists fs' part, split_main p fs = (fs', Some RuntimeError) /\ wf_fs fs' /\
    (forall s', In s' xs -> holds fs' (sp_out s') (sp_keys s') val) /\ holds fs' (sp_out s) part val /\ incl part (sp_keys s) /\ incl part ks /\
    writes_all fs fs' (map sp_out (xs ++ [s])) /\ holds fs' qin ks val.
Proof.
  clear random_perm rglob_perm seeded_perm.
  intros p fs ns qin ks val sns xs s rest k W F T Hin C Mn Se Te Ch NL0 Ok_ A In0 Ik Nk.
  assert (NL : forall c, In c (children sns) -> no_list_inside c).
  { rewrite Ch. intros c I. apply in_app_iff in I. destruct I as [I|[<-|I]]; [apply in_map_iff in I; destruct I as (s0 & <- & I)| |exact (NL0 c I)]; [apply (Ok_ s0); apply in_or_app; now left|apply (Ok_ s); apply in_or_app; right; now left]. }
  destruct (opens_explicit fs p ns qin ks val sns W T Hin C Mn Se Te NL) as (later & z & ks' & -> & La & _ & En & Pk & Kz & G1 & G2).
  destruct (splits_from later qin (zip_source same_name bytes_value z) ks val [s] La G1 xs fs F) as (fs1 & F1 & Hs & WA & Keep & More).
  { intros s' I. now apply Ok_. } { intros s' I. apply Ok_. apply in_or_app. now left. } { assumption. } { assumption. }
  assert (Os := Keep s (or_introl eq_refl)).
  destruct (More [] []) as (more & Nw' & M1 & M2); [intros []|]. assert (Hf : exists r, first_of_equal (peq oeq) [] (children sns) = map sp_ns xs ++ sp_ns s :: r).
  { destruct (first_front (peq oeq) (map sp_ns (xs ++ [s])) rest (splits_unequal fs _ (fun s' I => proj1 (Ok_ s' I)) (proj1 A))) as (r & Er & _). exists r. rewrite Ch, map_app, <- app_assoc in *. cbn [map app] in *. rewrite Er, <- app_assoc. reflexivity. }
  destruct Hf as (rest' & Hf). specialize (M2 (sp_ns s :: rest')).
  set (known := fun k => if in_dec (list_eq_dec N.eq_dec) k ks then true else false).
  set (l := fix l (ks : list str) := match ks with [] => [] | k :: r => if known k then k :: l r else [] end).
  destruct (one_split later (fun w => ~ In qin w) val fs1 s l (Some RuntimeError) F1 Os) as (fs' & kk & F' & Pkk & Hh & OW & E).
  { intros l0 P0. assert (Pl : forall k, In k l0 -> plain_key k). { intros x Ix. destruct Os as (_ & _ & _ & _ & PK & _). apply PK. now apply (Permutation_in _ P0). }
    assert (Il : In k l0) by (apply (Permutation_in _ (Permutation_sym P0)); assumption). clear P0.
    assert (Sp : exists x r, l0 = l l0 ++ x :: r /\ (forall y, In y (l l0) -> In y ks) /\ ~ In x ks).
    { clear Pl. induction l0 as [|y l0 IH]; [destruct Il|]. cbn [l]. unfold known at 1 2. destruct (in_dec (list_eq_dec N.eq_dec) y ks) as [Iy|Ny].
      - destruct Il as [->|Il]; [contradiction|]. destruct (IH Il) as (x & r & E & H1 & H2). exists x, r. split; [cbn [app]; f_equal; exact E|]. split; [|assumption]. intros y' [<-|I']; [assumption|now apply H1].
      - exists y, l0. split; [reflexivity|]. split; [intros ? []|assumption]. }
    destruct Sp as (x & r & E & H1 & H2). exists (x :: r). split; [exact E|]. intros f w Nw. rewrite La by (intros [E2|I2]; [|exact (Nw I2)]; apply (Ok_ s); [apply in_or_app; right; now left|exact E2]). rewrite E at 1. apply explicit_keys_missing; [intros y Iy; apply G1; now apply H1|]. apply G2; [|assumption]. apply Pl. rewrite E. apply in_or_app. right. now left. }
  assert (Ll : incl (l kk) (sp_keys s) /\ incl (l kk) ks).
  { assert (G : forall l0, incl (l l0) l0 /\ incl (l l0) ks). { induction l0 as [|y l0 (IH1 & IH2)]; [split; intros ? []|]. cbn [l]. unfold known at 1 2. destruct (in_dec (list_eq_dec N.eq_dec) y ks); [|split; intros ? []]. split; intros x [<-|Ix]; [now left|right; auto|assumption|auto]. }
    destruct (G kk) as (G3 & G4). split; [|assumption]. intros x Ix. apply (Permutation_in _ Pkk). auto. }
  assert (No : sp_out s <> []) by apply Os. assert (Us : unblocked fs1 (tl (sp_out s))) by apply Os.
  assert (W1 : writes_all fs1 fs' (sp_out s :: [])) by (apply (writes_step fs1 fs' fs'); [assumption|assumption|assumption|intros r _; auto]).
  assert (Ns : forall s', In s' xs -> sp_out s' <> sp_out s). { intros s' I' E'. destruct A as (N & _). rewrite map_app in N. cbn [map] in N. apply NoDup_remove_2 in N. apply N. rewrite app_nil_r, <- E'. now apply in_map. }
  assert (WA2 : writes_all fs fs' (map sp_out (xs ++ [s]))).
  { intros r Nr. rewrite map_app, in_app_iff in Nr. destruct (W1 r) as [E1|(E1 & E2 & o & Io & B)]; [intros I; apply Nr; now right| |].
    - rewrite E1. destruct (WA r) as [E2|(E2 & E3 & o & Io & B)]; [intros I; apply Nr; now left|now left|]. right. split; [assumption|]. split; [assumption|]. exists o. split; [rewrite map_app; apply in_or_app; now left|assumption].
    - right. split; [|split; [assumption|]; exists o; split; [rewrite map_app; apply in_or_app; now right|assumption]]. destruct (WA r) as [E3|(E3 & _)]; [intros I; apply Nr; now left|congruence|assumption]. }
  exists fs', (l kk). unfold split_explicit. rewrite En, Hf, M2, (E _ _ _ Nw'). split; [reflexivity|]. split; [assumption|]. split; [|split; [assumption|]; split; [apply Ll|]; split; [apply Ll|]; split; [assumption|]].
  - intros s' I'. apply (writes_keeps fs1 fs' [sp_out s]); [assumption| |auto]. intros [E'|[]]. symmetry in E'. exact (Ns s' I' E').
  - apply (writes_keeps fs fs' (map sp_out (xs ++ [s]))); [assumption| |assumption]. intros I. apply in_map_iff in I. destruct I as (s' & E' & I'). now apply (Ok_ s' I').
Qed.
(** Refuted, if writing a split over the input was meant to be possible: the input is emptied before its first pair is read.  The script fails at the first split, from the one written
    over the input on, that lists a key; the splits before the overwritten input are complete, the pairs of the input are gone. *)
Theorem C88_input_overwritten_refuted : forall p fs ns qin ks val sns xs ys s rest, wf_params p -> wf_fs fs ->
  Typed p !!"input" !!"zip" ns -> names_path cwd ns !!"path" qin -> holds fs qin ks val ->
  Missing p !!"num_slices" -> Stored p !!"explicit_split" sns -> is_params sns = true -> children sns = map sp_ns (xs ++ ys ++ [s]) ++ rest -> (forall c, In c rest -> no_list_inside c) ->
  (forall s', In s' (xs ++ ys ++ [s]) -> split_ok fs s') -> apart (xs ++ ys ++ [s]) -> (forall s' k, In s' (xs ++ ys ++ [s]) -> In k (sp_keys s') -> In k ks) ->
  (forall s', In s' xs -> sp_out s' <> qin) -> (forall s', In s' ys -> sp_keys s' = []) -> In qin (map sp_out (ys ++ [s])) -> sp_keys s <> [] ->
  exists fs' e, split_main p fs = (fs', Some e) /\ wf_fs fs' /\
    (forall s', In s' xs -> holds fs' (sp_out s') (sp_keys s') val) /\ (forall s', In s' (ys ++ [s]) -> holds fs' (sp_out s') [] (fun _ => [])) /\ writes_all fs fs' (map sp_out (xs ++ ys ++ [s])).
Proof.
  clear random_perm rglob_perm seeded_perm.
  intros p fs ns qin ks val sns xs ys s rest W F T Hin C Mn Se Te Ch NL0 Ok_ A In0 Nx Ey Iq Ne.
  assert (NL : forall c, In c (children sns) -> no_list_inside c).
  { rewrite Ch. intros c I. apply in_app_iff in I. destruct I as [I|I]; [|exact (NL0 c I)]. apply in_map_iff in I. destruct I as (s0 & <- & I). now apply (Ok_ s0). }
  assert (Ay : apart (ys ++ [s])). { destruct A as (N & A). split; [rewrite map_app in N; clear -N; induction (map sp_out xs) as [|x m IH]; [exact N|]; inversion N; subst; auto|]. intros s1 s2 I1 I2. apply A; apply in_or_app; now right. }
  assert (Nxy : forall s1 s2, In s1 xs -> In s2 (ys ++ [s]) -> sp_out s1 <> sp_out s2).
  { intros s1 s2 I1 I2 E. destruct A as (N & _). rewrite map_app in N. apply (in_map sp_out) in I1, I2. rewrite E in I1. clear -N I1 I2. induction (map sp_out xs) as [|x m IH]; [exact I1|]. inversion N as [|? ? N1 N2]; subst. destruct I1 as [->|I1]; [apply N1; apply in_or_app; now right|now apply IH]. }
  assert (Nys : forall s1, In s1 ys -> sp_out s1 <> sp_out s). { intros s' I' E'. destruct Ay as (N & _). rewrite map_app in N. cbn [map] in N. apply NoDup_remove_2 in N. apply N. rewrite app_nil_r, <- E'. now apply in_map. }
  destruct (opens_explicit fs p ns qin ks val sns W T Hin C Mn Se Te NL) as (later & z & ks' & -> & La & Lo & En & Pk & Kz & G1 & _).
  destruct (splits_from later qin (zip_source same_name bytes_value z) ks val (ys ++ [s]) La G1 xs fs F Ok_ Nx A) as (fs1 & F1 & Hs & WA & Keep & More).
  { intros s' k I. apply In0. apply in_or_app. now left. }
  destruct (More [] []) as (more & Nw' & M1 & M2); [intros []|]. clear More.
  destruct (all_splits later (fun _ => True) (fun _ => []) [s] ys fs1 F1 Keep Ay) as (fs2 & F2 & Hy & WA2 & Keep2 & More).
  { intros. exact Logic.I. } { intros s' f w l I _ P. rewrite (Ey s' I) in P. apply Permutation_sym, Permutation_nil in P. now subst. }
  destruct (More (rev (map sp_out xs) ++ []) ([] ++ more) Logic.I) as (more2 & _ & M3). clear More.
  assert (Os := Keep2 s (or_introl eq_refl)).
  destruct (one_split later (fun w => In qin (sp_out s :: w)) (fun _ => []) fs2 s (fun _ => []) (Some AnyError) F2 Os) as (fs' & kk & F' & Pkk & Hh & OW & E).
  { intros l0 P0. exists l0. split; [reflexivity|]. intros f w Iw. rewrite (Lo _ _ Iw). destruct l0 as [|k l0]; [exfalso; apply Ne; now apply Permutation_nil|].
    cbn [explicit_keys lost src_get]. rewrite G1; [reflexivity|]. apply (In0 s); [apply in_or_app; right; apply in_or_app; right; now left|]. apply (Permutation_in _ P0). now left. }
  assert (No : sp_out s <> []) by apply Os. assert (Us : unblocked fs2 (tl (sp_out s))) by apply Os.
  assert (W1 : writes_all fs2 fs' (sp_out s :: [])) by (apply (writes_step fs2 fs' fs'); [assumption|assumption|assumption|intros r _; auto]).
  assert (Tr : forall f f1 f2 o1 o2, writes_all f f1 o1 -> writes_all f1 f2 o2 -> writes_all f f2 (o1 ++ o2)).
  { clear. intros f f1 f2 o1 o2 A1 A2 r Nr. rewrite in_app_iff in Nr. destruct (A2 r) as [E1|(E1 & E2 & o & Io & B)]; [intros I; apply Nr; now right| |].
    - rewrite E1. destruct (A1 r) as [E2|(E2 & E3 & o & Io & B)]; [intros I; apply Nr; now left|now left|]. right. split; [assumption|]. split; [assumption|]. exists o. split; [apply in_or_app; now left|assumption].
    - right. split; [|split; [assumption|]; exists o; split; [apply in_or_app; now right|assumption]]. destruct (A1 r) as [E3|(E3 & _)]; [intros I; apply Nr; now left|congruence|assumption]. }
  destruct (first_front (peq oeq) (map sp_ns (xs ++ ys ++ [s])) rest (splits_unequal fs _ Ok_ (proj1 A))) as (rest' & Hf & _).
  exists fs', AnyError. unfold split_explicit. rewrite En, Ch, Hf. rewrite !map_app, <- !app_assoc, M2, M3. cbn [map app]. rewrite E.
  - split; [reflexivity|]. split; [assumption|]. split; [|split].
    + intros s' I'. apply (writes_keeps fs1 fs' (map sp_out ys ++ [sp_out s])); [exact (Tr _ _ _ _ _ WA2 W1)| |auto]. replace (map sp_out ys ++ [sp_out s]) with (map sp_out (ys ++ [s])) by apply map_app.
      intros I. apply in_map_iff in I. destruct I as (s2 & E2 & I2). symmetry in E2. exact (Nxy s' s2 I' I2 E2).
    + intros s' I'. apply in_app_iff in I'. destruct I' as [I'|[<-|[]]]; [|exact Hh]. apply (writes_keeps fs2 fs' [sp_out s]); [assumption|intros [E'|[]]; symmetry in E'; exact (Nys s' I' E')|]. rewrite <- (Ey s' I'). now apply Hy.
    + exact (Tr _ _ _ _ _ WA (Tr _ _ _ _ _ WA2 W1)).
  - rewrite map_app, in_app_iff in Iq. rewrite app_nil_r. destruct Iq as [Iq|[Iq|[]]]; [right; apply in_or_app; left; now apply -> in_rev|now left].
Qed.
(** Documented: "The split is expected to be exhaustive unless the parameter explicit_split.must_be_exhaustive is set to False".  Refuted: that
    parameter is not read; with it the script fails all the same when a key is not listed. *)
Theorem C88_must_be_exhaustive_refuted : forall p fs ns qin ks val sns xs k, wf_params p -> wf_fs fs ->
  Typed p !!"input" !!"zip" ns -> names_path cwd ns !!"path" qin -> holds fs qin ks val ->
  Missing p !!"num_slices" -> Stored p !!"explicit_split" sns -> is_params sns = true -> children sns = map sp_ns xs ->
  Stored p !!"explicit_split.must_be_exhaustive" (PBool false) -> ParamsSpec.Absent p !!"must_be_exhaustive" ->
  (forall s, In s xs -> split_ok fs s /\ sp_out s <> qin) -> apart xs -> (forall s k, In s xs -> In k (sp_keys s) -> In k ks) ->
  In k ks -> (forall s, In s xs -> ~ In k (sp_keys s)) ->
  exists fs', split_main p fs = (fs', Some RuntimeError).
Proof.
  clear random_perm rglob_perm seeded_perm.
  intros p fs ns qin ks val sns xs k W F T Hin C Mn Se Te Ch _ Ab Ok_ A In0 Ik Nk.
  destruct (C88_explicit p fs ns qin ks val sns xs true W F T Hin C Mn Se Te Ch (or_introl (conj Ab eq_refl)) Ok_ A In0) as (fs' & e & -> & _ & _ & _ & _ & _ & H). exists fs'. now rewrite (H k eq_refl Ik Nk).
Qed.
(** Refuted: the splits may hold any parameters besides keys_file and output_file.  When the namespace of any split has a list-valued parameter, at whatever depth, the
    script fails with a TypeError before writing anything. *)
Theorem C88_list_refuted : forall p fs ns qin ks val sns c name l, wf_params p -> wf_fs fs ->
  Typed p !!"input" !!"zip" ns -> names_path cwd ns !!"path" qin -> holds fs qin ks val ->
  Missing p !!"num_slices" -> Stored p !!"explicit_split" sns -> is_params sns = true -> In c (children sns) -> Stored c name (PList l) ->
  split_main p fs = (fs, Some TypeError).
Proof.
  clear random_perm rglob_perm seeded_perm set_order_perm.
  intros p fs ns qin ks val sns c name l W F T Hin C Mn Se Te Ic Sl. destruct (input_opens fs p ns qin ks val W T Hin C) as (later & z & ks' & Eo & _).
  assert (NN : sns <> PNone) by (intros ->; discriminate). assert (Pe : present_ p !!"explicit_split") by (exists sns; auto).
  assert (Cn : Params.contains p !!"num_slices" = false). { destruct (Params.contains p !!"num_slices") eqn:E; [|reflexivity]. apply (present_contains _ _ (proj1 W)) in E. destruct E as (v & S1 & N1). destruct Mn as [A|S2]; [destruct (A v S1)|]. destruct (N1 (stored_unique _ _ _ _ (proj1 W) S1 S2)). }
  unfold Mains.split_main. rewrite (proj2 (exactly_one p !!"num_slices" !!"explicit_split" (proj1 W))) by (right; auto). rewrite Eo, Cn, (proj2 (present_contains _ _ (proj1 W)) Pe).
  unfold split_explicit. assert (namespace p !!"explicit_split" = Ok sns) as ->. { unfold namespace. destruct (get_spec p !!"explicit_split" is_params PNone (proj1 W)) as (G & _). apply G; [now constructor|assumption]. }
  cbn [bind]. assert (Ws := stored_wf _ _ _ (proj1 W) Se). destruct sns as [| | | | | | | | |pre d|]; try discriminate. simpl in Ic. apply filter_In in Ic. destruct Ic as (I & Tc). apply in_map_iff in I. destruct I as ([k x] & E & I). simpl in E. subst x.
  now rewrite (proj1 (C101_list_refuted oeq pre d k c name l (conj Ws Te) I Tc Sl)).
Qed.
End P.
