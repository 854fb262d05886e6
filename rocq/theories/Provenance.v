(** * Property C132: no script makes up data, in any history of runs *)
From Coq Require Import Relations.
From Verif Require Import Prelude PyStr SortLib TextLib Utf8 Order Range Params ParamsSpec ParamsEval Fs FsProofs FsProps PathLists Decimals Io IoProps KeyValue KvParams KvParamsProps OsPath Scripts Mains MainsProofs ZipKeysProps.

Section Provenance.
Notation fsys := (list (list str * fnode)) (only parsing).
Notation rpath := (list str) (only parsing).
Variable ZC : zip_codec.

(** ** Specification *)
(** The file at [q] is a zip file, and what is read in it under the name [k] is [v]. *)
Definition holds_value (fs : fsys) (q : rpath) (k : str) (v : bytes) : Prop :=
  exists b a, look fs q = Some (KFile b) /\ unzip ZC b = Ok a /\ zread a k = Some v.
(** Copying, moving and deleting: every file has the contents of a file that was there. *)
Definition rearranged (fs fs' : fsys) : Prop := forall q b, look fs' q = Some (KFile b) -> exists q0, look fs q0 = Some (KFile b).
(** the same, zip files only *)
Definition nothing_new (fs fs' : fsys) : Prop := forall q k v, holds_value fs' q k v -> exists q0, holds_value fs q0 k v.

(** ** Archives *)
Section From.
(** the values that may be stored *)
Variable G : str -> bytes -> Prop.
(** an archive with no other values *)
Definition all_from (a : archive) : Prop := Forall (fun e => fst e = keys_entry \/ G (fst e) (snd e)) a.
Lemma zread_from a k v : zread a k = Some v -> In (k, v) a.
Proof.
  clear. revert k v. induction a as [|[n b] a IH] using rev_ind; intros k v E; [discriminate|]. rewrite zread_app in E. apply in_or_app.
  destruct (str_eqb n k) eqn:X; [|left; now apply IH]. apply str_eqb_eq in X. right. left. congruence.
Qed.
Lemma all_read a k v : all_from a -> zread a k = Some v -> k = keys_entry \/ G k v.
Proof. intros A E. apply zread_from in E. exact (proj1 (Forall_forall _ _) A _ E). Qed.
(** a zip file with nothing else in it *)
Definition disk_from (d : disk) : Prop := match d with Zip a => zip_ok a /\ all_from a | _ => True end.
(** a sink that has written nothing else *)
Definition state_from (z : zstate) : Prop := match z with Opened a => zip_ok a /\ all_from a | _ => True end.
(** a pair that may be put into a store *)
Definition pair_from (kv : str * value) : Prop := exists b, snd kv = VBytes b /\ ~ In 0%N (fst kv) /\ (fst kv = keys_entry \/ G (fst kv) b).
Lemma zip_name_same k : ~ In 0%N k -> zip_name k = k.
Proof. clear. induction k as [|c k IH]; intros N; [reflexivity|]. cbn. destruct (N.eqb_spec c 0) as [->|X]; [destruct N; now left|]. f_equal. apply IH. intros I. apply N. now right. Qed.
Lemma writestr_from a k b a' : zip_ok a -> all_from a -> ~ In 0%N k -> k = keys_entry \/ G k b -> writestr a k b = Ok a' -> zip_ok a' /\ all_from a'.
Proof.
  intros Z A N D E. unfold writestr in E. destruct (zip_name k) eqn:X; [discriminate|]. clear X. split; [exact (zappend_zip_ok _ _ _ _ Z E)|].
  unfold zappend in E. rewrite (zip_name_same k N) in E. destruct (encode k) as [x|e]; [|discriminate]. injection E as <-. apply Forall_app. split; [assumption|]. constructor; [exact D|constructor].
Qed.
Lemma put_from d s k b : disk_from d -> state_from (s_state s) -> ~ In 0%N k -> k = keys_entry \/ G k b ->
  let '(d', s', _) := put same_name d s k (VBytes b) in disk_from d' /\ state_from (s_state s').
Proof.
  intros D S0 N Gk. unfold put. destruct (s_state s) as [|a|] eqn:Es; [rewrite Es; auto| |].
  - destruct (in_keys k (s_keys s)); [rewrite Es; auto|]. unfold same_name at 1. destruct (writestr a k b) as [a'|e] eqn:W; [|cbn; auto]. cbn [s_state disk_from state_from]. split; [exact Logic.I|]. exact (writestr_from _ _ _ _ (proj1 S0) (proj2 S0) N Gk W).
  - destruct (in_keys k (s_keys s)); [rewrite Es; auto|]. cbn. auto.
Qed.
Lemma keys_no_nul : ~ In 0%N keys_entry.
Proof. vm_compute. intuition discriminate. Qed.
Lemma exit_from so d s : disk_from d -> state_from (s_state s) -> let '(d', _, _) := sink_exit so d s in disk_from d'.
Proof.
  intros D S0. unfold sink_exit. destruct (s_state s) as [|a|]; [assumption| |assumption]. destruct (write_keys a (so (s_keys s))) as [a'|e] eqn:W; [|assumption].
  unfold write_keys in W. destruct (encode _) as [b|e]; [|discriminate]. cbn [bind] in W. cbn [disk_from]. exact (writestr_from _ _ _ _ (proj1 S0) (proj2 S0) keys_no_nul (or_introl eq_refl) W).
Qed.
Lemma enter_from d : let '(d', s', _) := sink_enter true d new_sink in disk_from d' /\ state_from (s_state s').
Proof. clear. cbn. split; [exact Logic.I|]. split; [intros ? ? []|constructor]. Qed.
Lemma put_until_from ops : forall d s, disk_from d -> state_from (s_state s) -> Forall pair_from ops -> let '(d', s', _) := put_until d s ops in disk_from d' /\ state_from (s_state s').
Proof.
  induction ops as [|[k v] ops IH]; intros d s D S0 P; [cbn; auto|]. apply Forall_cons_iff in P. destruct P as ((b & Ev & N & Gk) & P). cbn [fst snd] in *. subst v.
  cbn [put_until]. assert (H := put_from d s k b D S0 N Gk). destruct (put same_name d s k (VBytes b)) as [[d1 s1] [u|e]]; [|assumption]. apply IH; tauto.
Qed.
Lemma write_from so d st : Forall pair_from (fst st) -> disk_from (fst (write_stream so d st)).
Proof.
  intros P. unfold write_stream. assert (E0 := enter_from d). destruct (sink_enter true d new_sink) as [[d1 s1] [u|e]]; [|exact (proj1 E0)].
  assert (H := put_until_from (fst st) d1 s1 (proj1 E0) (proj2 E0) P). destruct (put_until d1 s1 (fst st)) as [[d2 s2] e2].
  assert (X := exit_from so d2 s2 (proj1 H) (proj2 H)). now destruct (sink_exit so d2 s2) as [[d3 s3] e3].
Qed.

(** ** Sources *)
(** a source that serves nothing else *)
Definition src_from (src : source bytes) : Prop :=
  (forall k b, src_item src k = Ok b -> pair_from (k, VBytes b)) /\ (forall k b, src_get src k = Ok (Some b) -> pair_from (k, VBytes b)).
Lemma lost_from src : src_from src -> src_from (lost src).
Proof.
  intros _. split; intros k b E; unfold lost in E; cbn in E.
  - destruct (src_item src k); discriminate.
  - destruct (src_get src k) as [[]|]; discriminate.
Qed.
Lemma explicit_from src ks : src_from src -> Forall pair_from (fst (explicit_keys src ks)).
Proof.
  intros (_ & H). induction ks as [|k ks IH]; [constructor|]. cbn [explicit_keys]. destruct (src_get src k) as [[b|]|e] eqn:E; [|constructor|constructor].
  destruct (explicit_keys src ks) as [ys e]. constructor; [now apply H|exact IH].
Qed.
Lemma sampled_from src ks : src_from src -> Forall pair_from (fst (yield_all (fun k => let* b := src_item src k in Ok (Some (k, VBytes b))) ks)).
Proof.
  intros (H & _). induction ks as [|k ks IH]; [constructor|]. cbn [yield_all]. destruct (src_item src k) as [b|e] eqn:E; [|constructor]. cbn [bind].
  destruct (yield_all _ ks) as [ys e]. constructor; [now apply H|exact IH].
Qed.
Lemma join_keys_from src : src_from src -> forall ks w, Forall pair_from (fst (fst (join_keys src w ks))).
Proof.
  intros (H & _). induction ks as [|k ks IH]; intros w; [constructor|]. cbn [join_keys]. destruct (existsb _ _); [constructor|]. destruct (src_item src k) as [b|e] eqn:E; [|constructor].
  specialize (IH (k :: w)). destruct (join_keys src (k :: w) ks) as [[ys w'] e]. constructor; [now apply H|exact IH].
Qed.
(** a zip file in which nothing else is read *)
Definition disk_read (d : disk) : Prop := match d with Zip a => zip_ok a /\ (forall k v, zread a k = Some v -> k = keys_entry \/ G k v) | _ => True end.
Lemma zip_source_from d z : disk_read d -> source_enter d = Ok z -> src_from (zip_source same_name bytes_value z).
Proof.
  intros D E. destruct d as [| |a]; [discriminate|discriminate|]. cbn [source_enter] in E. destruct (read_keys a) as [ks|e]; [|discriminate]. injection E as <-.
  assert (H : forall k b, zread a k = Some b -> pair_from (k, VBytes b)).
  { intros k b R. exists b. split; [reflexivity|]. cbn [fst]. split; [exact (proj1 (proj1 D k b (zread_from _ _ _ R)))|exact (proj2 D k b R)]. }
  split; intros k b R; cbn in R; unfold same_name in R; destruct (zread a k) as [x|] eqn:Z; cbn in R; try discriminate; injection R as <-; now apply H.
Qed.
Lemma join_inputs_from ds : Forall disk_read ds -> forall w, Forall pair_from (fst (join_inputs w ds)).
Proof.
  induction ds as [|d ds IH]; intros D w; [constructor|]. apply Forall_cons_iff in D. destruct D as (D & Ds). cbn [join_inputs]. destruct (source_enter d) as [z|e] eqn:E; [|constructor].
  cbv zeta. destruct (src_keys _) as [[ks|]|e]; [|constructor|constructor]. assert (J := join_keys_from _ (zip_source_from d z D E) ks w).
  destruct (join_keys _ w ks) as [[ys w'] [x|]]; [exact J|]. specialize (IH Ds w'). destruct (join_inputs w' ds) as [zs e']. cbn [fst] in *. apply Forall_app. auto.
Qed.
Lemma split_loop_from src n : src_from src -> forall keys i st, (forall j, disk_from (fst (st j)) /\ state_from (s_state (snd (st j)))) ->
  forall j, disk_from (fst (fst (split_loop src n i keys st) j)) /\ state_from (s_state (snd (fst (split_loop src n i keys st) j))).
Proof.
  intros (H & _). induction keys as [|k keys IH]; intros i st S0; [exact S0|]. cbn [split_loop]. destruct (src_item src k) as [b|e] eqn:E; [|exact S0].
  destruct (H k b E) as (b' & Eb & N & Gk). injection Eb as <-. cbn [fst] in *. cbv zeta. set (j0 := Nat.modulo i n).
  assert (P := put_from (fst (st j0)) (snd (st j0)) k b (proj1 (S0 j0)) (proj2 (S0 j0)) N Gk). destruct (put same_name (fst (st j0)) (snd (st j0)) k (VBytes b)) as [[d1 s1] o].
  assert (U : forall j, disk_from (fst (upd st j0 (d1, s1) j)) /\ state_from (s_state (snd (upd st j0 (d1, s1) j)))).
  { intros j. unfold upd. destruct (j =? j0)%nat; [exact P|apply S0]. }
  destruct o as [u|e]; [|exact U]. now apply IH.
Qed.
Lemma split_even_from so reorder n src ds j : src_from src -> (j < n)%nat -> disk_from (fst (split_even so reorder n src ds) j).
Proof.
  intros H L. unfold split_even. cbv zeta. set (st0 := fun j => fst (sink_enter true (ds j) new_sink)).
  assert (S0 : forall j, disk_from (fst (st0 j)) /\ state_from (s_state (snd (st0 j)))) by (intros i; apply (enter_from (ds i))).
  assert (S1 : forall j, let st := fst (match src_keys src with Raise e => (st0, Some e) | Ok None => (st0, Some TypeError) | Ok (Some keys) => split_loop src n 0 (reorder keys) st0 end) in disk_from (fst (st j)) /\ state_from (s_state (snd (st j)))).
  { intros i. destruct (src_keys src) as [[ks|]|e]; [|apply S0|apply S0]. now apply split_loop_from. }
  destruct (match src_keys src with Raise e => _ | Ok None => _ | Ok (Some keys) => _ end) as [st e]. cbn [fst] in *. rewrite (proj2 (Nat.ltb_lt j n) L).
  assert (X := exit_from so (fst (st j)) (snd (st j)) (proj1 (S1 j)) (proj2 (S1 j))). now destruct (sink_exit so (fst (st j)) (snd (st j))) as [[d s] o].
Qed.

(** ** Files *)
(** no zip file in which anything else is read *)
Definition fs_from (fs : fsys) : Prop := forall q k v, holds_value fs q k v -> k = keys_entry \/ G k v.
Lemma disk_at_read fs q : fs_from fs -> disk_read (disk_at ZC fs q).
Proof.
  intros F. unfold disk_at. destruct (look fs q) as [[b| |]|] eqn:L; try exact Logic.I. destruct (unzip ZC b) as [a|e] eqn:U; [|exact Logic.I].
  split; [exact (unzip_ok ZC _ _ U)|]. intros k v R. apply (F q). exists b, a. auto.
Qed.
(** no regular files but those of [fs] and those whose contents are [other] *)
Definition more_files (other : bytes -> Prop) (fs fs' : fsys) : Prop := forall q b, look fs' q = Some (KFile b) -> look fs q = Some (KFile b) \/ other b.
Lemma fs_more (other : bytes -> Prop) fs fs' : (forall b a, other b -> unzip ZC b <> Ok a) -> fs_from fs -> more_files other fs fs' -> fs_from fs'.
Proof. intros O F M q k v (b & a & L & U & R). destruct (M q b L) as [L'|X]; [apply (F q k v); exists b, a; auto|destruct (O b a X U)]. Qed.
Lemma set_from fs q b : fs_from fs -> (forall a, unzip ZC b = Ok a -> forall k v, zread a k = Some v -> k = keys_entry \/ G k v) -> fs_from (set_node fs q b).
Proof.
  intros F B q0 k v (b0 & a & L & U & R). destruct q0 as [|c q0]; [discriminate|]. destruct (rpath_eqb_spec q (c :: q0)) as [->|N].
  - rewrite look_set_same in L by discriminate. injection L as <-. exact (B a U k v R).
  - assert (L' : look fs (c :: q0) = Some (KFile b0)).
    { clear -L N. unfold set_node in L. cbn [look find_path] in L |- *. destruct (rpath_eqb_spec q (c :: q0)); [contradiction|assumption]. }
    apply (F (c :: q0) k v). exists b0, a. auto.
Qed.
Lemma mkdir_files q : forall fs r b, look (fst (mkdir_p fs q)) r = Some (KFile b) -> look fs r = Some (KFile b).
Proof.
  clear.
  assert (One : forall fs q0 fs' r b, os_mkdir fs q0 = Ok fs' -> look fs' r = Some (KFile b) -> look fs r = Some (KFile b)).
  { intros fs [|c q0] fs' r b E L; [discriminate|]. unfold os_mkdir in E. destruct (search fs q0) as [u|e]; [|discriminate]. cbn [bind] in E. destruct (look fs (c :: q0)) eqn:X; [discriminate|]. injection E as <-.
    destruct r as [|d r]; [discriminate|]. cbn [look find_path] in L |- *. destruct (rpath_eqb (c :: q0) (d :: r)); [discriminate|exact L]. }
  induction q as [|c q IH]; intros fs r b L.
  - cbn in L. exact L.
  - cbn [mkdir_p] in L. destruct (os_mkdir fs (c :: q)) as [fs'|e] eqn:E; [exact (One _ _ _ _ _ E L)|].
    assert (Same : look (fst (if is_dir fs (c :: q) then (fs, Ok tt) else (fs, Raise e))) r = Some (KFile b) -> look fs r = Some (KFile b)) by (destruct (is_dir fs (c :: q)); exact (fun x => x)).
    destruct e; try exact (Same L). clear Same. specialize (IH fs r b). destruct (mkdir_p fs q) as [fs1 [u|e]]; [|exact (IH L)].
    destruct (os_mkdir fs1 (c :: q)) as [fs2|e] eqn:E2; [exact (IH (One _ _ _ _ _ E2 L))|].
    destruct e; try exact (IH L); (destruct (is_dir fs1 (c :: q)); exact (IH L)).
Qed.
Lemma mkdir_from fs q : fs_from fs -> fs_from (fst (mkdir_p fs q)).
Proof. intros F q0 k v (b & a & L & U & R). apply (F q0 k v). exists b, a. split; [exact (mkdir_files _ _ _ _ L)|auto]. Qed.
Lemma creatable_directory_from cwd p n fs : fs_from fs -> fs_from (fst (creatable_directory cwd p n fs)).
Proof. intros F. unfold creatable_directory. destruct (path_param cwd p n) as [q|e]; [|exact F]. assert (H := mkdir_from fs q F). now destruct (mkdir_p fs q). Qed.
Lemma creatable_file_from cwd p n fs : fs_from fs -> fs_from (fst (creatable_file cwd p n fs)).
Proof. intros F. unfold creatable_file. destruct (path_param cwd p n) as [q|e]; [|exact F]. assert (H := mkdir_from fs (tl q) F). now destruct (mkdir_p fs (tl q)). Qed.

Section Torn.
Variable torn : bytes.
Variable so : list str -> list str.
Hypothesis torn_no_zip : forall a, unzip ZC torn <> Ok a.
Notation put_disk := (put_disk ZC torn).
Lemma put_disk_from fs q d : fs_from fs -> disk_from d -> fs_from (put_disk fs q d).
Proof.
  intros F D. destruct d as [| |a]; [exact F| |]; (apply set_from; [exact F|]).
  - intros a U. destruct (torn_no_zip a U).
  - intros a' U k v R. destruct D as (Z & A). rewrite (unzip_dozip ZC [] a Z) in U. injection U as <-. exact (all_read _ _ _ A R).
Qed.
Lemma put_slices_from dir n ds : (forall i, (i < n)%nat -> disk_from (ds i)) -> forall fs, fs_from fs -> fs_from (put_slices ZC torn fs dir n ds).
Proof.
  intros D fs. unfold put_slices. assert (G0 : forall l fs, (forall i, In i l -> (i < n)%nat) -> fs_from fs -> fs_from (fold_left (fun f i => put_disk f (slice_file dir i) (ds i)) l fs)).
  { induction l as [|i l IH]; intros fs0 L F; [exact F|]. cbn [fold_left]. apply IH; [intros j J; apply L; now right|]. apply put_disk_from; [exact F|]. apply D, L. now left. }
  apply G0. intros i I. apply in_seq in I. clear -I. lia.
Qed.
Lemma write_zip_from fs q st : fs_from fs -> (forall fs2, fs_from fs2 -> Forall pair_from (fst (st fs2))) -> fs_from (fst (write_zip ZC torn so fs q st)).
Proof.
  intros F P. unfold write_zip. destruct (can_write fs q) as [u|e]; [|exact F].
  assert (H := write_from so (disk_at ZC fs q) (st (put_disk fs q Partial)) (P _ (put_disk_from fs q Partial F Logic.I))).
  destruct (write_stream so (disk_at ZC fs q) (st (put_disk fs q Partial))) as [d e]. now apply put_disk_from.
Qed.
End Torn.
End From.

(** ** The scripts *)
Section Scripts.
Variable X : Type.
Notation obj := (kv_obj X).
Variable import_module : str -> res obj.
Variable other_eval : str -> list (str * obj) -> res obj.
Variable builtin : str -> option obj.
Variable locals_of : pv -> str -> list (str * obj).
Variable x_is_class : X -> bool.
Variable x_from_parameters : X -> option (pv -> res obj).
Variable x_construct : X -> res obj.
Variable x_callable : X -> bool.
Variable x_call : X -> pv -> res obj.
Variables x_is_linear x_is_source x_is_sink : X -> bool.
Variable cwd : list str.
Variable other_globals : list (str * obj).
Variable torn : bytes.
Variable set_order : list str -> list str.
Variables seeded_shuffle random_shuffle : Z -> list str -> list str.
Variable other_source : obj -> fsys -> res (source bytes).
Variable other_sink : obj -> fsys -> (fsys -> stream value) -> fsys * option exn.
Variable oeq : pv -> pv -> bool.
Notation linear_source := (the_linear_source X import_module other_eval builtin locals_of x_is_class x_from_parameters x_construct x_callable x_call x_is_linear cwd other_globals).
Notation full_source := (the_source X import_module other_eval builtin locals_of x_is_class x_from_parameters x_construct x_callable x_call x_is_source cwd other_globals).
Notation split_main := (split_main X import_module other_eval builtin locals_of x_is_class x_from_parameters x_construct x_callable x_call x_is_linear cwd other_globals ZC torn set_order seeded_shuffle other_source oeq).
Notation join_main := (join_main X import_module other_eval builtin locals_of x_is_class x_from_parameters x_construct x_callable x_call x_is_sink cwd other_globals ZC torn set_order other_sink).
Notation downsample_main := (downsample_main X import_module other_eval builtin locals_of x_is_class x_from_parameters x_construct x_callable x_call x_is_source cwd other_globals ZC torn set_order random_shuffle other_source).

Notation sink fs p := (the_sink X import_module other_eval builtin locals_of x_is_class x_from_parameters x_construct x_callable x_call x_is_sink cwd other_globals fs p (map (fun n => (n, ONone)) join_locals)).
(** One step of a history: a run of a script, with whatever parameters and however it ends, or files being copied, moved and deleted.  Left out: inputs of type "file-map", whose values
    are the contents of files; and user code that writes new files while it makes the sink. *)
Inductive change (fs : fsys) : fsys -> Prop :=
| by_split p : (forall files, linear_source fs p <> Ok (OMapSource true files)) -> change fs (fst (split_main p fs))
| by_join p : (forall b q fs', sink fs p = Ok (OZipSink b q fs') -> rearranged fs fs') -> change fs (fst (join_main p fs))
| by_downsample p : (forall files, full_source fs p <> Ok (OMapSource true files)) -> change fs (fst (downsample_main p fs))
| by_hand fs' : rearranged fs fs' -> change fs fs'.

(** a half-written zip file, an empty file and the texts in _slices.txt are no zip files *)
Hypothesis torn_no_zip : forall a, unzip ZC torn <> Ok a.
Hypothesis empty_no_zip : forall a, unzip ZC [] <> Ok a.
Hypothesis list_no_zip : forall dir n b a, encode (slices_text dir n) = Ok b -> unzip ZC b <> Ok a.
(** the sources and sinks of the user's own classes: the sources serve nothing but what is stored in zip files, the sinks write no zip files *)
Hypothesis user_source : forall o fs src k v, other_source o fs = Ok src -> src_item src k = Ok v \/ src_get src k = Ok (Some v) -> exists q, holds_value fs q k v.
Hypothesis user_sink : forall o fs st, nothing_new fs (fst (other_sink o fs st)).

Section Run.
Variable G : str -> bytes -> Prop.
Notation fs_from := (fs_from G).
Notation src_from := (src_from G).
Lemma value_pair fs q k v : fs_from fs -> holds_value fs q k v -> pair_from G (k, VBytes v).
Proof.
  clear -ZC. intros F (b & a & L & U & R). exists v. split; [reflexivity|]. cbn [fst]. split.
  - exact (proj1 (unzip_ok ZC _ _ U k v (zread_from _ _ _ R))).
  - apply (F q k v). exists b, a. auto.
Qed.
Lemma open_from fs o src : fs_from fs -> (forall files, o <> OMapSource true files) -> open_source X cwd ZC other_source fs o = Ok src -> src_from src.
Proof.
  intros F M E. assert (User : other_source o fs = Ok src -> src_from src).
  { intros E'. split; intros k b R; [destruct (user_source o fs src k b E' (or_introl R)) as (q & H)|destruct (user_source o fs src k b E' (or_intror R)) as (q & H)]; exact (value_pair fs q k b F H). }
  destruct o as [s|c|b|b q fs'|b q|[] q|[] files| |x]; try exact (User E).
  - cbn [open_source] in E. destruct (source_enter (disk_at ZC fs q)) as [z|e] eqn:Z; [|discriminate]. cbn [bind] in E. injection E as <-.
    exact (zip_source_from G _ z (disk_at_read G fs q F) Z).
  - destruct (M files eq_refl).
Qed.
Lemma later_from fs o src : fs_from fs -> (forall files, o <> OMapSource true files) -> open_source X cwd ZC other_source fs o = Ok src ->
  forall fs2 w, src_from (read_later X cwd ZC other_source o src fs2 w).
Proof.
  intros F M E fs2 w. assert (H := open_from fs o src F M E). unfold read_later. destruct o as [s|c|b|b q fs'|b q|[] q|[] files| |x]; try exact H.
  - destruct (existsb _ w); [now apply lost_from|exact H].
  - destruct (M files eq_refl).
Qed.
Lemma write_text_from fs q t : fs_from fs -> (forall b a, encode t = Ok b -> unzip ZC b <> Ok a) -> fs_from (fst (write_text fs q t)).
Proof.
  intros F N. unfold write_text. destruct (can_write fs q) as [u|e]; [|exact F]. destruct (encode t) as [b|e] eqn:E; (apply set_from; [exact F|]); intros a U.
  - destruct (N b a eq_refl U).
  - destruct (empty_no_zip a U).
Qed.
Lemma split_slices_from later p fs : fs_from fs -> (forall fs2 w, src_from (later fs2 w)) -> fs_from (fst (split_slices cwd ZC torn set_order seeded_shuffle later p fs)).
Proof.
  intros F L. unfold split_slices. assert (F1 := creatable_directory_from G cwd p !!"output_dir" fs F). destruct (creatable_directory cwd p !!"output_dir" fs) as [fs1 [dir|e]]; [|exact F1]. cbn [fst] in F1.
  destruct (positive_integer p !!"num_slices" PNone) as [nv|e]; [|exact F1]. destruct (optional_positive_integer p !!"random_seed" PNone) as [seed|e]; [|exact F1]. cbv zeta. set (n := Z.to_nat (int_of nv)).
  assert (F2 := write_text_from fs1 (!!"_slices.txt" :: dir) (slices_text dir n) F1 (fun b a => list_no_zip dir n b a)).
  destruct (write_text fs1 (!!"_slices.txt" :: dir) (slices_text dir n)) as [fs2 [e|]]; [exact F2|]. cbn [fst] in F2.
  destruct (first_failure fs2 dir 0 n) as [[m e]|].
  - apply (put_slices_from G torn torn_no_zip); [|exact F2]. intros i _. apply write_from. constructor.
  - assert (Fn : forall i, (i < n)%nat -> disk_from G (fst (split_even set_order (slice_order seeded_shuffle seed) n (later (put_slices ZC torn fs2 dir n (fun _ => Partial)) ((!!"_slices.txt" :: dir) :: map (slice_file dir) (seq 0 n))) (fun i => disk_at ZC fs2 (slice_file dir i))) i)).
    { intros i Li. apply split_even_from; [apply L|exact Li]. }
    destruct (split_even _ _ n _ _) as [ds e]. apply (put_slices_from G torn torn_no_zip); [exact Fn|exact F2].
Qed.
Lemma split_namespaces_from later : (forall fs2 w, src_from (later fs2 w)) -> forall splits fs w copied, fs_from fs ->
  fs_from (fst (fst (split_namespaces cwd ZC torn set_order later fs splits w copied))).
Proof.
  intros L. induction splits as [|s rest IH]; intros fs w copied F; [exact F|]. cbn [split_namespaces].
  destruct (let* f := existing_file cwd s !!"keys_file" fs in _) as [ks|e]; [|exact F].
  assert (F1 := creatable_file_from G cwd s !!"output_file" fs F). destruct (creatable_file cwd s !!"output_file" fs) as [fs1 [q|e]]; [|exact F1]. cbn [fst] in F1. cbv zeta.
  set (st := explicit_keys (later (put_disk ZC torn fs1 q Partial) (q :: w)) ks).
  assert (P : Forall (pair_from G) (fst st)) by (apply explicit_from, L).
  assert (F2 := write_zip_from G torn set_order torn_no_zip fs1 q (fun _ => st) F1 (fun _ _ => P)).
  destruct (write_zip ZC torn set_order fs1 q (fun _ => st)) as [fs2 [e|]]; [exact F2|]. now apply IH.
Qed.
Lemma split_from p fs : fs_from fs -> (forall files, linear_source fs p <> Ok (OMapSource true files)) -> fs_from (fst (split_main p fs)).
Proof.
  intros F M. unfold Mains.split_main. destruct (assert_exactly_one_present p _) as [u|e]; [|exact F].
  destruct (linear_source fs p) as [o|e] eqn:Eo; [|exact F]. cbn [bind]. destruct (open_source X cwd ZC other_source fs o) as [src|e] eqn:Es; [|exact F]. cbn [bind].
  assert (L := later_from fs o src F (fun files H => M files (f_equal Ok H)) Es).
  destruct (Params.contains p !!"num_slices"); [now apply split_slices_from|]. destruct (Params.contains p !!"explicit_split"); [|exact F].
  unfold split_explicit. destruct (let* ns := namespace p !!"explicit_split" in sub_namespaces oeq ns) as [splits|e]; [|exact F].
  assert (F1 := split_namespaces_from _ L splits fs [] [] F). destruct (split_namespaces _ _ _ _ _ fs splits [] []) as [[fs1 c] [e|]]; exact F1.
Qed.
Lemma rearranged_from fs fs' : fs_from fs -> rearranged fs fs' -> fs_from fs'.
Proof. clear -ZC. intros F R q k v (b & a & L & U & Z). destruct (R q b L) as (q0 & L0). apply (F q0 k v). exists b, a. auto. Qed.
Lemma join_from p fs : fs_from fs -> (forall b q fs', sink fs p = Ok (OZipSink b q fs') -> rearranged fs fs') -> fs_from (fst (join_main p fs)).
Proof.
  intros F M. unfold Mains.join_main. destruct (path_list_from_file cwd p !!"input_store_list_file" None fs) as [paths|e]; [|exact F].
  destruct (sink fs p) as [o|e] eqn:Eo; [|exact F].
  assert (User : fs_from (fst (other_sink o fs (fun fs2 => join_inputs [] (map (disk_of cwd ZC fs2) paths))))).
  { intros q k v H. destruct (user_sink o fs _ q k v H) as (q0 & H0). exact (F q0 k v H0). }
  destruct o as [s|c|b|b q fs'|b q|b q|b files| |x]; try exact User. cbn [write_sink].
  apply (write_zip_from G torn set_order torn_no_zip); [exact (rearranged_from fs fs' F (M b q fs' eq_refl))|]. intros fs2 F2. apply join_inputs_from. apply Forall_forall. intros d I. apply in_map_iff in I. destruct I as (pp & <- & _).
  unfold disk_of. destruct (os_find cwd fs2 pp) as [q0|e]; [now apply disk_at_read|exact Logic.I].
Qed.
Lemma downsample_from p fs : fs_from fs -> (forall files, full_source fs p <> Ok (OMapSource true files)) -> fs_from (fst (downsample_main p fs)).
Proof.
  intros F M. unfold Mains.downsample_main.
  destruct (full_source fs p) as [o|e] eqn:Eo; [|exact F]. cbn [bind]. destruct (open_source X cwd ZC other_source fs o) as [src|e] eqn:Es; [|exact F]. cbn [bind].
  assert (L := later_from fs o src F (fun files H => M files (f_equal Ok H)) Es).
  assert (K : forall fs2 w, src_keys (read_later X cwd ZC other_source o src fs2 w) = src_keys src).
  { intros fs2 w. clear -M. unfold read_later. destruct o as [s|c|b|b q fs'|b q|[] q|[] files| |x]; try reflexivity; [destruct (existsb _ w); reflexivity|destruct (M files eq_refl)]. }
  rewrite K. destruct (src_keys src) as [[keys|]|e] eqn:Ek; [|exact F|exact F]. destruct (positive_integer p !!"num_to_sample" PNone) as [nv|e]; [|exact F].
  destruct (integer p !!"random_seed" (PInt 0) _) as [seed|e]; [|exact F].
  assert (F1 := creatable_file_from G cwd p !!"output_zip_path" fs F). destruct (creatable_file cwd p !!"output_zip_path" fs) as [fs1 [q|e]]; [|exact F1]. cbn [fst] in F1.
  destruct (can_write fs1 q) as [u|e]; [|exact F1]. unfold downsample. rewrite K. cbv zeta.
  match goal with |- context [write_stream ?so ?d ?st] => assert (W : disk_from G (fst (write_stream so d st))) by (apply write_from, sampled_from, L); destruct (write_stream so d st) as [d' e'] end.
  exact (put_disk_from G torn torn_no_zip fs1 q d' F1 W).
Qed.
Lemma change_from fs fs' : fs_from fs -> change fs fs' -> fs_from fs'.
Proof. intros F C. destruct C as [p M|p M|p M|fs' R]; [now apply split_from|now apply join_from|now apply downsample_from|exact (rearranged_from fs fs' F R)]. Qed.
End Run.

(** Whatever history of runs and rearrangements has made the files what they are: every value read in any zip file under a key was there, under that very key, in some zip file at the
    beginning.  ("__keys" is the entry in which the stores keep their list of keys.) *)
Theorem C132_no_invention : forall fs fs' q k v, clos_refl_trans _ change fs fs' ->
  holds_value fs' q k v -> k <> !!"__keys" -> exists q0, holds_value fs q0 k v.
Proof.
  intros fs fs' q k v H V N. set (G := fun k v => exists q0, holds_value fs q0 k v).
  assert (F : fs_from G fs) by (intros q0 k0 v0 H0; right; exists q0; exact H0).
  assert (F' : fs_from G fs').
  { clear V. apply clos_rt_rtn1 in H. induction H as [|f1 f2 C H IH]; [exact F|exact (change_from G f1 f2 IH C)]. }
  destruct (F' q k v V) as [E|E]; [destruct (N E)|exact E].
Qed.

(** ** What the condition on joins asks of user code: it holds for all parameters when the user's own modules, expressions, classes and functions give no zip sink of the library. *)
(** no zip sink of the library *)
Definition no_sink (o : obj) : Prop := forall b q fs', o <> OZipSink b q fs'.
(** names bound to no zip sinks *)
Definition no_sinks (c : list (str * obj)) : Prop := forall k o, dfind c k = Some o -> no_sink o.
Section UserCode.
Hypothesis modules_ok : forall m o, import_module m = Ok o -> no_sink o.
Hypothesis eval_ok : forall s c o, other_eval s c = Ok o -> no_sink o.
Hypothesis builtin_ok : forall s o, builtin s = Some o -> no_sink o.
Hypothesis globals_ok : forall k o, In (k, o) other_globals -> no_sink o.
Hypothesis from_parameters_ok : forall x f p o, x_from_parameters x = Some f -> f p = Ok o -> no_sink o.
Hypothesis construct_ok : forall x o, x_construct x = Ok o -> no_sink o.
Hypothesis call_ok : forall x p o, x_call x p = Ok o -> no_sink o.
Lemma put_no_sinks c k o : no_sinks c -> no_sink o -> no_sinks (dput c k o).
Proof. clear. intros C O k' o' E. rewrite ParamsProofs.dfind_dput in E. destruct (str_eqb k k'); [injection E as <-; exact O|exact (C k' o' E)]. Qed.
Lemma import_no_sinks ms : forall c c', no_sinks c -> import_all obj import_module c ms = Ok c' -> no_sinks c'.
Proof.
  assert (One : forall ns c c', no_sinks c -> foldM (import_one obj import_module) ns c = Ok c' -> no_sinks c').
  { clear -modules_ok. induction ns as [|n ns IH]; intros c c' C E; [injection E as <-; exact C|]. cbn [foldM] in E. unfold import_one at 1 in E. destruct (dfind c n) as [o|]; [exact (IH c c' C E)|].
    destruct (import_module n) as [m|e] eqn:M; [|discriminate]. cbn [bind] in E. exact (IH _ c' (put_no_sinks c n m C (modules_ok n m M)) E). }
  clear -One. unfold import_all. induction ms as [|m ms IH]; intros c c' C E; [injection E as <-; exact C|]. cbn [foldM] in E. destruct m; try discriminate E.
  destruct (foldM (import_one obj import_module) _ c) as [c1|e] eqn:F; [|discriminate]. cbn [bind] in E. exact (IH c1 c' (One _ _ _ C F) E).
Qed.
Notation py_eval := (py_eval X other_eval builtin).
Lemma eval_no_sink code c ms ty o : no_sinks c -> eval_in_context_of_modules obj import_module py_eval code c ms ty = Ok o -> no_sink o.
Proof.
  intros C E. unfold eval_in_context_of_modules in E. destruct (import_all obj import_module c ms) as [c'|e] eqn:I; [|discriminate]. cbn [bind] in E.
  assert (C' := import_no_sinks ms c c' C I). destruct (py_eval code c') as [r|e] eqn:R; [|discriminate]. cbn [bind] in E. destruct (ty r); [|discriminate]. injection E as <-.
  clear -R C' eval_ok builtin_ok. unfold KvParams.py_eval in R. destruct code as [s|?|?|? ? ?|? ?|? ?|? ?| |?]; try discriminate. destruct (is_name s); [|exact (eval_ok s c' r R)].
  destruct (dfind c' s) as [o|] eqn:D; [injection R as <-; exact (C' s o D)|]. destruct (builtin s) as [o|] eqn:B; [|discriminate]. cbn in R. injection R as <-. exact (builtin_ok s o B).
Qed.
Lemma context_no_sinks names : no_sinks (effective_context X other_globals (Some (map (fun n => (n, ONone)) names))).
Proof.
  clear -globals_ok. unfold effective_context.
  assert (P : forall l c, no_sinks c -> (forall k o, In (k, o) l -> no_sink o) -> no_sinks (fold_left (fun c (kv : str * obj) => dput c (fst kv) (snd kv)) l c)).
  { induction l as [|[k o] l IH]; intros c C O; [exact C|]. cbn [fold_left fst snd]. apply IH; [|intros k' o' I; exact (O k' o' (or_intror I))]. apply put_no_sinks; [exact C|]. exact (O k o (or_introl eq_refl)). }
  apply P.
  - intros k o E. apply ParamsProofs.dfind_in in E. apply in_app_or in E. destruct E as [E|E]; [|exact (globals_ok k o E)]. unfold store_globals in E. cbn [In] in E.
    repeat (destruct E as [E|E]; [injection E as _ <-; intros ? ? ?; discriminate|]). destruct E.
  - intros k o I. apply in_map_iff in I. destruct I as (n & E & _). injection E as _ <-. intros ? ? ?; discriminate.
Qed.
Lemma context_filled names : effective_context X other_globals (Some (map (fun n => (n, ONone)) names)) <> [].
Proof.
  clear. unfold effective_context. assert (P : forall l (c : list (str * obj)), c <> [] -> fold_left (fun c (kv : str * obj) => dput c (fst kv) (snd kv)) l c <> []).
  { induction l as [|[k o] l IH]; intros c C; [exact C|]. cbn [fold_left fst snd]. apply IH. destruct c as [|[k' o'] c]; [destruct (C eq_refl)|]. cbn [dput]. destruct (str_eqb k' k); discriminate. }
  apply P. discriminate.
Qed.
(** a new sink: one whose making leaves at most new directories *)
Definition sink_made (fs : fsys) (r : res obj) : Prop := forall b q fs', r = Ok (OZipSink b q fs') -> exists p', fs' = fst (creatable_file cwd p' !!"path" fs).
Lemma no_sink_made fs r : (forall o, r = Ok o -> no_sink o) -> sink_made fs r.
Proof. clear. intros H b q fs' E. destruct (H _ E b q fs' eq_refl). Qed.
Lemma validated (fs : fsys) (r : res obj) (ty : obj -> bool) : sink_made fs r -> sink_made fs (let* o := r in if ty o then Ok o else Raise ParameterError).
Proof. clear. intros H b q fs' E. destruct r as [o|e]; [|discriminate]. cbn [bind] in E. destruct (ty o); [|discriminate]. exact (H b q fs' E). Qed.
Lemma factory_made fs f arg : sink_made fs (apply_factory obj (is_class X x_is_class) (from_parameters X x_from_parameters cwd fs) (construct X x_construct) (callable X x_callable) (call X x_call cwd fs) f arg).
Proof.
  clear -from_parameters_ok construct_ok call_ok. unfold apply_factory. destruct (is_class X x_is_class f).
  - destruct (from_parameters X x_from_parameters cwd fs f) as [g|] eqn:G0.
    + unfold KvParams.from_parameters in G0. destruct f as [s|c|?|? ? ?|? ?|? ?|? ?| |x]; try discriminate G0.
      * destruct c as [b|b|b|b]; try discriminate G0; injection G0 as <-.
        -- intros b1 q fs1 E. exists arg. cbv beta in E. lazymatch type of E with context [let (_, _) := ?m in _] => destruct m as [fs2 [q1|e]] eqn:K end; [|discriminate E].
           cbn [bind] in E. assert (H : fs2 = fs1) by congruence. rewrite <- H. exact (eq_sym (f_equal fst K)).
        -- apply no_sink_made. intros o E. cbv beta in E. lazymatch type of E with bind ?m _ = _ => destruct m; [|discriminate E] end. cbn [bind] in E. injection E as <-. intros ? ? ?; discriminate.
        -- apply no_sink_made. intros o E. cbv beta in E. lazymatch type of E with bind ?m _ = _ => destruct m; [|discriminate E] end. cbn [bind] in E. injection E as <-. intros ? ? ?; discriminate.
      * apply no_sink_made. intros o E. exact (from_parameters_ok x g arg o G0 E).
    + apply no_sink_made. intros o E. unfold KvParams.construct in E. destruct f as [s|c|?|? ? ?|? ?|? ?|? ?| |x]; try discriminate E.
      * destruct c; cbn in E; try discriminate E. injection E as <-. intros ? ? ?; discriminate.
      * exact (construct_ok x o E).
  - destruct (callable X x_callable f); [|apply no_sink_made; discriminate]. apply no_sink_made. intros o E. unfold KvParams.call in E. destruct f as [s|c|b|? ? ?|? ?|? ?|? ?| |x]; try discriminate E; [|exact (call_ok x arg o E)].
    unfold map_source_from_params in E. 
    do 3 (lazymatch type of E with bind ?m _ = _ => destruct m; [|discriminate E] end; cbn [bind] in E). injection E as <-. intros ? ? ?; discriminate.
Qed.
Lemma evaluate_no_sink p name ty c vp special d o : no_sinks c -> c <> [] -> d = None ->
  evaluate obj OStr import_module py_eval locals_of p name ty (Some c) vp special d = Ok o -> no_sink o.
Proof.
  intros C N -> E. unfold evaluate in E. destruct (optional_namespace p name) as [ns|e]; [|discriminate]. cbn [bind] in E.
  assert (Oc : or_else obj (Some c) (locals_of p name) = c) by (destruct c; [destruct (N eq_refl)|reflexivity]). rewrite Oc in E. clear Oc.
  assert (Run : forall code ms, wrap_param (eval_in_context_of_modules obj import_module py_eval code c ms ty) = Ok o -> no_sink o).
  { intros code ms W. destruct (eval_in_context_of_modules obj import_module py_eval code c ms ty) as [r|e] eqn:R; [|discriminate]. injection W as <-. exact (eval_no_sink _ _ _ _ _ C R). }
  destruct (is_params ns).
  - destruct (string_ ns vp None PNone) as [code|e]; [|discriminate]. cbn [bind] in E. destruct (optional_arbitrary_list ns import_key None) as [ms|e]; [|discriminate]. cbn [bind] in E. exact (Run _ _ E).
  - destruct (Params.contains p name); [|discriminate]. destruct (string_ p name None PNone) as [code|e]; [|discriminate]. cbn [bind] in E. exact (Run _ _ E).
Qed.
Lemma sink_is_new fs p : sink_made fs (sink fs p).
Proof.
  unfold the_sink, sink_from_params, store_from_params, object_from_parameters. set (c := effective_context X other_globals _). assert (C : no_sinks c) by apply context_no_sinks. assert (N : c <> []) by apply context_filled. clearbody c.
  destruct (Params.contains p !!"output").
  - destruct (has_namespace p !!"output").
    + destruct (namespace p !!"output") as [ns|e]; [|intros ? ? ?; discriminate]. cbn [bind]. destruct (assert_exactly_one_present ns _) as [u|e]; [|intros ? ? ?; discriminate]. cbn [bind].
      destruct (Params.contains ns !!"value").
      * apply (validated fs (evaluate obj OStr import_module py_eval locals_of p _ _ _ _ _ _)). apply no_sink_made. intros o E. eapply evaluate_no_sink; [exact C|exact N|reflexivity|exact E].
      * destruct (Params.contains ns !!"type"); [|intros ? ? ?; discriminate]. destruct (evaluate _ _ _ _ _ _ _ _ _ _ _ _) as [f|e]; [|intros ? ? ?; discriminate]. cbn [bind].
        apply (validated fs). apply factory_made.
    + destruct (string_ p !!"output" None PNone) as [v|e]; [|intros ? ? ?; discriminate]. cbn [bind dfind]. destruct (dfind _ (str_of v)) as [f|].
      * destruct (empty_params _) as [em|e]; [|intros ? ? ?; discriminate]. cbn [bind]. apply (validated fs). apply factory_made.
      * apply (validated fs). apply no_sink_made. intros o E. assert (Oc : forall d, or_else obj (Some c) d = c) by (intros d; destruct c; [destruct (N eq_refl)|reflexivity]). rewrite Oc in E. exact (eval_no_sink _ _ _ _ _ C E).
  - destruct (empty_params _) as [em|e]; [|intros ? ? ?; discriminate]. cbn [bind]. apply (validated fs). apply factory_made.
Qed.
Theorem C132_any_join : forall fs p, change fs (fst (join_main p fs)).
Proof.
  intros fs p. apply by_join. intros b q fs' E r x L. destruct (sink_is_new fs p b q fs' E) as (p' & ->). exists r.
  clear -L. unfold creatable_file in L. destruct (path_param cwd p' !!"path") as [q|e]; [|exact L]. assert (H := mkdir_files (tl q) fs r x). destruct (mkdir_p fs (tl q)). exact (H L).
Qed.
End UserCode.
(** ... and what is asked of the inputs of the other two: it holds when their type is zip. *)
Theorem C132_zip_inputs : forall fs p ns, wf_params p -> Forall proper cwd -> Typed p !!"input" !!"zip" ns ->
  change fs (fst (split_main p fs)) /\ change fs (fst (downsample_main p fs)).
Proof.
  intros fs p ns W C T.
  assert (S0 : silent (@None (list (str * obj))) (source_class_name true true)) by (intros u E; discriminate).
  destruct (C83_zip_source X import_module other_eval builtin locals_of x_is_class x_from_parameters x_construct x_callable x_call x_is_linear x_is_source cwd other_globals fs true p !!"input" ns None W C T S0) as (E & F & F' & N).
  assert (Wn : wf_params ns) by exact (wf_ns p !!"input" _ ns W T).
  assert (H : forall files, full_source fs p <> Ok (OMapSource true files)).
  { intros files. unfold Mains.the_source. destruct (path_param_spec cwd ns !!"path" Wn C) as (P & Q). destruct (path_param cwd ns !!"path") as [q|e] eqn:Ep.
    - assert (Np : names_path cwd ns !!"path" q) by now apply P. destruct (look fs q) as [[b| |]|] eqn:L; [rewrite (F q b Np L); discriminate| | |]; (rewrite (F' q Np) by (intros b X0; rewrite L in X0; discriminate X0); discriminate).
    - rewrite (N e) by (now apply Q). discriminate. }
  split; [apply by_split|apply by_downsample; exact H]. intros files. unfold Mains.the_linear_source. rewrite E. exact (H files).
Qed.
End Scripts.
End Provenance.
