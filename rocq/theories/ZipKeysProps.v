(** * Zip stores with key functions of the caller's: theorems (C92) *)
From Verif Require Import Prelude PyStr SortLib TextLib Utf8 Io IoProps KeyValue KeyValueProps ZipKeys.

(** ** Specification *)
(** Keys whose file names the archive can hold, all different. *)
Record named_keys (fname : str -> str) (K : str -> Prop) : Prop := {
  nk_name : forall k, K k -> name_ok (fname k) /\ fname k <> [];
  nk_inj : forall k k', K k -> K k' -> fname k = fname k' -> k = k' }.
(** A reader and a writer of keys which match.  The writer may use entries with names in [R], which no key has.  Given an archive holding
    exactly the keys [ks], it must leave all other entries alone, and the reader must find these keys in what it wrote.  In a new archive
    the reader finds nothing. *)
Record matching (fname : str -> str) (K R : str -> Prop) (kin : archive -> res (option (list str))) (kout : archive -> list str -> archive * option exn) : Prop := {
  mt_reserved : forall k, K k -> ~ R (fname k);
  mt_fresh : kin [] = Ok None \/ kin [] = Ok (Some []);
  mt_written : forall a ks, NoDup ks -> (forall k, In k ks -> K k /\ In (fname k) (map fst a)) ->
    (forall n, In n (map fst a) -> R n \/ exists k, In k ks /\ n = fname k) ->
    exists a' ks', kout a ks = (a', None) /\ kin a' = Ok (Some ks') /\ Permutation ks' ks /\
      (forall n, ~ R n -> zread a' n = zread a n) /\ (forall n, In n (map fst a') -> R n \/ In n (map fst a)) }.

(** ** Construction *)
(** A sink is refused, with ValueError, exactly if it has a function to read keys and none to write them. *)
Theorem C92_constructor : forall kin kout, make_sink kin kout = if match kin, kout with Some _, None => true | _, _ => false end then Raise ValueError else Ok new_sink.
Proof. intros [f|] [g|]; reflexivity. Qed.
(** The message says the opposite: "If you specify a key output function, you should also specify a key input function"; this is
    accepted. *)
Theorem C92_message_refuted : forall kout, make_sink None (Some kout) = Ok new_sink.
Proof. reflexivity. Qed.

(** ** The default functions *)
(** With the default functions this is the sink and the source of C55 to C58 and C78. *)
Theorem C92_defaults : forall fname set_order overwrite d s ops,
  session_with fname set_order (Some read_keys) (Some default_writer) overwrite d s ops = session fname set_order overwrite d s ops.
Proof.
  intros. unfold session_with, session. change (sink_enter_with (Some read_keys) overwrite d s) with (sink_enter overwrite d s).
  destruct (sink_enter overwrite d s) as [[d1 s1] [u|e]]; [|reflexivity]. destruct (puts fname d1 s1 ops) as [[d2 s2] os].
  assert (sink_exit_with set_order (Some default_writer) d2 s2 = sink_exit set_order d2 s2) as ->; [|reflexivity].
  unfold sink_exit_with, sink_exit, default_writer. destruct s2 as [st ks]. cbn [s_state s_keys]. destruct st as [|a|]; try reflexivity. destruct (write_keys a (set_order ks)); reflexivity.
Qed.
Theorem C92_default_source : forall fname V (process : bytes -> res V) d, match source_enter d with
  | Ok z => exists o, enter_source (Some read_keys) d new_source = (o, Ok tt) /\ view fname process o = zip_source fname process z
  | Raise e => snd (enter_source (Some read_keys) d new_source) = Raise e
  end.
Proof.
  intros fname V process [| |a]; [reflexivity|reflexivity|]. unfold source_enter, enter_source. destruct (read_keys a) as [ks|e]; cbn [bind]; [|reflexivity]. eexists. split; reflexivity.
Qed.
(** The default functions match, the keys being those of C55. *)
Theorem C92_defaults_match : forall fname K, good_keys fname K -> named_keys fname K /\ matching fname K (fun n => n = keys_entry) read_keys default_writer.
Proof.
  intros fname K G. split; [split; [intros k Hk; destruct (gk_name _ _ G k Hk) as (A & B & _); auto|apply (gk_inj _ _ G)]|]. split.
  - intros k Hk. now apply (gk_name _ _ G k Hk).
  - now left.
  - intros a ks ND HK _. destruct (C58_round_trip a ks ND) as (a' & W & O & R); [intros k I; now apply (gk_line _ _ G), HK|]. exists a', ks. unfold default_writer. rewrite W.
    split; [reflexivity|]. split; [apply R; split; [intros k I; now apply (gk_line _ _ G), HK|]|split; [reflexivity|split; [exact O|]]].
    + intros ->. destruct (HK []) as (X & _); [simpl; auto|]. apply (gk_line _ _ G) in X. now destruct X.
    + intros n I. unfold write_keys in W. destruct (encode _) as [b|]; [|discriminate]. cbn [bind] in W. rewrite writestr_keys in W. injection W as <-. rewrite map_app, in_app_iff in I. simpl in I. destruct I as [I|[I|[]]]; auto.
Qed.
(** So do: no key list at all, the keys being the names of the entries. *)
Definition names_reader (a : archive) : res (option (list str)) := Ok (Some (dedup (map fst a))).
Definition no_writer (a : archive) (ks : list str) : archive * option exn := (a, None).
Theorem C92_names_match : forall K : str -> Prop, (forall k, K k -> name_ok k /\ k <> []) -> named_keys (fun k => k) K /\ matching (fun k => k) K (fun _ => False) names_reader no_writer.
Proof.
  intros K HK. split; [split; [exact HK|auto]|]. split; [auto|now right|]. intros a ks ND HI HN. exists a, (dedup (map fst a)). split; [reflexivity|]. split; [reflexivity|].
  destruct (dedup_spec (map fst a)) as (D & M & _). split; [|auto]. apply NoDup_Permutation; [assumption|assumption|]. intros k. rewrite M. split; [|intros I; now apply HI].
  intros I. destruct (HN k I) as [[]|(k' & I' & ->)]. assumption.
Qed.

Lemma zread_in a n : zread a n <> None <-> In n (map fst a).
Proof.
  induction a as [|[m b] a IH] using rev_ind; [split; [intros X; now destruct X|intros []]|]. rewrite zread_app, map_app, in_app_iff. simpl. destruct (str_eqb m n) eqn:E.
  - apply str_eqb_eq in E. split; [auto|discriminate].
  - apply str_eqb_neq in E. rewrite IH. tauto.
Qed.

Section Store.
Variable fname : str -> str.
Variable set_order : list str -> list str.
Hypothesis set_order_perm : forall l, Permutation (set_order l) l.
Variable K R : str -> Prop.
Variable kin : archive -> res (option (list str)).
Variable kout : archive -> list str -> archive * option exn.
Hypothesis NK : named_keys fname K.
Hypothesis MT : matching fname K R kin kout.

(** the archive holds the store, with these keys and no others *)
Definition has (a : archive) (ks : list str) (m : store) : Prop :=
  NoDup ks /\ (forall k, In k ks <-> m k <> None) /\ (forall k, In k ks -> K k) /\ (forall k, K k -> zread a (fname k) = m k) /\
  (forall n, In n (map fst a) -> R n \/ exists k, In k ks /\ n = fname k).
Definition stored (d : disk) (m : store) : Prop :=
  (d = Absent /\ (forall k, m k = None)) \/ exists a ks, d = Zip a /\ kin a = Ok (Some ks) /\ has a ks m.
Lemma writes a k b : K k -> writestr a (fname k) b = Ok (a ++ [(fname k, b)]).
Proof using NK.
  intros Hk. destruct (nk_name _ _ NK k Hk) as (OK & NE). unfold writestr. rewrite zip_name_id by apply OK. destruct (fname k) eqn:F; [congruence|]. rewrite <- F in *. now apply zappend_ok.
Qed.
Lemma put_opened d a ks k v b : K k -> ~ In k ks -> stored_as v b ->
  put fname d {| s_state := Opened a; s_keys := ks |} k v = (Partial, {| s_state := Opened (a ++ [(fname k, b)]); s_keys := ks ++ [k] |}, Ok tt).
Proof using NK.
  intros Hk Nk Sv. unfold put. cbn [s_state s_keys]. assert (in_keys k ks = false) as -> by (apply Bool.not_true_iff_false; now rewrite in_keys_iff).
  destruct v as [|t|b0|]; try (destruct Sv as [X|(? & X & _)]; discriminate X).
  - destruct Sv as [X|(s & X & E)]; [discriminate|]. injection X as <-. rewrite E. cbv iota beta. now rewrite writes.
  - destruct Sv as [X|(s & X & E)]; [|discriminate]. injection X as <-. cbv iota beta. now rewrite writes.
Qed.
Lemma has_put a ks m k b : has a ks m -> K k -> m k = None -> has (a ++ [(fname k, b)]) (ks ++ [k]) (spec_put m k b).
Proof using NK.
  intros (ND & M & KK & Z & Nm) Hk Nk. repeat split.
  - apply NoDup_app_snoc_; [assumption|]. rewrite M. tauto.
  - unfold spec_put. rewrite in_app_iff. simpl. destruct (str_eqb k k0) eqn:X; [rewrite Nk; discriminate|]. intros [I|[->|[]]]; [now apply M|]. rewrite str_eqb_refl in X. discriminate.
  - unfold spec_put. rewrite in_app_iff. simpl. destruct (str_eqb k k0) eqn:X; [apply str_eqb_eq in X; auto|]. intros I. left. now apply M.
  - intros k' I. apply in_app_or in I. destruct I as [I|[<-|[]]]; auto.
  - intros k' Hk'. rewrite zread_app. unfold spec_put. destruct (str_eqb k k') eqn:X.
    + apply str_eqb_eq in X. subst k'. rewrite str_eqb_refl, Nk. reflexivity.
    + apply str_eqb_neq in X. destruct (str_eqb (fname k) (fname k')) eqn:Y; [apply str_eqb_eq in Y; apply (nk_inj _ _ NK) in Y; auto; congruence|]. auto.
  - intros n I. rewrite map_app, in_app_iff in I. destruct I as [I|[<-|[]]].
    + destruct (Nm n I) as [X|(k' & I' & ->)]; [auto|]. right. exists k'. split; [apply in_or_app; auto|reflexivity].
    + right. exists k. split; [apply in_or_app; simpl; auto|reflexivity].
Qed.
Lemma puts_with m ops rs m' : spec_puts m ops rs m' -> (forall k v, In (k, v) ops -> K k) -> forall d a ks, has a ks m ->
  exists d' a' ks', puts fname d {| s_state := Opened a; s_keys := ks |} ops = (d', {| s_state := Opened a'; s_keys := ks' |}, rs) /\ has a' ks' m'.
Proof using NK.
  induction 1 as [m|m k v b ops rs m' Nk Sv P IH|m k v b ops rs m' Nk Sv P IH]; intros HK d a ks H.
  - exists d, a, ks. auto.
  - assert (K k) as Hk by (apply (HK k v); simpl; auto). assert (~ In k ks) as Ni by (destruct H as (_ & M & _); rewrite M; tauto).
    destruct (IH (fun k v I => HK k v (or_intror I)) Partial _ _ (has_put a ks m k b H Hk Nk)) as (d' & a' & ks' & P2 & H2). exists d', a', ks'. cbn [puts]. rewrite (put_opened d a ks k v b Hk Ni Sv), P2. auto.
  - destruct (IH (fun k v I => HK k v (or_intror I)) d a ks H) as (d' & a' & ks' & P2 & H2). exists d', a', ks'. cbn [puts]. rewrite (put_dup fname d (Opened a) ks k v b); [|now apply (proj1 (proj2 H))|discriminate|assumption]. rewrite P2. auto.
Qed.
Lemma exit_with d a ks m : has a ks m -> exists a' ks', sink_exit_with set_order (Some kout) d {| s_state := Opened a; s_keys := ks |} = (Zip a', {| s_state := Closed; s_keys := ks |}, Ok tt) /\
  kin a' = Ok (Some ks') /\ has a' ks' m.
Proof using MT set_order_perm.
  intros (ND & M & KK & Z & Nm). assert (P := set_order_perm ks). assert (ND' : NoDup (set_order ks)) by (apply (Permutation_NoDup (l := ks)); [now symmetry|assumption]).
  assert (In' : forall k, In k (set_order ks) <-> In k ks) by (intros k; split; apply Permutation_in; [assumption|now symmetry]).
  destruct (mt_written _ _ _ _ _ MT a (set_order ks) ND') as (a' & ks' & W & Rd & P' & O & N').
  - intros k I. apply In' in I. split; [auto|]. apply zread_in. rewrite (Z k (KK k I)). now apply M.
  - intros n I. destruct (Nm n I) as [X|(k & I' & ->)]; [auto|]. right. exists k. split; [now apply In'|reflexivity].
  - assert (In'' : forall k, In k ks' <-> In k ks). { intros k. rewrite <- In'. split; apply Permutation_in; [assumption|now symmetry]. }
    exists a', ks'. unfold sink_exit_with. cbn [s_state s_keys]. rewrite W. split; [reflexivity|]. split; [assumption|]. repeat split.
    + apply (Permutation_NoDup (l := set_order ks)); [now symmetry|assumption].
    + intros I. now apply M, In''.
    + intros I. now apply In'', M.
    + intros k I. now apply KK, In''.
    + intros k Hk. rewrite O; [auto|]. now apply (mt_reserved _ _ _ _ _ MT).
    + intros n I. destruct (N' n I) as [X|X]; [auto|]. destruct (Nm n X) as [Y|(k & I' & ->)]; [auto|]. right. exists k. split; [now apply In''|reflexivity].
Qed.
Lemma has_nothing (m : store) : (forall k, m k = None) -> has [] [] m.
Proof using. clear. intros E. repeat split; [constructor|intros []|intros X; now rewrite E in X|intros ? []|intros; symmetry; now rewrite E|intros ? []]. Qed.
Lemma enter_with (ow : bool) d m : ow = true \/ stored d m ->
  exists d1 a ks, sink_enter_with (Some kin) ow d new_sink = (d1, {| s_state := Opened a; s_keys := ks |}, Ok tt) /\ has a ks (if ow then empty_store else m).
Proof using MT.
  clear set_order_perm. intros H. assert (FA : forall l : list str, filter (fun k => negb (in_keys k [])) l = l) by (induction l as [|x l IH]; [reflexivity|simpl; now f_equal]).
  assert (FR : forall d1 s1, match kin [] with Ok existing => (d1, {| s_state := s1; s_keys := [] ++ filter (fun k => negb (in_keys k [])) (match existing with Some ks => ks | None => [] end) |}, Ok tt) | Raise e => (d1, {| s_state := s1; s_keys := [] |}, Raise e) end = (d1, {| s_state := s1; s_keys := [] |}, Ok tt) :> disk * sink * res unit).
  { intros d1 s1. destruct (mt_fresh _ _ _ _ _ MT) as [-> | ->]; reflexivity. }
  unfold sink_enter_with. destruct ow.
  - exists Partial, [], []. split; [exact (FR Partial (Opened []))|]. now apply has_nothing.
  - destruct H as [H|[(-> & E)|(a & ks & -> & Rd & Hd)]]; [discriminate| |].
    + exists Partial, [], []. split; [exact (FR Partial (Opened []))|]. now apply has_nothing.
    + exists (Zip a), a, ks. cbn [entries]. rewrite Rd. simpl s_keys. rewrite FA. split; [reflexivity|assumption].
Qed.
Lemma session_with_spec (ow : bool) d m ops rs m' : ow = true \/ stored d m -> spec_puts (if ow then empty_store else m) ops rs m' -> (forall k v, In (k, v) ops -> K k) ->
  exists a s', session_with fname set_order (Some kin) (Some kout) ow d new_sink ops = (Zip a, s', (Ok tt, rs, Ok tt)) /\ stored (Zip a) m'.
Proof using NK MT set_order_perm.
  intros H P HK. destruct (enter_with ow d m H) as (d1 & a & ks & E & Ho). destruct (puts_with _ _ _ _ P HK d1 a ks Ho) as (d2 & a2 & ks2 & P2 & H2). destruct (exit_with d2 a2 ks2 m' H2) as (a3 & ks3 & X & Rd & H3).
  unfold session_with. rewrite E, P2, X. eexists _, _. split; [reflexivity|]. right. exists a3, ks3. auto.
Qed.
Lemma stored_shows {V} (process : bytes -> res V) a m o : stored (Zip a) m -> exists o', enter_source (Some kin) (Zip a) o = (o', Ok tt) /\ shows process K (view fname process o') m.
Proof using.
  clear NK MT set_order_perm. intros [(E & _)|(a' & ks & E & Rd & ND & M & KK & Z & _)]; [discriminate|]. injection E as <-. exists {| o_zip := Some a; o_keys := Some ks |}. unfold enter_source. rewrite Rd. split; [reflexivity|]. split.
  - exists ks. auto.
  - intros k Hk. cbn. rewrite (Z k Hk). destruct (m k) as [b|]; [|split; reflexivity]. destruct (process b); split; reflexivity.
Qed.
Lemma history_with m h m' : spec_history m h m' -> (forall s k v, In s h -> In (k, v) (snd s) -> K k) -> forall d, stored d m -> stored (run_history_with fname set_order (Some kin) (Some kout) h d) m' /\ (h <> [] -> exists a, run_history_with fname set_order (Some kin) (Some kout) h d = Zip a).
Proof using NK MT set_order_perm.
  induction 1 as [m|m ow ops rs m1 h m2 P Hh IH]; intros HK d H; [split; [assumption|congruence]|]. cbn [run_history_with fold_left fst snd].
  destruct (session_with_spec ow d m ops rs m1 (or_intror H) P) as (a & s' & E & Ho); [intros k v I; apply (HK (ow, ops) k v); simpl; auto|]. rewrite E. cbn [fst].
  destruct (IH (fun s k v I => HK s k v (or_intror I)) (Zip a) Ho) as (IH1 & IH2). split; [exact IH1|]. intros _. destruct h as [|s h]; [exists a; reflexivity|]. apply IH2. discriminate.
Qed.
End Store.

(** ** Histories *)
(** C92: whatever matching key functions the caller supplies, after any history of overwriting and appending sessions a source with the
    same file name function and the same reader shows exactly the store of the specification of C56, whatever the source object was used
    for before. *)
Theorem C92_history : forall fname set_order K R kin kout h m V (process : bytes -> res V) l,
  (forall l, Permutation (set_order l) l) -> named_keys fname K -> matching fname K R kin kout ->
  (forall s k v, In s h -> In (k, v) (snd s) -> K k) -> spec_history empty_store h m -> h <> [] ->
  exists a, run_history_with fname set_order (Some kin) (Some kout) h Absent = Zip a /\
    shows process K (view fname process (uses (Some kin) (l ++ [Enter (Zip a)]))) m.
Proof.
  intros fname set_order K R kin kout h m V process l PO NK MT HK Hh NE.
  destruct (history_with fname set_order PO K R kin kout NK MT _ h m Hh HK Absent (or_introl (conj eq_refl (fun _ => eq_refl)))) as (S & Z). destruct (Z NE) as (a & E). exists a. split; [assumption|].
  rewrite E in S. destruct (stored_shows fname K R kin process a m (uses (Some kin) l) S) as (o & Eo & Sh). unfold uses. rewrite fold_left_app. cbn [fold_left use_source].
  change (fold_left (fun o u => fst (use_source (Some kin) o u)) l new_source) with (uses (Some kin) l). rewrite Eo. exact Sh.
Qed.
(** ... and in each session the puts succeed and fail as specified. *)
Theorem C92_session : forall fname set_order K R kin kout (overwrite : bool) h m0 ops rs m,
  (forall l, Permutation (set_order l) l) -> named_keys fname K -> matching fname K R kin kout ->
  (forall s k v, In s h -> In (k, v) (snd s) -> K k) -> (forall k v, In (k, v) ops -> K k) ->
  spec_history empty_store h m0 -> spec_puts (if overwrite then empty_store else m0) ops rs m ->
  exists a s', session_with fname set_order (Some kin) (Some kout) overwrite (run_history_with fname set_order (Some kin) (Some kout) h Absent) new_sink ops = (Zip a, s', (Ok tt, rs, Ok tt)).
Proof.
  intros fname set_order K R kin kout ow h m0 ops rs m PO NK MT HK HO Hh P.
  destruct (history_with fname set_order PO K R kin kout NK MT _ h m0 Hh HK Absent (or_introl (conj eq_refl (fun _ => eq_refl)))) as (S & _).
  destruct (session_with_spec fname set_order PO K R kin kout NK MT ow _ m0 ops rs m (or_intror S) P HO) as (a & s' & E & _). eauto.
Qed.

(** ** File names which are not different; no key functions *)
(** The value last put under a file name. *)
Fixpoint last_named (fname : str -> str) (n : str) (ops : list (str * bytes)) : option bytes :=
  match ops with [] => None | (k, b) :: r => match last_named fname n r with Some x => Some x | None => if str_eqb (fname k) n then Some b else None end end.
Lemma named_puts fname : forall ops d a ks, (forall k, In k (map fst ops) -> name_ok (fname k) /\ fname k <> []) -> NoDup (map fst ops) -> (forall k, In k (map fst ops) -> ~ In k ks) ->
  exists d' a', puts fname d {| s_state := Opened a; s_keys := ks |} (map (fun x => (fst x, VBytes (snd x))) ops) = (d', {| s_state := Opened a'; s_keys := ks ++ map fst ops |}, map (fun _ => Ok tt) ops) /\
    (forall n, zread a' n = match last_named fname n ops with Some x => Some x | None => zread a n end) /\ (forall n, In n (map fst a') -> In n (map fst a) \/ exists k, In k (map fst ops) /\ n = fname k).
Proof.
  induction ops as [|[k b] ops IH]; intros d a ks ok ND NI; cbn [map fst snd puts].
  - exists d, a. rewrite app_nil_r. auto.
  - inversion ND as [|? ? N1 N2]; subst. cbn [map fst] in NI. unfold put at 1. cbn [s_state s_keys]. assert (in_keys k ks = false) as -> by (apply Bool.not_true_iff_false; rewrite in_keys_iff; apply NI; simpl; auto).
    assert (writestr a (fname k) b = Ok (a ++ [(fname k, b)])) as W. { destruct (ok k) as (OK & NE); [simpl; auto|]. unfold writestr. rewrite zip_name_id by apply OK. destruct (fname k) eqn:F; [congruence|]. rewrite <- F in *. now apply zappend_ok. }
    cbv iota beta. rewrite W. destruct (IH Partial (a ++ [(fname k, b)]) (ks ++ [k]) (fun k I => ok k (or_intror I)) N2) as (d' & a' & E & Z & Nm).
    { intros k' I' I. apply in_app_or in I. destruct I as [I|[<-|[]]]; [|contradiction]. apply (NI k'); [simpl; auto|assumption]. }
    exists d', a'. rewrite E, <- app_assoc. split; [reflexivity|]. split.
    + intros n. rewrite Z, zread_app. cbn [last_named]. destruct (last_named fname n ops); [reflexivity|]. destruct (str_eqb (fname k) n); reflexivity.
    + intros n I. destruct (Nm n I) as [X|(k' & I' & ->)]; [|eauto 6 with datatypes]. rewrite map_app, in_app_iff in X. destruct X as [X|[<-|[]]]; [auto|]. right. exists k. simpl; auto.
Qed.
(** A sink without key functions, appending to a zip file which is there already, and any file name function, one-to-one or not: every
    put of a new key of this session succeeds, even if the file already has the key; a source opened afterwards - with any file name
    function of its own - gives for each key the value last put under its file name, or else what was there; and it does not know the
    keys, so that it cannot be iterated over. *)
Theorem C92_no_functions : forall fname set_order fname' a ops V (process : bytes -> res V) f,
  (forall k, In k (map fst ops) -> name_ok (fname k) /\ fname k <> []) -> NoDup (map fst ops) ->
  exists a' s', session_with fname set_order None None false (Zip a) new_sink (map (fun x => (fst x, VBytes (snd x))) ops) = (Zip a', s', (Ok tt, map (fun _ => Ok tt) ops, Ok tt)) /\
    exists o, enter_source None (Zip a') new_source = (o, Ok tt) /\ let src := view fname' process o in
      src_keys src = Ok None /\ items src f = Raise NotImplementedError /\
      forall k, src_item src k = match last_named fname (fname' k) ops with
                                 | Some b => process b
                                 | None => match zread a (fname' k) with Some b => process b | None => Raise KeyError end
                                 end.
Proof.
  intros fname set_order fname' a ops V process f ok ND. unfold session_with, sink_enter_with. cbn [entries].
  destruct (named_puts fname ops (Zip a) a [] ok ND) as (d' & a' & E & Z & _); [auto|]. simpl s_keys. cbn [app filter]. rewrite E. cbn [sink_exit_with s_state s_keys].
  exists a', {| s_state := Closed; s_keys := [] ++ map fst ops |}. split; [reflexivity|]. eexists. split; [reflexivity|]. cbv zeta. split; [reflexivity|]. split; [reflexivity|]. intros k. cbn. rewrite Z.
  destruct (last_named fname (fname' k) ops) as [b|]; [destruct (process b); reflexivity|]. destruct (zread a (fname' k)) as [b|]; [destruct (process b); reflexivity|reflexivity].
Qed.
(** A sink with only the default writer, appending: the keys listed afterwards are those of this session alone, although the values of
    the others can still be looked up. *)
Theorem C92_only_writer : forall fname set_order K a ops V (process : bytes -> res V),
  (forall l, Permutation (set_order l) l) -> good_keys fname K ->
  NoDup (map fst ops) -> (forall k, In k (map fst ops) -> K k) ->
  exists a' s', session_with fname set_order None (Some default_writer) false (Zip a) new_sink (map (fun x => (fst x, VBytes (snd x))) ops) = (Zip a', s', (Ok tt, map (fun _ => Ok tt) ops, Ok tt)) /\
    exists o ks, enter_source (Some read_keys) (Zip a') new_source = (o, Ok tt) /\ let src := view fname process o in
      src_keys src = Ok (Some ks) /\ Permutation ks (map fst ops) /\
      forall k b, K k -> ~ In k (map fst ops) -> zread a (fname k) = Some b -> src_item src k = process b.
Proof.
  intros fname set_order K a ops V process PO G ND HK. assert (ok : forall k, In k (map fst ops) -> name_ok (fname k) /\ fname k <> []) by (intros k I; destruct (gk_name _ _ G k (HK k I)) as (A & B & _); auto). unfold session_with, sink_enter_with. cbn [entries].
  destruct (named_puts fname ops (Zip a) a [] ok ND) as (d' & a1 & E & Z & _); [auto|]. simpl s_keys. cbn [app filter]. rewrite E. cbn [sink_exit_with s_state s_keys app].
  assert (P := PO (map fst ops)). assert (ND' : NoDup (set_order (map fst ops))) by (apply (Permutation_NoDup (l := map fst ops)); [now symmetry|assumption]).
  assert (HK' : forall k, In k (set_order (map fst ops)) -> K k) by (intros k I; apply HK; apply (Permutation_in _ P I)).
  destruct (C58_round_trip a1 _ ND') as (a' & W & O & Rd); [intros k I; now apply (gk_line _ _ G), HK'|]. unfold default_writer. rewrite W. cbn [app].
  eexists a', _. split; [reflexivity|]. exists {| o_zip := Some a'; o_keys := Some (set_order (map fst ops)) |}, (set_order (map fst ops)). split; [|cbv zeta; split; [reflexivity|split; [assumption|]]].
  - unfold enter_source. assert (read_keys a' = Ok (Some (set_order (map fst ops)))) as ->; [|reflexivity]. apply Rd. split; [intros k I; now apply (gk_line _ _ G), HK'|]. intros X. rewrite X in HK'. destruct (gk_line _ _ G [] (HK' [] (or_introl eq_refl))) as (Y & _). congruence.
  - intros k b Hk Nk Zk. cbn. rewrite O by (now apply (gk_name _ _ G)). rewrite Z. assert (last_named fname (fname k) ops = None) as ->.
    { clear -Nk Hk G HK. induction ops as [|[k' b'] ops IH]; [reflexivity|]. cbn [last_named]. rewrite IH; [|intros k0 I; apply HK; simpl; auto|intros I; apply Nk; simpl; auto]. destruct (str_eqb (fname k') (fname k)) eqn:X; [|reflexivity].
      apply str_eqb_eq in X. apply (gk_inj _ _ G) in X; [|apply HK; simpl; auto|assumption]. exfalso. apply Nk. simpl. auto. }
    rewrite Zk. destruct (process b); reflexivity.
Qed.

(** ** Source objects *)
(** Whatever a source object was used for before: entering it shows the file as it is then, with the keys the function finds in it; *)
Theorem C92_enter : forall fname V (process : bytes -> res V) kin l a ks, kin a = Ok ks ->
  snd (use_source (Some kin) (uses (Some kin) l) (Enter (Zip a))) = Ok tt /\ view fname process (uses (Some kin) (l ++ [Enter (Zip a)])) = zip_source fname process (Some (a, ks)).
Proof. intros fname V process kin l a ks E. unfold uses. rewrite fold_left_app. cbn. rewrite E. split; reflexivity. Qed.
(** after leaving it, everything raises AssertionError, and so does leaving it when it is not entered, which changes nothing; *)
Theorem C92_exit : forall fname V (process : bytes -> res V) kin l k f, let s := view fname process (uses kin (l ++ [Exit])) in
  src_keys s = Raise AssertionError /\ src_item s k = Raise AssertionError /\ src_get s k = Raise AssertionError /\ items s f = Raise AssertionError /\
  use_source kin (uses kin (l ++ [Exit])) Exit = (uses kin (l ++ [Exit]), Raise AssertionError).
Proof.
  intros fname V process kin l k f. unfold uses. rewrite fold_left_app. cbn [fold_left use_source]. set (o := fold_left _ l new_source). unfold exit_source. destruct (o_zip o) eqn:E; cbn; unfold view, exit_source; cbn; rewrite ?E; repeat split.
Qed.
(** entering fails, without changing the object, if the file is missing or no zip file. *)
Theorem C92_enter_fails : forall kin l, use_source kin (uses kin l) (Enter Absent) = (uses kin l, Raise FileNotFoundError) /\ use_source kin (uses kin l) (Enter Partial) = (uses kin l, Raise AnyError).
Proof. split; reflexivity. Qed.
(** If the keys function fails, so does entering; but the object is left open, and shows the new file with the keys of the file before: *)
Theorem C92_stale_keys_refuted : forall kin a a' ks e, kin a = Ok ks -> kin a' = Raise e ->
  snd (use_source (Some kin) (uses (Some kin) [Enter (Zip a); Exit]) (Enter (Zip a'))) = Raise e /\
  forall fname V (process : bytes -> res V), view fname process (uses (Some kin) [Enter (Zip a); Exit; Enter (Zip a')]) = zip_source fname process (Some (a', ks)).
Proof. intros kin a a' ks e E E'. unfold uses, view. cbn. rewrite E. cbn. rewrite E'. split; reflexivity. Qed.

(** ** Instances *)
Example C92_witness : let h := [(true, [(!!"a", VStr !!"1")]); (false, [(!!"b", VBytes !!"2"); (!!"a", VStr !!"3")])] in
  (exists m, spec_history empty_store h m) /\ named_keys (fun k => k) (fun k => name_ok k /\ k <> []) /\ matching (fun k => k) (fun k => name_ok k /\ k <> []) (fun _ => False) names_reader no_writer /\
  run_history_with (fun k => k) (fun l => l) (Some names_reader) (Some no_writer) h Absent = Zip [(!!"a", !!"1"); (!!"b", !!"2")].
Proof.
  split; [|split; [|split]].
  - apply C56_history_total. intros s k v [<-|[<-|[]]]; simpl; intros I; repeat destruct I as [I|I]; try injection I as <- <-; try destruct I; try (exists !!"2"; left; reflexivity); [exists !!"1"|exists !!"3"]; right; eexists; split; [reflexivity|vm_compute; reflexivity| reflexivity|vm_compute; reflexivity].
  - apply (C92_names_match (fun k => name_ok k /\ k <> [])). auto.
  - apply (C92_names_match (fun k => name_ok k /\ k <> [])). auto.
  - vm_compute. reflexivity.
Qed.
Example C92_no_functions_witness : exists a s, session_with (fun k => firstn 1 k) (fun l => l) None None false (Zip [(!!"a", !!"0")]) new_sink [(!!"ab", VStr !!"1"); (!!"ac", VStr !!"2")] = (Zip a, s, (Ok tt, [Ok tt; Ok tt], Ok tt)) /\
  zread a !!"a" = Some !!"2".
Proof. eexists _, _. split; vm_compute; reflexivity. Qed.
Print Assumptions C92_history.
Print Assumptions C92_session.
Print Assumptions C92_no_functions.
Print Assumptions C92_only_writer.
Print Assumptions C92_defaults_match.
Print Assumptions C92_exit.
