(** * Key-value stores: theorems (C55, C56, C58, C78) *)
From Verif Require Import Prelude PyStr SortLib TextLib Utf8 Io IoProps KeyValue.

(** ** Specification *)
(** A store, and what a history of sessions should make of it: an overwriting session starts from nothing, an appending one from
    the store as it is; a put of a key which is already there is refused. *)
Definition store := str -> option bytes.
Definition empty_store : store := fun _ => None.
Definition spec_put (m : store) (k : str) (b : bytes) : store :=
  fun k' => if str_eqb k k' then match m k with Some old => Some old | None => Some b end else m k'.
(** The bytes a value is stored as. *)
Definition stored_as (v : value) (b : bytes) : Prop := v = VBytes b \/ exists s, v = VStr s /\ encode s = Ok b.
Inductive spec_puts : store -> list (str * value) -> list (res unit) -> store -> Prop :=
| sp_nil m : spec_puts m [] [] m
| sp_new m k v b ops rs m' : m k = None -> stored_as v b -> spec_puts (spec_put m k b) ops rs m' -> spec_puts m ((k, v) :: ops) (Ok tt :: rs) m'
| sp_dup m k v b ops rs m' : m k <> None -> stored_as v b -> spec_puts m ops rs m' -> spec_puts m ((k, v) :: ops) (Raise ValueError :: rs) m'.
Inductive spec_history : store -> list (bool * list (str * value)) -> store -> Prop :=
| sh_nil m : spec_history m [] m
| sh_cons m (overwrite : bool) ops rs m1 h m2 : spec_puts (if overwrite then empty_store else m) ops rs m1 -> spec_history m1 h m2 -> spec_history m ((overwrite, ops) :: h) m2.
(** Keys for which the store works: they can be written to the key list and to the archive, and have different file names. *)
Record good_keys (fname : str -> str) (K : str -> Prop) : Prop := {
  gk_line : forall k, K k -> k <> [] /\ ~ In LF k /\ encodable k;
  gk_name : forall k, K k -> name_ok (fname k) /\ fname k <> [] /\ fname k <> keys_entry;
  gk_inj : forall k k', K k -> K k' -> fname k = fname k' -> k = k' }.
(** What a source shows of a store. *)
Definition shows {V} (process : bytes -> res V) (K : str -> Prop) (s : source V) (m : store) : Prop :=
  (exists ks, src_keys s = Ok (Some ks) /\ NoDup ks /\ forall k, In k ks <-> m k <> None) /\
  forall k, K k -> src_item s k = match m k with Some b => process b | None => Raise KeyError end /\
                   src_get s k = match m k with Some b => let* v := process b in Ok (Some v) | None => Ok None end.

(** ** Key lists (C58) *)
Lemma NoDup_app_snoc_ {A} (l : list A) x : NoDup l -> ~ In x l -> NoDup (l ++ [x]).
Proof. intros N I. apply (Permutation_NoDup (l := x :: l)); [apply Permutation_cons_append|now constructor]. Qed.
Lemma encode_app s : forall a t b, encode s = Ok a -> encode t = Ok b -> encode (s ++ t) = Ok (a ++ b).
Proof. intros. now apply C68_concat. Qed.
Lemma join_encodable ks : (forall k, In k ks -> encodable k) -> encodable (py_join [LF] ks).
Proof.
  induction ks as [|k ks IH]; intros H; [constructor|]. destruct ks as [|k' ks]; [apply H; simpl; auto|].
  change (py_join [LF] (k :: k' :: ks)) with (k ++ LF :: py_join [LF] (k' :: ks)). apply Forall_app. split; [apply H; simpl; auto|]. constructor; [vm_compute; intuition discriminate|]. apply IH. intros x I. apply H. simpl in *; auto.
Qed.
Lemma keys_entry_name : zip_name keys_entry = keys_entry /\ exists b, encode keys_entry = Ok b.
Proof. split; [reflexivity|]. eexists. vm_compute. reflexivity. Qed.
Lemma writestr_keys a b : writestr a keys_entry b = Ok (a ++ [(keys_entry, b)]).
Proof. reflexivity. Qed.
Lemma encode_nil s : encode s = Ok [] <-> s = [].
Proof. split; [|intros ->; reflexivity]. intros E. apply C68_round_trip in E. now injection E as <-. Qed.
Lemma join_nil ks : NoDup ks -> py_join [LF] ks = [] -> ks = [] \/ ks = [[]].
Proof.
  intros _ E. destruct ks as [|k [|k' ks]]; [auto|simpl in E; subst; auto|]. exfalso. simpl in E. destruct k; discriminate.
Qed.
Lemma read_keys_written a b : read_keys (a ++ [(keys_entry, b)]) = match b with [] => Ok (Some []) | _ => let* t := decode b in Ok (Some (dedup (py_split LF t))) end.
Proof. unfold read_keys. rewrite zread_app, str_eqb_refl. reflexivity. Qed.
Lemma write_keys_ok a ks : (forall k, In k ks -> encodable k) -> exists b, write_keys a ks = Ok (a ++ [(keys_entry, b)]) /\ encode (py_join [LF] ks) = Ok b.
Proof. intros H. destruct (encodable_ok _ (join_encodable ks H)) as (b & E). exists b. unfold write_keys. rewrite E. cbn [bind]. rewrite writestr_keys. auto. Qed.
(** C58: a list of distinct keys is read back as written exactly when no key contains a newline and the list is not just the
    empty key; other entries of the archive are unaffected. *)
Theorem C58_round_trip : forall a ks, NoDup ks -> (forall k, In k ks -> encodable k) ->
  exists a', write_keys a ks = Ok a' /\ (forall n, n <> keys_entry -> zread a' n = zread a n) /\
    (read_keys a' = Ok (Some ks) <-> (forall k, In k ks -> ~ In LF k) /\ ks <> [[]]).
Proof.
  intros a ks ND En. destruct (write_keys_ok a ks En) as (b & W & E). exists (a ++ [(keys_entry, b)]). split; [assumption|]. split.
  { intros n N. rewrite zread_app. destruct (str_eqb keys_entry n) eqn:X; [apply str_eqb_eq in X; congruence|reflexivity]. }
  rewrite read_keys_written. assert (D := proj2 (C68_round_trip _ _) E). destruct b as [|c b'].
  - apply encode_nil in E. apply join_nil in E; [|assumption]. destruct E as [->| ->].
    + split; [intros _; split; [intros k []|discriminate]|reflexivity].
    + split; [discriminate|]. intros [_ N]. congruence.
  - rewrite D. cbn [bind]. split.
    + intros H. assert (dedup (py_split LF (py_join [LF] ks)) = ks) as H' by congruence. split.
      * intros k I. rewrite <- H' in I. destruct (dedup_spec (py_split LF (py_join [LF] ks))) as (_ & M & _). apply M in I. now apply py_split_parts in I.
      * intros ->. simpl in E. discriminate.
    + intros [NL N]. destruct ks as [|k ks]; [simpl in E; discriminate|]. rewrite py_join_split; [|discriminate|assumption]. now rewrite dedup_id.
Qed.
(** Reading never gives a key with a newline, nor repeated keys. *)
Theorem C58_read : forall a ks, read_keys a = Ok (Some ks) -> NoDup ks /\ forall k, In k ks -> ~ In LF k.
Proof.
  intros a ks. unfold read_keys. destruct (zread a keys_entry) as [[|c b]|]; try discriminate.
  - intros E. injection E as <-. split; [constructor|intros ? []].
  - intros E. apply bind_ok in E. destruct E as (t & _ & E). assert (ks = dedup (py_split LF t)) as -> by congruence. destruct (dedup_spec (py_split LF t)) as (N & M & _). split; [assumption|].
    intros k I. apply M in I. now apply py_split_parts in I.
Qed.
Theorem C58_no_list : forall a, read_keys a = Ok None <-> ~ In keys_entry (map fst a).
Proof.
  intros a. unfold read_keys. assert (zread a keys_entry = None <-> ~ In keys_entry (map fst a)) as Z.
  { induction a as [|[n b] a IH] using rev_ind; [simpl; tauto|]. rewrite zread_app, map_app, in_app_iff. simpl. destruct (str_eqb n keys_entry) eqn:X; [apply str_eqb_eq in X; subst; split; [discriminate|tauto]|]. apply str_eqb_neq in X. rewrite IH. tauto. }
  rewrite <- Z. destruct (zread a keys_entry) as [[|c b]|]; [split; discriminate| |tauto].
  destruct (decode (c :: b)) as [t|]; cbn [bind]; split; intros H; try discriminate H.
Qed.

Section Store.
Variable fname : str -> str.
Variable set_order : list str -> list str.
Hypothesis set_order_perm : forall l, Permutation (set_order l) l.
Variable K : str -> Prop.
Hypothesis GK : good_keys fname K.

(** The open archive holds store [m], with keys [ks]. *)
Definition holds (a : archive) (ks : list str) (m : store) : Prop :=
  NoDup ks /\ (forall k, In k ks <-> m k <> None) /\ (forall k, In k ks -> K k) /\ forall k, K k -> zread a (fname k) = m k.
(** The zip file on disk holds store [m]. *)
Definition on_disk (d : disk) (m : store) : Prop :=
  (d = Absent /\ (forall k, m k = None)) \/ exists a ks, d = Zip a /\ read_keys a = Ok (Some ks) /\ holds a ks m.

Lemma in_keys_iff k ks : in_keys k ks = true <-> In k ks.
Proof. apply existsb_str. Qed.
Lemma put_new d a ks m k v b : holds a ks m -> K k -> m k = None -> stored_as v b ->
  exists a', put fname d {| s_state := Opened a; s_keys := ks |} k v = (Partial, {| s_state := Opened a'; s_keys := ks ++ [k] |}, Ok tt) /\ holds a' (ks ++ [k]) (spec_put m k b).
Proof using GK.
  intros (ND & M & KK & Z) Hk Nk Sv. destruct (gk_name _ _ GK k Hk) as (OK & NE & NK). exists (a ++ [(fname k, b)]). split.
  - unfold put. cbn [s_state s_keys]. assert (in_keys k ks = false) as ->. { apply Bool.not_true_iff_false. rewrite in_keys_iff, M. tauto. }
    assert (match v with VStr t => encode t | VBytes b0 => Ok b0 | _ => Raise ValueError end = Ok b) as E by (destruct Sv as [->|(s & -> & E)]; [reflexivity|assumption]).
    assert (writestr a (fname k) b = Ok (a ++ [(fname k, b)])) as W. { unfold writestr. rewrite zip_name_id by apply OK. destruct (fname k) eqn:F; [congruence|]. rewrite <- F in *. now apply zappend_ok. }
    destruct v as [|t|b0|]; try (destruct Sv as [X|(? & X & _)]; discriminate X); [rewrite E|replace b0 with b by congruence]; cbv iota beta; rewrite W; reflexivity.
  - split; [|split; [|split]].
    + apply NoDup_app_snoc_; [assumption|]. rewrite M. tauto.
    + intros k'. unfold spec_put. rewrite in_app_iff. simpl. destruct (str_eqb k k') eqn:X; [apply str_eqb_eq in X; subst k'; rewrite Nk; split; [discriminate|auto]|]. apply str_eqb_neq in X. rewrite M. tauto.
    + intros k' I. apply in_app_or in I. destruct I as [I|[<-|[]]]; auto.
    + intros k' Hk'. rewrite zread_app. unfold spec_put. destruct (str_eqb k k') eqn:X.
      * apply str_eqb_eq in X. subst k'. rewrite str_eqb_refl, Nk. reflexivity.
      * apply str_eqb_neq in X. destruct (str_eqb (fname k) (fname k')) eqn:Y; [apply str_eqb_eq in Y; apply (gk_inj _ _ GK) in Y; auto; congruence|]. auto.
Qed.
Lemma put_dup d st ks k v b : In k ks -> st <> NotOpened -> stored_as v b ->
  put fname d {| s_state := st; s_keys := ks |} k v = (d, {| s_state := st; s_keys := ks |}, Raise ValueError).
Proof using.
  clear. intros I N Sv. unfold put. cbn [s_state s_keys]. rewrite (proj2 (in_keys_iff k ks) I). destruct st; [congruence| |]; (destruct v; [destruct Sv as [X|(? & X & _)]; discriminate X|..]); reflexivity.
Qed.
Lemma puts_spec m ops rs m' : spec_puts m ops rs m' -> (forall k v, In (k, v) ops -> K k) -> forall d a ks, holds a ks m ->
  exists d' a' ks', puts fname d {| s_state := Opened a; s_keys := ks |} ops = (d', {| s_state := Opened a'; s_keys := ks' |}, rs) /\ holds a' ks' m' /\ (d = Partial -> d' = Partial).
Proof using GK.
  induction 1 as [m|m k v b ops rs m' Nk Sv P IH|m k v b ops rs m' Nk Sv P IH]; intros HK d a ks H.
  - exists d, a, ks. auto.
  - destruct (put_new d a ks m k v b H) as (a1 & P1 & H1); auto; [apply (HK k v); simpl; auto|]. destruct (IH (fun k v I => HK k v (or_intror I)) Partial a1 (ks ++ [k]) H1) as (d' & a' & ks' & P2 & H2 & D2).
    exists d', a', ks'. cbn [puts]. rewrite P1, P2. auto.
  - destruct H as (ND & M & KK & Z). destruct (IH (fun k v I => HK k v (or_intror I)) d a ks (conj ND (conj M (conj KK Z)))) as (d' & a' & ks' & P2 & H2 & D2).
    exists d', a', ks'. cbn [puts]. rewrite (put_dup d (Opened a) ks k v b); [|now apply M|discriminate|assumption]. rewrite P2. auto.
Qed.
Lemma exit_spec d a ks m : holds a ks m -> exists a' ks', sink_exit set_order d {| s_state := Opened a; s_keys := ks |} = (Zip a', {| s_state := Closed; s_keys := ks |}, Ok tt) /\
  read_keys a' = Ok (Some ks') /\ holds a' ks' m.
Proof using GK set_order_perm.
  intros (ND & M & KK & Z). assert (P := set_order_perm ks). assert (ND' : NoDup (set_order ks)) by (apply (Permutation_NoDup (l := ks)); [now symmetry|assumption]).
  assert (In' : forall k, In k (set_order ks) <-> In k ks) by (intros k; split; apply Permutation_in; [assumption|now symmetry]).
  destruct (C58_round_trip a (set_order ks) ND') as (a' & W & O & R); [intros k I; apply In' in I; apply (gk_line _ _ GK); auto|].
  exists a', (set_order ks). split; [unfold sink_exit; cbn [s_state s_keys]; now rewrite W|]. split.
  - apply R. split; [intros k I; apply In' in I; apply (gk_line _ _ GK); auto|]. intros E. assert (In [] ks) as I by (apply In'; rewrite E; simpl; auto). apply KK in I. destruct (gk_line _ _ GK [] I) as (X & _). congruence.
  - split; [assumption|]. split; [intros k; rewrite In'; apply M|]. split; [intros k I; apply KK; now apply In'|]. intros k Hk. rewrite O; [auto|]. now apply (gk_name _ _ GK).
Qed.
Lemma enter_spec (ow : bool) d m : ow = true \/ on_disk d m ->
  exists d1 a ks, sink_enter ow d new_sink = (d1, {| s_state := Opened a; s_keys := ks |}, Ok tt) /\ holds a ks (if ow then empty_store else m) /\ (ow = true -> d1 = Partial).
Proof using.
  clear GK set_order_perm. intros H. assert (H0 : forall m : store, (forall k, m k = None) -> holds [] [] m) by (intros m0 E; repeat split; [constructor|intros []|intros X; now rewrite E in X|intros ? []|intros; symmetry; now rewrite E]).
  assert (FA : forall l : list str, filter (fun k => negb (in_keys k [])) l = l) by (induction l as [|x l IH]; [reflexivity|simpl; now f_equal]).
  unfold sink_enter. destruct ow.
  - exists Partial, [], []. split; [reflexivity|]. split; [now apply H0|auto].
  - destruct H as [H|[(-> & E)|(a & ks & -> & R & Hd)]]; [discriminate| |].
    + exists Partial, [], []. split; [reflexivity|]. split; [now apply H0|discriminate].
    + exists (Zip a), a, ks. cbn [entries]. rewrite R. simpl s_keys. rewrite FA. split; [reflexivity|]. split; [assumption|discriminate].
Qed.
Lemma session_spec (ow : bool) d m ops rs m' : ow = true \/ on_disk d m -> spec_puts (if ow then empty_store else m) ops rs m' -> (forall k v, In (k, v) ops -> K k) ->
  exists d' s', session fname set_order ow d new_sink ops = (d', s', (Ok tt, rs, Ok tt)) /\ on_disk d' m'.
Proof using GK set_order_perm.
  intros H P HK. destruct (enter_spec ow d m H) as (d1 & a & ks & E & Ho & _). destruct (puts_spec _ _ _ _ P HK d1 a ks Ho) as (d2 & a2 & ks2 & P2 & H2 & _). destruct (exit_spec d2 a2 ks2 m' H2) as (a3 & ks3 & X & R & H3).
  unfold session. rewrite E, P2, X. eexists _, _. split; [reflexivity|]. right. exists a3, ks3. auto.
Qed.
Lemma on_disk_shows {V} (process : bytes -> res V) a m : on_disk (Zip a) m -> exists z, source_enter (Zip a) = Ok z /\ shows process K (zip_source fname process z) m.
Proof using.
  clear GK set_order_perm. intros [(E & _)|(a' & ks & E & R & ND & M & KK & Z)]; [discriminate|]. injection E as <-. exists (Some (a, Some ks)). unfold source_enter. rewrite R. split; [reflexivity|]. split.
  - exists ks. auto.
  - intros k Hk. cbn. rewrite (Z k Hk). destruct (m k) as [b|]; [|split; reflexivity]. destruct (process b); split; reflexivity.
Qed.
(** History of sessions, each with a new sink on the same file. *)
Definition run_history (h : list (bool * list (str * value))) (d : disk) : disk :=
  fold_left (fun d s => fst (fst (session fname set_order (fst s) d new_sink (snd s)))) h d.
Lemma history_spec m h m' : spec_history m h m' -> (forall s k v, In s h -> In (k, v) (snd s) -> K k) -> forall d, on_disk d m -> on_disk (run_history h d) m'.
Proof using GK set_order_perm.
  induction 1 as [m|m ow ops rs m1 h m2 P Hh IH]; intros HK d H; [assumption|]. cbn [run_history fold_left fst snd].
  destruct (session_spec ow d m ops rs m1 (or_intror H) P) as (d' & s' & E & Ho); [intros k v I; apply (HK (ow, ops) k v); simpl; auto|]. rewrite E. cbn [fst]. apply IH; [|assumption]. intros s k v I. apply HK. simpl; auto.
Qed.
End Store.

(** C55: a session with new keys on an overwriting sink, whatever was there before.  Every put succeeds, and a source opened on
    the file afterwards has exactly these keys, gives each value, raises KeyError / returns the default for other keys, and iterates
    over exactly the pairs put. *)
Lemma spec_puts_new ops : NoDup (map fst ops) -> (forall k v, In (k, v) ops -> exists b, stored_as v b) -> forall m, (forall k, In k (map fst ops) -> m k = None) ->
  exists m', spec_puts m ops (map (fun _ => Ok tt) ops) m' /\ (forall k v b, In (k, v) ops -> stored_as v b -> m' k = Some b) /\ (forall k, ~ In k (map fst ops) -> m' k = m k).
Proof.
  assert (U : forall v b b', stored_as v b -> stored_as v b' -> b = b') by (intros v b b' [->|(s & -> & E)] [X|(s' & X & E')]; congruence).
  induction ops as [|[k v] ops IH]; intros ND SA m Hm; [exists m; repeat split; [constructor|intros ? ? ? []]|]. inversion ND as [|? ? N1 N2]; subst.
  destruct (SA k v) as (b & Sb); [simpl; auto|]. destruct (IH N2 (fun k v I => SA k v (or_intror I)) (spec_put m k b)) as (m' & P & G & O).
  { intros k' I. unfold spec_put. destruct (str_eqb k k') eqn:X; [apply str_eqb_eq in X; subst; contradiction|]. apply Hm. simpl; auto. }
  exists m'. split; [|split].
  - apply (sp_new m k v b); auto. apply Hm. simpl; auto.
  - intros k' v' b' [E|I] Sb'; [|now apply (G k' v')]. injection E as <- <-. rewrite (O k N1). unfold spec_put. rewrite str_eqb_refl, Hm by (simpl; auto). f_equal. now apply (U v).
  - intros k' N. simpl in N. rewrite O by tauto. unfold spec_put. destruct (str_eqb k k') eqn:X; [apply str_eqb_eq in X; tauto|reflexivity].
Qed.
Theorem C55_round_trip : forall fname set_order K d ops (V : Type) (process : bytes -> res V) (val : str -> V),
  (forall l, Permutation (set_order l) l) -> good_keys fname K ->
  NoDup (map fst ops) -> (forall k v, In (k, v) ops -> K k /\ exists b, stored_as v b /\ process b = Ok (val k)) ->
  exists a s', session fname set_order true d new_sink ops = (Zip a, s', (Ok tt, map (fun _ => Ok tt) ops, Ok tt)) /\
    exists z, source_enter (Zip a) = Ok z /\ let src := zip_source fname process z in
      (exists ks, src_keys src = Ok (Some ks) /\ Permutation ks (map fst ops) /\
         items src (fun _ => true) = Ok (map (fun k => (k, val k)) ks, None)) /\
      (forall k v, In (k, v) ops -> src_item src k = Ok (val k) /\ src_get src k = Ok (Some (val k))) /\
      (forall k, K k -> ~ In k (map fst ops) -> src_item src k = Raise KeyError /\ src_get src k = Ok None).
Proof.
  intros fname set_order K d ops V process val PO GK ND H.
  destruct (spec_puts_new ops ND) with (m := empty_store) as (m' & P & G & O); [intros k v I; destruct (H k v I) as (_ & b & Sb & _); eauto|reflexivity|].
  destruct (session_spec fname set_order PO K GK true d empty_store ops _ m' (or_introl eq_refl) P) as (d' & s' & E & Hd); [intros k v I; now apply (H k v)|].
  assert (exists a, d' = Zip a) as (a & ->). { destruct Hd as [(-> & N)|(a & ? & -> & _)]; [|eauto]. exfalso. unfold session in E. destruct (sink_enter _ _ _) as [[d1 s1] e]. destruct e; [|discriminate]. destruct (puts _ _ _ _) as [[d2 s2] os]. unfold sink_exit in E. destruct (s_state s2); [congruence| |destruct (encode (py_join _ _)); congruence]. destruct (write_keys _ _); congruence. }
  exists a, s'. split; [assumption|]. destruct (on_disk_shows fname K process a m' Hd) as (z & Ez & (ks & Sk & NDk & Mk) & Sv). exists z. split; [assumption|]. cbv zeta.
  assert (KEYS : forall k, In k ks <-> In k (map fst ops)).
  { intros k. rewrite Mk. split.
    - intros N. destruct (in_dec (list_eq_dec N.eq_dec) k (map fst ops)) as [I|I]; [assumption|]. exfalso. apply N. now rewrite O.
    - intros I. apply in_map_iff in I. destruct I as ([k' v] & <- & I). destruct (H k' v I) as (_ & b & Sb & _). simpl. rewrite (G k' v b I Sb). discriminate. }
  assert (IT : forall k v, In (k, v) ops -> src_item (zip_source fname process z) k = Ok (val k) /\ src_get (zip_source fname process z) k = Ok (Some (val k))).
  { intros k v I. destruct (H k v I) as (Hk & b & Sb & Pb). destruct (Sv k Hk) as (S1 & S2). rewrite S1, S2, (G k v b I Sb), Pb. split; reflexivity. }
  split; [|split].
  - exists ks. split; [assumption|]. split; [apply NoDup_Permutation; assumption|]. unfold items. rewrite Sk. cbn [bind]. f_equal.
    assert (forall l, (forall k, In k l -> In k ks) -> yield_all (fun k => let* v := src_item (zip_source fname process z) k in Ok (Some (k, v))) l = (map (fun k => (k, val k)) l, None)) as Y; [|now apply Y].
    induction l as [|k l IH]; intros Hl; [reflexivity|]. cbn [yield_all]. assert (In k (map fst ops)) as I by (apply KEYS, Hl; simpl; auto). apply in_map_iff in I. destruct I as ([k' v] & E' & I). simpl in E'. subst k'.
    rewrite (proj1 (IT k v I)). cbn [bind]. rewrite IH by (intros; apply Hl; simpl; auto). reflexivity.
  - assumption.
  - intros k Hk N. destruct (Sv k Hk) as (S1 & S2). rewrite S1, S2, (O k N). split; reflexivity.
Qed.
(** With the default file names, all non-empty keys without newline, NUL or lone surrogates work, except "__keys". *)
Theorem C55_default_keys : good_keys (fun k => k) (fun k => k <> [] /\ ~ In LF k /\ ~ In 0%N k /\ encodable k /\ k <> keys_entry).
Proof.
  split.
  - intros k (E & L & N & S & Q). auto.
  - intros k (E & L & N & S & Q). split; [split; [assumption|now apply encodable_ok]|auto].
  - auto.
Qed.
(** A char store gives back the strings, a bytes store the bytes. *)
Theorem C55_values : (forall s, encodable s -> exists b, stored_as (VStr s) b /\ str_value b = Ok s) /\ (forall b, stored_as (VBytes b) b /\ bytes_value b = Ok b).
Proof.
  split.
  - intros s E. destruct (encodable_ok s E) as (b & Eb). exists b. split; [right; eauto|]. now apply C68_round_trip.
  - intros b. split; [now left|reflexivity].
Qed.
(** Outside a "with" block everything raises AssertionError; opening a missing or incomplete file fails. *)
Theorem C55_not_entered : forall fname V (process : bytes -> res V) k f, let s := zip_source fname process None in
  src_keys s = Raise AssertionError /\ src_item s k = Raise AssertionError /\ src_get s k = Raise AssertionError /\ items s f = Raise AssertionError.
Proof. repeat split. Qed.
Theorem C55_enter : forall d, match d with Zip a => forall e, source_enter d = Raise e -> e = UnicodeDecodeError /\ exists b, zread a keys_entry = Some b /\ decode b = Raise e | Absent => source_enter d = Raise FileNotFoundError | Partial => source_enter d = Raise AnyError end.
Proof.
  intros [| |a]; [reflexivity|reflexivity|]. intros e. unfold source_enter, read_keys. destruct (zread a keys_entry) as [[|c b]|]; try discriminate. destruct (decode (c :: b)) as [t|x] eqn:D; cbn [bind]; [discriminate|].
  intros E. injection E as <-. split; [now apply C68_decode_error in D|]. eauto.
Qed.
(** An archive without a key list: keys() is None and items() raises NotImplementedError, but look-ups work. *)
Theorem C55_no_key_list : forall fname V (process : bytes -> res V) a f, ~ In keys_entry (map fst a) ->
  source_enter (Zip a) = Ok (Some (a, None)) /\ let s := zip_source fname process (Some (a, None)) in
  src_keys s = Ok None /\ items s f = Raise NotImplementedError /\ forall k b, zread a (fname k) = Some b -> src_item s k = process b.
Proof.
  intros fname V process a f N. apply C58_no_list in N. split; [unfold source_enter; now rewrite N|]. split; [reflexivity|]. split; [reflexivity|]. intros k b Z. cbn. rewrite Z. destruct (process b); reflexivity.
Qed.
(** Keys which do not work: "__keys" gives the key list instead of its value; with NUL in a key the value is lost and may even
    replace another one's. *)
Theorem C55_keys_key_refuted : exists a s, session (fun k => k) (fun l => l) true Absent new_sink [(keys_entry, VStr !!"v")] = (Zip a, s, (Ok tt, [Ok tt], Ok tt)) /\
  zread a keys_entry = Some keys_entry.
Proof. eexists _, _. split; vm_compute; reflexivity. Qed.
(** A key with a NUL: the value put for "a\0" replaces the value of "a", although both keys are listed. *)
Theorem C55_nul_key_refuted : exists a s, session (fun k => k) (fun l => l) true Absent new_sink [(!!"a", VStr !!"1"); (!!"a" ++ [0%N], VStr !!"2")] = (Zip a, s, (Ok tt, [Ok tt; Ok tt], Ok tt)) /\
  zread a !!"a" = Some !!"2" /\ zread a (!!"a" ++ [0%N]) = None /\ read_keys a = Ok (Some [!!"a"; !!"a" ++ [0%N]]).
Proof. eexists _, _. split; [vm_compute; reflexivity|]. split; [|split]; vm_compute; reflexivity. Qed.
(** A key with a newline is listed as two keys, and iterating over the store fails. *)
Theorem C55_newline_key_refuted : exists a s, session (fun k => k) (fun l => l) true Absent new_sink [(!!"a" ++ [LF] ++ !!"b", VStr !!"1")] = (Zip a, s, (Ok tt, [Ok tt], Ok tt)) /\
  read_keys a = Ok (Some [!!"a"; !!"b"]) /\ items (zip_source (fun k => k) str_value (Some (a, Some [!!"a"; !!"b"]))) (fun _ => true) = Ok ([], Some KeyError).
Proof. eexists _, _. split; [vm_compute; reflexivity|]. split; vm_compute; reflexivity. Qed.

(** C56: any history of sessions on a file, overwriting or appending, with values of any kind and keys put again and again: after
    it a source shows exactly the store the specification gives. *)
Theorem C56_history : forall fname set_order K h m V (process : bytes -> res V),
  (forall l, Permutation (set_order l) l) -> good_keys fname K -> (forall s k v, In s h -> In (k, v) (snd s) -> K k) ->
  spec_history empty_store h m -> h <> [] ->
  exists a z, run_history fname set_order h Absent = Zip a /\ source_enter (Zip a) = Ok z /\ shows process K (zip_source fname process z) m.
Proof.
  intros fname set_order K h m V process PO GK HK Hh N.
  assert (D := history_spec fname set_order PO K GK _ h m Hh HK Absent (or_introl (conj eq_refl (fun _ => eq_refl)))).
  assert (exists a, run_history fname set_order h Absent = Zip a) as (a & Ea).
  { destruct D as [(E & _)|(a & ? & E & _)]; [|eauto]. exfalso. revert E. destruct (exists_last N) as (h' & [ow ops] & ->). unfold run_history. rewrite fold_left_app. cbn [fold_left fst snd].
    set (d := fold_left _ h' Absent). unfold session. destruct (sink_enter ow d new_sink) as [[d1 s1] e] eqn:Se. unfold sink_enter in Se.
    assert (d1 <> Absent) as N1. { intros ->. destruct ow, d, (read_keys _); congruence. }
    destruct e; [|assumption]. destruct (puts fname d1 s1 ops) as [[d2 s2] os] eqn:Pu.
    assert (d2 <> Absent) as N2.
    { clear -N1 Pu. revert d1 s1 d2 s2 os N1 Pu. induction ops as [|[k v] ops IH]; intros d1 s1 d2 s2 os N1 Pu; cbn [puts] in Pu; [congruence|].
      destruct (put fname d1 s1 k v) as [[d3 s3] o] eqn:P. destruct (puts fname d3 s3 ops) as [[d4 s4] os'] eqn:P2. assert (d4 = d2) as <- by congruence. apply (IH d3 s3 d4 s4 os'); [|assumption]. clear -P N1. unfold put in P.
      destruct (s_state s1), v, (in_keys k (s_keys s1)); try congruence; match type of P with context [encode ?s] => destruct (encode s) | _ => idtac end; try congruence; destruct (writestr _ _ _); congruence. }
    unfold sink_exit. destruct (s_state s2); cbn [fst]; try assumption. destruct (write_keys _ _); cbn [fst]; [discriminate|assumption]. }
  rewrite Ea in D. destruct (on_disk_shows fname K process a m D) as (z & Ez & Sh). exists a, z. auto.
Qed.
(** The specification gives every history of good values exactly one outcome. *)
Theorem C56_history_total : forall h m, (forall s k v, In s h -> In (k, v) (snd s) -> exists b, stored_as v b) -> exists m', spec_history m h m'.
Proof.
  assert (P : forall ops m, (forall k v, In (k, v) ops -> exists b, stored_as v b) -> exists rs m', spec_puts m ops rs m').
  { induction ops as [|[k v] ops IH]; intros m H; [exists [], m; constructor|]. destruct (H k v) as (b & Sb); [simpl; auto|]. destruct (m k) as [x|] eqn:E.
    - destruct (IH m (fun k v I => H k v (or_intror I))) as (rs & m' & P). eexists _, m'. eapply sp_dup; eauto. congruence.
    - destruct (IH (spec_put m k b) (fun k v I => H k v (or_intror I))) as (rs & m' & P). eexists _, m'. eapply sp_new; eauto. }
  induction h as [|[ow ops] h IH]; intros m H; [exists m; constructor|]. destruct (P ops (if ow then empty_store else m)) as (rs & m1 & P1); [intros k v I; apply (H (ow, ops) k v); simpl; auto|].
  destruct (IH m1) as (m' & Hm); [intros s k v I; apply H; simpl; auto|]. exists m'. econstructor; eauto.
Qed.
(** Within one session: the outcome of each put is the specified one - ValueError for a key put before (in the session or, when
    appending, already in the file), success otherwise - and so are enter and exit. *)
Theorem C56_session : forall fname set_order K (overwrite : bool) d m ops rs m',
  (forall l, Permutation (set_order l) l) -> good_keys fname K -> (forall k v, In (k, v) ops -> K k) ->
  overwrite = true \/ on_disk fname K d m -> spec_puts (if overwrite then empty_store else m) ops rs m' ->
  exists d' s', session fname set_order overwrite d new_sink ops = (d', s', (Ok tt, rs, Ok tt)) /\ on_disk fname K d' m'.
Proof. intros fname set_order K ow d m ops rs m' PO GK HK H P. now apply (session_spec fname set_order PO K GK ow d m). Qed.
(** A put refused because the key was used changes nothing at all; the error is ValueError (RuntimeError is documented). *)
Theorem C56_duplicate : forall fname d s k v, s_state s <> NotOpened -> In k (s_keys s) -> put fname d s k v = (d, s, Raise ValueError).
Proof.
  intros fname d s k v N I. unfold put. rewrite (proj2 (in_keys_iff k (s_keys s)) I). destruct (s_state s); [congruence|destruct v; reflexivity|destruct v; reflexivity].
Qed.
Theorem C56_not_entered : forall fname d k v, put fname d new_sink k v = (d, new_sink, Raise AssertionError).
Proof. reflexivity. Qed.
(** None is never stored. *)
Theorem C56_none : forall fname d s k, put fname d s k VNone = (d, s, Raise (match s_state s with NotOpened => AssertionError | _ => ValueError end)).
Proof. intros. unfold put. destruct (s_state s); reflexivity. Qed.
(** A put that fails for another reason - wrong type, unencodable text or name, closed sink - has used up its key all the same: *)
Theorem C56_failed_put : forall fname d s k v e d' s', s_state s <> NotOpened -> v <> VNone -> put fname d s k v = (d', s', Raise e) ->
  d' = d /\ s_state s' = s_state s /\ In k (s_keys s') /\ forall v', put fname d' s' k v' = (d', s', Raise ValueError).
Proof.
  intros fname d s k v e d' s' N NV P. assert (d' = d /\ s_state s' = s_state s /\ In k (s_keys s')) as (E1 & E2 & E3).
  { unfold put in P. destruct (in_keys k (s_keys s)) eqn:IK; [apply in_keys_iff in IK|].
    - destruct (s_state s) eqn:St; [congruence| |]; (destruct v; [congruence|..]; injection P as <- <- _; rewrite St; auto).
    - assert (L : In k (s_keys s ++ [k])) by (apply in_or_app; simpl; auto). destruct (s_state s) eqn:St; [congruence| |]; (destruct v as [|t|b|]; [congruence|..]);
      try (destruct (encode t)); try (destruct (writestr _ _ _)); try discriminate P; injection P as <- <- _; auto. }
  split; [assumption|]. split; [assumption|]. split; [assumption|]. intros v'. apply C56_duplicate; [congruence|assumption].
Qed.
(** ... so that "a failed put changes nothing" is false: the key is in the store's key list without a value, and iterating over
    the store fails. *)
Theorem C56_failed_put_refuted : exists a s, session (fun k => k) (fun l => l) true Absent new_sink [(!!"a", VOther); (!!"a", VStr !!"1"); (!!"b", VStr !!"2")] = (Zip a, s, (Ok tt, [Raise ValueError; Raise ValueError; Ok tt], Ok tt)) /\
  exists z, source_enter (Zip a) = Ok z /\ src_keys (zip_source (fun k => k) str_value z) = Ok (Some [!!"a"; !!"b"]) /\ items (zip_source (fun k => k) str_value z) (fun _ => true) = Ok ([], Some KeyError).
Proof. eexists _, _. split; [vm_compute; reflexivity|]. eexists. split; [vm_compute; reflexivity|]. split; vm_compute; reflexivity. Qed.
(** ... and after a put with an unencodable key the session cannot be closed. *)
Theorem C56_unclosable_refuted : exists d s, session (fun k => k) (fun l => l) true Absent new_sink [(!!"b", VStr !!"2"); ([55357%N], VStr !!"1")] = (d, s, (Ok tt, [Ok tt; Raise UnicodeEncodeError], Raise UnicodeEncodeError)) /\ d = Partial.
Proof. eexists _, _. split; vm_compute; reflexivity. Qed.
(** A sink object used for a second overwriting session still refuses, and lists, the keys of the first. *)
Theorem C56_reuse_refuted : exists d s a s', session (fun k => k) (fun l => l) true Absent new_sink [(!!"a", VStr !!"1")] = (d, s, (Ok tt, [Ok tt], Ok tt)) /\
  session (fun k => k) (fun l => l) true d s [(!!"a", VStr !!"2")] = (Zip a, s', (Ok tt, [Raise ValueError], Ok tt)) /\
  read_keys a = Ok (Some [!!"a"]) /\ zread a !!"a" = None.
Proof. eexists _, _, _, _. split; [vm_compute; reflexivity|]. split; [vm_compute; reflexivity|]. split; vm_compute; reflexivity. Qed.

(** C78: crash points.  If the process dies between entering an overwriting sink and leaving it, at any point, the file is not a readable
    store (the old contents are gone, the new ones not complete); in an appending session this is so from the first successful put on. *)
Definition at_crash (fname : str -> str) (overwrite : bool) (d : disk) (ops : list (str * value)) : disk :=
  let '(d1, s1, _) := sink_enter overwrite d new_sink in fst (fst (puts fname d1 s1 ops)).
Theorem C78_overwrite_crash : forall fname d ops, at_crash fname true d ops = Partial /\ source_enter (at_crash fname true d ops) = Raise AnyError.
Proof.
  intros fname d ops. assert (at_crash fname true d ops = Partial) as ->; [|split; reflexivity]. unfold at_crash. cbn.
  generalize {| s_state := Opened []; s_keys := [] |}. induction ops as [|[k v] ops IH]; intros s; [reflexivity|]. cbn [puts].
  destruct (put fname Partial s k v) as [[d1 s1] o] eqn:P. assert (d1 = Partial) as ->.
  { unfold put in P. destruct (s_state s), v as [|t|b|], (in_keys k (s_keys s)); try congruence; try (destruct (encode t)); try congruence; destruct (writestr _ _ _); congruence. }
  specialize (IH s1). destruct (puts fname Partial s1 ops) as [[d2 s2] os]. exact IH.
Qed.
Theorem C78_append_crash : forall fname a ops d1 s1 os, let d0 := fst (fst (sink_enter false (Zip a) new_sink)) in let s0 := snd (fst (sink_enter false (Zip a) new_sink)) in
  puts fname d0 s0 ops = (d1, s1, os) -> at_crash fname false (Zip a) ops = if existsb is_ok os then Partial else Zip a.
Proof.
  intros fname a ops d1 s1 os d0 s0 P. unfold at_crash. destruct (sink_enter false (Zip a) new_sink) as [[d s] e] eqn:E. subst d0 s0. cbn [fst snd] in P. rewrite P. cbn [fst].
  assert (d = Zip a) as ->. { unfold sink_enter in E. destruct (read_keys _); congruence. } clear E e.
  assert (Q : forall d s k v d' s' o, put fname d s k v = (d', s', o) -> d' = if is_ok o then Partial else d).
  { clear. intros d s k v d' s' o P. unfold put in P. destruct (s_state s), v as [|t|b|], (in_keys k (s_keys s)); try (injection P as <- <- <-; reflexivity); try (destruct (encode t)); try (injection P as <- <- <-; reflexivity); destruct (writestr _ _ _); injection P as <- <- <-; reflexivity. }
  assert (G : forall ops d s d1 s1 os, puts fname d s ops = (d1, s1, os) -> d1 = if existsb is_ok os then Partial else d); [|now apply (G ops _ s d1 s1 os)].
  clear -Q. induction ops as [|[k v] ops IH]; intros d s d1 s1 os P; cbn [puts] in P; [injection P as <- <- <-; reflexivity|]. destruct (put fname d s k v) as [[d2 s2] o] eqn:Pu. destruct (puts fname d2 s2 ops) as [[d3 s3] os'] eqn:Ps. injection P as <- <- <-.
  apply IH in Ps. apply Q in Pu. subst. simpl. destruct (is_ok o); simpl; [now destruct (existsb is_ok os')|reflexivity].
Qed.

(** ** Non-trivial instances *)
Example C55_witness : exists a s z, session (fun k => k) (@rev str) true (Zip [(!!"old", !!"x")]) new_sink [(!!"a", VStr [233%N]); (!!"b", VStr !!"2")] = (Zip a, s, (Ok tt, [Ok tt; Ok tt], Ok tt)) /\
  source_enter (Zip a) = Ok z /\ items (zip_source (fun k => k) str_value z) (fun _ => true) = Ok ([(!!"b", !!"2"); (!!"a", [233%N])], None) /\
  src_item (zip_source (fun k => k) str_value z) !!"old" = Raise KeyError /\ (forall l : list str, Permutation (rev l) l).
Proof. eexists _, _, _. split; [vm_compute; reflexivity|]. split; [vm_compute; reflexivity|]. split; [vm_compute; reflexivity|]. split; [vm_compute; reflexivity|]. intros l. symmetry. apply Permutation_rev. Qed.
Example C56_witness : let h := [(true, [(!!"a", VStr !!"1")]); (false, [(!!"b", VBytes !!"2"); (!!"a", VStr !!"3")])] in
  exists m, spec_history empty_store h m /\ m !!"a" = Some !!"1" /\ m !!"b" = Some !!"2" /\
  exists a, run_history (fun k => k) (fun l => l) h Absent = Zip a /\ zread a !!"a" = Some !!"1" /\ zread a !!"b" = Some !!"2" /\ read_keys a = Ok (Some [!!"a"; !!"b"]).
Proof.
  eexists. split.
  - econstructor; [eapply sp_new; [reflexivity|right; eexists; split; [reflexivity|vm_compute; reflexivity]|apply sp_nil]|].
    econstructor; [eapply sp_new; [reflexivity|left; reflexivity|]|apply sh_nil]. eapply sp_dup; [vm_compute; discriminate|right; eexists; split; [reflexivity|vm_compute; reflexivity]|apply sp_nil].
  - split; [vm_compute; reflexivity|]. split; [vm_compute; reflexivity|]. eexists. split; [vm_compute; reflexivity|]. repeat split; vm_compute; reflexivity.
Qed.
Print Assumptions C55_round_trip.
Print Assumptions C56_history.
Print Assumptions C56_history_total.
Print Assumptions C56_session.
Print Assumptions C56_failed_put.
Print Assumptions C58_round_trip.
Print Assumptions C78_append_crash.
