(** * Interpreted sources, tar sources, directory stores: theorems (C57, C59, C60) *)
From Coq Require Import Sorted.
From Verif Require Import Prelude PyStr SortLib TextLib Utf8 AnnotatedTextProps Io IoProps KeyValue.

(** ** Streams *)
(** [s] is what a generator yields that goes through [l], produces [f x] for each x and stops at the first exception. *)
Inductive yields {A V} (f : A -> res (option (str * V))) : list A -> stream V -> Prop :=
| y_nil : yields f [] ([], None)
| y_skip x l s : f x = Ok None -> yields f l s -> yields f (x :: l) s
| y_one x kv l ys e : f x = Ok (Some kv) -> yields f l (ys, e) -> yields f (x :: l) (kv :: ys, e)
| y_stop x l e : f x = Raise e -> yields f (x :: l) ([], Some e).
Lemma yield_all_yields {A V} (f : A -> res (option (str * V))) l : yields f l (yield_all f l).
Proof.
  induction l as [|x l IH]; cbn [yield_all]; [constructor|]. destruct (f x) as [[kv|]|e] eqn:E; [|now apply y_skip|now apply y_stop]. destruct (yield_all f l) as [ys e]. now apply y_one.
Qed.
Lemma yields_fun {A V} (f : A -> res (option (str * V))) l s s' : yields f l s -> yields f l s' -> s = s'.
Proof.
  intros H. revert s'. induction H as [|x l s E H IH|x kv l ys e E H IH|x l e E]; intros s' H'; inversion H'; subst; try congruence; try auto.
  - match goal with K : yields f l (?ys', ?e') |- _ => specialize (IH _ K) end. congruence.
Qed.

(** ** C59: interpreted sources *)
(** Same keys, value = interpretation of key and value, for [] and get; absent keys are absent, errors are passed on. *)
Theorem C59_lookup : forall T V (f : str -> T -> res V) (s : source T),
  src_keys (interpreted f s) = src_keys s /\
  (forall k t, src_item s k = Ok t -> src_item (interpreted f s) k = f k t) /\
  (forall k e, src_item s k = Raise e -> src_item (interpreted f s) k = Raise e) /\
  (forall k t v, src_get s k = Ok (Some t) -> (src_get (interpreted f s) k = Ok (Some v) <-> f k t = Ok v)) /\
  (forall k t e, src_get s k = Ok (Some t) -> (src_get (interpreted f s) k = Raise e <-> f k t = Raise e)) /\
  (forall k, src_get s k = Ok None -> src_get (interpreted f s) k = Ok None) /\
  (forall k e, src_get s k = Raise e -> src_get (interpreted f s) k = Raise e).
Proof.
  intros T V f s. cbn. split; [reflexivity|]. split; [intros k t ->; reflexivity|]. split; [intros k e ->; reflexivity|]. split; [|split; [|split]].
  - intros k t v ->. cbn. destruct (f k t); cbn; split; congruence.
  - intros k t e ->. cbn. destruct (f k t); cbn; split; congruence.
  - intros k ->. reflexivity.
  - intros k e ->. reflexivity.
Qed.
(** Iterating over any source: the keys in order, those that pass the filter, each with its looked-up value, up to the first look-up
    that fails. *)
Theorem C59_items : forall V (s : source V) (key_filter : str -> bool) ks, src_keys s = Ok (Some ks) ->
  exists st, items s key_filter = Ok st /\ yields (fun k => match src_item s k with Ok v => Ok (Some (k, v)) | Raise e => Raise e end) (filter key_filter ks) st.
Proof.
  intros V s p ks E. unfold items. rewrite E. cbn [bind]. eexists. split; [reflexivity|]. clear E. induction ks as [|k ks IH]; [constructor|]. cbn [yield_all filter]. destruct (p k); [|assumption].
  destruct (src_item s k) as [v|e] eqn:Ek; cbn [bind].
  - destruct (yield_all _ ks) as [ys e]. eapply y_one; [now rewrite Ek|assumption].
  - apply y_stop. now rewrite Ek.
Qed.
(** In particular, if all look-ups succeed: exactly the pairs. *)
Theorem C59_items_all : forall V (s : source V) (key_filter : str -> bool) ks (val : str -> V), src_keys s = Ok (Some ks) ->
  (forall k, In k ks -> key_filter k = true -> src_item s k = Ok (val k)) -> items s key_filter = Ok (map (fun k => (k, val k)) (filter key_filter ks), None).
Proof.
  intros V s p ks val E H. unfold items. rewrite E. cbn [bind]. f_equal. clear E. induction ks as [|k ks IH]; [reflexivity|]. cbn [yield_all filter]. destruct (p k) eqn:P; [|apply IH; intros; apply H; simpl; auto].
  rewrite (H k) by (simpl; auto). cbn [bind]. rewrite IH; [reflexivity|]. intros; apply H; simpl; auto.
Qed.
Theorem C59_items_none : forall V (s : source V) p, (src_keys s = Ok None -> items s p = Raise NotImplementedError) /\ forall e, src_keys s = Raise e -> items s p = Raise e.
Proof. intros V s p. unfold items. split; [intros ->; reflexivity|intros e ->; reflexivity]. Qed.
(** Iteration over an interpreted source, random-access or linear: the pairs of the wrapped source in order with interpreted values. Both
    ways of wrapping agree. *)
Theorem C59_linear : forall T V (f : str -> T -> res V) (g : str -> T -> V) (ys : list (str * T)) e, (forall k t, In (k, t) ys -> f k t = Ok (g k t)) ->
  interpreted_items f (Ok (ys, e)) = (map (fun kt => (fst kt, g (fst kt) (snd kt))) ys, e).
Proof.
  intros T V f g ys e H. unfold interpreted_items.
  assert (yield_all (fun kt => let* v := f (fst kt) (snd kt) in Ok (Some (fst kt, v))) ys = (map (fun kt => (fst kt, g (fst kt) (snd kt))) ys, None)) as ->; [|reflexivity].
  induction ys as [|[k t] ys IH]; [reflexivity|]. cbn [yield_all map fst snd]. rewrite (H k t) by (simpl; auto). cbn [bind]. rewrite IH; [reflexivity|]. intros; apply H; simpl; auto.
Qed.
Theorem C59_linear_error : forall T V (f : str -> T -> res V) (g : str -> T -> V) ys1 k t ys2 e x, (forall k t, In (k, t) ys1 -> f k t = Ok (g k t)) -> f k t = Raise x ->
  interpreted_items f (Ok (ys1 ++ (k, t) :: ys2, e)) = (map (fun kt => (fst kt, g (fst kt) (snd kt))) ys1, Some x).
Proof.
  intros T V f g ys1 k t ys2 e x H F. unfold interpreted_items.
  assert (yield_all (fun kt => let* v := f (fst kt) (snd kt) in Ok (Some (fst kt, v))) (ys1 ++ (k, t) :: ys2) = (map (fun kt => (fst kt, g (fst kt) (snd kt))) ys1, Some x)) as ->; [|reflexivity].
  induction ys1 as [|[k' t'] ys IH]; [cbn; now rewrite F|]. cbn [app yield_all map fst snd]. rewrite (H k' t') by (simpl; auto). cbn [bind]. rewrite IH; [reflexivity|]. intros; apply H; simpl; auto.
Qed.
Theorem C59_agree : forall T V (f : str -> T -> res V) (s : source T) p ks, src_keys s = Ok (Some ks) ->
  items (interpreted f s) p = Ok (interpreted_items f (items s p)).
Proof.
  intros T V f s p ks E. unfold items. cbn [src_keys interpreted]. rewrite E. cbn [bind interpreted_items]. change (src_item (interpreted f s)) with (fun k => let* t := src_item s k in f k t). cbv beta. f_equal. clear E. induction ks as [|k ks IH]; [reflexivity|]. cbn [yield_all]. destruct (p k); [|exact IH].
  destruct (src_item s k) as [t|e] eqn:Ek; cbn [bind]; [|reflexivity]. destruct (yield_all (fun k0 => if p k0 then let* v := src_item s k0 in Ok (Some (k0, v)) else Ok None) ks) as [ys e] eqn:Y.
  cbn [yield_all fst snd]. destruct (f k t) as [v|x]; cbn [bind]; [|reflexivity]. rewrite IH. destruct (yield_all (fun kt => let* v0 := f (fst kt) (snd kt) in Ok (Some (fst kt, v0))) ys) as [zs e'] eqn:Z. reflexivity.
Qed.
(** Interpreting twice is interpreting once with the composed function. *)
Theorem C59_compose : forall T U V (f : str -> T -> res U) (g : str -> U -> res V) (s : source T) k,
  src_item (interpreted g (interpreted f s)) k = src_item (interpreted (fun k t => let* u := f k t in g k u) s) k /\
  src_get (interpreted g (interpreted f s)) k = src_get (interpreted (fun k t => let* u := f k t in g k u) s) k.
Proof.
  intros. cbn. split; [destruct (src_item s k) as [t|]; cbn; [|reflexivity]; now destruct (f k t)|]. destruct (src_get s k) as [[t|]|]; cbn; try reflexivity. now destruct (f k t).
Qed.

(** ** C60: the tar source *)
(** The key of a member, if it is to be yielded. *)
Definition tar_key (key_function : str -> option str) (name_filter key_filter : str -> bool) (m : member) (k : str) : Prop :=
  m_isfile m = true /\ name_filter (m_name m) = true /\ key_function (m_name m) = Some k /\ k <> [] /\ key_filter k = true.
Inductive tar_spec (kf : str -> option str) (nf kflt : str -> bool) : list member -> list (str * bytes) -> Prop :=
| ts_nil : tar_spec kf nf kflt [] []
| ts_key m k d ms ys : tar_key kf nf kflt m k -> m_data m = Some d -> tar_spec kf nf kflt ms ys -> tar_spec kf nf kflt (m :: ms) ((k, d) :: ys)
| ts_skip m ms ys : (forall k, ~ tar_key kf nf kflt m k) -> tar_spec kf nf kflt ms ys -> tar_spec kf nf kflt (m :: ms) ys.
Lemma tar_key_dec kf nf kflt m : (exists k, tar_key kf nf kflt m k) \/ forall k, ~ tar_key kf nf kflt m k.
Proof.
  unfold tar_key. destruct (m_isfile m); [|right; intros k (? & _); discriminate]. destruct (nf (m_name m)); [|right; intros k (_ & ? & _); discriminate].
  destruct (kf (m_name m)) as [[|c k]|]; [right; intros k (_ & _ & E & N & _); injection E as <-; congruence| |right; intros k (_ & _ & E & _); discriminate].
  destruct (kflt (c :: k)) eqn:F; [left; exists (c :: k); repeat split; congruence|right]. intros k' (_ & _ & E & _ & G). injection E as <-. congruence.
Qed.
(** One step of the loop. *)
Definition tar_step (kf : str -> option str) (nf kflt : str -> bool) (m : member) : res (option (str * bytes)) :=
  if (m_isfile m && nf (m_name m))%bool then
    match kf (m_name m) with
    | Some key => if (negb (is_nil key) && kflt key)%bool then match m_data m with Some d => Ok (Some (key, d)) | None => Raise IOError end else Ok None
    | None => Ok None
    end
  else Ok None.
Lemma tar_step_key kf nf kflt m k : tar_key kf nf kflt m k -> tar_step kf nf kflt m = match m_data m with Some d => Ok (Some (k, d)) | None => Raise IOError end.
Proof. unfold tar_step. intros (-> & -> & -> & N & ->). destruct k; [congruence|reflexivity]. Qed.
Lemma tar_step_skip kf nf kflt m : (forall k, ~ tar_key kf nf kflt m k) -> tar_step kf nf kflt m = Ok None.
Proof.
  unfold tar_step, tar_key. intros H. destruct (m_isfile m); [|reflexivity]. destruct (nf (m_name m)); [|reflexivity]. cbn [andb]. destruct (kf (m_name m)) as [k|]; [|reflexivity]. destruct k as [|c k]; [reflexivity|]. cbn [is_nil negb andb].
  destruct (kflt (c :: k)) eqn:F; [|reflexivity]. destruct (H (c :: k)). repeat split; congruence.
Qed.
(** Exactly the members with a key, in archive order, with their contents: *)
Theorem C60_items : forall kf nf kflt ms ys, (forall m k, In m ms -> tar_key kf nf kflt m k -> m_data m <> None) ->
  (tar_items kf nf kflt (Some ms) = Ok (ys, None) <-> tar_spec kf nf kflt ms ys).
Proof.
  intros kf nf kflt ms ys H. unfold tar_items. fold (tar_step kf nf kflt). change (Ok (yield_all (tar_step kf nf kflt) ms) = Ok (ys, None) <-> tar_spec kf nf kflt ms ys). revert ys.
  assert (T : exists ys, yield_all (tar_step kf nf kflt) ms = (ys, None) /\ tar_spec kf nf kflt ms ys).
  { induction ms as [|m ms IH]; [exists []; split; [reflexivity|constructor]|]. destruct IH as (ys & Y & S); [intros; apply (H m0 k); simpl; auto|]. cbn [yield_all]. destruct (tar_key_dec kf nf kflt m) as [(k & Hk)|N].
    - rewrite (tar_step_key _ _ _ _ k Hk). destruct (m_data m) as [d|] eqn:D; [|exfalso; apply (H m k); simpl; auto]. rewrite Y. eexists. split; [reflexivity|]. now apply ts_key.
    - rewrite (tar_step_skip _ _ _ _ N). exists ys. split; [assumption|now apply ts_skip]. }
  assert (U : forall ms ys ys', tar_spec kf nf kflt ms ys -> tar_spec kf nf kflt ms ys' -> ys = ys').
  { clear. intros ms ys ys' S. revert ys'. induction S as [|m k d ms ys Hk D S IH|m ms ys N S IH]; intros ys' S'; inversion S'; subst; try reflexivity.
    - assert (k0 = k) as -> by (destruct Hk as (_ & _ & E & _); match goal with K : tar_key kf nf kflt m k0 |- _ => destruct K as (_ & _ & E' & _) end; congruence). assert (d0 = d) as -> by congruence. f_equal. auto.
    - exfalso. match goal with K : forall k, ~ tar_key _ _ _ m k |- _ => now apply (K k) end.
    - exfalso. match goal with K : tar_key _ _ _ m _ |- _ => now apply N in K end.
    - auto. }
  destruct T as (ys0 & Y & S). intros ys. rewrite Y. split; [intros E; injection E as <-; assumption|]. intros S'. do 2 f_equal. eapply U; eauto.
Qed.
(** A member whose data cannot be read stops the iteration with IOError; before __enter__: AssertionError. *)
Theorem C60_error : forall kf nf kflt ms1 m ms2 ys k, tar_spec kf nf kflt ms1 ys -> tar_key kf nf kflt m k -> m_data m = None ->
  tar_items kf nf kflt (Some (ms1 ++ m :: ms2)) = Ok (ys, Some IOError).
Proof.
  intros kf nf kflt ms1 m ms2 ys k S Hk D. unfold tar_items. change (Ok (yield_all (tar_step kf nf kflt) (ms1 ++ m :: ms2)) = Ok (ys, Some IOError)). f_equal.
  induction S as [|m' k' d ms ys Hk' D' S IH|m' ms ys N S IH]; cbn [app yield_all].
  - rewrite (tar_step_key _ _ _ _ k Hk), D. reflexivity.
  - rewrite (tar_step_key _ _ _ _ k' Hk'), D', IH. reflexivity.
  - rewrite (tar_step_skip _ _ _ _ N). assumption.
Qed.
Theorem C60_not_entered : forall kf nf kflt, tar_items kf nf kflt None = Raise AssertionError.
Proof. reflexivity. Qed.
(** The documentation says that an entry is skipped if the key function returns None: it is also skipped for an empty key. *)
Theorem C60_empty_key_refuted : forall nf kflt m, tar_items (fun _ => Some []) nf kflt (Some [m]) = Ok ([], None).
Proof. intros nf kflt m. cbn. now destruct (m_isfile m && nf (m_name m))%bool. Qed.
(** The str source is the byte source with its values decoded (key_value.py:220-229). *)
Theorem C60_str : forall kf nf kflt ms ys (txt : bytes -> str), (forall m k, In m ms -> tar_key kf nf kflt m k -> m_data m <> None) -> tar_spec kf nf kflt ms ys -> (forall k d, In (k, d) ys -> decode d = Ok (txt d)) ->
  interpreted_items (fun _ d => decode d) (tar_items kf nf kflt (Some ms)) = (map (fun kd => (fst kd, txt (snd kd))) ys, None).
Proof.
  intros kf nf kflt ms ys txt H S D. rewrite (proj2 (C60_items kf nf kflt ms ys H) S). now apply (C59_linear bytes str (fun _ d => decode d) (fun _ d => txt d)).
Qed.

(** ** C57: directory stores *)
Lemma dict_set_in m k p x q : NoDup (map fst m) -> (In (x, q) (dict_set m k p) <-> (x = k /\ q = p) \/ (x <> k /\ In (x, q) m)).
Proof.
  induction m as [|[k' p'] m IH]; intros ND.
  - simpl. split; [intros [E|[]]; injection E as <- <-; auto|intros [(-> & ->)|(_ & [])]; auto].
  - inversion ND as [|? ? N1 N2]; subst. cbn [dict_set]. destruct (str_eqb k' k) eqn:X.
    + apply str_eqb_eq in X. subst k'. simpl. split.
      * intros [E|I]; [injection E as <- <-; auto|]. right. split; [|auto]. intros ->. apply N1. apply in_map_iff. exists (k, q). auto.
      * intros [(-> & ->)|(NE & [E|I])]; [auto|injection E as <- <-; congruence|auto].
    + apply str_eqb_neq in X. simpl. rewrite (IH N2). split.
      * intros [E|[(-> & ->)|(NE & I)]]; [injection E as <- <-; auto|auto|auto].
      * intros [(-> & ->)|(NE & [E|I])]; auto.
Qed.
Lemma dict_set_keys m k p : NoDup (map fst m) -> NoDup (map fst (dict_set m k p)).
Proof.
  induction m as [|[k' p'] m IH]; intros ND; [simpl; constructor; [simpl; tauto|constructor]|]. inversion ND as [|? ? N1 N2]; subst. cbn [dict_set]. destruct (str_eqb k' k) eqn:X; [exact ND|]. cbn [map fst]. constructor; [|auto].
  intros I. apply N1. apply in_map_iff in I. destruct I as ([x q] & E & I). simpl in E. subst x. apply dict_set_in in I; [|assumption]. apply str_eqb_neq in X. destruct I as [(E & _)|(_ & I)]; [congruence|]. apply in_map_iff. exists (k', q). auto.
Qed.
Lemma assoc_in {V} (m : list (str * V)) k v : NoDup (map fst m) -> (assoc m k = Some v <-> In (k, v) m).
Proof.
  induction m as [|[k' p'] m IH]; intros ND; [simpl; split; [discriminate|tauto]|]. inversion ND as [|? ? N1 N2]; subst. cbn [assoc]. destruct (str_eqb k' k) eqn:X.
  - apply str_eqb_eq in X. subst k'. simpl. split; [intros E; injection E as <-; auto|]. intros [E|I]; [now injection E as <-|]. exfalso. apply N1. apply in_map_iff. exists (k, v). auto.
  - apply str_eqb_neq in X. rewrite (IH N2). simpl. split; [auto|]. intros [E|I]; [injection E as <- <-; congruence|auto].
Qed.
Lemma assoc_none {V} (m : list (str * V)) k : assoc m k = None <-> ~ In k (map fst m).
Proof.
  induction m as [|[k' p'] m IH]; [simpl; tauto|]. cbn [assoc map fst]. destruct (str_eqb k' k) eqn:X; [apply str_eqb_eq in X; subst; simpl; split; [discriminate|tauto]|]. apply str_eqb_neq in X. rewrite IH. simpl. tauto.
Qed.
(** The value last put for a key. *)
Inductive last_put {V} (k : str) (v : V) : list (str * V) -> Prop :=
| lp_here r : ~ In k (map fst r) -> last_put k v ((k, v) :: r)
| lp_later x r : last_put k v r -> last_put k v (x :: r).
Lemma last_put_in {V} k (v : V) l : last_put k v l -> In (k, v) l.
Proof. induction 1; simpl; auto. Qed.
Lemma last_put_key {V} k (v : V) l : last_put k v l -> In k (map fst l).
Proof. intros H. apply last_put_in in H. apply in_map_iff. exists (k, v). auto. Qed.

Section Dir.
Variable write_error : world -> str -> option exn.
Variable ZC : zip_codec.
Variable gunzip : bytes -> res bytes.
Variable untar : bytes -> res (list member).
Variable join : str -> str.
(** Keys for which the directory works: they can be written to the index file, and name different files other than the index. *)
Record good_names (K : str -> Prop) : Prop := {
  gn_field : forall k, K k -> field_ok k /\ field_ok (join k);
  gn_index : forall k, K k -> join k <> join index_name;
  gn_inj : forall k k', K k -> K k' -> join k = join k' -> k = k' }.
Section Puts.
Context {V : Type}.
Variable write : world -> str -> V -> world * res unit.
Variable enc : V -> bytes -> Prop.
(** The write puts bytes into the one file (true of char and byte sinks for the values considered). *)
Variable good_value : V -> Prop.
Hypothesis write_ok : forall w p v, good_value v -> exists b, enc v b /\ write w p v = (set_file w p b, Ok tt).
Hypothesis enc_fun : forall v b b', enc v b -> enc v b' -> b = b'.
Variable K : str -> Prop.
Hypothesis GN : good_names K.
Lemma puts_dir ops : (forall k v, In (k, v) ops -> K k /\ good_value v) -> forall w m, NoDup (map fst m) -> (forall k p, In (k, p) m -> K k /\ p = join k) ->
  exists w' m', dir_puts join write w m ops = (w', m', map (fun _ => Ok tt) ops) /\ NoDup (map fst m') /\
    (forall k p, In (k, p) m' <-> p = join k /\ (In k (map fst m) \/ In k (map fst ops))) /\
    (forall k v b, last_put k v ops -> enc v b -> w' (join k) = Some b) /\
    (forall p, (forall k, In k (map fst ops) -> p <> join k) -> w' p = w p).
Proof.
  induction ops as [|[k v] ops IH]; intros H w m ND Hm.
  - exists w, m. split; [reflexivity|]. split; [assumption|]. split; [|split; [intros ? ? ? L; inversion L|reflexivity]]. intros k p. simpl. split.
    + intros I. destruct (Hm k p I) as (_ & ->). split; [reflexivity|]. left. apply in_map_iff. exists (k, join k). auto.
    + intros (-> & [I|[]]). apply in_map_iff in I. destruct I as ([k' p] & E & I). simpl in E. subst k'. destruct (Hm k p I) as (_ & ->). assumption.
  - destruct (H k v) as (Kk & Gv); [simpl; auto|]. destruct (write_ok w (join k) v Gv) as (b & Eb & W).
    destruct (IH (fun k v I => H k v (or_intror I)) (set_file w (join k) b) (dict_set m k (join k))) as (w' & m' & P & N' & M' & L' & O').
    { now apply dict_set_keys. }
    { intros k' p I. apply dict_set_in in I; [|assumption]. destruct I as [(-> & ->)|(_ & I)]; [auto|now apply Hm]. }
    exists w', m'. split; [cbn [dir_puts map]; unfold dir_put; rewrite W, P; reflexivity|]. split; [assumption|]. split; [|split].
    + intros k' p. rewrite M'. simpl. assert (In k' (map fst (dict_set m k (join k))) <-> k' = k \/ In k' (map fst m)) as ->.
      { rewrite !in_map_iff. split.
        - intros ([x q] & E & I). simpl in E. subst x. apply dict_set_in in I; [|assumption]. destruct I as [(-> & _)|(_ & I)]; [auto|]. right. exists (k', q). auto.
        - intros [->|([x q] & E & I)]; [exists (k, join k); split; [reflexivity|]; apply dict_set_in; auto|]. simpl in E. subst x. destruct (list_eq_dec N.eq_dec k' k) as [->|NE]; [exists (k, join k); split; [reflexivity|]; apply dict_set_in; auto|].
          exists (k', q). split; [reflexivity|]. apply dict_set_in; auto. }
      intuition.
    + intros k' v' b' L Eb'. inversion L as [r Nk E1|x r L1 E1]; subst.
      * rewrite O'; [unfold set_file; rewrite str_eqb_refl; f_equal; eapply enc_fun; eassumption|]. intros k2 I E. apply (gn_inj _ GN) in E; [subst; contradiction|assumption|]. apply in_map_iff in I. destruct I as ([k3 v3] & E3 & I). simpl in E3. subst k3. apply (H k2 v3). simpl; auto.
      * now apply (L' k' v').
    + intros p Np. rewrite O' by (intros; apply Np; simpl; auto). unfold set_file. destruct (str_eqb (join k) p) eqn:X; [apply str_eqb_eq in X; destruct (Np k); simpl; auto|reflexivity].
Qed.
(** After the session the index lists exactly the keys put, sorted, each with its file. *)
Lemma dir_session_spec ops w : (forall k v, In (k, v) ops -> K k /\ good_value v) -> (forall w p, write_error w p = None) ->
  exists w' r, dir_session write_error join write EmptyDir w ops = (w', (Ok tt, map (fun _ => Ok tt) ops, Ok tt)) /\
    read_doc_id_to_file_map ZC gunzip untar w' (CFile (join index_name)) = Ok r /\
    StronglySorted (fun a b => str_ltb (fst a) (fst b) = true) r /\ NoDup (map fst r) /\
    (forall k p, In (k, p) r <-> p = join k /\ In k (map fst ops)) /\
    (forall k v b, last_put k v ops -> enc v b -> w' (join k) = Some b).
Proof.
  intros H WE. destruct (puts_dir ops H w []) as (w1 & m & P & N & M & L & O); [constructor|intros ? ? []|].
  assert (F : forall a b, In (a, b) m -> field_ok a /\ field_ok b).
  { intros k p I. apply M in I. destruct I as (-> & [[]|I]). apply in_map_iff in I. destruct I as ([k' v] & E & I). simpl in E. subst k'. apply (gn_field _ GN). now apply (H k v). }
  destruct (C67_round_trip write_error ZC gunzip untar w1 (join index_name) m N F (WE _ _)) as (r & Pr & Sr & _ & w' & W & R).
  exists w', r. split; [unfold dir_session, dir_exit; cbn [dir_enter]; rewrite P, W; reflexivity|]. split; [assumption|]. split; [assumption|]. split; [apply (Permutation_NoDup (l := map fst m)); [apply Permutation_map; now symmetry|assumption]|]. split.
  - intros k p. assert (In (k, p) r <-> In (k, p) m) as -> by (split; apply Permutation_in; [assumption|now symmetry]). rewrite M. simpl. tauto.
  - intros k v b Lp Eb. assert (w' (join k) = w1 (join k)) as ->; [|now apply (L k v)]. unfold char_file_write in W. rewrite WE in W. assert (K k) as Kk by (apply last_put_in in Lp; now apply (H k v)).
    assert (X : str_eqb (join index_name) (join k) = false) by (apply str_eqb_neq; intros E; apply (gn_index _ GN k Kk); now symmetry). destruct (encode _) as [b0|]; [|discriminate]. assert (w' = set_file w1 (join index_name) b0) as -> by congruence. unfold set_file. now rewrite X.
Qed.
End Puts.

(** The source over the index (KeyValueSource.from_doc_id_to_file_map, binary_from_doc_id_to_file_map). *)
Definition char_dir_source (w : world) (r : list (str * str)) : source str := path_source r (fun p => read_all ZC gunzip untar w (CFile p)).
Definition byte_dir_source (w : world) (r : list (str * str)) : source bytes := path_source r (fun p => byte_read ZC w (BFile p) (-1)).
(** C57: puts into a directory - keys may be put repeatedly, the last value counts - and reading back through the index file: the source
    has exactly the keys put, in increasing order, and gives the last value of each; text with \r\n and \r read as \n. *)
Theorem C57_char : forall K ops w, good_names K -> (forall k v, In (k, v) ops -> K k /\ encodable v) -> (forall w p, write_error w p = None) ->
  exists w' r, dir_session write_error join (char_file_write write_error) EmptyDir w ops = (w', (Ok tt, map (fun _ => Ok tt) ops, Ok tt)) /\
    read_doc_id_to_file_map ZC gunzip untar w' (CFile (join index_name)) = Ok r /\ let s := char_dir_source w' r in
    (exists ks, src_keys s = Ok (Some ks) /\ StronglySorted (fun a b => str_ltb a b = true) ks /\ forall k, In k ks <-> In k (map fst ops)) /\
    (forall k v, last_put k v ops -> exists t, newlines_read v t /\ src_item s k = Ok t /\ src_get s k = Ok (Some t)) /\
    (forall k, ~ In k (map fst ops) -> src_item s k = Raise KeyError /\ src_get s k = Ok None).
Proof.
  intros K ops w GN H WE.
  destruct (dir_session_spec (char_file_write write_error) (fun v b => encode v = Ok b) encodable) with (K := K) (ops := ops) (w := w) as (w' & r & S & R & So & N & M & L); auto.
  { intros w0 p v E. destruct (encodable_ok v E) as (b & Eb). exists b. split; [assumption|]. unfold char_file_write. now rewrite WE, Eb. }
  { intros; congruence. }
  exists w', r. split; [assumption|]. split; [assumption|]. cbv zeta.
  assert (KEYS : forall k, In k (map fst r) <-> In k (map fst ops)). { intros k. rewrite in_map_iff. split; [intros ([k' p] & E & I); simpl in E; subst k'; now apply M in I|]. intros I. exists (k, join k). split; [reflexivity|]. now apply M. }
  split; [|split].
  - exists (map fst r). split; [reflexivity|]. split; [|assumption]. clear -So. induction So as [|x l S IH F]; [constructor|]. simpl. constructor; [assumption|]. rewrite Forall_forall in *. intros y I. apply in_map_iff in I. destruct I as (z & <- & I). now apply F.
  - intros k v Lp. exists (universal_newlines v). split; [apply universal_spec|].
    assert (I : In k (map fst ops)) by (now apply last_put_key in Lp). assert (Ev : encodable v). { assert (In (k, v) ops) as J by (now apply last_put_in). now apply (H k v). }
    destruct (encodable_ok v Ev) as (b & Eb). assert (A : assoc r k = Some (join k)) by (apply assoc_in; [assumption|apply M; auto]).
    assert (read_all ZC gunzip untar w' (CFile (join k)) = Ok (universal_newlines v)) as Rd. { unfold read_all, text, read_file. rewrite (L k v b Lp Eb). cbn [bind]. now rewrite (proj2 (C68_round_trip v b) Eb). }
    cbn [src_item src_get char_dir_source path_source]. unfold char_dir_source. cbn [src_item src_get path_source]. rewrite A, Rd. split; reflexivity.
  - intros k Nk. assert (A : assoc r k = None) by (apply assoc_none; now rewrite KEYS). cbn. rewrite A. split; reflexivity.
Qed.
Theorem C57_bytes : forall K (ops : list (str * bytes)) w, good_names K -> (forall k v, In (k, v) ops -> K k) -> (forall w p, write_error w p = None) ->
  exists w' r, dir_session write_error join (byte_file_write write_error) EmptyDir w ops = (w', (Ok tt, map (fun _ => Ok tt) ops, Ok tt)) /\
    read_doc_id_to_file_map ZC gunzip untar w' (CFile (join index_name)) = Ok r /\ let s := byte_dir_source w' r in
    (exists ks, src_keys s = Ok (Some ks) /\ StronglySorted (fun a b => str_ltb a b = true) ks /\ forall k, In k ks <-> In k (map fst ops)) /\
    (forall k v, last_put k v ops -> src_item s k = Ok v /\ src_get s k = Ok (Some v)) /\
    (forall k, ~ In k (map fst ops) -> src_item s k = Raise KeyError /\ src_get s k = Ok None).
Proof.
  intros K ops w GN H WE.
  destruct (dir_session_spec (byte_file_write write_error) (fun v b => b = v) (fun _ => True)) with (K := K) (ops := ops) (w := w) as (w' & r & S & R & So & N & M & L); auto.
  { intros w0 p v _. exists v. split; [reflexivity|]. unfold byte_file_write. now rewrite WE. }
  { intros; congruence. }
  { intros k v I. split; [now apply (H k v)|trivial]. }
  exists w', r. split; [assumption|]. split; [assumption|]. cbv zeta.
  assert (KEYS : forall k, In k (map fst r) <-> In k (map fst ops)). { intros k. rewrite in_map_iff. split; [intros ([k' p] & E & I); simpl in E; subst k'; now apply M in I|]. intros I. exists (k, join k). split; [reflexivity|]. now apply M. }
  split; [|split].
  - exists (map fst r). split; [reflexivity|]. split; [|assumption]. clear -So. induction So as [|x l S IH F]; [constructor|]. simpl. constructor; [assumption|]. rewrite Forall_forall in *. intros y I. apply in_map_iff in I. destruct I as (z & <- & I). now apply F.
  - intros k v Lp. assert (I : In k (map fst ops)) by (now apply last_put_key in Lp). assert (A : assoc r k = Some (join k)) by (apply assoc_in; [assumption|apply M; auto]).
    assert (byte_read ZC w' (BFile (join k)) (-1) = Ok v) as Rd. { unfold byte_read, byte_content, read_file. rewrite (L k v v Lp eq_refl). reflexivity. } cbn - [byte_read]. rewrite A, Rd. split; reflexivity.
  - intros k Nk. assert (A : assoc r k = None) by (apply assoc_none; now rewrite KEYS). cbn. rewrite A. split; reflexivity.
Qed.
(** The directory must exist and be empty. *)
Theorem C57_enter : forall V (write : world -> str -> V -> world * res unit) st w ops, st <> EmptyDir ->
  dir_session write_error join write st w ops = (w, (Raise (match st with NoDir => FileNotFoundError | _ => IOError end), [], Ok tt)).
Proof. intros V write [| |] w ops N; [reflexivity|congruence|reflexivity]. Qed.
(** Puts that fail (an unencodable value, an unwritable file) are not in the index: whatever the writes do, the index lists exactly the keys of
    the puts that succeeded, each with its file. *)
Lemma puts_index {V} (write : world -> str -> V -> world * res unit) ops : forall w m w' m' os, dir_puts join write w m ops = (w', m', os) ->
  NoDup (map fst m) -> (forall k p, In (k, p) m -> p = join k) ->
  length os = length ops /\ NoDup (map fst m') /\ forall k p, In (k, p) m' <-> p = join k /\ (In k (map fst m) \/ exists v, In (k, v, Ok tt) (combine ops os)).
Proof.
  induction ops as [|[k v] ops IH]; intros w m w' m' os E ND Hm.
  - inversion E; subst; clear E. split; [reflexivity|]. split; [assumption|]. intros k p. simpl. split.
    + intros I. rewrite (Hm k p I). split; [reflexivity|]. left. apply in_map_iff. exists (k, p). auto.
    + intros (-> & [I|(? & [])]). apply in_map_iff in I. destruct I as ([k' p] & E & I). simpl in E. subst k'. now rewrite <- (Hm k p I).
  - cbn [dir_puts] in E. unfold dir_put in E. destruct (write w (join k) v) as [w1 [[]|e]] eqn:W.
    + destruct (dir_puts join write w1 (dict_set m k (join k)) ops) as [[w2 m2] os2] eqn:P. inversion E; subst; clear E.
      assert (forall x p, In (x, p) (dict_set m k (join k)) -> p = join x) as Hm2 by (intros x p I; apply dict_set_in in I; [destruct I as [(-> & ->)|(_ & I)]; auto|assumption]).
      destruct (IH _ _ _ _ _ P (dict_set_keys m k (join k) ND) Hm2) as (L & N' & M). split; [simpl; congruence|]. split; [assumption|]. intros x p. rewrite M. simpl combine.
      assert (In x (map fst (dict_set m k (join k))) <-> x = k \/ In x (map fst m)) as ->.
      { rewrite !in_map_iff. split.
        - intros ([y q] & E & I). simpl in E. subst y. apply dict_set_in in I; [|assumption]. destruct I as [(-> & _)|(_ & I)]; [auto|]. right. exists (x, q). auto.
        - intros [->|([y q] & E & I)]; [exists (k, join k); split; [reflexivity|]; apply dict_set_in; auto|]. simpl in E. subst y. destruct (list_eq_dec N.eq_dec x k) as [->|NE]; [exists (k, join k); split; [reflexivity|]; apply dict_set_in; auto|].
          exists (x, q). split; [reflexivity|]. apply dict_set_in; auto. }
      split.
      * intros (-> & [[->|I]|(v' & I)]); (split; [reflexivity|]); [right; exists v; now left|auto|right; exists v'; now right].
      * intros (-> & [I|(v' & [E|I])]); (split; [reflexivity|]); [auto|inversion E; auto|right; eauto].
    + destruct (dir_puts join write w1 m ops) as [[w2 m2] os2] eqn:P. inversion E; subst; clear E. destruct (IH _ _ _ _ _ P ND Hm) as (L & N' & M). split; [simpl; congruence|]. split; [assumption|]. intros x p. rewrite M. simpl combine. split.
      * intros (-> & [I|(v' & I)]); (split; [reflexivity|]); [auto|right; exists v'; now right].
      * intros (-> & [I|(v' & [E|I])]); (split; [reflexivity|]); [auto|inversion E|right; eauto].
Qed.
Theorem C57_failed_puts : forall V (write : world -> str -> V -> world * res unit) K ops w, good_names K -> (forall k v, In (k, v) ops -> K k) ->
  (forall w, write_error w (join index_name) = None) ->
  exists w' os r, dir_session write_error join write EmptyDir w ops = (w', (Ok tt, os, Ok tt)) /\ length os = length ops /\
    read_doc_id_to_file_map ZC gunzip untar w' (CFile (join index_name)) = Ok r /\
    (forall k p, In (k, p) r <-> p = join k /\ exists v, In (k, v, Ok tt) (combine ops os)).
Proof.
  intros V write K ops w GN H WE. destruct (dir_puts join write w [] ops) as [[w1 m] os] eqn:P.
  destruct (puts_index write ops w [] w1 m os P) as (L & N & M); [constructor|intros ? ? []|].
  assert (F : forall a b, In (a, b) m -> field_ok a /\ field_ok b).
  { intros k p I. apply M in I. destruct I as (-> & [[]|(v & I)]). apply in_combine_l in I. apply (gn_field _ GN). eauto. }
  destruct (C67_round_trip write_error ZC gunzip untar w1 (join index_name) m N F (WE _)) as (r & Pr & Sr & _ & w' & W & R).
  exists w', os, r. split; [unfold dir_session, dir_exit; cbn [dir_enter]; rewrite P, W; reflexivity|]. split; [assumption|]. split; [assumption|].
  intros k p. assert (In (k, p) r <-> In (k, p) m) as -> by (split; apply Permutation_in; [assumption|now symmetry]). rewrite M. simpl. split; [intros (? & [[]|?])|intros (? & ?)]; auto.
Qed.
(** A failed put is not without effect, though: when a key was put before, putting a value that cannot be encoded empties its file, and the
    key stays in the index; reading it gives the empty text. *)
Theorem C57_failed_overwrite_refuted : forall K k v bad w, good_names K -> K k -> encodable v -> ~ encodable bad -> (forall w p, write_error w p = None) ->
  exists w' r, dir_session write_error join (char_file_write write_error) EmptyDir w [(k, v); (k, bad)] = (w', (Ok tt, [Ok tt; Raise UnicodeEncodeError], Ok tt)) /\
    read_doc_id_to_file_map ZC gunzip untar w' (CFile (join index_name)) = Ok r /\ src_item (char_dir_source w' r) k = Ok [].
Proof.
  intros K k v bad w GN Kk Ev Eb WE. destruct (encodable_ok v Ev) as (b & Hb).
  assert (X : encode bad = Raise UnicodeEncodeError) by (now apply C68_encodable).
  assert (P : dir_puts join (char_file_write write_error) w [] [(k, v); (k, bad)] = (set_file (set_file w (join k) b) (join k) [], [(k, join k)], [Ok tt; Raise UnicodeEncodeError])).
  { cbn [dir_puts]. unfold dir_put, char_file_write. rewrite !WE, Hb. cbn [dict_set]. now rewrite !WE, X. }
  set (w1 := set_file (set_file w (join k) b) (join k) []) in *.
  assert (F : forall x y, In (x, y) [(k, join k)] -> field_ok x /\ field_ok y) by (intros x y [E|[]]; inversion E; subst; now apply (gn_field _ GN)).
  destruct (C67_round_trip write_error ZC gunzip untar w1 (join index_name) [(k, join k)]) as (r & Pr & Sr & _ & w' & W & R); [repeat constructor; simpl; tauto|exact F|apply WE|].
  apply Permutation_sym, Permutation_length_1_inv in Pr. subst r.
  exists w', [(k, join k)]. split; [unfold dir_session, dir_exit; cbn [dir_enter]; rewrite P, W; reflexivity|]. split; [assumption|].
  assert (w' (join k) = Some []) as Z. { unfold char_file_write in W. rewrite WE in W. assert (Y : str_eqb (join index_name) (join k) = false) by (apply str_eqb_neq; intros E; apply (gn_index _ GN k Kk); now symmetry). destruct (encode (write_doc_id_to_file_map [(k, join k)])) as [b0|]; [|discriminate]. assert (w' = set_file w1 (join index_name) b0) as -> by congruence. unfold w1, set_file. rewrite Y. now rewrite str_eqb_refl. }
  unfold char_dir_source. cbn [src_item path_source assoc]. rewrite str_eqb_refl. unfold read_all, text, read_file. rewrite Z. reflexivity.
Qed.
(** A document called "_index" is lost: its file is overwritten by the index. *)
Theorem C57_index_key_refuted : forall w v, field_ok (join index_name) -> encodable v -> (forall w p, write_error w p = None) ->
  let w' := fst (dir_session write_error join (char_file_write write_error) EmptyDir w [(index_name, v)]) in
  w' (join index_name) <> None /\ read_all ZC gunzip untar w' (CFile (join index_name)) = Ok (index_name ++ [TAB] ++ join index_name ++ [LF]).
Proof.
  intros w v F E WE. destruct (encodable_ok v E) as (b & Eb). assert (dir_session write_error join (char_file_write write_error) EmptyDir w [(index_name, v)] =
    let '(w2, x) := dir_exit write_error join (set_file w (join index_name) b) [(index_name, join index_name)] in (w2, (Ok tt, [Ok tt], x))) as ->.
  { unfold dir_session. cbn [dir_enter dir_puts]. unfold dir_put. replace (char_file_write write_error w (join index_name) v) with (set_file w (join index_name) b, Ok tt) by (unfold char_file_write; now rewrite WE, Eb). reflexivity. }
  unfold dir_exit, write_doc_id_to_file_map. cbn [sorted_by insert flat_map fst snd]. rewrite app_nil_r. cbn zeta.
  set (t := index_name ++ [TAB] ++ join index_name ++ [LF]). assert (encodable t) as Et. { destruct F as (_ & _ & _ & _ & Fe). unfold t, encodable. apply Forall_app. split; [repeat constructor; vm_compute; intuition discriminate|]. constructor; [vm_compute; intuition discriminate|]. apply Forall_app. split; [assumption|]. repeat constructor; vm_compute; intuition discriminate. }
  destruct (encodable_ok t Et) as (bt & Ebt). unfold char_file_write. rewrite WE, Ebt. cbn [fst]. unfold read_all, text, read_file, set_file. rewrite str_eqb_refl. split; [discriminate|]. cbn [bind]. rewrite (proj2 (C68_round_trip t bt) Ebt). cbn [bind]. rewrite universal_id; [reflexivity|].
  destruct F as (_ & _ & _ & C & _). unfold t. intros I. apply in_app_or in I. destruct I as [I|[I|I]]; [vm_compute in I; intuition discriminate|discriminate|]. simpl in I. apply in_app_or in I. destruct I as [I|[I|[]]]; [auto|discriminate].
Qed.
End Dir.

(** Plain file names work: in directory [dir], keys which are non-empty, without white space at their ends, tab, newline, slash. *)
Definition plain_join (dir k : str) : str := dir ++ !!"/" ++ k.
Theorem C57_plain_names : forall dir, field_ok dir -> dir <> [] ->
  good_names (plain_join dir) (fun k => field_ok k /\ k <> [] /\ k <> index_name).
Proof.
  intros dir Fd Nd. assert (Sl : forall k, field_ok k -> k <> [] -> field_ok (plain_join dir k)).
  { intros k (T & A & B & C & D) N. destruct Fd as (T' & A' & B' & C' & D'). unfold plain_join. split; [split|].
    - intros c r E. destruct dir as [|d dir]; [congruence|]. injection E as <- _. apply (proj1 T' d dir). reflexivity.
    - intros c r E. destruct (exists_last N) as (k' & x & ->). rewrite !app_assoc in E. apply app_inj_tail in E. destruct E as [_ <-]. apply (proj2 T x k'). reflexivity.
    - assert (M : forall c, In c (dir ++ !!"/" ++ k) -> In c dir \/ c = 47%N \/ In c k). { intros c I. apply in_app_or in I. destruct I as [I|[I|I]]; [auto|right; left; now rewrite <- I|auto]. }
      repeat split; try (intros I; apply M in I; destruct I as [I|[I|I]]; [auto|discriminate|auto]; fail).
      apply Forall_app. split; [assumption|]. constructor; [vm_compute; intuition discriminate|assumption]. }
  split.
  - intros k (F & N & _). auto.
  - intros k (F & N & NI) E. apply NI. unfold plain_join in E. apply app_inv_head in E. now apply app_inv_head in E.
  - intros k k' _ _ E. unfold plain_join in E. apply app_inv_head in E. now apply app_inv_head in E.
Qed.

(** ** Non-trivial instances *)
Example C57_witness : let join := plain_join !!"/d" in let w : world := fun _ => None in
  let out := dir_session (fun _ _ => None) join (char_file_write (fun _ _ => None)) EmptyDir w [(!!"b", !!"1"); (!!"a", !!"x" ++ [CR]); (!!"b", !!"2")] in
  snd out = (Ok tt, [Ok tt; Ok tt; Ok tt], Ok tt) /\ fst out !!"/d/b" = Some !!"2" /\ fst out !!"/d/a" = Some (!!"x" ++ [CR]) /\
  read_doc_id_to_file_map toy_zip (fun _ => Raise IOError) (fun _ => Raise IOError) (fst out) (CFile !!"/d/_index") = Ok [(!!"a", !!"/d/a"); (!!"b", !!"/d/b")] /\
  field_ok !!"/d".
Proof.
  cbv zeta. repeat split; try (vm_compute; reflexivity); try (vm_compute; intuition discriminate).
  - intros c r E. vm_compute in E. injection E as <- _. reflexivity.
  - intros c r E. change !!"/d" with (!!"/" ++ !!"d") in E. apply app_inj_tail in E. destruct E as [_ <-]. reflexivity.
  - repeat constructor; vm_compute; intuition discriminate.
Qed.
Example C57_failed_witness : let join := plain_join !!"/d" in let w : world := fun _ => None in
  let out := dir_session (fun _ _ => None) join (char_file_write (fun _ _ => None)) EmptyDir w [(!!"a", !!"1"); (!!"b", [55296%N]); (!!"a", [55296%N])] in
  snd out = (Ok tt, [Ok tt; Raise UnicodeEncodeError; Raise UnicodeEncodeError], Ok tt) /\ fst out !!"/d/a" = Some [] /\ fst out !!"/d/b" = Some [] /\
  read_doc_id_to_file_map toy_zip (fun _ => Raise IOError) (fun _ => Raise IOError) (fst out) (CFile !!"/d/_index") = Ok [(!!"a", !!"/d/a")] /\
  ~ encodable [55296%N].
Proof.
  cbv zeta. repeat split; try (vm_compute; reflexivity). intros F. inversion F as [|? ? (_ & S) _]; subst. apply S. split; discriminate.
Qed.
Example C59_witness : let s := path_source [(!!"a", !!"p"); (!!"b", !!"q")] (fun p => Ok p) in
  items (interpreted (fun k t => Ok (k ++ t)) s) (fun _ => true) = Ok ([(!!"a", !!"ap"); (!!"b", !!"bq")], None) /\
  items (interpreted (fun k t => if str_eqb k !!"b" then Raise ValueError else Ok t) s) (fun _ => true) = Ok ([(!!"a", !!"p")], Some ValueError).
Proof. split; reflexivity. Qed.
Example C60_witness : let f n b := {| m_name := n; m_isfile := true; m_data := Some b |} in let dir n := {| m_name := n; m_isfile := false; m_data := None |} in
  let ms := [dir !!"d"; f !!"d/x" !!"1"; f !!"skip" !!"2"; f !!"d/y" !!"3"] in
  tar_items (fun n => Some n) (fun n => negb (str_eqb n !!"skip")) (fun _ => true) (Some ms) = Ok ([(!!"d/x", !!"1"); (!!"d/y", !!"3")], None) /\
  forall m k, In m ms -> tar_key (fun n => Some n) (fun n => negb (str_eqb n !!"skip")) (fun _ => true) m k -> m_data m <> None.
Proof.
  cbv zeta. split; [reflexivity|]. intros m k [<-|[<-|[<-|[<-|[]]]]] (F & _); simpl in *; congruence.
Qed.
Print Assumptions C57_char.
Print Assumptions C57_bytes.
Print Assumptions C57_failed_puts.
Print Assumptions C57_failed_overwrite_refuted.
Print Assumptions C57_plain_names.
Print Assumptions C59_lookup.
Print Assumptions C59_items.
Print Assumptions C59_agree.
Print Assumptions C60_items.
Print Assumptions C60_error.
