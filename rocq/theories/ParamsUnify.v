(** * unify: what it computes *)
From Verif Require Import Prelude PyStr Params ParamsSpec ParamsProofs.

Definition unify_item (a b : pv) (db : data_t) (prefix : list str) (kv : str * pv) : res (str * pv) :=
  let* x := if contains b (fst kv) then
              match dfind db (fst kv) with
              | None => Raise KeyError
              | Some new =>
                  if negb (Bool.eqb (is_params (snd kv)) (is_params new)) then Raise IOError
                  else if is_params (snd kv) then unify (snd kv) new (prefix ++ [fst kv])
                  else Ok new
              end
            else Ok (snd kv) in Ok (fst kv, x).
Definition add_new (a : pv) (db ret : data_t) : data_t :=
  fold_left (fun ret kv => if contains a (fst kv) then ret else dput ret (fst kv) (snd kv)) db ret.
Lemma unify_eq pa da pb db prefix :
  unify (PParams pa da) (PParams pb db) prefix =
  let* r1 := mapM (unify_item (PParams pa da) (PParams pb db) db prefix) da in
  from_mapping (PMap (add_new (PParams pa da) db r1)) prefix.
Proof.
  cbn [unify].
  assert (forall l, (fix go (l : data_t) : res data_t :=
        match l with
        | [] => Ok []
        | (k, old) :: r =>
            let* x := if contains (PParams pb db) k then
                        match dfind db k with
                        | None => Raise KeyError
                        | Some new =>
                            if negb (Bool.eqb (is_params old) (is_params new)) then Raise IOError
                            else if is_params old then unify old new (prefix ++ [k])
                            else Ok new
                        end
                      else Ok old in
            let* r' := go r in Ok ((k, x) :: r')
        end) l = mapM (unify_item (PParams pa da) (PParams pb db) db prefix) l) as ->; [|reflexivity].
  induction l as [|[k x] l IH]; [reflexivity|]. simpl mapM. unfold unify_item at 1. cbn [fst snd]. rewrite IH.
  destruct (if contains (PParams pb db) k then _ else _); reflexivity.
Qed.

Lemma unify_item_keys a b db prefix l d : mapM (unify_item a b db prefix) l = Ok d -> keys d = keys l.
Proof.
  rewrite mapM_ok. induction 1 as [|[k x] [k' x'] m d H _ IH]; [reflexivity|]. simpl. f_equal; [|exact IH].
  unfold unify_item in H. apply bind_ok in H. destruct H as (y & _ & H). simpl in H. congruence.
Qed.
Lemma unify_item_find a b db prefix l d : mapM (unify_item a b db prefix) l = Ok d -> forall k,
  match dfind l k with
  | Some x => exists y, unify_item a b db prefix (k, x) = Ok (k, y) /\ dfind d k = Some y
  | None => dfind d k = None
  end.
Proof.
  rewrite mapM_ok. induction 1 as [|[k x] [k' x'] m d H _ IH]; intros q; [reflexivity|]. simpl.
  assert (k' = k) as ->. { unfold unify_item in H. apply bind_ok in H. destruct H as (y & _ & H). simpl in H. congruence. }
  destruct (str_eqb k q) eqn:EQ; [|apply IH]. apply str_eqb_eq in EQ. subst. eauto.
Qed.
Lemma unify_item_raise a b db prefix l e : mapM (unify_item a b db prefix) l = Raise e ->
  exists kv, In kv l /\ unify_item a b db prefix kv = Raise e.
Proof.
  induction l as [|kv l IH]; simpl; [discriminate|]. destruct (unify_item a b db prefix kv) eqn:E; simpl.
  - destruct (mapM _ l); simpl; [discriminate|]. intros H. destruct (IH H) as (kv' & I & K). exists kv'. auto.
  - intros H; injection H as ->. exists kv. auto.
Qed.

Lemma add_new_keys a db : forall ret, NoDup (keys ret) -> NoDup (keys (add_new a db ret)).
Proof.
  unfold add_new. induction db as [|[k x] db IH]; intros ret N; simpl; [assumption|]. apply IH. destruct (contains a k); [assumption|]. now apply dput_nodup.
Qed.
Lemma add_new_in_keys a db : forall ret k, In k (keys (add_new a db ret)) -> In k (keys ret) \/ In k (keys db).
Proof.
  unfold add_new. induction db as [|[k0 x] db IH]; intros ret k H; simpl in *; [auto|]. apply IH in H. destruct H as [H|H]; [|auto].
  destruct (contains a k0); [auto|]. apply dput_in_keys in H. destruct H as [->|H]; auto.
Qed.
Lemma add_new_vals a db (P : pv -> Prop) : forall ret, Forall (fun kv => P (snd kv)) ret -> Forall (fun kv => P (snd kv)) db ->
  Forall (fun kv => P (snd kv)) (add_new a db ret).
Proof.
  unfold add_new. induction db as [|[k0 x] db IH]; intros ret H1 H2; simpl in *; [auto|]. inversion H2 as [|? ? Hx H3]; subst. apply IH; [|assumption].
  destruct (contains a k0); [assumption|]. clear -H1 Hx. induction ret as [|[k v] ret IH]; simpl; [repeat constructor; assumption|].
  inversion H1; subst. destruct (str_eqb k k0); constructor; auto.
Qed.
Lemma add_new_find a db : NoDup (keys db) -> forall ret k,
  dfind (add_new a db ret) k = match dfind db k with
                               | Some x => if contains a k then dfind ret k else Some x
                               | None => dfind ret k
                               end.
Proof.
  unfold add_new. induction db as [|[k0 x] db IH]; intros N ret k; simpl; [reflexivity|]. inversion N as [|? ? Hn N']; subst.
  rewrite IH by assumption. destruct (str_eqb k0 k) eqn:E.
  - apply str_eqb_eq in E. subst. apply dfind_none in Hn. simpl in *. rewrite Hn. destruct (contains a k); [reflexivity|].
    rewrite dfind_dput, str_eqb_refl. reflexivity.
  - destruct (dfind db k) eqn:F.
    + destruct (contains a k); [|reflexivity]. destruct (contains a k0); [reflexivity|]. rewrite dfind_dput, E. reflexivity.
    + destruct (contains a k0); [reflexivity|]. rewrite dfind_dput, E. reflexivity.
Qed.

Lemma wf_is_params_view x : wf x -> view x [] = Some (if is_params x then Namespace else Leaf x).
Proof. destruct x; simpl; tauto || reflexivity. Qed.

Definition no_clash a b := forall q, ~ clash a b q.

Lemma unify_correct a : forall b prefix, wf_params a -> wf_params b ->
  match unify a b prefix with
  | Ok c => wf_params c /\ params_prefix c = prefix /\ (forall q, view c q = merge1 (view a q) (view b q)) /\ no_clash a b
  | Raise e => e = IOError /\ exists q, clash a b q
  end.
Proof.
  induction a using pv_ind_nested; intros nw prefix [Wa Pa] [Wb Pb]; simpl in Pa; try discriminate.
  destruct nw as [| | | | | | | | |pb db|]; try discriminate. rename m into da, pre into pa.
  pose proof Wa as Wa'. pose proof Wb as Wb'. apply wf_map in Wa', Wb'. destruct Wa' as (Na & Da & Va), Wb' as (Nb & Db & Vb).
  rewrite unify_eq.
  assert (HI : forall k x, dfind da k = Some x -> match unify_item (PParams pa da) (PParams pb db) db prefix (k, x) with
     | Ok (k', y) => k' = k /\ wf y /\ (forall q, view y q = merge1 (view x q) (match dfind db k with Some z => view z q | None => None end)) /\
                     (forall z, dfind db k = Some z -> no_clash x z)
     | Raise e => e = IOError /\ exists z, dfind db k = Some z /\ exists q, clash x z q
     end).
  { intros k x Hx. assert (Wx : wf x) by exact (wf_find _ _ _ _ Wa Hx). unfold unify_item. cbn [fst snd].
    assert (dotless k) as Dk. { rewrite Forall_forall in Da. apply Da. apply dfind_some_key. eauto. }
    rewrite contains_key by assumption. destruct (dfind db k) as [z|] eqn:Hz.
    2:{ simpl. split; [reflexivity|]. split; [assumption|]. split; [reflexivity|]. discriminate. }
    assert (Wz : wf z) by exact (wf_find _ _ _ _ Wb Hz).
    destruct (is_none z) eqn:Ez; simpl.
    { split; [reflexivity|]. split; [assumption|]. split.
      - intros q. destruct z; try discriminate. destruct q as [|k' q]; [|reflexivity]. rewrite wf_is_params_view by assumption. simpl. destruct (is_params x); reflexivity.
      - intros z' E; injection E as <-. intros q. destruct z; try discriminate. intros [(v & H1 & H2)|(v & H1 & H2 & H3)]; destruct q; simpl in H2; try discriminate. congruence. }
    destruct (is_params x) eqn:Ex, (is_params z) eqn:Ez'; simpl.
    - rewrite Forall_forall in H. assert (K := H _ (dfind_in _ _ _ Hx) z (prefix ++ [k]) (conj Wx Ex) (conj Wz Ez')). cbn [snd] in K.
      destruct (unify x z (prefix ++ [k])) as [c|e]; simpl.
      + destruct K as ([Wc _] & _ & K & NC). split; [reflexivity|]. split; [assumption|]. split; [assumption|]. intros z' E; injection E as <-. assumption.
      + destruct K as (-> & q & K). split; [reflexivity|]. eauto.
    - split; [reflexivity|]. exists z. split; [reflexivity|]. exists []. right. exists z. rewrite !wf_is_params_view, Ex, Ez' by assumption.
      repeat split. intros ->. discriminate.
    - split; [reflexivity|]. exists z. split; [reflexivity|]. exists []. left. exists x. rewrite !wf_is_params_view, Ex, Ez' by assumption. auto.
    - split; [reflexivity|]. split; [assumption|]. split.
      + intros [|k' q].
        * rewrite !wf_is_params_view, Ex, Ez' by assumption. simpl. destruct z; reflexivity || discriminate.
        * destruct x; try discriminate; try (now simpl in Wx); destruct z; try discriminate; try (now simpl in Wz); reflexivity.
      + intros z' E; injection E as <-. intros q [(v & H1 & H2)|(v & H1 & H2 & H3)]; destruct q.
        * rewrite wf_is_params_view, Ez' in H2 by assumption. discriminate.
        * simpl in H2. destruct z; try discriminate. now simpl in Wz.
        * rewrite wf_is_params_view, Ex in H1 by assumption. discriminate.
        * simpl in H1. destruct x; try discriminate. now simpl in Wx. }
  destruct (mapM _ da) as [r1|e] eqn:Em; simpl.
  - pose proof (unify_item_keys _ _ _ _ _ _ Em) as Kr1. pose proof (unify_item_find _ _ _ _ _ _ Em) as Fr1.
    set (ret := add_new (PParams pa da) db r1).
    assert (Nret : NoDup (keys ret)). { apply add_new_keys. now rewrite Kr1. }
    assert (Fret : forall k, dfind ret k = match dfind da k with
        | Some x => match unify_item (PParams pa da) (PParams pb db) db prefix (k, x) with
                    | Ok (_, y) => if contains (PParams pa da) k then Some y else match dfind db k with Some z => Some z | None => Some y end
                    | Raise _ => None end
        | None => dfind db k end).
    { intros k. unfold ret. rewrite add_new_find by assumption. specialize (Fr1 k). destruct (dfind da k) as [x|] eqn:Hx.
      - destruct Fr1 as (y & -> & ->). destruct (dfind db k); destruct (contains (PParams pa da) k); reflexivity.
      - rewrite Fr1. destruct (dfind db k) as [z|] eqn:Hz; [|reflexivity]. rewrite contains_key, Hx; [reflexivity|].
        rewrite Forall_forall in Db. apply Db. apply dfind_some_key. eauto. }
    assert (Wret : Forall (fun kv => wf (snd kv)) ret).
    { apply add_new_vals; [|assumption]. apply Forall_forall. intros [k y] I. simpl. specialize (Fr1 k).
      assert (In k (keys r1)) as Ik by (apply in_map_iff; now exists (k, y)). rewrite Kr1 in Ik. apply dfind_some_key in Ik. destruct Ik as (x & Hx).
      rewrite Hx in Fr1. destruct Fr1 as (y' & E & F). specialize (HI k x Hx). rewrite E in HI.
      rewrite (in_dfind _ _ y) in F; [|now rewrite Kr1|assumption]. injection F as <-. tauto. }
    assert (Dret : Forall dotless (keys ret)).
    { apply Forall_forall. intros k I. apply add_new_in_keys in I. rewrite Kr1 in I. rewrite Forall_forall in Da, Db. destruct I; auto. }
    change (match from_value prefix (PMap ret) with Ok c => wf_params c /\ params_prefix c = prefix /\ (forall q, view c q = merge1 (view (PParams pa da) q) (view (PParams pb db) q)) /\ no_clash (PParams pa da) (PParams pb db) | Raise e => e = IOError /\ exists q, clash (PParams pa da) (PParams pb db) q end).
    assert (from_value prefix (PMap ret) = Ok (PParams prefix ret)) as ->.
    { rewrite from_value_map. assert (mapM (from_item prefix) ret = Ok ret) as ->.
      { clear -Wret. induction ret as [|[k x] ret IH]; [reflexivity|]. inversion Wret; subst. simpl. unfold from_item at 1. simpl. rewrite from_value_wf by assumption. simpl. rewrite IH by assumption. reflexivity. }
      simpl. destruct (mk_params_spec prefix ret _ eq_refl) as [[_ X]|[X _]]; [exact X|]. apply Exists_exists in X. destruct X as (k & X & Y).
      rewrite Forall_forall in Dret. now destruct (Dret k X). }
    split; [split; [|reflexivity]; apply wf_map; auto|]. split; [reflexivity|]. split.
    + intros [|k q]; [reflexivity|]. simpl. rewrite Fret. destruct (dfind da k) as [x|] eqn:Hx.
      * specialize (HI k x Hx). specialize (Fr1 k). rewrite Hx in Fr1. destruct Fr1 as (y & E & F). rewrite E in HI. destruct HI as (_ & Wy & V & _).
        rewrite E. rewrite contains_key, Hx. 2:{ rewrite Forall_forall in Da. apply Da. apply dfind_some_key. eauto. }
        destruct (is_none x) eqn:Ex; simpl; [|apply V]. destruct x; try discriminate.
        destruct (dfind db k) as [z|] eqn:Hz; [|apply V].
        unfold unify_item in E. simpl in E. rewrite contains_key, Hz in E. 2:{ rewrite Forall_forall in Da. apply Da. apply dfind_some_key. eauto. }
        destruct (is_none z) eqn:Ez; simpl in E.
        { destruct z; try discriminate. destruct q; reflexivity. }
        destruct (is_params z) eqn:Ez'; simpl in E; [discriminate|]. assert (wf z) as Wz by exact (wf_find _ _ _ _ Wb Hz).
        destruct q; [|destruct z; reflexivity || discriminate || now simpl in Wz]. destruct z; reflexivity || discriminate || now simpl in Wz.
      * destruct (dfind db k) as [z|]; [|reflexivity]. destruct (view z q) as [[|[]]|]; reflexivity.
    + intros [|k q] C.
      * destruct C as [(v & H1 & H2)|(v & H1 & H2 & H3)]; simpl in *; discriminate.
      * unfold clash in C. simpl in C. destruct (dfind da k) as [x|] eqn:Hx; [|destruct C as [(v & H1 & H2)|(v & H1 & H2 & H3)]; discriminate].
        destruct (dfind db k) as [z|] eqn:Hz; [|destruct C as [(v & H1 & H2)|(v & H1 & H2 & H3)]; discriminate].
        specialize (HI k x Hx). specialize (Fr1 k). rewrite Hx in Fr1. destruct Fr1 as (y & E & F). rewrite E in HI.
        destruct HI as (_ & _ & _ & NC). exact (NC z Hz q C).
  - destruct (unify_item_raise _ _ _ _ _ _ Em) as ([k x] & I & E). assert (dfind da k = Some x) as Hx by (now apply in_dfind).
    specialize (HI k x Hx). rewrite E in HI. destruct HI as (-> & z & Hz & q & C). split; [reflexivity|]. exists (k :: q).
    unfold clash in *. simpl. rewrite Hx, Hz. exact C.
Qed.
