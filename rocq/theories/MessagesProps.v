(** * C102: what the error messages of Parameters say is right *)
From Verif Require Import Prelude PyStr Order Range Params ParamsSpec ParamsProofs ParamsGet ParamsUnify ParamsProps ParamsEq SubNamespaces Misc PyRepr Messages.

(** The names in a namespace, in order: those of parameters and those of namespaces. *)
Inductive names_in : data_t -> list str -> list str -> Prop :=
| ni_nil : names_in [] [] []
| ni_param k v d ps ns : is_params v = false -> names_in d ps ns -> names_in ((k, v) :: d) (k :: ps) ns
| ni_namespace k v d ps ns : is_params v = true -> names_in d ps ns -> names_in ((k, v) :: d) ps (k :: ns).
Lemma names_in_fun d ps ns : names_in d ps ns -> ps = map fst (filter (fun kv => negb (is_params (snd kv))) d) /\ ns = map fst (filter (fun kv => is_params (snd kv)) d).
Proof. induction 1 as [|k v d ps ns T _ (-> & ->)|k v d ps ns T _ (-> & ->)]; simpl; [auto| |]; rewrite T; auto. Qed.
Lemma names_in_exist d : exists ps ns, names_in d ps ns.
Proof. induction d as [|[k v] d (ps & ns & H)]; [do 2 eexists; constructor|]. destruct (is_params v) eqn:T; do 2 eexists; [apply ni_namespace|apply ni_param]; eassumption. Qed.
Lemma names_in_spec d ps ns : names_in d ps ns -> forall k, (In k ps <-> exists v, In (k, v) d /\ is_params v = false) /\ (In k ns <-> exists v, In (k, v) d /\ is_params v = true).
Proof.
  intros N k. apply names_in_fun in N. destruct N as (-> & ->). split; rewrite in_map_iff; split.
  - intros ([k' v] & E & I). simpl in E. subst k'. apply filter_In in I. destruct I as (I & T). exists v. split; [assumption|]. simpl in T. now apply negb_true_iff in T.
  - intros (v & I & T). exists (k, v). split; [reflexivity|]. apply filter_In. split; [assumption|]. simpl. now rewrite T.
  - intros ([k' v] & E & I). simpl in E. subst k'. apply filter_In in I. destruct I as (I & T). exists v. auto.
  - intros (v & I & T). exists (k, v). split; [reflexivity|]. apply filter_In. auto.
Qed.
(** "In namespace a.b: " for a Parameters object that is the namespace a.b of another one. *)
Definition in_namespace (p : pv) : str := match params_prefix p with [] => [] | _ => !!"In namespace " ++ dotted (params_prefix p) ++ !!": " end.
(** "root context", "context a.b" *)
Definition context (q : list str) : str := match q with [] => !!"root context" | _ => !!"context " ++ dotted q end.

Section P.
Variable printable : N -> bool.
Variable show : pv -> str.
Notation names := (str_list (repr_str printable)).
Notation get_message := (get_message printable show).

Lemma explain_reaches p q v : reaches p q v -> wf p -> forall self name done rest, explain printable show self name p done (q ++ rest) = explain printable show self name v (done ++ q) rest.
Proof.
  induction 1 as [v|pre d k x q v I R IH]; intros W self name done rest; [now rewrite app_nil_r|]. cbn [app explain].
  assert (E : dfind d k = Some x) by (apply in_dfind; [apply W|assumption]). rewrite E, (IH (wf_find _ _ _ _ W E)), <- app_assoc. reflexivity.
Qed.
Lemma split_path p q v c r : wf p -> reaches p q v -> (forall x, In x (c :: r) -> dotless x) -> py_split dot (dotted (q ++ c :: r)) = q ++ c :: r.
Proof.
  intros W R D. unfold dotted. apply py_join_split; [destruct q; discriminate|]. intros x I. apply in_app_iff in I. destruct I as [I|I]; [exact (reaches_dotless _ _ _ W R x I)|now apply D].
Qed.
(** C102: a name that leads into a namespace (the root, or the one called q) without the next component: the message says so and lists the parameters and the namespaces that
    are there. *)
Theorem C102_unknown : forall p q pre d c r ps ns, wf_params p -> reaches p q (PParams pre d) -> ~ In c (keys d) -> (forall x, In x (c :: r) -> dotless x) -> names_in d ps ns ->
  get_message p (dotted (q ++ c :: r)) = Some (in_namespace p ++ !!"Parameter " ++ dotted (q ++ c :: r) ++ !!" not found. In in " ++ context q ++ !!" available parameters are " ++ names ps ++
    !!", available namespaces are " ++ names ns).
Proof.
  intros p q pre d c r ps ns (W & T) R Nc D L. unfold Messages.get_message. rewrite (split_path p q _ c r W R D), (explain_reaches _ _ _ R W). cbn [explain app].
  assert (dfind d c = None) as -> by now apply dfind_none. f_equal. unfold not_found_message, available_parameters, available_namespaces. apply names_in_fun in L. destruct L as (<- & <-).
  unfold namespace_message, in_namespace, context_string, context, dotted. f_equal; [now destruct (params_prefix p)|]. destruct q; reflexivity.
Qed.
(** C102: a name that goes through a parameter which is no namespace: the message names it and shows its value. *)
Theorem C102_leaf : forall p q v c r, wf_params p -> reaches p q v -> is_params v = false -> (forall x, In x (c :: r) -> dotless x) ->
  get_message p (dotted (q ++ c :: r)) = Some (in_namespace p ++ !!"When getting parameter " ++ dotted (q ++ c :: r) ++ !!" expected " ++ dotted q ++ !!" to be a map, but it is a leaf: " ++ show v ++
    !!". Maybe you mistakenly prefixed the map keys with '-'?").
Proof.
  intros p q v c r (W & T) R Tv D. unfold Messages.get_message. rewrite (split_path p q _ c r W R D), (explain_reaches _ _ _ R W). cbn [app]. cbn [explain].
  unfold leaf_message, namespace_message, in_namespace, dotted. destruct v; try discriminate; f_equal; f_equal; now destruct (params_prefix p).
Qed.
(** C102: there is a message exactly when the parameter is missing, that is, when the lookup raises a ParameterError, and it is one of the two. *)
Theorem C102_when : forall p name, wf_params p ->
  (get_message p name = None <-> exists v, Stored p name v) /\
  ((exists m, get_message p name = Some m) <-> get p name is_object PNone = Raise ParameterError) /\
  (Absent p name -> exists q c r, py_split dot name = q ++ c :: r /\ name = dotted (q ++ c :: r) /\ (forall x, In x (c :: r) -> dotless x) /\
     ((exists pre d, reaches p q (PParams pre d) /\ ~ In c (keys d)) \/ (exists v, reaches p q v /\ is_params v = false))).
Proof.
  intros p name W. assert (Cases : (exists v, Stored p name v) \/ exists q c r, py_split dot name = q ++ c :: r /\ name = dotted (q ++ c :: r) /\ (forall x, In x (c :: r) -> dotless x) /\
     ((exists pre d, reaches p q (PParams pre d) /\ ~ In c (keys d)) \/ (exists v, reaches p q v /\ is_params v = false))).
  { unfold Stored. assert (Dl : forall x, In x (py_split dot name) -> dotless x) by (intros x I; exact (py_split_parts dot name x I)). assert (En := py_split_join dot name). unfold dotted. revert Dl En. generalize (py_split dot name) as l. intros l Dl En.
    assert (G : (exists v, reaches p l v) \/ exists q c r, l = q ++ c :: r /\ ((exists pre d, reaches p q (PParams pre d) /\ ~ In c (keys d)) \/ (exists v, reaches p q v /\ is_params v = false))).
    { clear En Dl. destruct W as (W & T). clear T. revert p W. induction l as [|c l IH]; intros p W; [left; exists p; constructor|].
      destruct p as [| | | | | | | | |pre d|]; try (right; exists [], c, l; split; [reflexivity|]; right; eexists; split; [constructor|reflexivity]; fail).
      destruct (dfind d c) as [x|] eqn:E.
      - destruct (IH x (wf_find _ _ _ _ W E)) as [(v & R)|(q & c' & r & -> & H)]; [left; exists v; econstructor; [eapply dfind_in; exact E|assumption]|]. right. exists (c :: q), c', r. split; [reflexivity|].
        destruct H as [(pre' & d' & R & N)|(v & R & N)]; [left; exists pre', d'|right; exists v]; (split; [econstructor; [eapply dfind_in; exact E|assumption]|assumption]).
      - right. exists [], c, l. split; [reflexivity|]. left. exists pre, d. split; [constructor|]. now apply dfind_none. }
    destruct G as [G|(q & c & r & -> & H)]; [now left|]. right. exists q, c, r. split; [reflexivity|]. split; [now rewrite En|]. split; [|assumption]. intros x I. apply Dl. apply in_or_app. now right. }
  assert (Some_ : forall q c r, name = dotted (q ++ c :: r) -> (forall x, In x (c :: r) -> dotless x) ->
     ((exists pre d, reaches p q (PParams pre d) /\ ~ In c (keys d)) \/ (exists v, reaches p q v /\ is_params v = false)) -> exists m, get_message p name = Some m).
  { intros q c r -> D [(pre & d & R & N)|(v & R & N)].
    - destruct (names_in_exist d) as (ps & ns & L). eexists. exact (C102_unknown p q pre d c r ps ns W R N D L).
    - eexists. exact (C102_leaf p q v c r W R N D). }
  assert (None_ : forall v, Stored p name v -> get_message p name = None).
  { intros v S. unfold Messages.get_message, Stored in *. rewrite <- (app_nil_r (py_split dot name)). rewrite (explain_reaches _ _ _ S (proj1 W)). reflexivity. }
  destruct (C43_lookup p name W) as (Lk & La & _). split; [split|split; [split|]].
  - intros E. destruct Cases as [H|(q & c & r & _ & En & D & H)]; [assumption|]. destruct (Some_ q c r En D H) as (m & Em). congruence.
  - intros (v & S). exact (None_ v S).
  - intros (m & E). apply La. intros v S. rewrite (None_ v S) in E. discriminate.
  - intros E. destruct Cases as [(v & S)|(q & c & r & _ & En & D & H)]; [destruct (Lk v S) as (G & _); congruence|]. exact (Some_ q c r En D H).
  - intros A. destruct Cases as [(v & S)|H]; [destruct (A v S)|exact H].
Qed.
(** C102: the names listed are those that can be used in place of the unknown one. *)
Theorem C102_advice : forall p q pre d ps ns, wf_params p -> reaches p q (PParams pre d) -> names_in d ps ns -> forall k, dotless k ->
  (In k ps <-> exists v, Stored p (dotted (q ++ [k])) v /\ is_params v = false) /\ (In k ns <-> exists v, Stored p (dotted (q ++ [k])) v /\ is_params v = true).
Proof.
  intros p q pre d ps ns (W & T) R L k Dk. assert (Wd : wf (PParams pre d)) by (clear -R W; induction R as [|? ? ? ? ? ? I R IH]; [assumption|]; apply IH; eapply wf_find; [exact W|]; apply in_dfind; [apply W|exact I]).
  assert (K : forall v, Stored p (dotted (q ++ [k])) v <-> In (k, v) d).
  { intros v. unfold Stored. rewrite (split_path p q _ k [] W R) by (intros x [<-|[]]; assumption). clear Dk L ps ns T. split.
    - intros H. apply (walk_reaches _ _ _ W) in H. apply (walk_reaches _ _ _ W) in R. clear W. revert p H R. induction q as [|c q IH]; intros p H R; [injection R as ->; cbn [app walk] in H; destruct (dfind d k) as [x|] eqn:E; [|discriminate]; injection H as ->; now apply dfind_in|].
      cbn [app walk] in H, R. destruct p; try discriminate. destruct (dfind data c); [|discriminate]. eapply IH; eassumption.
    - intros I. clear W Wd. remember (PParams pre d) as t. revert Heqt. induction R as [v'|? ? ? ? ? ? I' R IH]; intros ->; [econstructor; [eassumption|constructor]|]. cbn [app]. econstructor; [eassumption|]. auto. }
  destruct (names_in_spec d ps ns L k) as (A & B). rewrite A, B. split; split; intros (v & H1 & H2); exists v; (split; [now apply K|assumption]).
Qed.
(** str(list) of strings can be read back, whatever comes after it. *)
Lemma names_app l l' (r r' : str) : Forall code_points l -> Forall code_points l' -> names l ++ r = names l' ++ r' -> l = l' /\ r = r'.
Proof.
  assert (NotEnd : forall s (x y : str), repr_str printable s ++ x <> !!"]" ++ y).
  { intros s x y E. destruct (repr_str_head printable s) as (t & [H|H]); rewrite H in E; discriminate. }
  intros C C' E. unfold str_list in E. cbn [app] in E. injection E as E. rewrite <- !app_assoc in E.
  destruct l as [|s l], l' as [|s' l']; cbn [map py_join app] in E.
  - injection E as ->. auto.
  - exfalso. destruct l' as [|s2 l']; cbn [map py_join] in E; rewrite <- ?app_assoc in E; symmetry in E; exact (NotEnd _ _ _ E).
  - exfalso. destruct l as [|s2 l]; cbn [map py_join] in E; rewrite <- ?app_assoc in E; exact (NotEnd _ _ _ E).
  - revert s s' l' C C' E. induction l as [|s2 l IH]; intros s s' l' C C' E; inversion C as [|? ? Cs Cl]; inversion C' as [|? ? Cs' Cl']; subst; destruct l' as [|s2' l']; cbn [map py_join] in E; rewrite <- ?app_assoc in E;
      apply repr_str_app in E; try assumption; destruct E as (-> & E).
    + injection E as ->. auto.
    + discriminate.
    + discriminate.
    + cbn [app] in E. injection E as E. specialize (IH s2 s2' l' Cl Cl'). cbn [map] in IH. destruct (IH E) as (E1 & ->). injection E1 as -> ->. auto.
Qed.
Lemma dotted_app (q q' : list str) : q <> [] -> q' <> [] -> dotted (q ++ q') = dotted q ++ [dot] ++ dotted q'.
Proof.
  intros N N'. unfold dotted. induction q as [|c q IH]; [congruence|]. destruct q as [|c2 q]; [destruct q'; [congruence|reflexivity]|]. change ((c :: c2 :: q) ++ q') with (c :: (c2 :: q) ++ q'). change (py_join [dot] (c :: (c2 :: q) ++ q')) with (c ++ [dot] ++ py_join [dot] ((c2 :: q) ++ q')).
  rewrite IH by discriminate. change (py_join [dot] (c :: c2 :: q)) with (c ++ [dot] ++ py_join [dot] (c2 :: q)). now rewrite <- !app_assoc.
Qed.
Lemma context_app (q q' : list str) (t t' : str) (x : list str) : (exists y, x = q ++ y) -> (exists y, x = q' ++ y) -> context q ++ (32%N :: t) = context q' ++ (32%N :: t') -> q = q' /\ t = t'.
Proof.
  intros (y & E) (y' & E') H. assert (P : exists z, q' = q ++ z \/ q = q' ++ z).
  { clear H. revert q' y' x y E E'. induction q as [|c q IH]; intros q' y' x y E E'; [exists q'; auto|]. destruct q' as [|c' q']; [exists (c :: q); auto|]. subst x. cbn [app] in E'. injection E' as -> E'. destruct (IH q' y' (q ++ y) y eq_refl E') as (z & [-> | ->]); exists z; [left|right]; reflexivity. }
  clear E E'. assert (G : forall a z (t t' : str), z <> [] -> context a ++ (32%N :: t) <> context (a ++ z) ++ (32%N :: t')).
  { clear. intros a z t t' Nz H. unfold context in H. destruct a as [|c a]; cbn [app] in H; [destruct z as [|c z]; [congruence|discriminate]|]. rewrite <- !app_assoc in H. apply app_inv_head in H. change (c :: a ++ z) with ((c :: a) ++ z) in H. rewrite dotted_app in H by (congruence || discriminate). rewrite <- !app_assoc in H. apply app_inv_head in H. discriminate. }
  destruct P as (z & P). destruct z as [|c z].
  - assert (q' = q) as -> by (destruct P; rewrite app_nil_r in *; congruence). apply app_inv_head in H. injection H as ->. auto.
  - exfalso. destruct P as [-> | ->]; [exact (G q (c :: z) t t' ltac:(discriminate) H)|]. symmetry in H. exact (G q' (c :: z) t' t ltac:(discriminate) H).
Qed.
(** C102: the message tells the lists: for the same name, looked up in Parameters objects with the same prefix, equal messages mean the same namespace and the same names there. *)
Theorem C102_tells : forall p p' name q q' pre pre' d d' c c' r r' ps ps' ns ns', wf_params p -> wf_params p' -> params_prefix p = params_prefix p' ->
  py_split dot name = q ++ c :: r -> py_split dot name = q' ++ c' :: r' -> reaches p q (PParams pre d) -> reaches p' q' (PParams pre' d') -> ~ In c (keys d) -> ~ In c' (keys d') ->
  names_in d ps ns -> names_in d' ps' ns' -> Forall code_points (keys d) -> Forall code_points (keys d') ->
  get_message p name = get_message p' name -> q = q' /\ ps = ps' /\ ns = ns'.
Proof.
  intros p p' name q q' pre pre' d d' c c' r r' ps ps' ns ns' W W' EP S S' R R' N N' L L' C C' E.
  assert (En : name = dotted (q ++ c :: r)) by (unfold dotted; rewrite <- S; symmetry; apply py_split_join). assert (En' : name = dotted (q' ++ c' :: r')) by (unfold dotted; rewrite <- S'; symmetry; apply py_split_join).
  assert (D : forall x, In x (c :: r) -> dotless x) by (intros x I; apply (py_split_parts dot name); rewrite S; apply in_or_app; now right). assert (D' : forall x, In x (c' :: r') -> dotless x) by (intros x I; apply (py_split_parts dot name); rewrite S'; apply in_or_app; now right).
  assert (M := C102_unknown p q pre d c r ps ns W R N D L). assert (M' := C102_unknown p' q' pre' d' c' r' ps' ns' W' R' N' D' L'). rewrite <- En in M. rewrite <- En' in M'. rewrite M, M' in E. clear M M'. apply (f_equal (fun o => match o with Some x => x | None => [] end)) in E. cbv beta iota in E.
  assert (in_namespace p = in_namespace p') as EN by (unfold in_namespace; now rewrite EP). rewrite EN in E. do 4 apply app_inv_head in E.
  assert (Sub : forall d ps ns, names_in d ps ns -> Forall code_points (keys d) -> Forall code_points ps /\ Forall code_points ns).
  { clear. intros d ps ns L F. induction L as [|k v d ps ns _ L IH|k v d ps ns _ L IH]; [auto| |]; inversion F; subst; destruct IH; auto. }
  destruct (Sub _ _ _ L C) as (Cp & Cn), (Sub _ _ _ L' C') as (Cp' & Cn').
  destruct (context_app q q' (!!"available parameters are " ++ names ps ++ !!", available namespaces are " ++ names ns) (!!"available parameters are " ++ names ps' ++ !!", available namespaces are " ++ names ns') (py_split dot name)) as (-> & E1); [rewrite S; eauto|rewrite S'; eauto|exact E|]. clear E. rename E1 into E. split; [reflexivity|].
  apply app_inv_head in E. apply names_app in E; [|assumption|assumption]. destruct E as (-> & E). apply app_inv_head in E. rewrite <- (app_nil_r (names ns)), <- (app_nil_r (names ns')) in E. apply names_app in E; [|assumption|assumption]. destruct E as (-> & _). auto.
Qed.
(** C102: in a namespace of a configuration made from a mapping, the message begins with the name of the namespace, by which it can be got from the configuration. *)
Theorem C102_namespace : forall m root nsname pre d name msg, plain (PMap m) -> from_mapping (PMap m) [] = Ok root -> Stored root nsname (PParams pre d) ->
  get_message (PParams pre d) name = Some msg -> exists rest, msg = !!"In namespace " ++ nsname ++ !!": " ++ rest.
Proof.
  intros m root nsname pre d name msg P E S G. assert (pre = py_split dot nsname) as -> by exact (C41_prefixes m [] root P E _ _ _ S).
  assert (A : in_namespace (PParams (py_split dot nsname) d) = !!"In namespace " ++ nsname ++ !!": ").
  { unfold in_namespace, dotted. cbn [params_prefix]. destruct (py_split dot nsname) eqn:X; [now apply py_split_nonnil in X|]. rewrite <- X. now rewrite py_split_join. }
  assert (B : forall l cur done, (exists rest, explain printable show (PParams (py_split dot nsname) d) name cur done l = Some (in_namespace (PParams (py_split dot nsname) d) ++ rest)) \/ explain printable show (PParams (py_split dot nsname) d) name cur done l = None).
  { assert (Nm : namespace_message (PParams (py_split dot nsname) d) = in_namespace (PParams (py_split dot nsname) d)) by (unfold namespace_message, in_namespace; cbn [params_prefix]; destruct (py_split dot nsname); reflexivity).
    induction l as [|c l IH]; intros cur done; [now right|]. cbn [explain]. destruct cur; try (left; unfold leaf_message; rewrite Nm; eexists; reflexivity). destruct (dfind data c); [apply IH|]. left. unfold not_found_message. rewrite Nm. eexists. reflexivity. }
  unfold Messages.get_message in G. destruct (B (py_split dot name) (PParams (py_split dot nsname) d) []) as [(rest & H)|H]; [|rewrite H in G; discriminate].
  rewrite H in G. injection G as <-. exists rest. rewrite A. now rewrite <- !app_assoc.
Qed.
End P.

Lemma unify_message_spec a : forall b prefix, wf_params a -> wf_params b ->
  match unify_message a b prefix with
  | Some m => exists q, clash a b q /\ m = !!"When unifying parameters, " ++ dotted (prefix ++ q) ++ !!" is a parameter on one side and a namespace on the other"
  | None => forall q, ~ clash a b q
  end.
Proof.
  induction a using pv_ind_nested; intros nw prefix [Wa Pa] [Wb Pb]; simpl in Pa; try discriminate. destruct nw as [| | | | | | | | |pb db|]; try discriminate. rename m into da, pre into pa.
  assert (Da : forall k x, In (k, x) da -> dotless k) by (intros k x I; destruct Wa as (_ & D & _); rewrite Forall_forall in D; apply D; apply in_map_iff; exists (k, x); auto).
  cbn [unify_message]. match goal with |- context [ ?f da ] => set (go := f) end.
  assert (K : forall k x z q, In (k, x) da -> dfind db k = Some z -> (clash (PParams pa da) (PParams pb db) (k :: q) <-> clash x z q)).
  { intros k x z q I Ez. unfold clash. simpl. rewrite (in_dfind _ _ _ (proj1 Wa) I), Ez. reflexivity. }
  assert (G : forall l, incl l da -> match go l with
     | Some m => exists q, clash (PParams pa da) (PParams pb db) q /\ m = !!"When unifying parameters, " ++ dotted (prefix ++ q) ++ !!" is a parameter on one side and a namespace on the other"
     | None => forall k x, In (k, x) l -> forall q, ~ clash (PParams pa da) (PParams pb db) (k :: q) end).
  { induction l as [|[k old] l IHl]; intros Il; [intros k x []|]. assert (I : In (k, old) da) by (apply Il; now left). specialize (IHl (fun x h => Il x (or_intror h))).
    assert (Wo : wf old) by (eapply wf_find; [exact Wa|]; apply in_dfind; [apply Wa|exact I]).
    cbn [go]. rewrite contains_key by (exact (Da k old I) || assumption).
    assert (Fin : (forall q, ~ clash (PParams pa da) (PParams pb db) (k :: q)) -> match go l with
     | Some m => exists q, clash (PParams pa da) (PParams pb db) q /\ m = !!"When unifying parameters, " ++ dotted (prefix ++ q) ++ !!" is a parameter on one side and a namespace on the other"
     | None => forall k' x, In (k', x) ((k, old) :: l) -> forall q, ~ clash (PParams pa da) (PParams pb db) (k' :: q) end).
    { intros N. destruct (go l); [assumption|]. intros k' x [E|Ix]; [injection E as <- <-; assumption|eauto]. }
    destruct (dfind db k) as [new|] eqn:Ez.
    2:{ apply Fin. intros q C. unfold clash in C. simpl in C. rewrite Ez in C. destruct C as [(v & _ & C)|(v & _ & C & _)]; discriminate. }
    assert (Wn : wf new) by (eapply wf_find; [exact Wb|exact Ez]).
    destruct (is_none new) eqn:En; cbn [negb].
    { apply Fin. intros q C. apply (K k old new q I Ez) in C. destruct new; try discriminate. destruct C as [(v & _ & C)|(v & _ & C & Nv)]; destruct q; simpl in C; try discriminate. injection C as <-. congruence. }
    destruct (is_params old) eqn:To, (is_params new) eqn:Tn; cbn [Bool.eqb negb].
    - rewrite Forall_forall in H. assert (X := H _ I new (prefix ++ [k]) (conj Wo To) (conj Wn Tn)). cbn [snd] in X. destruct (unify_message old new (prefix ++ [k])) as [m|].
      + destruct X as (q & C & ->). exists (k :: q). split; [now apply (K k old new)|]. now rewrite <- app_assoc.
      + apply Fin. intros q C. apply (K k old new q I Ez) in C. exact (X q C).
    - exists [k]. split; [|unfold clash_message; destruct prefix as [|c prefix]; [reflexivity|]; rewrite (dotted_app (c :: prefix) [k]) by discriminate; reflexivity]. apply (K k old new); [assumption|assumption|]. right. exists new. rewrite !wf_is_params_view, To, Tn by assumption. repeat split. intros ->. discriminate.
    - exists [k]. split; [|unfold clash_message; destruct prefix as [|c prefix]; [reflexivity|]; rewrite (dotted_app (c :: prefix) [k]) by discriminate; reflexivity]. apply (K k old new); [assumption|assumption|]. left. exists old. rewrite !wf_is_params_view, To, Tn by assumption. auto.
    - apply Fin. intros q C. apply (K k old new q I Ez) in C. unfold clash in C. destruct q as [|c q].
      + rewrite !wf_is_params_view, To, Tn in C by assumption. destruct C as [(v & _ & C)|(v & C & _)]; discriminate.
      + assert (view old (c :: q) = None) as V by (destruct old; try discriminate; try reflexivity; destruct Wo). rewrite V in C. destruct C as [(v & C & _)|(v & C & _)]; discriminate. }
  specialize (G da (fun x h => h)). destruct (go da) as [m|]; [exact G|]. intros [|k q] C.
  - unfold clash in C. simpl in C. destruct C as [(v & C & _)|(v & _ & C & _)]; discriminate.
  - assert (exists x, In (k, x) da) as (x & I). { unfold clash in C. simpl in C. destruct (dfind da k) as [x|] eqn:E; [exists x; now apply dfind_in|]. destruct C as [(v & C & _)|(v & C & _)]; discriminate. } exact (G k x I q C).
Qed.
(** C102: unify raises its error exactly when it has a message, and the parameter the message names is one that is a namespace on one side only. *)
Theorem C102_unify : forall old new prefix, wf_params old -> wf_params new ->
  (unify old new prefix = Raise IOError <-> unify_message old new prefix <> None) /\
  (forall m, unify_message old new prefix = Some m -> exists q, clash old new q /\ m = !!"When unifying parameters, " ++ dotted (prefix ++ q) ++ !!" is a parameter on one side and a namespace on the other").
Proof.
  intros old new prefix Wo Wn. assert (S := unify_message_spec old new prefix Wo Wn). assert (U := C44_unify old new prefix Wo Wn). split.
  - destruct (unify_message old new prefix) as [m|].
    + destruct S as (q & C & _). split; [discriminate|]. intros _. destruct (unify old new prefix) as [r|e]; [destruct U as (_ & _ & _ & N); destruct (N q C)|now destruct U as (-> & _)].
    + split; [|congruence]. intros E. rewrite E in U. destruct U as (_ & q & C). destruct (S q C).
  - intros m E. rewrite E in S. exact S.
Qed.
Print Assumptions C102_unknown. Print Assumptions C102_leaf. Print Assumptions C102_when. Print Assumptions C102_advice. Print Assumptions C102_tells. Print Assumptions C102_namespace. Print Assumptions C102_unify.

(** The hypotheses are met, and the messages are those Python gives. *)
Definition tree102 : pv := PMap [(!!"a", PMap [(!!"b", PInt 1); (!!"it's", PStr !!"x"); (!!"c", PMap [])]); (!!"n", PInt 2)].
Definition a102 : pv := PParams [!!"a"] [(!!"b", PInt 1); (!!"it's", PStr !!"x"); (!!"c", PParams [!!"a"; !!"c"] [])].
Definition root102 : pv := PParams [] [(!!"a", a102); (!!"n", PInt 2)].
Definition show102 (v : pv) : str := match v with PInt 2 => !!"2" | _ => !!"?" end.
Example C102_witness : plain tree102 /\ from_mapping tree102 [] = Ok root102 /\ wf_params root102 /\ reaches root102 [!!"a"] a102 /\ Stored root102 !!"a" a102 /\
  names_in (match a102 with PParams _ d => d | _ => [] end) [!!"b"; !!"it's"] [!!"c"] /\
  get_message (fun _ => false) show102 root102 !!"a.x.y" = Some (!!"Parameter a.x.y not found. In in context a available parameters are ['b', ""it's""], available namespaces are ['c']") /\
  get_message (fun _ => false) show102 a102 !!"x" = Some (!!"In namespace a: Parameter x not found. In in root context available parameters are ['b', ""it's""], available namespaces are ['c']") /\
  get_message (fun _ => false) show102 root102 !!"n.x" = Some (!!"When getting parameter n.x expected n to be a map, but it is a leaf: 2. Maybe you mistakenly prefixed the map keys with '-'?") /\
  get_message (fun _ => false) show102 root102 !!"a.b" = None /\
  repr_str (fun _ => false) [97; 39; 34; 10; 0; 233; 8364; 128512]%N = !!"'a\'""\n\x00\xe9\u20ac\U0001f600'" /\
  unify_message root102 (PParams [] [(!!"a", PParams [!!"a"] [(!!"c", PInt 1)])]) [!!"r"] =
    Some (!!"When unifying parameters, r.a.c is a parameter on one side and a namespace on the other").
Proof.
  assert (W : wf_params root102) by (split; [|reflexivity]; simpl; repeat split; repeat constructor; simpl; unfold dotless; simpl; intuition discriminate).
  split; [simpl; repeat split; repeat constructor; simpl; intuition discriminate|]. split; [reflexivity|]. split; [exact W|]. split; [econstructor; [left; reflexivity|constructor]|]. split; [apply (stored_walk _ _ _ (proj1 W)); reflexivity|].
  split; [repeat (apply ni_param; [reflexivity|]); apply ni_namespace; [reflexivity|constructor]|]. repeat split; vm_compute; reflexivity.
Qed.
