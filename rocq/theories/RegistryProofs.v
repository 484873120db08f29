(** * RegistryProofs: registering loaders, options *)
From Verif Require Import Base Utf8 Dec DecProofs Num PyObj H5 Env Create Dump LoadFns LoadModel Registry RegistryStd.
From Coq Require Import Lia ZifyBool ZifyN.
Local Open Scope N_scope.
Local Open Scope list_scope.

Lemma alist_get_set {K V} `{EqDecision K} (k k' : K) (v : V) l :
  alist_get k' (alist_set k v l) = if decide (k' = k) then Some v else alist_get k' l.
Proof.
  induction l as [|[k0 v0] l IH]; simpl; [by destruct (decide (k' = k))|].
  destruct (decide (k = k0)) as [->|]; simpl.
  - by destruct (decide (k' = k0)).
  - rewrite IH. destruct (decide (k' = k0)) as [->|]; [|done]. by rewrite decide_False.
Qed.

(** ** register_class and the core loaders *)

(** What base type [b] is loaded with under option [o]. *)
Definition loader_at (g : registry) (o : opt) (b : bytes) : option loadfn * option contk :=
  (alist_get (o, b) (g_fn g), alist_get (o, b) (g_ct g)).

Definition protected (b : bytes) : bool := bang_name b || bool_decide (b ∈ disallow_in_option).

Lemma register_class_other g e o b : b <> re_base e -> loader_at (fst (register_class g e)) o b = loader_at g o b.
Proof.
  intros Hb. unfold register_class, loader_at.
  destruct (_ && _); [done|]. destruct (_ && _); [done|]. destruct (_ && _); [done|]. destruct (_ && _); [done|].
  destruct (re_dump e) as [[]|], (re_load e) as [[]|], (forallb _ _), (re_cont e) as [[]|]; simpl;
    rewrite ?alist_get_set; repeat rewrite decide_False by congruence; done.
Qed.
Lemma register_class_protected g e :
  protected (re_base e) = true -> loader_at g None (re_base e) <> (None, None) -> fst (register_class g e) = g.
Proof.
  intros Hp Hl. unfold register_class, loader_at in *.
  destruct (_ && _); [done|]. destruct (_ && _); [done|].
  unfold protected in Hp. rewrite Hp.
  assert ((match alist_get (None, re_base e) (g_fn g) with
     | Some _ => true
     | None => match alist_get (None, re_base e) (g_ct g) with Some _ => true | None => false end end) = true) as ->.
  { destruct (alist_get _ (g_fn g)), (alist_get _ (g_ct g)); done. }
  done.
Qed.

Fixpoint register_many (g : registry) (es : list reg_entry) : registry :=
  match es with [] => g | e :: r => register_many (fst (register_class g e)) r end.

Lemma register_many_protected es : forall g b o,
  protected b = true -> loader_at g None b <> (None, None) -> loader_at (register_many g es) o b = loader_at g o b.
Proof.
  induction es as [|e es IH]; intros g b o Hp Hl; simpl; [done|].
  assert (forall o, loader_at (fst (register_class g e)) o b = loader_at g o b) as Hs.
  { intros o'. destruct (decide (b = re_base e)) as [->|]; [by rewrite register_class_protected|by apply register_class_other]. }
  rewrite IH; [apply Hs|done|]. by rewrite Hs.
Qed.

(** ** register_class and the classes of the core *)

(** Modules with a name that are outside hickle or loader modules of hickle. *)
Definition elsewhere (m : pystr) : Prop :=
  exists a r, module_parts m = a :: r /\ a <> [] /\ (a = str "hickle" -> head r = Some (str "loaders")).
(** A registration whose dump function, if any, is defined in such a module. *)
Definition dump_from_elsewhere (e : reg_entry) : Prop :=
  match re_dump e with Some (_, m) => elsewhere m | None => True end.

Lemma register_class_core g e o c :
  core_only c = true -> dump_from_elsewhere e ->
  alist_get (o, c) (g_py (fst (register_class g e))) = alist_get (o, c) (g_py g).
Proof.
  intros Hc He. unfold register_class, dump_from_elsewhere in *.
  destruct (re_dump e) as [[fn m]|] eqn:Ed.
  - destruct (decide (re_cls e = c)) as [Hrc|Hne].
    + rewrite Hrc, Hc. unfold entry_modules. rewrite Ed. cbn [existsb].
      destruct He as (a & r & Hm & Ha & Hl). unfold part. rewrite Hm. cbn [lookup list_lookup default].
      destruct (decide (a = str "hickle")) as [-> |Hh].
      * specialize (Hl eq_refl). destruct r as [|b r]; [done|]. inversion Hl; subst b.
        destruct (_ && _); [done|]. rewrite bool_decide_true by done. done.
      * rewrite bool_decide_false; [done|]. intros [?|[?|[]%elem_of_nil]%elem_of_cons]%elem_of_cons; done.
    + destruct (_ && _); [done|]. destruct (_ && _); [done|]. destruct (_ && _); [done|]. destruct (_ && _); [done|].
      destruct (re_load e) as [[]|], (forallb _ _), (re_cont e) as [[]|]; simpl;
        rewrite ?alist_get_set; rewrite decide_False by congruence; done.
  - destruct (_ && _); [done|]. destruct (_ && _); [done|]. destruct (_ && _); [done|]. destruct (_ && _); [done|].
    destruct (re_load e) as [[]|], (forallb _ _), (re_cont e) as [[]|]; done.
Qed.
(** Any of the three functions counts. *)
Lemma register_class_core_refused g e m :
  core_only (re_cls e) = true ->
  (exists fn, re_dump e = Some (fn, m)) \/ (exists fn, re_load e = Some (fn, m)) \/ (exists k, re_cont e = Some (k, m)) ->
  elsewhere m -> register_class g e = (g, Err TypeError).
Proof.
  intros Hc Hm (a & r & Hp & Ha & Hl). unfold register_class. rewrite Hc.
  assert (m ∈ entry_modules e) as Hin.
  { unfold entry_modules. destruct Hm as [[fn ->]|[[fn ->]|[k ->]]]; rewrite !elem_of_cons; auto. }
  set (ms := entry_modules e) in *. clearbody ms. rewrite !andb_true_l.
  destruct (existsb _ ms) eqn:E1; [done|]. destruct (existsb _ ms) eqn:E2 in |- *; [done|]. exfalso.
  assert (forall P, existsb P ms = false -> P m = false) as Hf.
  { intros P HP. destruct (P m) eqn:E; [|done]. rewrite <-HP. symmetry. apply existsb_exists. exists m. split; [|done].
    by apply elem_of_list_In. }
  apply Hf in E1. apply Hf in E2. unfold part in *. rewrite Hp in *. cbn [lookup list_lookup default] in *.
  apply negb_false_iff, bool_decide_eq_true in E1. apply bool_decide_eq_false in E2.
  change (a ∈ [str "hickle"; []]) in E1. apply elem_of_cons in E1 as [-> |E1].
  - specialize (Hl eq_refl). destruct r as [|b r]; [done|]. inversion Hl; subst b. by apply E2.
  - by apply elem_of_list_singleton in E1.
Qed.
Lemma register_many_core es : forall g o c,
  core_only c = true -> Forall dump_from_elsewhere es ->
  alist_get (o, c) (g_py (register_many g es)) = alist_get (o, c) (g_py g).
Proof.
  induction es as [|e es IH]; intros g o c Hc Hes; simpl; [done|]. inversion Hes; subst.
  rewrite IH by done. by apply register_class_core.
Qed.

(** ** Options *)
Lemma known_cases (o : pystr) : known_option (Some o) = true -> o = str "hickle-4.x" \/ o = str "custom".
Proof.
  unfold known_option. rewrite bool_decide_eq_true. unfold known_options, opt_4x, optional_loaders. simpl.
  rewrite !elem_of_cons, elem_of_nil. intros [?|[[= ->]|[[= ->]|[]]]]; auto; discriminate.
Qed.
Lemma option_attr_back o : known_option (Some o) = true -> option_of_attr (option_attr o) = Some o.
Proof. intros [-> | ->]%known_cases; vm_compute; reflexivity. Qed.

Lemma lower_app a b : lower (a ++ b) = lower a ++ lower b.
Proof. apply map_app. Qed.
Lemma lower_upper s : lower (upper s) = lower s.
Proof.
  unfold lower, upper. rewrite map_map. apply map_ext. intros c.
  repeat match goal with |- context[if ?b then _ else _] => destruct b eqn:? end; lia.
Qed.
Lemma drop_prefix {A} (p l : list A) : drop (length p) (p ++ l) = l.
Proof. apply drop_app. Qed.
Lemma is_prefix_app p l : is_prefix p (p ++ l) = true.
Proof. induction p as [|c p IH]; simpl; [by destruct l|]. by rewrite N.eqb_refl. Qed.
Lemma option_of_option_attr o : option_of_attr (option_attr o) = Some (lower o).
Proof.
  unfold option_of_attr, option_attr. rewrite lower_app, is_prefix_app.
  change (length attribute_prefix) with (length (lower attribute_prefix)). by rewrite drop_prefix, lower_upper.
Qed.

(** The options an attribute set switches on. *)
Definition active (a : attrs) (o : pystr) : Prop :=
  exists nm v, a !! nm = Some v /\ attr_true v = true /\ option_of_attr nm = Some o.

Lemma insert_options_ok names : forall ch,
  Forall (fun n => known_option (Some n) = true) names -> insert_options names ch = Ok (rev (map Some names) ++ ch).
Proof.
  induction names as [|n names IH]; intros ch Hk; simpl; [done|]. inversion Hk as [|? ? H1 H2]; subst. rewrite H1.
  rewrite IH by done. by rewrite <-app_assoc.
Qed.
Lemma insert_options_bad names : forall ch,
  ~ Forall (fun n => known_option (Some n) = true) names -> insert_options names ch = Err LookupErr.
Proof.
  induction names as [|n names IH]; intros ch Hk; simpl; [by destruct Hk|].
  destruct (known_option (Some n)) eqn:E; [|done]. apply IH. intros H. apply Hk. by constructor.
Qed.

Lemma set_options_spec opts : forall a ch a' r, set_options opts a ch = (a', r) ->
  match r with
  | Ok ch' =>
      (forall o, (o, true) ∈ opts -> known_option (Some o) = true) /\
      (forall o, o ∈ ch' <-> o ∈ ch \/ exists n, o = Some n /\ (n, true) ∈ opts) /\
      (forall nm v, a' !! nm = Some v <->
         (exists o, (o, true) ∈ opts /\ nm = option_attr o /\ v = ABool true) \/
         ((forall o, (o, true) ∈ opts -> nm <> option_attr o) /\ a !! nm = Some v))
  | Err e => e = LookupErr /\ exists o, (o, true) ∈ opts /\ known_option (Some o) = false
  end.
Proof.
  induction opts as [|[o on] opts IH]; intros a ch a' r; simpl.
  - intros [= <- <-]. split; [intros o Ho; inversion Ho|]. split.
    + intros o. split; [by left|]. intros [?|(n & _ & Hn)]; [done|]. inversion Hn.
    + intros nm v. split; [intros H; right; split; [|done]|intros [(o & Ho & _)|[_ H]]]; [intros o Ho; inversion Ho|inversion Ho|done].
  - destruct on.
    + destruct (known_option (Some o)) eqn:Ek.
      * intros H. apply IH in H. destruct r as [ch'|e].
        -- destruct H as (H1 & H2 & H3). split; [|split].
           ++ intros o' [[= ->]|Ho']%elem_of_cons; [done|]. by apply H1.
           ++ intros o'. rewrite H2. rewrite elem_of_cons. split.
              ** intros [[->|?]|(n & -> & Hn)]; [right; exists o; split; [done|by left]|by left|right; exists n; split; [done|by right]].
              ** intros [?|(n & -> & Hn)]; [by left; right|]. apply elem_of_cons in Hn as [[= ->]|Hn]; [by left; left|right; by exists n].
           ++ intros nm v. rewrite H3. rewrite lookup_insert_Some. split.
              ** intros [(o' & A & B)|[A [[B C]|[B C]]]].
                 --- left. exists o'. split; [by right|done].
                 --- left. exists o. split; [by left|done].
                 --- right. split; [|done]. intros o' [[= ->]|Ho']%elem_of_cons; [congruence|by apply A].
              ** intros [(o' & A & B & C)|[A B]].
                 --- apply elem_of_cons in A as [[= ->]|A]; [|left; by exists o'].
                     destruct (decide (Exists (fun p : list N * bool => p.2 = true /\ nm = option_attr p.1) opts)) as [Hyes|Hno].
                     { left. apply list.Exists_exists in Hyes as ([o2 ?] & D1 & D2 & D3). simpl in *. exists o2. by subst. }
                     right. split; [|left; by subst]. intros o2 Ho2 He. apply Hno. apply list.Exists_exists. by exists (o2, true).
                 --- right. split; [intros o' Ho'; apply A; by right|]. right. split; [|done]. intros <-. eapply A; [by left|done].
        -- destruct H as (-> & o' & A & B). split; [done|]. exists o'. split; [by right|done].
      * intros [= <- <-]. split; [done|]. exists o. split; [by left|done].
    + intros H. apply IH in H. destruct r as [ch'|e].
      * destruct H as (H1 & H2 & H3). assert (forall z, (z, true) ∈ (o, false) :: opts <-> (z, true) ∈ opts) as Hz.
        { intros z. rewrite elem_of_cons. split; [intros [[=]|?]; done|by right]. }
        split; [|split].
        -- intros z Hz'. apply H1. by apply Hz.
        -- intros z. rewrite H2. split; (intros [?|(n & A & B)]; [by left|right; exists n; split; [done|by apply Hz]]).
        -- intros nm v. rewrite H3. split.
           ++ intros [(z & A & B)|[A B]]; [left; exists z; by rewrite Hz|right; split; [|done]]. intros z Hz'. apply A. by apply Hz.
           ++ intros [(z & A & B)|[A B]]; [left; exists z; by rewrite <-Hz|right; split; [|done]]. intros z Hz'. apply A. by apply Hz.
      * destruct H as (-> & z & A & B). split; [done|]. exists z. split; [by right|done].
Qed.

(** The options in force at load are those switched on at dump. *)
Lemma options_round_trip opts a a' chain ats :
  (forall o, ~ active a o) -> dump_options opts a = (a', Ok chain) ->
  Permutation ats (map_to_list a') ->
  exists chain', load_options false ats = Ok chain' /\
    (forall o, o ∈ chain' <-> o = None \/ exists n, o = Some n /\ (n, true) ∈ opts) /\
    (forall o, o ∈ chain <-> o = None \/ exists n, o = Some n /\ (n, true) ∈ opts) /\ list.last chain' = Some None.
Proof.
  intros Ha Hd Hp. apply set_options_spec in Hd. simpl in Hd. destruct Hd as (H1 & H2 & H3).
  unfold load_options. set (names := omap _ _).
  assert (forall o, o ∈ names <-> (o, true) ∈ opts) as Hn.
  { intros o. unfold names. rewrite elem_of_list_omap. split.
    - intros ([nm v] & Hin & Hv). rewrite Hp in Hin. apply elem_of_map_to_list in Hin.
      destruct (attr_true v) eqn:Et; [|done]. apply H3 in Hin as [(o' & A & -> & ->)|[A B]].
      + rewrite option_attr_back in Hv by auto. by inversion Hv; subst.
      + exfalso. apply (Ha o). by exists nm, v.
    - intros Ho. exists (option_attr o, ABool true). split.
      + rewrite Hp. apply elem_of_map_to_list. apply H3. left. by exists o.
      + simpl. apply option_attr_back. auto. }
  assert (Forall (fun n => known_option (Some n) = true) names) as Hk.
  { rewrite list.Forall_forall. intros n Hn'. apply H1. by apply Hn. }
  rewrite insert_options_ok by done. simpl. eexists. split; [done|]. split; [|split].
  - intros o. rewrite elem_of_app, elem_of_list_singleton. setoid_rewrite (elem_of_Permutation_proper o _ _ (symmetry (Permutation_rev _))). rewrite elem_of_list_fmap. split.
    + intros [(n & -> & A)| ->]; [right; exists n; split; [done|by apply Hn]|by left].
    + intros [-> |(n & -> & A)]; [by right|left; exists n; split; [done|by apply Hn]].
  - intros o. rewrite H2, elem_of_list_singleton. done.
  - apply last_snoc.
Qed.
Lemma options_refused opts a o : (o, true) ∈ opts -> known_option (Some o) = false -> snd (dump_options opts a) = Err LookupErr.
Proof.
  intros Ho Hk. unfold dump_options. destruct (set_options opts a [None]) as [a' r] eqn:E. apply set_options_spec in E. simpl.
  destruct r as [ch|e]; [|by destruct E as [-> _]]. destruct E as (H1 & _). by rewrite H1 in Hk.
Qed.
