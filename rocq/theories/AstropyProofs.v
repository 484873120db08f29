(** * AstropyProofs: what load_astropy.py writes and reads *)
From Verif Require Import Base Utf8 Dec DecProofs Num PyObj H5 Env Create Astropy.
From Coq Require Import Lia ZifyBool ZifyN.
Local Open Scope N_scope.
Local Open Scope list_scope.

(** ** Specification *)

(** The attributes a list, tuple, set or dict gives to its items. *)
Definition container_attrs (extra : aattrs) : Prop :=
  forall k v, extra !! k = Some v -> k = a_item_index \/ k = a_key_idx \/ k = a_key_base_type.
Definition ascii (s : pystr) : Prop := ascii_encode s = Ok s.
(** Astropy reads the name it gives to the unit. *)
Definition unit_ok (A : astro) (u : unit_) : Prop := ascii (a_unit_str A u) /\ a_unit A (a_unit_str A u) = Ok u.
Definition floats (vs : list num) : Prop := Forall (fun v => exists f, v = NF f) vs.
(** Dumped with keyword arguments [kw] into a container that sets [extra], and loaded. *)
Definition back {X} (create : res anode) (load : anode -> res X) (extra : aattrs) : res X :=
  res_bind create (fun n => load (finish extra n)).

(** ** Lemmas *)
Lemma ascii_encode_same s b : ascii_encode s = Ok b -> b = s.
Proof. unfold ascii_encode. by destruct (forallb _ s); intros [= <-]. Qed.
Lemma cast_floats vs : floats vs -> res_mapM (cast (DFloat F8)) vs = Ok vs.
Proof. induction 1 as [|v vs [f ->] _ IH]; [done|]. simpl. rewrite IH. done. Qed.
Lemma encode_all l bs : res_mapM ascii_encode l = Ok bs -> bs = l.
Proof.
  revert bs. induction l as [|s l IH]; intros bs; simpl; [by intros [= <-]|].
  destruct (ascii_encode s) as [b|] eqn:E; [|done]. apply ascii_encode_same in E as ->. simpl.
  destruct (res_mapM ascii_encode l) as [bs'|]; [|done]. intros [= <-]. by rewrite (IH bs').
Qed.
Lemma encode_ok l : Forall ascii l -> res_mapM ascii_encode l = Ok l.
Proof. induction 1 as [|s l Hs _ IH]; [done|]. simpl. by rewrite Hs, IH. Qed.
Lemma unfiltered_dataset kw p : pay_text p = false -> filtered kw = false \/ pay_scalar p = false -> new_dataset kw p = Ok (ANode p ∅).
Proof. intros Hp Hk. unfold new_dataset. rewrite Hp. destruct Hk as [-> | ->]; [by rewrite andb_false_r|done]. Qed.
Lemma no_filters kw : filtered (no_compression kw) = false.
Proof.
  unfold filtered, no_compression. induction kw as [|k kw IH]; [done|]. simpl. destruct (is_filter k) eqn:E; simpl; [done|]. by rewrite E.
Qed.
Lemma container_none extra k : container_attrs extra -> k <> a_item_index -> k <> a_key_idx -> k <> a_key_base_type -> extra !! k = None.
Proof. intros H N1 N2 N3. destruct (extra !! k) as [v|] eqn:E; [|done]. apply H in E. naive_solver. Qed.
Lemma finish_attr extra n k : container_attrs extra -> k <> a_item_index -> k <> a_key_idx -> k <> a_key_base_type -> k <> str "type" ->
  an_attrs (finish extra n) !! k = an_attrs n !! k.
Proof.
  intros H N1 N2 N3 N4. unfold finish. cbn [an_attrs]. rewrite lookup_union_r; [by rewrite lookup_insert_ne|].
  rewrite lookup_delete_None. right. by apply container_none.
Qed.
Lemma get_finish extra n k : container_attrs extra -> str k <> a_item_index -> str k <> a_key_idx -> str k <> a_key_base_type -> str k <> str "type" ->
  get_str k (finish extra n) = get_str k n.
Proof. intros. unfold get_str. by rewrite finish_attr. Qed.
Lemma get_put k k' v n : get_str k (put k' v n) = if decide (str k' = str k) then get_str k (put k v n) else get_str k n.
Proof.
  unfold get_str, put. cbn [an_attrs]. destruct (decide (str k' = str k)) as [-> |Hne]; [done|]. by rewrite lookup_insert_ne.
Qed.
Lemma get_put_eq k s n : get_str k (put k (XStr s) n) = Ok s.
Proof. unfold get_str, put. cbn [an_attrs]. by rewrite lookup_insert. Qed.
Lemma get_put_ne k k' v n : str k' <> str k -> get_str k (put k' v n) = get_str k n.
Proof. intros. unfold get_str, put. cbn [an_attrs]. by rewrite lookup_insert_ne. Qed.
Lemma put_ascii_ok k s n : ascii s -> put_ascii k s n = Ok (put k (XStr s) n).
Proof. intros H. unfold put_ascii. by rewrite H. Qed.

(** ** Quantity, Angle *)
Lemma quantity_back A kw q extra vs :
  container_attrs extra -> unit_ok A (q_unit q) -> res_mapM (cast (DFloat F8)) (q_vals q) = Ok vs ->
  back (create_quantity A kw q) (load_quantity A (q_cls q)) extra =
  res_map (fun vs => Quantity (q_cls q) (a_default A (q_cls q)) (DFloat F8) (q_shape q) vs (q_unit q))
    (a_norm A (q_cls q) (a_default A (q_cls q)) (q_unit q) vs).
Proof.
  intros He [Hu1 Hu2] Hc. unfold back, create_quantity. rewrite Hc. cbn [res_bind].
  rewrite unfiltered_dataset by (done || left; apply no_filters). cbn [res_bind]. rewrite put_ascii_ok by done. cbn [res_bind].
  unfold load_quantity. rewrite get_finish by done. rewrite get_put_eq. cbn [res_bind]. rewrite Hu2. done.
Qed.

(** ** SkyCoord *)
Lemma stack_firsts xs : forall ys, length xs = length ys -> firsts (stack xs ys) = xs.
Proof. induction xs as [|x xs IH]; intros [|y ys] Hl; try done. simpl in *. by rewrite IH by lia. Qed.
Lemma stack_seconds xs : forall ys, length xs = length ys -> seconds (stack xs ys) = ys.
Proof. induction xs as [|x xs IH]; intros [|y ys] Hl; try done. simpl in *. by rewrite IH by lia. Qed.
Lemma stack_floats xs : forall ys, floats xs -> floats ys -> floats (stack xs ys).
Proof.
  induction xs as [|x xs IH]; intros [|y ys] Hx Hy; try constructor; inversion Hx; inversion Hy; subst; [done|].
  constructor; [done|]. by apply IH.
Qed.
Lemma skycoord_back A kw s extra lon lat :
  container_attrs extra -> unit_ok A (s_lon_unit s) -> unit_ok A (s_lat_unit s) -> s_repr s <> RCartesian ->
  length (s_lon s) = length (s_lat s) -> floats (s_lon s) -> floats (s_lat s) ->
  a_norm A c_longitude (a_default A c_longitude) (s_lon_unit s) (s_lon s) = Ok lon ->
  a_norm A c_latitude (a_default A c_latitude) (s_lat_unit s) (s_lat s) = Ok lat ->
  back (create_skycoord A kw s) (load_skycoord A) extra =
  Ok (SkyCoord icrs RUnit (s_shape s) lon lat (s_lon_unit s) (s_lat_unit s)).
Proof.
  intros He [U1 U2] [V1 V2] Hr Hl F1 F2 N1 N2. unfold back, create_skycoord.
  assert (forall X (a b : X), match s_repr s with RCartesian => a | _ => b end = b) as Hm by (intros; by destruct (s_repr s)).
  rewrite Hm. rewrite cast_floats by (by apply stack_floats). cbn [res_bind].
  rewrite unfiltered_dataset; [|done|right; cbn [pay_scalar]; by destruct (s_shape s)]. cbn [res_bind].
  rewrite !put_ascii_ok by done. cbn [res_bind]. rewrite put_ascii_ok by done. cbn [res_bind]. unfold load_skycoord.
  rewrite !get_finish by done. rewrite get_put_eq. rewrite get_put_ne by done. rewrite get_put_eq. cbn [finish put an_data res_bind].
  rewrite U2, V2. cbn [res_bind]. rewrite stack_firsts, stack_seconds by done. rewrite N1, N2. cbn [res_bind].
  by rewrite removelast_last.
Qed.

(** ** Time *)
Lemma time_back A kw t extra at_ :
  container_attrs extra -> ascii (t_format t) -> ascii (t_scale t) ->
  (forall n vs, a_value A (t_format t) (t_scale t) (t_prec t) (t_at t) = TText n vs -> Forall ascii vs) ->
  a_value A (t_format t) (t_scale t) (t_prec t) (t_at t) <> TObjects ->
  (forall n vs, a_value A (t_format t) (t_scale t) (t_prec t) (t_at t) = TText n vs -> t_shape t <> [] \/ filtered kw = false) ->
  a_instant A (t_format t) (t_scale t) (a_value A (t_format t) (t_scale t) (t_prec t) (t_at t)) = Ok at_ ->
  back (create_time A kw t) (load_time A) extra = Ok (Time (t_format t) (t_scale t) default_prec (t_shape t) at_).
Proof.
  intros He Hf Hs Ht Ho Hk Hi. unfold back, create_time.
  destruct (a_value A (t_format t) (t_scale t) (t_prec t) (t_at t)) as [n vs|d vs|] eqn:Ev; [| |done].
  - rewrite (encode_ok vs) by (by eapply Ht). cbn [res_bind].
    rewrite unfiltered_dataset; [|done|destruct (Hk n vs eq_refl) as [Hk'|Hk']; [right; cbn [pay_scalar]; by destruct (t_shape t)|by left]].
    cbn [res_bind tvals_dtype].
    assert (ascii (text_dtype n)) as Hd.
    { unfold ascii, ascii_encode, text_dtype. rewrite forallb_app. cbn [forallb andb].
      assert (forallb (fun c => c <? 128) (N_dec n) = true) as ->; [|done].
      apply forallb_forall. intros c Hc. pose proof (N_dec_digit n) as Hd. rewrite List.Forall_forall in Hd.
      apply Hd in Hc. unfold is_digit in Hc. lia. }
    rewrite put_ascii_ok by done. cbn [res_bind]. rewrite put_ascii_ok by done. cbn [res_bind]. rewrite put_ascii_ok by done. cbn [res_bind].
    unfold load_time. rewrite !get_finish by done. rewrite !get_put_eq. rewrite (get_put_ne "format"), get_put_eq by done. cbn [res_bind].
    rewrite (get_put_ne "np_dtype"), (get_put_ne "np_dtype"), get_put_eq by done. cbn [res_bind finish put an_data].
    rewrite bool_decide_true by done. by rewrite Hi.
  - rewrite unfiltered_dataset by (done || by left). cbn [res_bind tvals_dtype].
    assert (ascii (dtype_str d)) as Hd by (destruct d as [|[]|[]|[]|[]]; done).
    rewrite put_ascii_ok by done. cbn [res_bind]. rewrite put_ascii_ok by done. cbn [res_bind]. rewrite put_ascii_ok by done. cbn [res_bind].
    unfold load_time. rewrite !get_finish by done. rewrite !get_put_eq. rewrite (get_put_ne "format"), get_put_eq by done. cbn [res_bind].
    rewrite (get_put_ne "np_dtype"), (get_put_ne "np_dtype"), get_put_eq by done. cbn [res_bind finish put an_data].
    rewrite bool_decide_true by done. by rewrite Hi.
Qed.

(** ** Constant *)
Lemma constant_back A kw k extra :
  container_attrs extra -> unit_ok A (k_unit k) -> floats [k_value k] ->
  ascii (k_abbrev k) -> ascii (k_name k) -> ascii (k_reference k) -> (forall s, k_system k = Some s -> ascii s) ->
  back (create_constant A kw k) (load_constant A) extra =
  Ok (Constant (k_abbrev k) (k_name k) (k_value k) (k_unit k) (k_uncertainty k) (k_reference k)
        (match k_system k with Some [] => None | s => s end)).
Proof.
  intros He [U1 U2] Hv H1 H2 H3 H4. inversion Hv as [|? ? [f Hf] _]; subst. rewrite Hf. unfold back, create_constant. rewrite Hf. cbn [cast float_of_num res_map res_bind].
  rewrite unfiltered_dataset by (done || left; apply no_filters). cbn [res_bind].
  do 4 (rewrite put_ascii_ok by done; cbn [res_bind]). cbv zeta.
  assert (forall (s : option pystr) n, 
    n = match s with None => put "uncertainty" (XNum (k_uncertainty k)) (put "reference" (XStr (k_reference k)) (put "name" (XStr (k_name k)) (put "abbrev" (XStr (k_abbrev k)) (put "unit" (XStr (a_unit_str A (k_unit k))) (ANode (YNum (DFloat F8) [] [NF f]) ∅)))))
        | Some s => put "system" (XStr s) (put "uncertainty" (XNum (k_uncertainty k)) (put "reference" (XStr (k_reference k)) (put "name" (XStr (k_name k)) (put "abbrev" (XStr (k_abbrev k)) (put "unit" (XStr (a_unit_str A (k_unit k))) (ANode (YNum (DFloat F8) [] [NF f]) ∅))))))
        end ->
    load_constant A (finish extra n) = Ok (Constant (k_abbrev k) (k_name k) (NF f) (k_unit k) (k_uncertainty k) (k_reference k) s)) as HL.
  { intros s n ->. unfold load_constant. rewrite !get_finish by done. rewrite !finish_attr by done.
    destruct s as [s|]; repeat (rewrite get_put_eq || rewrite get_put_ne by done); cbn [res_bind put an_attrs];
      repeat (rewrite lookup_insert || rewrite lookup_insert_ne by done); rewrite ?lookup_empty; cbn [finish an_data]; by rewrite U2. }
  destruct (k_system k) as [[|c s]|] eqn:Es.
  - by apply HL.
  - rewrite put_ascii_ok by (by apply H4). cbn [res_bind]. by apply (HL (Some (c :: s))).
  - by apply HL.
Qed.

(** ** Table *)
Definition storable (m : meta) : bool := match m with MOther => false | _ => true end.
(** What can be told of a value after it was an attribute: bytes are read as str. *)
Definition as_attribute (m : meta) : meta := match m with MBytes b => MStr b | m => m end.
Definition attr_of (m : meta) : aattr :=
  match m with MStr s => XStr s | MBytes b => XStr b | MNum n => XNum n | MStrs l => XStrs l | MNums l => XNums l | MOther => XType end.

Lemma put_meta_ok l : forall a, NoDup (map fst l) -> Forall (fun kv => storable (snd kv) = true) l ->
  put_meta l a = Ok (list_to_map (map (fun kv => (fst kv, attr_of (snd kv))) l) ∪ a).
Proof.
  induction l as [|[k v] l IH]; intros a Hn Hs; simpl; [by rewrite (left_id_L ∅ (∪))|].
  inversion Hn as [|? ? Hk Hn']; subst. inversion Hs as [|? ? Hv Hs']; subst. simpl in *.
  assert (meta_attr v = Ok (attr_of v)) as -> by (by destruct v). cbn [res_bind]. rewrite IH by done. f_equal.
  rewrite <- insert_union_l, <- insert_union_r; [done|]. apply not_elem_of_list_to_map. rewrite <- list_fmap_compose.
  intros Hin. apply Hk. apply elem_of_list_fmap in Hin as ([k' v'] & -> & Hin). apply elem_of_list_fmap. by exists (k', v').
Qed.
Lemma put_meta_map (m : gmap pystr meta) a : (forall k v, m !! k = Some v -> storable v = true) ->
  put_meta (map_to_list m) a = Ok ((attr_of <$> m) ∪ a).
Proof.
  intros Hs. rewrite put_meta_ok.
  - f_equal. f_equal. apply map_eq. intros k. rewrite lookup_fmap.
    destruct (m !! k) as [v|] eqn:Hk; simpl.
    + apply elem_of_list_to_map.
      * rewrite <- list_fmap_compose. apply NoDup_fst_map_to_list.
      * apply elem_of_list_fmap. exists (k, v). split; [done|]. by apply elem_of_map_to_list.
    + apply not_elem_of_list_to_map. rewrite <- list_fmap_compose. intros ([k' v'] & -> & Hin)%elem_of_list_fmap.
      apply elem_of_map_to_list in Hin. simpl in *. congruence.
  - apply NoDup_fst_map_to_list.
  - rewrite list.Forall_forall. intros [k v] Hin. apply elem_of_map_to_list in Hin. by eapply Hs.
Qed.
Lemma attr_meta_of v : storable v = true -> attr_meta (attr_of v) = as_attribute v.
Proof. by destruct v. Qed.
Lemma not_meta_in k : k ∈ not_meta <-> k = str "type" \/ k = str "base_type" \/ k = str "colnames".
Proof. unfold not_meta. rewrite !elem_of_union, !elem_of_singleton. tauto. Qed.

(** The table that comes back. *)
Lemma table_back kw t extra :
  container_attrs extra -> Forall ascii (map fst (tb_cols t)) ->
  Forall (fun c => match snd c with ColText _ => False | _ => True end) (tb_cols t) ->
  (forall k v, tb_meta t !! k = Some v -> storable v = true /\ k ∉ not_meta) ->
  back (create_table kw t) load_table_ extra =
  Ok (Table (tb_cols t) (map (fun _ => None) (tb_cols t)) (tb_rows t) ((attr_meta <$> extra) ∪ (as_attribute <$> tb_meta t))).
Proof.
  intros He Hn Hc Hm. unfold back, create_table.
  rewrite unfiltered_dataset; [|cbn [pay_text]|by right].
  2:{ clear -Hc. induction Hc as [|[k c] l Hk _ IH]; [done|]. simpl in *. destruct c; [exact IH|exact IH|done]. }
  cbn [res_bind]. rewrite encode_ok by done. cbn [res_bind]. rewrite put_meta_map by (intros k v Hk; by apply Hm in Hk as [? _]).
  cbn [res_map res_bind]. unfold load_table_. rewrite finish_attr by done. cbn [an_attrs put].
  assert (tb_meta t !! str "colnames" = None) as Hcn.
  { destruct (tb_meta t !! str "colnames") eqn:E; [|done]. apply Hm in E as [_ E]. exfalso. apply E. apply not_meta_in. auto. }
  rewrite lookup_union_r by (rewrite lookup_fmap, Hcn; done). rewrite lookup_insert. cbn [finish an_data].
  rewrite bool_decide_true by (by rewrite map_length). f_equal. f_equal.
  - clear. induction (tb_cols t) as [|[k c] l IH]; [done|]. simpl. by rewrite IH.
  - apply map_eq. intros k. rewrite lookup_fmap. unfold finish. cbn [an_attrs an_data].
    destruct (decide (k ∈ not_meta)) as [Hk|Hk].
    + rewrite map_filter_lookup_None_2; [|right; intros ? _; simpl; tauto].
      symmetry. apply lookup_union_None. rewrite !lookup_fmap. split.
      * rewrite container_none; [done|done|..]; intros ->; by vm_compute in Hk.
      * destruct (tb_meta t !! k) as [v|] eqn:E; [|done]. by apply Hm in E as [_ E].
    + assert (k <> str "type") as Hty by (intros ->; apply Hk, not_meta_in; auto).
      assert (k <> str "colnames") as Hcol by (intros ->; apply Hk, not_meta_in; auto).
      assert (forall (m : aattrs), filter (fun kv : pystr * aattr => kv.1 ∉ not_meta) m !! k = m !! k) as Hfil.
      { intros m. destruct (m !! k) as [v|] eqn:E; [by apply map_filter_lookup_Some_2|]. apply map_filter_lookup_None_2. by left. }
      rewrite Hfil. destruct (extra !! k) as [v|] eqn:Ex.
      * rewrite (lookup_union_Some_l _ _ _ v) by (by rewrite lookup_delete_ne). simpl. symmetry. apply lookup_union_Some_l.
        by rewrite lookup_fmap, Ex.
      * rewrite lookup_union_r by (by rewrite lookup_delete_ne). rewrite lookup_insert_ne by done.
        rewrite (lookup_union_r (attr_meta <$> extra)) by (by rewrite lookup_fmap, Ex). rewrite lookup_fmap.
        destruct (tb_meta t !! k) as [v|] eqn:Ev; simpl.
        -- rewrite (lookup_union_Some_l _ _ _ (attr_of v)) by (by rewrite lookup_fmap, Ev). simpl. rewrite attr_meta_of; [done|]. by apply Hm in Ev as [? _].
        -- rewrite lookup_union_r by (by rewrite lookup_fmap, Ev). by rewrite lookup_insert_ne.
Qed.
