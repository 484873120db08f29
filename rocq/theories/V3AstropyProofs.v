(** * V3AstropyProofs: what the Astropy loader of hickle 3 writes and reads *)
From Verif Require Import Base Utf8 Dec DecProofs Num PyObj H5 Env Create LegacyV3 Astropy AstropyProofs V3Astropy.
From Coq Require Import Lia ZifyBool ZifyN.
Local Open Scope N_scope.
Local Open Scope list_scope.

(** ** Specification *)

(** ASCII that does not end in NUL: numpy keeps such bytes. *)
Definition kept (s : pystr) : Prop := ascii s /\ drop_nuls s = s.
(** Text h5py stores. *)
Definition plain (s : pystr) : Prop := has_char 0 s = false.
Definition plain_system (k : constant) : Prop := forall s, k_system k = Some s -> plain s /\ s <> [].
(** The objects hickle 3 keeps: what each kind needs. *)
Definition unit_kept (A : astro) (u : unit_) : Prop := unit_ok A u /\ kept (a_unit_str A u).
Definition value_of (A : astro) (t : time) : tvals := a_value A (t_format t) (t_scale t) (t_prec t) (t_at t).
Definition keeps (A : astro) (x : aobj) : Prop :=
  match x with
  | OQuantity q =>
      (q_cls q = c_quantity \/ q_cls q = c_angle) /\ unit_kept A (q_unit q) /\
      q_dtype q = DFloat F8 /\ floats (q_vals q) /\ q_extra q = a_default A (q_cls q) /\
      a_norm A (q_cls q) (q_extra q) (q_unit q) (q_vals q) = Ok (q_vals q)
  | OSky s =>
      unit_kept A (s_lon_unit s) /\ unit_kept A (s_lat_unit s) /\ s_frame s = icrs /\ s_repr s = RUnit /\
      length (s_lon s) = length (s_lat s) /\ floats (s_lon s) /\ floats (s_lat s) /\
      a_norm A c_longitude (a_default A c_longitude) (s_lon_unit s) (s_lon s) = Ok (s_lon s) /\
      a_norm A c_latitude (a_default A c_latitude) (s_lat_unit s) (s_lat s) = Ok (s_lat s)
  | OTime t =>
      kept (t_format t) /\ kept (t_scale t) /\ t_shape t <> [] /\ t_prec t = default_prec /\
      a_instant A (t_format t) (t_scale t) (value_of A t) = Ok (t_at t) /\
      match value_of A t with
      | TText _ vs => Forall kept vs /\ length (t_shape t) = 1%nat
      | TNums _ _ => True
      | TObjects => False
      end
  | OConstant k =>
      unit_ok A (k_unit k) /\ plain (a_unit_str A (k_unit k)) /\ floats [k_value k] /\
      plain (k_abbrev k) /\ plain (k_name k) /\ plain (k_reference k) /\ plain_system k
  | OTable t =>
      Forall kept (map fst (tb_cols t)) /\
      Forall (fun c => match snd c with ColText _ => False | _ => True end) (tb_cols t) /\
      tb_units t = map (fun _ => None) (tb_cols t) /\
      (forall k v, tb_meta t !! k = Some v ->
         storable v = true /\ as_attribute v = v /\ k <> str "type" /\ k <> str "colnames")
  end.
(** Dumped by hickle 3 and loaded. *)
Definition back3 (A : astro) (x : aobj) : res aobj := res_bind (create3 A x) (load3 A).

(** ** Lemmas *)
Lemma set_w_eq k v n : wn_attrs (set_w k v n) !! str k = Some v.
Proof. apply lookup_insert. Qed.
Lemma set_w_ne k k' v n : str k' <> str k -> wn_attrs (set_w k' v n) !! str k = wn_attrs n !! str k.
Proof. intros H. by apply lookup_insert_ne. Qed.
Lemma put_bytes_ok k s n : kept s -> put_bytes k s n = Ok (set_w k (WB [s]) n).
Proof. intros [H1 H2]. unfold put_bytes. rewrite H1. simpl. by rewrite H2. Qed.
Lemma put_text_ok k s n : plain s -> put_text k s n = Ok (set_w k (WS [s]) n).
Proof. intros H. unfold put_text. by rewrite H. Qed.
Ltac attrs := repeat (rewrite set_w_eq || rewrite set_w_ne by done).
Lemma get_text_b k n s : wn_attrs n !! str k = Some (WB [s]) -> ascii s -> get_text k n = Ok s.
Proof. intros H Ha. unfold get_text. rewrite H. exact Ha. Qed.
Lemma get_text_s k n s : wn_attrs n !! str k = Some (WS [s]) -> get_text k n = Ok s.
Proof. intros H. unfold get_text. by rewrite H. Qed.
Lemma get_bytes_b k n s : wn_attrs n !! str k = Some (WB [s]) -> ascii s -> get_bytes k n = Ok s.
Proof. intros H Ha. unfold get_bytes. rewrite H. exact Ha. Qed.
Lemma drop_all l : Forall kept l -> map drop_nuls l = l.
Proof. induction 1 as [|s l [_ Hs] _ IH]; [done|]. simpl. by rewrite Hs, IH. Qed.
Lemma kept_ascii l : Forall kept l -> Forall ascii l.
Proof. induction 1 as [|s l [Hs _] _ IH]; by constructor. Qed.
Lemma load3_type A n t : wn_attrs n !! str "type" = Some (WB [str t]) ->
  load3 A n =
    (if bool_decide (str t = str "astropy_quantity") then res_map OQuantity (load_quantity3 A c_quantity n)
      else if bool_decide (str t = str "astropy_angle") then res_map OQuantity (load_quantity3 A c_angle n)
      else if bool_decide (str t = str "astropy_skycoord") then res_map OSky (load_skycoord3 A n)
      else if bool_decide (str t = str "astropy_time") then res_map OTime (load_time3 A n)
      else if bool_decide (str t = str "astropy_constant") then res_map OConstant (load_constant3 A n)
      else if bool_decide (str t = str "astropy_table") then res_map OTable (load_table3 n)
      else Err RuntimeError).
Proof. intros H. unfold load3. by rewrite H. Qed.
Ltac which := repeat first [rewrite bool_decide_true by done | rewrite bool_decide_false by done].

Lemma quantity3 A q : keeps A (OQuantity q) -> back3 A (OQuantity q) = Ok (OQuantity q).
Proof.
  intros (Hc & [[_ Hu] Hk] & Hd & Hf & Hx & Hn). unfold back3, create3.
  destruct Hc as [Hc|Hc].
  - rewrite bool_decide_true by done. unfold create_quantity3. rewrite cast_floats by done. cbn [res_bind new_node pay_text].
    rewrite put_bytes_ok by done. cbn [res_bind]. rewrite (load3_type A _ "astropy_quantity") by (unfold put_type; by attrs). which.
    unfold load_quantity3. erewrite get_text_b by (unfold put_type; attrs; done || apply Hk). cbn [res_bind]. rewrite Hu. cbn [res_bind wn_data set_w put_type].
    rewrite <- Hc, <- Hx, Hn. simpl. rewrite <- Hd. by destruct q.
  - rewrite bool_decide_false by (by rewrite Hc). rewrite bool_decide_true by done. unfold create_quantity3. rewrite cast_floats by done. cbn [res_bind new_node pay_text].
    rewrite put_bytes_ok by done. cbn [res_bind]. rewrite (load3_type A _ "astropy_angle") by (unfold put_type; by attrs). which.
    unfold load_quantity3. erewrite get_text_b by (unfold put_type; attrs; done || apply Hk). cbn [res_bind]. rewrite Hu. cbn [res_bind wn_data set_w put_type].
    rewrite <- Hc, <- Hx, Hn. simpl. rewrite <- Hd. by destruct q.
Qed.
Lemma sky3 A s : keeps A (OSky s) -> back3 A (OSky s) = Ok (OSky s).
Proof.
  intros ([[_ U2] U3] & [[_ V2] V3] & Hfr & Hr & Hl & F1 & F2 & N1 & N2). unfold back3, create3, create_skycoord3. rewrite Hr.
  rewrite cast_floats by (by apply stack_floats). cbn [res_bind new_node pay_text].
  rewrite put_bytes_ok by done. cbn [res_bind]. rewrite put_bytes_ok by done. cbn [res_bind].
  rewrite (load3_type A _ "astropy_skycoord") by (unfold put_type; by attrs). which.
  unfold load_skycoord3. cbn [wn_data set_w put_type].
  erewrite (get_text_b "lon_unit") by (unfold put_type; attrs; done || apply U3). cbn [res_bind].
  erewrite (get_text_b "lat_unit") by (unfold put_type; attrs; done || apply V3). cbn [res_bind].
  rewrite U2, V2. cbn [res_bind]. rewrite stack_firsts, stack_seconds by done. rewrite N1, N2. cbn [res_bind res_map].
  rewrite removelast_last, <- Hr, <- Hfr. by destruct s.
Qed.
Lemma time3 A t : keeps A (OTime t) -> back3 A (OTime t) = Ok (OTime t).
Proof.
  intros (Hf & Hs & Hsh & Hp & Hi & Hv). unfold back3, create3, create_time3. unfold value_of in *.
  destruct (t_shape t) as [|k more] eqn:Esh; [done|].
  destruct (a_value A (t_format t) (t_scale t) (t_prec t) (t_at t)) as [w vs|d vs|] eqn:Ev; [| |done].
  - destruct Hv as [Hvs Hl]. destruct more; [|done]. rewrite encode_ok by (by apply kept_ascii). cbn [res_bind]. rewrite drop_all by done.
    cbn [new_node pay_text res_bind]. rewrite put_bytes_ok by done. cbn [res_bind]. rewrite put_bytes_ok by done. cbn [res_bind].
    rewrite (load3_type A _ "astropy_time") by (unfold put_type; by attrs). which. unfold load_time3.
    erewrite (get_bytes_b "format") by (unfold put_type; attrs; done || apply Hf). cbn [res_bind].
    erewrite (get_bytes_b "scale") by (unfold put_type; attrs; done || apply Hs). cbn [res_bind wn_data set_w put_type].
    rewrite Hi. cbn [res_map res_bind]. rewrite <- Hp, <- Esh. by destruct t.
  - cbn [new_node pay_text res_bind]. rewrite put_bytes_ok by done. cbn [res_bind]. rewrite put_bytes_ok by done. cbn [res_bind].
    rewrite (load3_type A _ "astropy_time") by (unfold put_type; by attrs). which. unfold load_time3.
    erewrite (get_bytes_b "format") by (unfold put_type; attrs; done || apply Hf). cbn [res_bind].
    erewrite (get_bytes_b "scale") by (unfold put_type; attrs; done || apply Hs). cbn [res_bind wn_data set_w put_type].
    rewrite Hi. cbn [res_map res_bind]. rewrite <- Hp, <- Esh. by destruct t.
Qed.
Lemma constant3 A k : keeps A (OConstant k) -> back3 A (OConstant k) = Ok (OConstant k).
Proof.
  intros ([_ U2] & Hu & Hv & H1 & H2 & H3 & H4). inversion Hv as [|? ? [f Hf] _]; subst.
  unfold back3, create3, create_constant3. rewrite Hf. cbn [cast float_of_num res_map res_bind new_node pay_text].
  do 4 (rewrite put_text_ok by done; cbn [res_bind]). cbv zeta.
  destruct (k_system k) as [[|c s]|] eqn:Es.
  - by destruct (H4 [] Es).
  - rewrite put_text_ok by (by apply H4). cbn [res_bind].
    rewrite (load3_type A _ "astropy_constant") by (unfold put_type; by attrs). which. unfold load_constant3.
    do 4 (erewrite get_text_s by (unfold put_type; attrs; done); cbn [res_bind]).
    unfold put_type. attrs. erewrite get_text_s by (attrs; done). cbn [res_bind wn_data set_w]. rewrite U2. cbn [res_map res_bind].
    rewrite <- Hf, <- Es. by destruct k.
  - cbn [res_bind].
    rewrite (load3_type A _ "astropy_constant") by (unfold put_type; by attrs). which. unfold load_constant3.
    do 4 (erewrite get_text_s by (unfold put_type; attrs; done); cbn [res_bind]).
    unfold put_type. attrs. cbn [wn_attrs]. rewrite lookup_empty. cbn [wn_data set_w]. rewrite U2. cbn [res_map res_bind].
    rewrite <- Hf, <- Es. by destruct k.
Qed.

(** ** Table *)
Definition wattr_of (m : meta) : wattr := match m with MStrs l => WS l | MNums l => WN l | m => WMeta m end.
Lemma put_meta3_ok l : forall a, NoDup (map fst l) -> Forall (fun kv => storable (snd kv) = true) l ->
  put_meta3 l a = Ok (list_to_map (map (fun kv => (fst kv, wattr_of (snd kv))) l) ∪ a).
Proof.
  induction l as [|[k v] l IH]; intros a Hn Hs; simpl; [by rewrite (left_id_L ∅ (∪))|].
  inversion Hn as [|? ? Hk Hn']; subst. inversion Hs as [|? ? Hv Hs']; subst. simpl in *.
  assert (meta_wattr v = Ok (wattr_of v)) as -> by (by destruct v). cbn [res_bind]. rewrite IH by done. f_equal.
  rewrite <- insert_union_l, <- insert_union_r; [done|]. apply not_elem_of_list_to_map. rewrite <- list_fmap_compose.
  intros Hin. apply Hk. apply elem_of_list_fmap in Hin as ([k' v'] & -> & Hin). apply elem_of_list_fmap. by exists (k', v').
Qed.
Lemma put_meta3_map (m : gmap pystr meta) a : (forall k v, m !! k = Some v -> storable v = true) ->
  put_meta3 (map_to_list m) a = Ok ((wattr_of <$> m) ∪ a).
Proof.
  intros Hs. rewrite put_meta3_ok.
  - f_equal. f_equal. apply map_eq. intros k. rewrite lookup_fmap.
    destruct (m !! k) as [v|] eqn:Hk; simpl.
    + apply elem_of_list_to_map.
      * rewrite <- list_fmap_compose. apply NoDup_fst_map_to_list.
      * apply elem_of_list_fmap. exists (k, v). split; [done|]. by apply elem_of_map_to_list.
    + apply not_elem_of_list_to_map. rewrite <- list_fmap_compose. intros ([k' v'] & -> & Hin)%elem_of_list_fmap.
      apply elem_of_map_to_list in Hin. simpl in *. congruence.
  - apply NoDup_fst_map_to_list.
  - rewrite list.Forall_forall. intros [k v] Hin. apply elem_of_map_to_list in Hin. by eapply Hs.
Qed.
Lemma wattr_meta_of v : storable v = true -> wattr_meta (wattr_of v) = as_attribute v.
Proof. by destruct v. Qed.
Lemma not_meta3_in k : k ∈ not_meta3 <-> k = str "type" \/ k = str "colnames".
Proof. unfold not_meta3. rewrite !elem_of_union, !elem_of_singleton. tauto. Qed.
Lemma table3 A t : keeps A (OTable t) -> back3 A (OTable t) = Ok (OTable t).
Proof.
  intros (Hn & Hc & Hu & Hm). unfold back3, create3, create_table3.
  assert (pay_text (YRows (tb_cols t) (tb_rows t)) = false) as Hp.
  { clear -Hc. cbn [pay_text]. induction Hc as [|[k c] l Hk _ IH]; [done|]. simpl in *. destruct c; [exact IH|exact IH|done]. }
  unfold new_node. rewrite Hp. cbn [res_bind]. rewrite encode_ok by (by apply kept_ascii). cbn [res_bind]. rewrite drop_all by done.
  rewrite put_meta3_map by (intros k v Hk; by apply Hm in Hk as [? _]). cbn [res_map res_bind].
  assert (forall key, key = "type"%string \/ key = "colnames"%string -> (wattr_of <$> tb_meta t) !! str key = None) as Hnone.
  { intros key Hk. rewrite lookup_fmap. destruct (tb_meta t !! str key) eqn:E; [|done]. apply Hm in E as (_ & _ & E1 & E2). by destruct Hk as [-> | ->]. }
  rewrite (load3_type A _ "astropy_table").
  2:{ cbn [wn_attrs]. rewrite lookup_union_r by (apply Hnone; by left). unfold put_type. by attrs. }
  which. unfold load_table3. cbn [wn_attrs]. rewrite lookup_union_r by (apply Hnone; by right). attrs. cbn [wn_data].
  assert (res_mapM ascii_decode (map fst (tb_cols t)) = Ok (map fst (tb_cols t))) as -> by (apply encode_ok; by apply kept_ascii).
  cbn [res_bind]. rewrite bool_decide_true by (by rewrite map_length). cbn [res_map res_bind]. f_equal. f_equal.
  destruct t as [cols us rows me]. cbn [tb_cols tb_units tb_rows tb_meta] in *. f_equal.
  - clear. induction cols as [|[k c] l IH]; [done|]. simpl. by rewrite IH.
  - done.
  - apply map_eq. intros k. rewrite lookup_fmap. destruct (decide (k ∈ not_meta3)) as [Hk|Hk].
    + rewrite map_filter_lookup_None_2; [|right; intros ? _; simpl; tauto]. simpl. symmetry.
      destruct (me !! k) as [v|] eqn:E; [|done]. apply Hm in E as (_ & _ & E1 & E2). by apply not_meta3_in in Hk as [-> | ->].
    + assert (forall (m : gmap pystr wattr), filter (fun kv : pystr * wattr => kv.1 ∉ not_meta3) m !! k = m !! k) as ->.
      { intros m. destruct (m !! k) as [v|] eqn:E; [by apply map_filter_lookup_Some_2|]. apply map_filter_lookup_None_2. by left. }
      destruct (me !! k) as [v|] eqn:Ev.
      * rewrite (lookup_union_Some_l _ _ _ (wattr_of v)) by (by rewrite lookup_fmap, Ev). simpl.
        destruct (Hm _ _ Ev) as (Hs & Ha & _). by rewrite wattr_meta_of, Ha.
      * rewrite lookup_union_r by (by rewrite lookup_fmap, Ev). unfold put_type, set_w. cbn [wn_attrs].
        rewrite !lookup_insert_ne; [done|intros <-; apply Hk, not_meta3_in; auto..].
Qed.
Lemma astropy3 A x : keeps A x -> back3 A x = Ok x.
Proof. destruct x; [apply quantity3|apply sky3|apply time3|apply constant3|apply table3]. Qed.
