(** * DumpKw: keyword arguments for h5py do not influence what is written *)
From Verif Require Import Base Utf8 Dec Num PyObj H5 Env Create Dump LoadFns LoadModel Registry DumpProofs DumpStored
  RegistryStd Spec LoadBase LoadInv RoundTrip LoadFrame Api DumpClosed ApiProofs DumpTerm ApiEnds.
From Coq Require Import Lia ZifyBool ZifyN.
Local Open Scope N_scope.
Local Open Scope list_scope.
Local Opaque std_loader std_dump dump_loader_of loader_of.

(** An array without dimensions. *)
Definition zero_dim (o : obj) : Prop := exists d vs, oval o = VArr d [] vs.
(** Nothing reachable from [x] is one. *)
Definition no_zero_dim (h : heap) (x : loc) : Prop :=
  exists U : gset N, x ∈ U /\
    forall y, y ∈ U -> exists o, h !! y = Some o /\ ~ zero_dim o /\ forall z, z ∈ refs o -> z ∈ U.

(** No filter options for scalar and empty datasets. *)
Definition filtered (pl : plan) : Prop :=
  forall d, p_data pl = Some d -> is_scalar_or_null d = true -> p_nocomp pl = true.
Lemma filtered_true pl : p_nocomp pl = true -> filtered pl.
Proof. by intros ? ? ? ?. Qed.
Lemma filtered_data pl d : p_data pl = Some d -> is_scalar_or_null d = false -> filtered pl.
Proof. intros H1 H2 d' H3. congruence. Qed.
Lemma filtered_group pl : p_data pl = None -> filtered pl.
Proof. intros H1 d' H3. congruence. Qed.

Lemma list_items_filtered E h items pl : create_list_items E h items = Ok pl -> filtered pl.
Proof.
  destruct items as [|x items]; [by intros [= <-]; apply filtered_true|].
  unfold create_list_items. destruct (check_iterable_item_type E h x items) as [[[]|]|]; cbn [res_bind]; try done.
  - destruct (write_items _ _ _). intros [= <-]. by eapply filtered_data.
  - intros [= <-]. by apply filtered_group.
Qed.
Lemma listlike_filtered E h o pl : create_listlike E h o = Ok pl -> filtered pl.
Proof.
  unfold create_listlike. destruct (_ || _).
  - unfold create_text. destruct (match oval o with VStr s => _ | _ => _ end); simpl; [|done].
    intros [= <-]. destruct (ascii_encode _); by eapply filtered_data.
  - destruct o as [c []]; simpl; try done. apply list_items_filtered.
Qed.
Lemma with_temps_filtered ts a pl : filtered pl -> filtered (with_temps ts a pl).
Proof. done. Qed.

Lemma create_filtered E fn h nx o pl : create E fn h nx o = Ok pl -> ~ zero_dim o -> filtered pl.
Proof.
  intros Hc Hz. destruct fn; cbn [create] in Hc; try done.
  - revert Hc. unfold create_scalar. destruct (oval o); try done.
    destruct n; [|destruct (_ && _)|..]; intros [= <-]; try (by apply filtered_true); by eapply filtered_data.
  - injection Hc as <-. by apply filtered_true.
  - by eapply listlike_filtered.
  - unfold create_setlike in Hc. destruct (oval o); try done. by eapply list_items_filtered.
  - unfold create_dictlike in Hc. destruct (oval o); try done. destruct (dict_subs _ _ _ _ _) as [[ts ss]|]; simpl in Hc; [|done].
    injection Hc as <-. by apply filtered_group.
  - revert Hc. unfold create_pickled. destruct (oval o); try done. case_match; intros [= <-]. by eapply filtered_data.
  - revert Hc. unfold create_np_scalar. destruct (oval o); try done. case_match; intros [= <-]. by apply filtered_true.
  - revert Hc. unfold create_np_dtype. destruct (oval o); try done. intros [= <-]. by eapply filtered_data.
  - unfold create_np_array in Hc. destruct o as [c []]; simpl in Hc; try done.
    + destruct shape; [destruct Hz; by eexists _, _|]. injection Hc as <-. by eapply filtered_data.
    + destruct shape as [|d shape].
      * destruct vs as [|s0 []]; try done. destruct (utf8_encode s0); simpl in Hc; [|done]. injection Hc as <-. by eapply filtered_data.
      * destruct (tolist _ _ _) as [ts els]. destruct (create_list_items _ _ _) as [pl0|] eqn:Ec; simpl in Hc; [|done].
        injection Hc as <-. apply with_temps_filtered. by eapply list_items_filtered.
    + destruct shape as [|d shape].
      * destruct vs as [|l0 []]; try done. destruct (h !! l0) as [io|]; [|done]. destruct (isinst _ _).
        -- destruct (create_listlike E h io) as [pl0|] eqn:Ec; simpl in Hc; [|done]. injection Hc as <-.
           apply with_temps_filtered. by eapply listlike_filtered.
        -- injection Hc as <-. by apply filtered_group.
      * destruct (tolist _ _ _) as [ts els]. destruct (create_list_items _ _ _) as [pl0|] eqn:Ec; simpl in Hc; [|done].
        injection Hc as <-. apply with_temps_filtered. by eapply list_items_filtered.
  - unfold create_np_masked in Hc. destruct (oval o); try done. destruct (h !! data); [|done].
    destruct (arr_dtype_str _); [|done]. injection Hc as <-. by apply filtered_group.
  - unfold create_sparse in Hc. destruct (oval o); try done. injection Hc as <-. by apply filtered_group.
Qed.

Lemma create_dataset_kw f p nm kw kw' d :
  is_scalar_or_null d = false -> create_dataset f p nm kw d = create_dataset f p nm kw' d.
Proof. intros H. unfold create_dataset. by rewrite H. Qed.
Lemma no_compression_no kw : existsb is_filter (no_compression kw) = false.
Proof.
  unfold no_compression. induction kw as [|k kw IH]; [done|]. cbn [List.filter].
  destruct (is_filter k) eqn:Ek; cbn [negb]; [done|]. cbn [existsb]. by rewrite Ek.
Qed.
Lemma create_dataset_no f p nm kw d : create_dataset f p nm (no_compression kw) d = create_node f p nm (BData d).
Proof. unfold create_dataset. by rewrite no_compression_no, andb_false_r. Qed.

Lemma run_plan_kw kw kw' p nm pl s : filtered pl -> run_plan kw p nm pl s = run_plan kw' p nm pl s.
Proof.
  intros Hf. unfold run_plan. destruct (p_data pl) as [d|] eqn:Ed; [|done]. specialize (Hf d Ed).
  destruct (p_nocomp pl); [by rewrite !create_dataset_no|].
  destruct (is_scalar_or_null d) eqn:Es; [by discriminate (Hf eq_refl)|]. by rewrite (create_dataset_kw _ _ _ kw kw' d Es).
Qed.
Lemma base_entry_kw tbl kw kw' base s : base_entry tbl kw base s = base_entry tbl kw' base s.
Proof. unfold base_entry. destruct (alist_get _ _); [done|]. destruct (ascii_encode _); [|done]. by rewrite !create_dataset_no. Qed.
Lemma store_type_kw E tbl kw kw' a pt base s : store_type E tbl kw a pt base s = store_type E tbl kw' a pt base s.
Proof.
  unfold store_type. rewrite (create_dataset_kw _ _ _ kw kw' (DPickleCls pt)) by done. case_bool_decide; [done|].
  destruct (alist_get _ _); [done|]. case_bool_decide; [done|]. destruct (negb _); [done|].
  destruct (create_dataset _ _ _ _ _) as [[f e]|]; [|done]. by rewrite (base_entry_kw _ kw kw').
Qed.
Lemma dump_node_kw E L kw kw' tbl o p nm at_ s :
  ~ zero_dim o -> dump_node E L kw tbl o p nm at_ s = dump_node E L kw' tbl o p nm at_ s.
Proof.
  intros Hz. unfold dump_node. destruct (L (ocls o)) as [[pt [[fn base] memo]]|e]; [|done].
  destruct (create E fn (d_heap s) (d_next s) o) as [pl|e] eqn:Ec.
  - rewrite (run_plan_kw kw kw') by (by eapply create_filtered).
    destruct (run_plan kw' p nm pl s) as [s1 [a|e]]; [|done]. by rewrite (store_type_kw _ _ kw kw').
  - destruct e; try done. destruct (create_pickled E o) as [pl|] eqn:Ep; [|done].
    rewrite (run_plan_kw kw kw'); [done|]. eapply (create_filtered E FPickle (d_heap s) (d_next s)); [exact Ep|done].
Qed.

Section Kw.
Context (E : env) (L : dump_loader) (kw kw' : kwargs) (tbl : addr).
Context (HL : loader_ok E L).
Context (U : gset N) (h0 : heap).
Context (HU : forall x, x ∈ U -> exists o, h0 !! x = Some o /\ ~ zero_dim o /\ forall y, y ∈ refs o -> y ∈ U).

Lemma dump_subs_kw (rec rec' : loc -> pystr -> list (pystr * attrv) -> dst -> dst * res unit) a subs : forall s,
  (forall y nm at_ s k, wfs L tbl s -> h0 ⊆ d_heap s -> at_form at_ -> deep U (d_heap s) k y ->
     rec y nm at_ s = rec' y nm at_ s /\
     (forall s' r, rec y nm at_ s = (s', r) -> wfs L tbl s' /\ grows tbl (eq a) s s')) ->
  wfs L tbl s -> h0 ⊆ d_heap s -> Forall (fun sb => at_form (sub_at sb)) subs ->
  Forall (fun sb => exists k, deep U (d_heap s) k (sub_loc sb)) subs ->
  dump_subs rec subs s = dump_subs rec' subs s.
Proof.
  induction subs as [|[[nm y] at_] subs IH]; intros s Hrec Hw Hh Ha Hd; [done|]. simpl.
  apply list.Forall_cons in Ha as [Ha1 Ha2]. apply list.Forall_cons in Hd as [[k Hd1] Hd2].
  destruct (Hrec y nm at_ s k Hw Hh Ha1 Hd1) as [Hf Hg]. rewrite <- Hf.
  destruct (rec y nm at_ s) as [s1 [[]|e]]; [|done].
  destruct (Hg _ _ eq_refl) as [W1 G1]. apply IH; auto.
  - etrans; [exact Hh|apply G1].
  - eapply list.Forall_impl; [exact Hd2|]. intros sb [k' Hk]. exists k'. by eapply deep_heap; [apply G1|].
Qed.

Lemma dump_kw fuel : forall x p nm at_ s k,
  wfs L tbl s -> h0 ⊆ d_heap s -> p <> tbl -> at_form at_ -> deep U (d_heap s) k x ->
  dump_ fuel E L kw tbl x p nm at_ s = dump_ fuel E L kw' tbl x p nm at_ s.
Proof.
  induction fuel as [|fuel IH]; intros x p nm at_ s k Hw Hh Hp Ha Hd; [done|]. cbn [dump_].
  destruct (d_memo s !! x) as [t|] eqn:Em; [done|].
  destruct (d_heap s !! x) as [o|] eqn:Eo; [|done].
  assert (~ zero_dim o) as Hz.
  { assert (deep U (d_heap s) (S k) x) as Hd' by (by apply deep_S). clear Hd.
    destruct Hd' as [HxU|[(c & z & Hx)|(c & xs & Hx & _)]].
    - destruct (HU x HxU) as (o' & Ho' & Hz & _). pose proof (lookup_weaken _ _ _ _ Ho' Hh). congruence.
    - rewrite Eo in Hx. injection Hx as ->. intros (d & vs & [=]).
    - rewrite Eo in Hx. injection Hx as ->. intros (d & vs & [=]). }
  rewrite <- (dump_node_kw E L kw kw' tbl o p nm at_ s Hz).
  destruct (dump_node E L kw tbl o p nm at_ s) as [s1 [[[a memo] subs]|e]] eqn:Ed; [|done].
  destruct (dump_node_spec _ _ _ _ HL _ _ _ _ _ _ _ Hw Hp Ed)
    as (W1 & G1 & M1 & _ & -> & Hlt & Hta & pt & fn & base & pl & te & EL & Ecr & Hpf & <- & Hheap & _).
  destruct memo.
  2: { destruct (lo_leaf _ _ HL _ _ _ _ _ _ _ _ EL Ecr) as [_ ->]. done. }
  set (a := f_next (d_file s)) in *.
  assert (is_Some (d_heap s1 !! x)) as Hx1. { exists o. eapply lookup_weaken; [exact Eo|apply G1]. }
  destruct (set_memo_wfs L tbl x a s1) as [W2 G2]; auto.
  { congruence. }
  { intros y Hy. rewrite M1 in Hy. pose proof (ws_memo_lt _ _ _ Hw _ _ Hy). lia. }
  assert (has_temps (d_heap s1) (d_next s) (p_temps pl)) as Ht.
  { rewrite Hheap. exact (proj2 (proj2 (put_temps_spec L tbl s (p_temps pl) Hw))). }
  assert (h0 ⊆ d_heap s1) as Hh1. { etrans; [exact Hh|apply G1]. }
  assert (Forall (fun sb => exists k', deep U (d_heap s1) k' (sub_loc sb)) (p_subs pl)) as Hsubs.
  { destruct (decide (x ∈ U)) as [HxU|HxU].
    - destruct (HU x HxU) as (o' & Ho' & Hdim & Hrefs).
      assert (o' = o) as ->. { pose proof (lookup_weaken _ _ _ _ Ho' Hh). congruence. }
      pose proof (create_deep E fn (d_heap s) U (d_heap s1) (d_next s) o pl Ecr Ht Hrefs) as Hcd.
      eapply list.Forall_impl; [apply Hcd|].
      + intros y io z Hy Hio Hz'. destruct (HU y (Hrefs _ Hy)) as (io' & Hio' & _ & Hr).
        assert (io' = io) as ->. { pose proof (lookup_weaken _ _ _ _ Hio' Hh). congruence. }
        by apply Hr.
      + intros sb Hsb. exists (S (dims o)). exact Hsb.
    - destruct (create_temp E fn (d_heap s) (d_next s) o pl Ecr) as [T1 T2].
      assert (deep U (d_heap s) (S k) x) as Hd' by (by apply deep_S). clear Hd.
      destruct Hd' as [?|[(c & z & Hz')|(c & xs & Hz' & Hf)]]; [done|..].
      + rewrite T1; [constructor|]. exists z. rewrite Eo in Hz'. by injection Hz' as ->.
      + apply list.Forall_forall. intros sb Hsb. exists k. eapply deep_heap; [apply G1|].
        rewrite list.Forall_forall in Hf. apply Hf. eapply T2; [|exact Hsb].
        rewrite Eo in Hz'. by injection Hz' as ->. }
  apply (dump_subs_kw _ _ a); [|exact W2|exact Hh1| |exact Hsubs].
  - intros y nm' at' t k' Wt Ht' Hat' Hdt. split.
    + eapply IH; eauto. lia.
    + intros t' r Hr. destruct (dump_frame E L kw tbl HL fuel y a nm' at' t t' r) as (A & B & _); auto. lia.
  - eapply create_at; exact Ecr.
Qed.
End Kw.

Lemma dump_file_kw C kw kw' opts x p m f :
  tree f -> world_ok (c_world C) -> free_above m -> no_zero_dim (m_heap m) x ->
  dump_file C kw opts x p m f = dump_file C kw' opts x p m f.
Proof.
  intros Ht HW Hm (U & HxU & HU). unfold dump_file.
  destruct (root_for_dump f p) as [f1 [root|e]] eqn:Er; [|done].
  destruct (root_for_dump_spec _ _ _ _ Ht Er) as (T1 & _ & _ & _ & R). destruct (R root eq_refl) as (_ & n & Hn & _).
  unfold dump_root.
  destruct (with_options (stamp C f1 root) root opts) as [f2 r2] eqn:Ew.
  destruct (with_options_spec _ _ _ _ _ _ _ Hn Ew) as (S1 & N1 & R1 & O1 & ->).
  pose proof (fsteps_tree _ _ S1 T1) as T2.
  destruct (snd (dump_options opts (stamped C (nd_attrs n)))) as [chain|e]; [|done].
  unfold dump_into. destruct (create_node f2 root n_table (BGroup [])) as [[f3 tbl]|e] eqn:Ec; [|done].
  assert (wf_file f2) as Hwf by apply T2.
  apply fsteps_group in Ec as S3. pose proof (fsteps_tree _ _ S3 T2) as T3.
  destruct (create_node_spec _ _ _ _ _ _ Hwf Ec) as (pn & Hp & Hg & -> & Hnx & Hna & Hnp & Hne & Hoth).
  pose proof (dump_loader_ok (c_env C) (c_world C) chain HW) as HL.
  rewrite (dump_kw (c_env C) _ kw kw' (f_next f2) HL U (m_heap m) HU (c_fuel C) x root n_data []
    (Dst (m_heap m) (m_next m) f3 ∅ [] []) 0); auto.
  - eapply start_wfs; [apply T3|done|exact Hna|done].
  - apply at_none.
  - by apply deep_in.
Qed.
