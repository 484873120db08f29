(** * LoadAll: what was dumped loads back as the same graph *)
From stdpp Require Import relations.
From Verif Require Import Base Utf8 Utf8Proofs Dec DecProofs Num NumProofs PyObj H5 Env Create Dump
  LoadFns LoadModel Registry DumpProofs DumpStored RegistryStd Spec PartSpec LoadBase ArrayProofs Damage Recover LoadInv LoadLeaf LoadCont LoadMain LoadDict.
From Coq Require Import Lia ZifyBool ZifyN.
Local Open Scope N_scope.
Local Open Scope list_scope.
Local Opaque std_loader std_dump.

Lemma list_subs_map items : list_subs items = map list_sub (enum_from 0 items).
Proof. unfold list_subs. rewrite enumerate_from. apply map_ext. by intros [i l]. Qed.

Lemma list_items_group E h items pl :
  create_list_items E h items = Ok pl -> p_data pl = None ->
  p_attrs pl = [(a_num_items, AInt (Z.of_nat (length items)))] /\ p_subs pl = map list_sub (enum_from 0 items).
Proof.
  unfold create_list_items. destruct items as [|x r]; [by intros [= <-]|].
  destruct (check_iterable_item_type E h x r) as [[[d| | |]|]|]; cbn [res_bind]; try done.
  - destruct (write_items _ _ _). by intros [= <-].
  - intros [= <-] _. split; [done|]. apply list_subs_map.
Qed.

Lemma Forall2_map_l {A B C} (P : B -> C -> Prop) (f : A -> B) l ls :
  Forall2 P (map f l) ls -> Forall2 (fun p lk => P (f p) lk) l ls.
Proof. apply Forall2_fmap_l. Qed.

Section Load.
Context (E : env) (HE : env_ok E) (tbl lo : addr) (s : dst).
Context (Hw : wfs std_dump tbl s).
Context (Hst : forall y a, d_memo s !! y = Some a -> stored E std_dump lo s y a).
Context (Htr : forall a n, getn s a = Some n -> NoDup (map fst (links n))).

Notation H := (d_heap s).
Notation F := (d_file s).
Notation inv := (inv E s).
Notation rel := (rel E s).
Notation loaded := (loaded E s).
Notation loads := (loads E s).
Notation loads_at := (loads_at E s).
Notation fold_ok := (fold_ok E s).

Lemma redirected_sparse c k : base_cls c = CSparse k -> redirected KSparse c = false.
Proof. intros Hc. unfold redirected. rewrite (bool_decide_eq_false_2 (c = return_first)); [done|]. by intros ->. Qed.

(** A group whose members load and whose container puts them together. *)
Lemma group_loads {A : Type} (f : A -> sub) (as_ : list A) y a n pt base orig k ls :
  getn s a = Some n -> nd_body n = BGroup ls ->
  resolve_type E false F n = Ok (Resolved pt base orig true) ->
  ld_load std_loader pt base = Ok (pt, true) ->
  ld_conts std_loader base = Some k -> k <> KExpand -> redirected k pt = false ->
  Forall2 (fun p lk => child_ok E std_dump lo s (f p) lk) as_ ls ->
  (forall p, p ∈ as_ -> let z := snd (fst (f p)) in graph_part E H z /\ dep s z y /\
     forall b, d_memo s !! z = Some b -> loads b z) ->
  (exists N0, forall fu, (N0 <= fu)%nat -> fold_ok fu k (nd_attrs n) orig pt y f as_) ->
  exists N, forall fu st, (N <= fu)%nat -> inv st -> l_memo st !! a = None ->
    exists st1 m v, load_ (S fu) E std_loader F a st = Ok (memo_put a v (set_mem m st1), v) /\
      inv st1 /\ ext st st1 /\ news_below s y st st1 /\ loaded st1 y m v.
Proof.
  intros Hn Hb Hr Hld Hk Hne Hrd Hls Hp [N0 Hfold]. revert Hr Hld Hk.
  destruct (members_perm E HE as_ ls _ a Hls) as (qs & Hqs & Hperm & Hq).
  assert (forall p lk, (p, lk) ∈ qs -> p ∈ as_) as Hin.
  { intros p lk Hin. rewrite <- Hperm. apply elem_of_list_fmap. by exists (p, lk). }
  destruct (loads_all E lo s Hst (fun q : A * (pystr * addr) => (snd (snd q), snd (fst (f (fst q))))) qs) as [N1 HN1].
  { intros [p lk] Hq'. simpl. destruct (Hp p (Hin _ _ Hq')) as (G1 & G2 & G3).
    specialize (Hq _ _ Hq'). destruct (f p) as [[nm z] at_] eqn:Ef. simpl in *.
    exact (child_loads E tbl lo s Hw Hst nm z at_ lk G1 G3 Hq). }
  intros Hr Hld Hk. exists (Nat.max N0 N1). intros fu st Hfu Hi Hm. revert Hr Hld Hk.
  destruct (Hfold fu ltac:(lia) (map fst qs) Hperm) as (I & I0 & I1 & I2 & I3).
  destruct (members_loop E lo s Hst k y f (fun dn cs st => I (map fst dn) cs st) fu N1 qs) with (rest := qs) (dn := @nil (A * (pystr * addr))) (cs := cont_init k (nd_attrs n)) (st := st)
    as (st1 & cs & R1 & R2 & R3 & R4 & R5).
  - lia.
  - intros p lk Hq'. split_and!; [by apply Hq| |].
    + by apply (Hp p (Hin _ _ Hq')).
    + exact (HN1 (p, lk) Hq').
  - intros dn p lk rest cs st2 nd v m0 Hdn HI Hi2 Hrel Hat Hm0.
    destruct (I1 (map fst dn) p (map fst rest) cs st2 v m0) as (m & cs' & S1 & S2 & S3 & S4); auto.
    { rewrite Hdn, map_app. done. }
    exists m, cs'. rewrite Hat. split_and!; auto. rewrite map_app. exact S4.
  - intros dn cs st2 st3 HI A1 A2 A3. by eapply I2.
  - done.
  - by apply I0.
  - done.
  - destruct (I3 cs st1 R5 R2) as (m & v & C1 & C2).
    intros Hr Hld Hk. exists st1, m, v. split; [|auto].
    eapply (load_cont fu E F a st n (Resolved pt base orig true) pt true k (map snd qs) st1 cs m v Hm Hn Hr Hld eq_refl Hk Hrd).
    + rewrite <- Hqs. unfold members. rewrite Hb. clear Hld Hk. by destruct k.
    + exact R1.
    + exact C1.
Qed.

(** Lists and strings made for an array. *)
Lemma built_ok (P : loc -> Prop) z : (forall x, P x -> graph_part E H x) -> built H P z -> graph_part E H z.
Proof.
  intros HP Hb. induction Hb as [z Hz|z t Hz|z xs Hz Hx IH Hl]; [by apply HP| |].
  - econstructor; [exact Hz|constructor| | |done|].
    + intros k Hk. repeat (apply elem_of_cons in Hk as [-> |Hk]; [by vm_compute|]). inversion Hk.
    + unfold parts_ok. cbn [ocls oval]. by rewrite (ok_imports E HE CStr).
    + intros x Hx. inversion Hx.
  - econstructor; [exact Hz|apply st_seq; [by left|exact Hl]| | |done|exact IH].
    + intros k Hk. repeat (apply elem_of_cons in Hk as [-> |Hk]; [by vm_compute|]). inversion Hk.
    + unfold parts_ok. cbn [ocls oval]. by rewrite (ok_imports E HE CList).
Qed.

(** Members of recovered groups as the specification has them. *)
Lemma has_members_map {A B : Type} (items : list (pystr * (loc * option attrs))) (ps : list A) (g : A -> B) (P : A -> pystr -> loc -> option attrs -> Prop) (Q : B -> pystr -> loc -> option attrs -> Prop) qs :
  map g ps = qs -> (forall p nm v oa, p ∈ ps -> P p nm v oa -> Q (g p) nm v oa) ->
  has_members items ps P -> has_members items qs Q.
Proof.
  intros <- HPQ (nms & H1 & H2 & H3). exists nms. split; [done|]. split; [done|].
  apply Forall2_fmap_l. clear H1 H2. induction H3 as [|p nm ps nms (v & oa & Hi & Hp) H3 IH]; constructor.
  - exists v, oa. split; [done|]. apply HPQ; [by left|done].
  - apply IH. intros. apply HPQ; [by right|done].
Qed.
Lemma seq_members c xs st items :
  inv st -> has_members items (enum_from 0 xs) (part E s list_sub st) -> group_kept H (m_heap (l_mem st)) (rel st) (Obj c (VSeq xs)) items.
Proof.
  intros _ Hm. unfold group_kept. cbn [oval]. rewrite enumerate_from. eapply has_members_impl; [|exact Hm].
  intros [i x] nm v oa (H1 & H2 & H3). unfold seq_part. cbn [fst snd] in *. split_and!; auto.
  intros a Ha. destruct (H3 _ Ha) as [m0 ->]. unfold rec_attrs. rewrite lookup_delete_ne by done. cbn [list_sub snd].
  unfold attrs_update. simpl foldl. apply lookup_insert.
Qed.
Lemma name_members o st items :
  match oval o with
  | VMasked d m => inv st -> has_members items [(str "data", d); (str "mask", m)] (part E s name_sub st) ->
      group_kept H (m_heap (l_mem st)) (rel st) o items
  | VSparse d i p sh => inv st -> has_members items [(str "data", d); (str "indices", i); (str "indptr", p); (str "shape", sh)] (part E s name_sub st) ->
      group_kept H (m_heap (l_mem st)) (rel st) o items
  | _ => True
  end.
Proof.
  unfold group_kept. destruct (oval o); try done; intros _ Hm; (eapply has_members_impl; [|exact Hm]);
    intros [nm' x] nm v oa (H1 & H2 & _); by split.
Qed.

(** An object stored as a group. *)
Lemma group_case y o a at_ pl ls :
  graph_part E H y -> H !! y = Some o -> e_imports E (ocls o) = true -> placed E std_dump s y a at_ pl true ls -> at_form at_ ->
  Forall2 (child_ok E std_dump lo s) (p_subs pl) ls -> p_data pl = None ->
  (forall z b, dep s z y -> graph_part E H z -> d_memo s !! z = Some b -> loads b z) ->
  exists N, forall fu st, (N <= fu)%nat -> inv st -> l_memo st !! a = None ->
    exists st1 m v, load_ (S fu) E std_loader F a st = Ok (memo_put a v (set_mem m st1), v) /\
      inv st1 /\ ext st st1 /\ news_below s y st st1 /\ loaded st1 y m v.
Proof.
  intros Hg Ho Him Hpl Hat Hls Hd IH.
  destruct (placed_class E s y o a at_ pl true ls Hg Ho Him Hpl Hat)
    as (h0 & nx & fn & base & n & Hh0 & Hcr & Hpf & Htm & Hn & Hbody & Hattr & Hc).
  unfold plan_body in Hbody. rewrite Hd in Hbody. simpl in Hbody.
  destruct Hc as [(Hans & Hr & Hld & _)|(_ & _ & -> & _)].
  2: { simpl in Hcr. unfold create_pickled in Hcr. destruct (oval o); try discriminate.
       destruct (e_pickles _ _ _); inversion Hcr; subst pl; discriminate. }
  assert (is_group n = true) as Hgr by (unfold is_group; by rewrite Hbody).
  rewrite Hgr in Hr. clear Hgr.
  inversion Hg as [? o' Ho' Hso Hout Hpo _ Hch]; subst. rewrite Ho in Ho'. inversion Ho'; subst o'. clear Ho'.
  unfold parts_ok in Hpo. rewrite Him in Hpo.
  rewrite (std_dump_base (ocls o) _ Hout eq_refl) in Hans.
  assert (forall z, z ∈ refs o -> dep s z y) as Hdep. { intros z Hz. exists o. auto. }
  inversion Hso as [|c0 n0 Hnum|str0|c0 b0 Hb0 Hnm|c0 xs Hb0 Hll|c0 xs Hb0 Hdk Hll|c0 kvs Hb0 Hdk Hko Hll|c0 d0 shape vs Hb0 Hsh Hvs|w0 shape vs Hsh Hlen Hw1 Hvs|shape xs Hsh Hlen Hel Hnu Hrow|d0|c0 d0 m0 Hb0|c0 k0 d0 i0 p0 s0 Hb0|c0 k0 n0 Hb0]; subst o; cbn [ocls oval refs] in *.
  - (* None *)
    exfalso. clear Hr Hld. inversion Hans.
  - (* numbers *)
    exfalso. clear Hr Hld. unfold number_ok in Hnum.
    destruct (base_cls c0) as [| | | | | | | | | | | | | | | | | |d1| | | | | | | | | | | | | | | |] eqn:Eb; try done.
    rewrite np_scalar_item in Hans. inversion Hans.
  - (* str *)
    exfalso. clear Hr Hld. inversion Hans; subst. simpl in Hcr. unfold create_listlike, create_text in Hcr. simpl in Hcr.
    destruct (utf8_encode str0); simpl in Hcr; [|done]. inversion Hcr; subst pl. discriminate.
  - (* bytes *)
    exfalso. clear Hr Hld. rewrite Hb0 in Hans. inversion Hans; subst. simpl in Hcr. unfold create_listlike in Hcr. simpl in Hcr.
    rewrite (isinst_base c0 CBytes), Hb0, orb_true_r in Hcr by done. unfold create_text in Hcr. simpl in Hcr.
    destruct (ascii_encode (cls_name c0)); inversion Hcr; subst pl; discriminate.
  - (* list and tuple *)
    assert (fn = FList /\ ld_conts std_loader base = Some KList) as [-> Hk].
    { clear -Hans Hb0. destruct Hb0 as [Hb0|Hb0]; rewrite Hb0 in Hans; inversion Hans; subst; split; auto using lc_list, lc_tuple. }
    assert (create_list_items E h0 xs = Ok pl) as Hcl.
    { clear -Hcr Hb0. simpl in Hcr. unfold create_listlike in Hcr. simpl in Hcr.
      rewrite (isinst_base c0 CStr), (isinst_base c0 CBytes) in Hcr by done.
      destruct Hb0 as [Hb0|Hb0]; rewrite Hb0 in Hcr; exact Hcr. }
    destruct (list_items_group _ _ _ _ Hcl Hd) as [Hpa Hps]. rewrite Hps in Hls. apply Forall2_map_l in Hls.
    refine (group_loads list_sub (enum_from 0 xs) y a n c0 base base KList ls Hn Hbody Hr Hld Hk _ eq_refl Hls _ _); [discriminate| |].
    + intros [i x] Hin. simpl. clear Hr Hld Hk.
      assert (x ∈ xs) as Hx. { rewrite <- (enum_from_snd xs 0). apply elem_of_list_fmap. by exists (i, x). }
      split_and!; auto.
    + exists O. intros fu _. apply (list_fold E lo s Hst); auto. clear Hr Hld Hk.
      rewrite Hattr by done. rewrite Hpa. apply lookup_insert.
  - (* set *)
    assert (fn = FSet /\ ld_conts std_loader base = Some KSet) as [-> Hk].
    { clear -Hans Hb0. rewrite Hb0 in Hans; inversion Hans; subst; split; auto using lc_set. }
    assert (create_list_items E h0 xs = Ok pl) as Hcl by exact Hcr.
    destruct (list_items_group _ _ _ _ Hcl Hd) as [Hpa Hps]. rewrite Hps in Hls. apply Forall2_map_l in Hls.
    destruct Hdk as (ks & Hks & Hnd). apply hashes_fuel in Hks as [d0 Hks].
    assert (length (enum_from 0 xs) = length ks) as Hlen.
    { rewrite enum_from_length. by eapply Forall2_length. }
    assert (map fst (zip (enum_from 0 xs) ks) = enum_from 0 xs) as Hz by (apply fst_zip; lia).
    rewrite <- Hz in Hls. apply Forall2_map_l in Hls.
    refine (group_loads set_sub (zip (enum_from 0 xs) ks) y a n c0 base base KSet ls Hn Hbody Hr Hld Hk _ eq_refl Hls _ _); [discriminate| |].
    + intros [[i x] kk] Hin. simpl. clear Hr Hld Hk.
      assert (x ∈ xs) as Hx.
      { rewrite <- (enum_from_snd xs 0). apply elem_of_list_fmap. exists (i, x). split; [done|].
        rewrite <- Hz. apply elem_of_list_fmap. by exists (i, x, kk). }
      split_and!; auto.
    + exists d0. intros fu Hfu. clear Hr Hld Hk. apply (set_fold E tbl lo s Hw Hst d0); auto. apply Hpo. by rewrite isinst_base, Hb0 by done.
  - (* dict *)
    assert (fn = FDict /\ ld_conts std_loader base = Some KDict) as [-> Hk].
    { clear -Hans Hb0. destruct Hb0 as [Hb0|Hb0]; rewrite Hb0 in Hans; inversion Hans; subst; split; auto using lc_dict. }
    revert Hr Hld Hk.
    assert (exists ts ss, dict_subs E h0 nx 0 kvs = Ok (ts, ss) /\ p_temps pl = ts /\ p_subs pl = ss) as (ts & ss & Hds & Hpt & Hps).
    { clear -Hcr. simpl in Hcr. unfold create_dictlike in Hcr. simpl in Hcr.
      destruct (dict_subs E h0 nx 0 kvs) as [[ts ss]|]; simpl in Hcr; [|discriminate]. inversion Hcr; subst pl. by exists ts, ss. }
    destruct (dict_subs_spec _ _ _ _ _ _ _ Hds) as (es & -> & Hidx & Hkv & Hes). clear Hds.
    rewrite Hps in Hls. apply Forall2_map_l in Hls.
    assert (forall e, e ∈ es -> (de_key e, de_val e) ∈ kvs) as Hin.
    { intros e He. rewrite <- Hkv. apply elem_of_list_fmap. by exists e. }
    assert (forall e, e ∈ es -> de_key e ∈ map fst kvs ++ map snd kvs /\ de_val e ∈ map fst kvs ++ map snd kvs) as Hrefs.
    { intros e He. specialize (Hin e He). split; apply elem_of_app; [left|right]; apply elem_of_list_fmap; by exists (de_key e, de_val e). }
    assert (forall e, e ∈ es -> match de_name e with
        | Some (nm, kb) => de_obj e = de_val e /\ exists ko, H !! de_key e = Some ko /\
                            dict_key E nm kb = Ok (Some ko) /\ simple (oval ko) = true
        | None => H !! de_obj e = Some (Obj CTuple (VSeq [de_key e; de_val e])) /\
                  exists ko, H !! de_key e = Some ko /\ key_name E ko = Ok None
        end) as Hes'.
    { intros e He. specialize (Hes e He). destruct (de_name e) as [[nm kb]|].
      - destruct Hes as (Eo & ko & Hko1 & Hko2 & Hko3). split; [done|]. exists ko.
        assert (H !! de_key e = Some ko) as Hko4 by (by eapply lookup_weaken). split; [done|].
        rewrite list.Forall_forall in Hko. destruct (Hko (de_key e)) as (ko' & K1 & K2 & K3 & K4).
        { apply elem_of_list_fmap. exists (de_key e, de_val e). split; [done|]. by apply Hin. }
        rewrite Hko4 in K1. inversion K1; subst ko'.
        assert (graph_part E H (de_key e)) as Hgk by (by apply Hch, Hrefs).
        inversion Hgk as [? o1 Ho1 Hs1 _ _ _ _]; subst. rewrite Hko4 in Ho1. inversion Ho1; subst o1.
        by eapply key_recovered.
      - destruct Hes as [(j & Hj & ->) (ko & Hko1 & Hko2)]. rewrite <- Hpt in Hj. split; [by apply Htm|].
        exists ko. split; [by eapply lookup_weaken|done]. }
    destruct Hdk as (ks & Hks & Hnd). apply hashes_fuel in Hks as [d0 Hks].
    intros Hr Hld Hk. refine (group_loads dict_sub es y a n c0 base base KDict ls Hn Hbody Hr Hld Hk _ eq_refl Hls _ _); [discriminate| |].
    + clear Hr Hld Hk. intros e He. simpl. destruct (Hrefs e He) as [Hrk Hrv]. specialize (Hes' e He).
      assert (graph_part E H (de_obj e) /\ dep s (de_obj e) y) as [G1 G2]; [|split_and!; auto].
      destruct (de_name e) as [[nm kb]|].
      * destruct Hes' as [-> _]. split; auto.
      * destruct Hes' as [Hes' _]. split.
        -- econstructor; [exact Hes'| | | |done|].
           ++ apply st_seq; [by right|]. rewrite list.Forall_forall in Hll. exact (Hll (de_key e, de_val e) (Hin e He)).
           ++ intros k Hk. repeat (apply elem_of_cons in Hk as [-> |Hk]; [by vm_compute|]). inversion Hk.
           ++ unfold parts_ok. cbn [ocls oval]. by rewrite (ok_imports E HE CTuple).
           ++ intros z Hz. assert (z = de_key e \/ z = de_val e) as [-> | ->]; [|auto..].
              unfold refs in Hz. simpl in Hz. clear -Hz. rewrite !elem_of_cons, elem_of_nil in Hz. tauto.
        -- eexists. split; [exact Ho|]. right. left. exists kvs, (de_key e), (de_val e). split_and!; auto.
    + exists d0. intros fu Hfu. clear Hr Hld Hk. eapply (dict_fold E HE tbl lo s Hw Hst d0); eauto.
      intros e He. split; [|by apply Hes']. apply Hpo, elem_of_list_fmap. exists (de_key e, de_val e). auto.
  - (* ndarray *)
    exfalso. clear Hr Hld.
    assert (fn = FNpArray) as ->. { destruct Hb0 as [-> |Hb0]; [|rewrite Hb0 in Hans]; inversion Hans; done. }
    simpl in Hcr. unfold create_np_array in Hcr. simpl in Hcr. destruct shape; [destruct vs as [|? [|]]|]; inversion Hcr; subst pl; discriminate.
  - (* array of strings *)
    assert (fn = FNpArray /\ ld_conts std_loader base = Some KNDArray) as [-> Hk].
    { clear -Hans. inversion Hans; subst; split; auto using lc_ndarray. }
    cbn [create] in Hcr. revert Hr Hld Hk.
    destruct shape as [|n0 shape].
    { exfalso. unfold create_np_array in Hcr. cbn [oval] in Hcr. destruct vs as [|t [|t' vs]]; [discriminate Hcr| |discriminate Hcr].
      destruct (utf8_encode t); simpl in Hcr; [|discriminate]. inversion Hcr; subst pl. discriminate. }
    destruct (strarr_plan E H h0 nx Hh0 w0 (n0 :: shape) vs pl ltac:(discriminate) Hsh Hlen Hcr Htm)
      as (els & ls1 & lss & (_ & Hps & Hpa) & Hle & Hls1 & Hf & Hstr & Hbu).
    rewrite Hps, list_subs_map in Hls. apply Forall2_map_l in Hls.
    intros Hr Hld Hk.
    refine (group_loads list_sub (enum_from 0 els) y a n CNdarray base base KNDArray ls Hn Hbody Hr Hld Hk _ eq_refl Hls _ _); [discriminate| |].
    + intros [i x] Hin. simpl. clear Hr Hld Hk.
      assert (x ∈ els) as Hx. { rewrite <- (enum_from_snd els 0). apply elem_of_list_fmap. by exists (i, x). }
      assert (graph_part E H x) as Gx. { eapply built_ok; [|by apply Hbu]. done. }
      assert (dep s x y) as Dx.
      { eexists. split; [exact Ho|]. right. right. split; [done|]. eapply built_mono; [|by apply Hbu]. done. }
      split_and!; auto.
    + exists O. intros fu _. clear Hr Hld Hk.
      eapply (strarr_fold E HE tbl lo s Hw Hst fu y w0 (n0 :: shape) vs els ls1 lss); eauto; try discriminate.
      * rewrite Hattr by done. rewrite Hpa. simpl. rewrite lookup_insert_ne by done. apply lookup_insert.
      * rewrite Hattr by done. rewrite Hpa. simpl. apply lookup_insert.
  - (* array of objects *)
    assert (fn = FNpArray /\ ld_conts std_loader base = Some KNDArray) as [-> Hk].
    { clear -Hans. inversion Hans; subst; split; auto using lc_ndarray. }
    cbn [create] in Hcr. revert Hr Hld Hk.
    destruct shape as [|n0 shape].
    + unfold create_np_array in Hcr. cbn [oval] in Hcr. destruct xs as [|l [|l' xs]]; [discriminate Hcr| |discriminate Hcr].
      destruct (h0 !! l) as [io|] eqn:El; [|discriminate Hcr].
      rewrite (alone_no_list E s l (Hch l ltac:(left)) Hnu io) in Hcr by (by eapply lookup_weaken).
      inversion Hcr; subst pl. simpl in Hls. change [(str "data", l, [])] with (map sole_sub [l]) in Hls. apply Forall2_map_l in Hls.
      intros Hr Hld Hk.
      refine (group_loads sole_sub [l] y a n CNdarray base base KNDArray ls Hn Hbody Hr Hld Hk _ eq_refl Hls _ _); [discriminate| |].
      * intros x Hx. simpl. clear Hr Hld Hk. split_and!; auto.
      * exists O. intros fu _. clear Hr Hld Hk. inversion Hel; subst.
        apply (sole_fold E tbl lo s Hw Hst); auto; [apply Hpo; left|].
        rewrite Hattr by done. simpl. apply lookup_insert.
    + destruct (objarr_plan E H h0 nx Hh0 (n0 :: shape) xs pl ltac:(discriminate) Hsh Hlen Hrow Hcr Htm)
        as (els & lss & Hle & Hls1 & Hf & Hbu & [(_ & Hps & Hpa)|(? & ? & ? & ? & ? & ? & ? & _ & _ & _ & _ & _ & _ & _ & _ & Hda)]);
        [|congruence].
      rewrite Hps, list_subs_map in Hls. apply Forall2_map_l in Hls.
      intros Hr Hld Hk.
      refine (group_loads list_sub (enum_from 0 els) y a n CNdarray base base KNDArray ls Hn Hbody Hr Hld Hk _ eq_refl Hls _ _); [discriminate| |].
      * intros [i x] Hin. simpl. clear Hr Hld Hk.
        assert (x ∈ els) as Hx. { rewrite <- (enum_from_snd els 0). apply elem_of_list_fmap. by exists (i, x). }
        assert (graph_part E H x) as Gx. { eapply built_ok; [|by apply Hbu]. exact Hch. }
        assert (dep s x y) as Dx.
        { eexists. split; [exact Ho|]. right. right. split; [done|]. by apply Hbu. }
        split_and!; auto.
      * exists O. intros fu _. clear Hr Hld Hk.
        eapply (objarr_fold E HE tbl lo s Hw Hst fu y (n0 :: shape) xs els lss); eauto; try discriminate; [by apply list.Forall_forall|..].
        -- rewrite Hattr by done. rewrite Hpa. simpl. rewrite lookup_insert_ne by done. apply lookup_insert.
        -- rewrite Hattr by done. rewrite Hpa. simpl. apply lookup_insert.
  - (* dtype *)
    exfalso. clear Hr Hld. inversion Hans; subst. simpl in Hcr. inversion Hcr; subst pl. discriminate.
  - (* masked *)
    assert (fn = FNpMasked /\ ld_conts std_loader base = Some KMasked) as [-> Hk].
    { clear -Hans Hb0. rewrite Hb0 in Hans; inversion Hans; subst; split; auto using lc_masked. }
    assert (p_subs pl = map name_sub [(str "data", d0); (str "mask", m0)]) as Hps.
    { clear -Hcr. simpl in Hcr. unfold create_np_masked in Hcr. simpl in Hcr. destruct (h0 !! d0); [|done].
      destruct (arr_dtype_str _); [|done]. inversion Hcr; subst pl. done. }
    rewrite Hps in Hls. apply Forall2_map_l in Hls.
    refine (group_loads name_sub _ y a n c0 base base KMasked ls Hn Hbody Hr Hld Hk _ eq_refl Hls _ _); [discriminate| |].
    + intros [nm x] Hin. simpl. clear Hr Hld Hk.
      assert (x ∈ [d0; m0]) as Hx. { clear -Hin. repeat (apply elem_of_cons in Hin as [[= -> ->]|Hin]; [set_solver|]). inversion Hin. }
      split_and!; auto.
    + exists O. intros fu Hfu. clear Hr Hld Hk. by apply (masked_fold E lo s Hst).
  - (* sparse *)
    assert (fn = FSparse /\ ld_conts std_loader base = Some KSparse) as [-> Hk].
    { clear -Hans Hb0. rewrite Hb0 in Hans. destruct k0; inversion Hans; subst; split; auto using lc_csr, lc_csc, lc_bsr. }
    assert (p_subs pl = map name_sub [(str "data", d0); (str "indices", i0); (str "indptr", p0); (str "shape", s0)]) as Hps.
    { clear -Hcr. simpl in Hcr. unfold create_sparse in Hcr. simpl in Hcr. by inversion Hcr; subst pl. }
    rewrite Hps in Hls. apply Forall2_map_l in Hls.
    refine (group_loads name_sub _ y a n c0 base base KSparse ls Hn Hbody Hr Hld Hk _ _ Hls _ _); [discriminate|by apply (redirected_sparse _ k0)| |].
    + intros [nm x] Hin. simpl. clear Hr Hld Hk.
      assert (x ∈ [d0; i0; p0; s0]) as Hx. { clear -Hin. repeat (apply elem_of_cons in Hin as [[= -> ->]|Hin]; [set_solver|]). inversion Hin. }
      split_and!; auto.
    + exists O. intros fu Hfu. clear Hr Hld Hk. by apply (sparse_fold E HE tbl lo s Hw Hst).
  - (* anything else is pickled *)
    exfalso. clear Hr Hld.
    assert (fn = FPickle) as ->. { destruct (base_cls c0) eqn:Eb; try done; inversion Hans; done. }
    simpl in Hcr. unfold create_pickled in Hcr. simpl in Hcr. destruct (e_pickles _ _ _); inversion Hcr; subst pl; discriminate.
Qed.

(** The same for a class that cannot be imported. *)
Lemma missing_group y o a at_ pl ls :
  graph_part E H y -> H !! y = Some o -> e_imports E (ocls o) = false -> placed E std_dump s y a at_ pl true ls -> at_form at_ ->
  Forall2 (child_ok E std_dump lo s) (p_subs pl) ls -> p_data pl = None ->
  (forall z b, dep s z y -> graph_part E H z -> d_memo s !! z = Some b -> loads b z) ->
  exists N, forall fu st, (N <= fu)%nat -> inv st -> l_memo st !! a = None ->
    exists st1 m v, load_ (S fu) E std_loader F a st = Ok (memo_put a v (set_mem m st1), v) /\
      inv st1 /\ ext st st1 /\ news_below s y st st1 /\ loaded st1 y m v.
Proof.
  intros Hg Ho Him Hpl Hat Hls Hd IH.
  destruct (placed_view E s y a at_ pl true ls Hpl Hat)
    as (o' & h0 & nx & pt & fn & base & n & Hh0 & Ho' & Hans & Hcr & Hpf & Htm & Hn & Hbody & Hattr & Hty).
  rewrite Ho in Ho'. inversion Ho'; subst o'. clear Ho'.
  unfold plan_body in Hbody. rewrite Hd in Hbody. simpl in Hbody.
  inversion Hg as [? o' Ho' Hso Hout Hpo _ Hch]; subst. rewrite Ho in Ho'. inversion Ho'; subst o'. clear Ho'.
  unfold parts_ok in Hpo. rewrite Him in Hpo.
  pose proof Hans as Hd0. rewrite (std_dump_base (ocls o) _ Hout eq_refl) in Hans.
  destruct (first_item (mro (base_cls (ocls o)))) as [it|] eqn:Ei.
  2: { exfalso. inversion Hans; subst. simpl in Hcr. unfold create_pickled in Hcr. destruct (oval o); try discriminate.
       destruct (e_pickles _ _ _); inversion Hcr; subst pl; discriminate. }
  inversion Hans as [[Hpt Hit]]. subst pt it. clear Hans.
  destruct Hty as [[Hobj _]|[Hne (e & He & Hen)]].
  { rewrite Hobj in Ei. vm_compute in Ei. discriminate Ei. }
  pose proof (entry_missing E s _ _ _ _ _ _ Hen He Him Hd0) as Hcm.
  assert (kind_kept o (rec_attrs (<[a_base_type := ABytes base]> (nd_attrs n)))) as Hkk.
  { destruct (rec_attrs_spec (nd_attrs n) base) as (R1 & R2 & _). split; [done|]. intros b Hb.
    by rewrite (base_name_item _ _ _ _ _ Hout Hd0 Hb). }
  assert (NoDup (map fst ls)) as Hnd.
  { pose proof (Htr _ _ Hn) as Hnd. unfold links in Hnd. by rewrite Hbody in Hnd. }
  assert (forall z, z ∈ refs o -> dep s z y) as Hdep. { intros z Hz. exists o. auto. }
  assert (forall (A : Type) (f : A -> sub) as_, p_subs pl = map f as_ ->
      (forall p, p ∈ as_ -> graph_part E H (snd (fst (f p))) /\ dep s (snd (fst (f p))) y) ->
      (forall st items, inv st -> has_members items as_ (part E s f st) -> group_kept H (m_heap (l_mem st)) (rel st) o items) ->
      exists N, forall fu st, (N <= fu)%nat -> inv st -> l_memo st !! a = None ->
        exists st1 m v, load_ (S fu) E std_loader F a st = Ok (memo_put a v (set_mem m st1), v) /\
          inv st1 /\ ext st st1 /\ news_below s y st st1 /\ loaded st1 y m v) as Hgo.
  { intros A f as_ Hps Hp Hgk. rewrite Hps in Hls. apply Forall2_map_l in Hls.
    assert (map (fun p => fst (fst (f p))) as_ = map fst ls) as Hnm.
    { clear -Hls. induction Hls as [|p lk as_ ls Hc Hls IH]; simpl; [done|]. rewrite IH. f_equal.
      destruct (f p) as [[nm z] at']. destruct Hc as (Hc & _). simpl in *. by symmetry. }
    refine (group_loads f as_ y a n CRecoverCustom b_recover base KRecover ls Hn Hbody _ rec_load rec_cont _ eq_refl Hls _ _); [|discriminate| |].
    - destruct Hcm as (e1 & en1 & C1 & C2 & C3 & C4 & C5). unfold resolve_type. rewrite C1, C2, C3. cbn [res_bind].
      rewrite C4, C5. unfold is_group. by rewrite Hbody.
    - intros p Hin. destruct (Hp p Hin). cbv zeta. split_and!; auto.
    - exists O. intros fu _. apply (recover_fold E tbl lo s Hw Hst fu y o); auto. by rewrite Hnm. }
  clear Hcm Hen He Hne.
  inversion Hso as [|c0 n0 Hnum|str0|c0 b0 Hb0 Hnm|c0 xs Hb0 Hll|c0 xs Hb0 Hdk Hll|c0 kvs Hb0 Hdk Hko Hll|c0 d0 shape vs Hb0 Hsh Hvs|w0 shape vs Hsh Hlen Hw1 Hvs|shape xs Hsh Hlen Hel Hnu Hrow|d0|c0 d0 m0 Hb0|c0 k0 d0 i0 p0 s0 Hb0|c0 k0 n0 Hb0]; subst o; cbn [ocls oval refs] in *; try exact (False_ind _ Hpo).
  - (* numbers *)
    exfalso. clear Hgo IH. unfold number_ok in Hnum.
    destruct (base_cls c0) as [| | | | | | | | | | | | | | | | | |d1| | | | | | | | | | | | | | | |] eqn:Eb; try done.
    rewrite np_scalar_item in Ei. inversion Ei.
  - (* bytes *)
    exfalso. clear Hgo IH. rewrite Hb0 in Ei. inversion Ei; subst. simpl in Hcr. unfold create_listlike in Hcr. simpl in Hcr.
    rewrite (isinst_base c0 CBytes), Hb0, orb_true_r in Hcr by done. unfold create_text in Hcr. simpl in Hcr.
    destruct (ascii_encode (cls_name c0)); inversion Hcr; subst pl; discriminate.
  - (* list and tuple *)
    assert (create_list_items E h0 xs = Ok pl) as Hcl.
    { assert (fn = FList) as ->. { destruct Hb0 as [Hb0|Hb0]; rewrite Hb0 in Ei; inversion Ei; done. }
      clear -Hcr Hb0. simpl in Hcr. unfold create_listlike in Hcr. simpl in Hcr.
      rewrite (isinst_base c0 CStr), (isinst_base c0 CBytes) in Hcr by done.
      destruct Hb0 as [Hb0|Hb0]; rewrite Hb0 in Hcr; exact Hcr. }
    destruct (list_items_group _ _ _ _ Hcl Hd) as [Hpa Hps].
    apply (Hgo _ list_sub (enum_from 0 xs) Hps); [|by apply seq_members].
    intros [i x] Hin. simpl.
    assert (x ∈ xs) as Hx. { rewrite <- (enum_from_snd xs 0). apply elem_of_list_fmap. by exists (i, x). }
    split; auto.
  - (* set *)
    assert (create_list_items E h0 xs = Ok pl) as Hcl.
    { assert (fn = FSet) as ->. { rewrite Hb0 in Ei; inversion Ei; done. } exact Hcr. }
    destruct (list_items_group _ _ _ _ Hcl Hd) as [Hpa Hps].
    apply (Hgo _ list_sub (enum_from 0 xs) Hps); [|by apply seq_members].
    intros [i x] Hin. simpl.
    assert (x ∈ xs) as Hx. { rewrite <- (enum_from_snd xs 0). apply elem_of_list_fmap. by exists (i, x). }
    split; auto.
  - (* dict *)
    assert (fn = FDict) as ->. { destruct Hb0 as [Hb0|Hb0]; rewrite Hb0 in Ei; inversion Ei; done. }
    assert (exists ts ss, dict_subs E h0 nx 0 kvs = Ok (ts, ss) /\ p_temps pl = ts /\ p_subs pl = ss) as (ts & ss & Hds & Hpt & Hps).
    { clear -Hcr. simpl in Hcr. unfold create_dictlike in Hcr. simpl in Hcr.
      destruct (dict_subs E h0 nx 0 kvs) as [[ts ss]|]; simpl in Hcr; [|discriminate]. inversion Hcr; subst pl. by exists ts, ss. }
    destruct (dict_subs_spec _ _ _ _ _ _ _ Hds) as (es & -> & Hidx & Hkv & Hes). clear Hds.
    assert (forall e, e ∈ es -> (de_key e, de_val e) ∈ kvs) as Hin.
    { intros e' He. rewrite <- Hkv. apply elem_of_list_fmap. by exists e'. }
    assert (forall e, e ∈ es -> de_key e ∈ map fst kvs ++ map snd kvs /\ de_val e ∈ map fst kvs ++ map snd kvs) as Hrefs.
    { intros e' He. specialize (Hin e' He). split; apply elem_of_app; [left|right]; apply elem_of_list_fmap; by exists (de_key e', de_val e'). }
    assert (forall e, e ∈ es -> match de_name e with
        | Some (nm, kb) => de_obj e = de_val e /\ exists ko, H !! de_key e = Some ko /\ key_name E ko = Ok (Some nm) /\
            utf8_encode (cls_name (ocls ko)) = Ok kb
        | None => H !! de_obj e = Some (Obj CTuple (VSeq [de_key e; de_val e]))
        end) as Hes'.
    { intros e' He. specialize (Hes e' He). destruct (de_name e') as [[nm kb]|].
      - destruct Hes as (Eo & ko & Hko1 & Hko2 & Hko3). split; [done|]. exists ko.
        split; [by eapply lookup_weaken|done].
      - destruct Hes as [(j & Hj & ->) _]. rewrite <- Hpt in Hj. by apply Htm. }
    apply (Hgo _ dict_sub es Hps).
    + intros e' He. simpl. destruct (Hrefs e' He) as [Hrk Hrv]. specialize (Hes' e' He).
      destruct (de_name e') as [[nm kb]|].
      * destruct Hes' as [-> _]. split; auto.
      * split.
        -- econstructor; [exact Hes'| | | |done|].
           ++ apply st_seq; [by right|]. rewrite list.Forall_forall in Hll. exact (Hll (de_key e', de_val e') (Hin e' He)).
           ++ intros k Hk. repeat (apply elem_of_cons in Hk as [-> |Hk]; [by vm_compute|]). inversion Hk.
           ++ unfold parts_ok. cbn [ocls oval]. by rewrite (ok_imports E HE CTuple).
           ++ intros z Hz. assert (z = de_key e' \/ z = de_val e') as [-> | ->]; [|auto..].
              unfold refs in Hz. simpl in Hz. clear -Hz. rewrite !elem_of_cons, elem_of_nil in Hz. tauto.
        -- eexists. split; [exact Ho|]. right. left. exists kvs, (de_key e'), (de_val e'). split_and!; auto.
    + intros st items Hi Hm. unfold group_kept. cbn [oval]. rewrite enumerate_from.
      apply (has_members_map items es (fun e => (de_idx e, (de_key e, de_val e))) (part E s dict_sub st)).
      * clear -Hidx Hkv. subst kvs. revert Hidx. generalize 0.
        induction es as [|e es IH]; intros i Hidx; simpl in *; [done|]. inversion Hidx. f_equal. by apply IH.
      * intros e' nm v oa He (Hp1 & Hp2 & Hp3). specialize (Hes' e' He). unfold dict_part. split.
        -- intros a' Ha'. destruct (Hp3 _ Ha') as [mm ->]. unfold rec_attrs. rewrite lookup_delete_ne by done.
           unfold dict_sub. cbn [snd]. unfold attrs_update. simpl foldl. rewrite lookup_insert_ne by done. apply lookup_insert.
        -- unfold dict_sub in Hp1, Hp2. cbn [fst snd] in Hp1, Hp2. destruct (de_name e') as [[nm' kb]|] eqn:Edn.
           ++ left. destruct Hes' as (Eo & ko & Hk1 & Hk2 & Hk3). rewrite Eo in Hp2. split; [|done].
              intros ko' Hko'. rewrite Hk1 in Hko'. inversion Hko'; subst ko'. clear Hko'.
              assert (forall a', oa = Some a' -> a' !! a_key_base_type = Some (ABytes kb)) as Hkb.
              { intros a' Ha'. destruct (Hp3 _ Ha') as [mm ->]. unfold rec_attrs. rewrite lookup_delete_ne by done.
                unfold dict_sub. cbn [snd]. rewrite Edn. unfold attrs_update. simpl foldl. apply lookup_insert. }
              rewrite Hp1. destruct ko as [ck vk]. destruct ck; try exact I; (destruct vk as [|n1|t0| | | | | | | | | | | |]; try exact I); [destruct n1 as [?|z1|?|? ?]; try exact I|]; cbn in Hk2, Hk3.
              ** unfold key_name in Hk2. cbn in Hk2. destruct (str_slashes (Z_dec z1)); inversion Hk2; subst nm'. inversion Hk3; subst kb. by split.
              ** unfold key_name in Hk2. cbn in Hk2. destruct (str_slashes t0); inversion Hk2; subst nm'. inversion Hk3; subst kb. by split.
           ++ right. destruct Hp2 as [Hmr|[(ob & Hob & Hsc & _)|(ob & ? & ? & Hob & Hsc & _)]].
              2, 3: rewrite Hes' in Hob; inversion Hob; subst; done.
              destruct (memo_matched E tbl s Hw _ _ _ Hi Hmr) as (ob & ob' & Hob & Hob' & Hsob).
              rewrite Hes' in Hob. inversion Hob; subst ob. unfold stands_for in Hsob. cbn [ocls] in Hsob.
              rewrite (ok_imports E HE CTuple) in Hsob by done. destruct ob' as [c' v']. destruct Hsob as [Hc Hv]. simpl in Hc, Hv. subst c'.
              destruct v' as [| | | |ys| | | | | | | | | |]; try naive_solver.
      * exact Hm.
  - (* ndarray *)
    exfalso. clear Hgo IH.
    assert (fn = FNpArray) as ->. { destruct Hb0 as [-> |Hb0]; [|rewrite Hb0 in Ei]; inversion Ei; done. }
    simpl in Hcr. unfold create_np_array in Hcr. simpl in Hcr. destruct shape; [destruct vs as [|? [|]]|]; inversion Hcr; subst pl; discriminate.
  - (* masked *)
    assert (p_subs pl = map name_sub [(str "data", d0); (str "mask", m0)]) as Hps.
    { assert (fn = FNpMasked) as ->. { rewrite Hb0 in Ei; inversion Ei; done. }
      clear -Hcr. simpl in Hcr. unfold create_np_masked in Hcr. simpl in Hcr. destruct (h0 !! d0); [|done].
      destruct (arr_dtype_str _); [|done]. inversion Hcr; subst pl. done. }
    apply (Hgo _ name_sub _ Hps); [|intros st items; exact (name_members (Obj c0 (VMasked d0 m0)) st items)].
    intros [nm x] Hin. simpl.
    assert (x ∈ [d0; m0]) as Hx. { clear -Hin. repeat (apply elem_of_cons in Hin as [[= -> ->]|Hin]; [set_solver|]). inversion Hin. }
    split; auto.
  - (* sparse *)
    assert (p_subs pl = map name_sub [(str "data", d0); (str "indices", i0); (str "indptr", p0); (str "shape", s0)]) as Hps.
    { assert (fn = FSparse) as ->. { rewrite Hb0 in Ei. destruct k0; inversion Ei; done. }
      clear -Hcr. simpl in Hcr. unfold create_sparse in Hcr. simpl in Hcr. by inversion Hcr; subst pl. }
    apply (Hgo _ name_sub _ Hps); [|intros st items; exact (name_members (Obj c0 (VSparse d0 i0 p0 s0)) st items)].
    intros [nm x] Hin. simpl.
    assert (x ∈ [d0; i0; p0; s0]) as Hx. { clear -Hin. repeat (apply elem_of_cons in Hin as [[= -> ->]|Hin]; [set_solver|]). inversion Hin. }
    split; auto.
  - (* anything else is pickled *)
    exfalso. clear Hgo IH. destruct (base_cls c0) eqn:Eb; try done; inversion Ei.
Qed.

(** A dataset of a class that cannot be imported. *)
Lemma missing_memo y o a at_ pl ls d :
  graph_part E H y -> H !! y = Some o -> e_imports E (ocls o) = false -> placed E std_dump s y a at_ pl true ls -> at_form at_ ->
  p_data pl = Some d ->
  forall fu st, inv st -> l_memo st !! a = None ->
    exists m v, load_ (S fu) E std_loader F a st = Ok (memo_put a v (set_mem m st), v) /\ loaded st y m v.
Proof.
  intros Hg Ho Him Hpl Hat Hd fu st Hi Hm.
  destruct (missing_data E s y o a at_ pl true ls d Hg Ho Him Hpl Hat Hd) as (n & Hn & Hb & Hdk & Hc).
  assert (forall at', kind_kept o at' ->
    let m := fst (alloc (Obj CRecoveredDataset (VRecD d at')) (l_mem st)) in
    let v := snd (alloc (Obj CRecoveredDataset (VRecD d at')) (l_mem st)) in loaded st y m v) as Hl.
  { intros at' Hk m v. destruct (inv_alloc E lo s Hst st (Obj CRecoveredDataset (VRecD d at')) Hi) as (A1 & A2 & A3 & A4).
    split; [exact A1|]. split; [exact A2|]. split; [|left; exact A4].
    exists o. eexists. split; [done|]. split; [exact A3|]. unfold stands_for. rewrite Him. left. by eexists _, _. }
  destruct Hc as [(b & Hcm & Hkk)|(Hnt & _ & Hkk & k & m & ->)].
  - eexists _, _. split; [|exact (Hl _ Hkk)].
    apply (load_data fu E F a st n (Resolved CRecoverCustom b_recover b false) CRecoverCustom true d _ _ Hm Hn);
      [|exact rec_load|done|exact Hb|].
    + destruct Hcm as (e1 & en1 & C1 & C2 & C3 & C4 & C5). unfold resolve_type. rewrite C1, C2, C3. cbn [res_bind].
      rewrite C4, C5. unfold is_group. by rewrite Hb.
    + cbn [r_base r_orig]. rewrite rec_type. cbn [load_fn]. unfold recover_dataset. by cbn [res_map].
  - eexists _, _. split; [|exact (Hl _ Hkk)].
    apply (load_data fu E F a st n (Resolved CObject b_pickle b_pickle false) CObject true (DPickle (ocls o) k m) _ _ Hm Hn);
      [|apply pickle_load|done|exact Hb|].
    + unfold resolve_type. by rewrite Hnt, Hb.
    + cbn [r_base r_orig]. change b_pickle with (str "pickle"). rewrite lt_pickle. cbn [load_fn load_pickled]. by rewrite Him.
Qed.

(** Every memoised object of a good graph loads. *)
Theorem memo_loads y : graph_part E H y -> forall a, d_memo s !! y = Some a -> loads a y.
Proof.
  intros Hg. pose proof (graph_part_dep E HE tbl lo s Hw Hst y Hg) as Hacc. revert Hg.
  induction Hacc as [y _ IH]. intros Hg a Ha.
  destruct (Hst _ _ Ha) as (_ & _ & at_ & pl & ls & Hat & Hpl & Hls).
  inversion Hg as [? o Ho _ _ _ _ _]; subst.
  assert (exists N, forall fu st, (N <= fu)%nat -> inv st -> l_memo st !! a = None ->
    exists st1 m v, load_ (S fu) E std_loader F a st = Ok (memo_put a v (set_mem m st1), v) /\
      inv st1 /\ ext st st1 /\ news_below s y st st1 /\ loaded st1 y m v) as [N HN].
  { destruct (e_imports E (ocls o)) eqn:Him.
    2: { destruct (p_data pl) as [d|] eqn:Ed; [|by eapply missing_group; eauto].
      exists O. intros fu st _ Hi Hm. destruct (missing_memo y o a at_ pl ls d Hg Ho Him Hpl Hat Ed fu st Hi Hm) as (m & v & L1 & L2).
      exists st, m, v. split; [exact L1|]. split_and!; auto using ext_refl, news_below_refl. }
    destruct (p_data pl) as [d|] eqn:Ed.
    - assert (imported E H y) as Himp by (by exists o).
      destruct (data_loads E tbl lo s Hw Hst y a at_ pl true ls d Hg Himp Hpl Hat Ed) as [N HN].
      exists N. intros fu st Hf Hi Hm. destruct (HN fu st Hf Hi Hm) as (m & v & L1 & L2 & _).
      exists st, m, v. split; [exact L1|]. split_and!; auto using ext_refl, news_below_refl.
    - eapply group_case; eauto. }
  exists (S N). intros fuel st Hf Hi. destruct fuel as [|fu]; [lia|].
  destruct (l_memo st !! a) as [v|] eqn:Em.
  - exists st, v. split; [by apply load_memo|]. split_and!; auto using ext_refl, news_refl.
    left. by exists a.
  - destruct (HN fu st) as (st1 & m & v & L1 & I1 & X1 & N1 & (J1 & J2 & J3 & J4)); [lia|done|done|].
    assert (l_memo (set_mem m st1) !! a = None) as Hnone.
    { simpl. destruct (l_memo st1 !! a) as [w|] eqn:Ew; [exfalso|done].
      destruct (N1 _ _ Ew) as [Hold|[(z & Hz & Hzy)|Hno]]; [congruence| |by destruct (Hno y)].
      assert (z = y) as -> by (by eapply (ws_memo_inj _ _ _ Hw)).
      exact (graph_part_irrefl E HE tbl lo s Hw Hst y Hg Hzy). }
    destruct (inv_memo_put E lo s Hst (set_mem m st1) a y v J1 Ha Hg J3 Hnone J4) as (K1 & K2 & K3).
    eexists _, v. split; [exact L1|]. split_and!; auto.
    + eapply ext_trans; [exact Hst|exact X1|]. eapply ext_trans; [exact Hst|exact J2|exact K2].
    + intros b w Hb. simpl in Hb. destruct (decide (b = a)) as [-> |Hne].
      * right. left. exists y. split; [done|]. apply rtc_refl.
      * rewrite lookup_insert_ne in Hb by done. destruct (N1 _ _ Hb) as [?|[(z & Hz & Hzy)|?]]; [by left|right; left|by do 2 right].
        exists z. split; [done|]. by apply tc_rtc.
Qed.

(** The relation of the invariant is an isomorphism, but for the recovered objects. *)
Lemma inv_restored st y v :
  inv st -> rel st y v -> restored E H y (m_heap (l_mem st)) v.
Proof.
  intros Hi Hr. exists (rel st). split; [done|]. split_and!.
  - intros b w [Hm|[(o & Ho & Hs & Him & Hv)|(o & o' & c & Ho & Hs & Him & Hm & Hc & Hv & Hrec)]].
    + exact (memo_matched E tbl s Hw _ _ _ Hi Hm).
    + exists o, o. split_and!; auto. unfold stands_for. rewrite Him. split; [done|]. unfold scalar in Hs.
      destruct o as [c vv]. simpl in *. destruct vv; try done.
    + exists o, o'. split_and!; auto. unfold stands_for. rewrite Him. eapply recovered_mono; [exact Hrec|done|done].
  - intros b w w' [(a & Ha & Hm)|[(o & Ho & Hs & _)|(o & ? & ? & Ho & Hs & _)]]
      [(a' & Ha' & Hm')|[(o' & Ho' & Hs' & _)|(o' & ? & ? & Ho' & Hs' & _)]] Hns;
      try (by destruct (Hns _ Ho)); try (by destruct (Hns _ Ho')).
    congruence.
  - intros b b' w [(a & Ha & Hm)|[(o & Ho & Hs & _)|(o & ? & ? & Ho & Hs & _)]]
      [(a' & Ha' & Hm')|[(o' & Ho' & Hs' & _ & Hv')|(o' & ob & c & Ho' & Hs' & _ & Hmc & Hc & _)]] Hns;
      try (by destruct (Hns _ Ho)).
    + assert (a = a') as <- by (by eapply (iv_inj _ _ _ Hi)). by eapply (ws_memo_inj _ _ _ Hw).
    + destruct (memo_matched E tbl s Hw st b w Hi) as (o1 & o2 & Ho1 & Ho2 & Hk). { by exists a. }
      rewrite Hv' in Ho2. inversion Ho2; subst o2. destruct (Hns _ Ho1).
      unfold stands_for in Hk. destruct (e_imports E (ocls o1)).
      * destruct Hk as [Hc Hso]. unfold scalar in *. destruct o1 as [c1 v1], o' as [c' v']. simpl in *.
        destruct v'; try done; destruct v1; naive_solver.
      * unfold scalar in Hs'. destruct Hk as [(d & at' & -> & _)|(its & at' & -> & _)]; done.
    + assert (a = c) as -> by (by eapply (iv_inj _ _ _ Hi)). by destruct (Hc b).
Qed.
End Load.
