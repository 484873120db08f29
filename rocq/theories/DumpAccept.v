(** * DumpAccept: dumping an acceptable graph succeeds *)
From Verif Require Import Base Utf8 Utf8Proofs Dec DecProofs Num NumProofs PyObj H5 Env Create Dump LoadFns LoadModel
  Registry DumpProofs DumpStored RegistryStd Spec Accept LoadBase LoadLeaf LoadCont LoadDict DumpTerm DumpOk.
From Coq Require Import Lia ZifyBool ZifyN.
Local Open Scope N_scope.
Local Open Scope list_scope.
Local Opaque std_loader std_dump dump_loader_of loader_of.

Section Main.
Context (E : env) (HE : env_ok E) (kw : kwargs) (tbl : addr).

(** ** Names in the type table *)
Definition tinv (s : dst) : Prop :=
  exists tn, getn s tbl = Some tn /\ is_group tn = true /\
    forall nm a, alist_get nm (links tn) = Some a ->
      (exists k, k < N.of_nat (length (links tn)) /\ nm = N_dec k) \/ (base_name nm /\ is_Some (alist_get nm (d_bases s))).
Lemma tinv_same s s' : getn s' tbl = getn s tbl -> d_bases s' = d_bases s -> tinv s -> tinv s'.
Proof. intros H1 H2 (tn & T1 & T2 & T3). exists tn. rewrite H1, H2. done. Qed.

Lemma base_name_ok b : base_name b -> name_ok b = Ok tt /\ ascii_encode b = Ok b.
Proof.
  intros (c & r & -> & Hv & _). split; [by apply vis_name|]. unfold ascii_encode.
  assert (forallb (fun c => c <? 128) (c :: r) = true) as ->; [|done].
  apply forallb_forall. intros x Hx. rewrite forallb_forall in Hv. specialize (Hv x Hx). unfold vis in Hv. lia.
Qed.
Lemma base_name_dec b k : base_name b -> b <> N_dec k.
Proof.
  intros (c & r & -> & _ & Hd) He. pose proof (N_dec_digit k) as H. rewrite <- He in H. inversion H; subst. congruence.
Qed.

Lemma alist_get_snoc {K V} `{EqDecision K} (k k' : K) (v : V) l :
  alist_get k (l ++ [(k', v)]) = match alist_get k l with Some w => Some w | None => if decide (k = k') then Some v else None end.
Proof.
  induction l as [|[k0 v0] l IH]; simpl.
  - repeat case_decide; congruence.
  - destruct (decide (k = k0)); [done|]. by rewrite IH.
Qed.

Lemma base_entry_ok base s :
  wf_file (d_file s) -> tinv s -> base_name base -> exists s' b, base_entry tbl kw base s = (s', Ok b) /\ tinv s' /\
    (forall a, a <> tbl -> is_Some (getn s a) -> getn s' a = getn s a).
Proof.
  intros Hwf (tn & T1 & T2 & T3) Hb. destruct (base_name_ok _ Hb) as [B1 B2]. unfold base_entry.
  destruct (alist_get base (d_bases s)) as [b|] eqn:Eb.
  { exists s, b. split_and!; auto. by exists tn. }
  rewrite B2. unfold create_dataset. rewrite no_compression_clean, andb_false_r.
  destruct (create_node_total (d_file s) tbl base (BData (DNull KS1)) tn T1 T2) as (f' & a & Hc); [|done|].
  { destruct (alist_get base (links tn)) as [a|] eqn:Ea; [|done]. destruct (T3 _ _ Ea) as [(k & _ & Hk)|[_ Hs]].
    - by destruct (base_name_dec base k Hb).
    - destruct Hs. congruence. }
  rewrite Hc. destruct (create_node_spec _ _ _ _ _ _ Hwf Hc) as (pn & P1 & P2 & P3 & P4 & P5 & P6 & P7 & P8).
  eexists _, a. split; [reflexivity|]. assert (pn = tn) as -> by (unfold getn in T1; congruence). split.
  - exists (extend tn [(base, a)]). split_and!.
    + exact P6.
    + by rewrite extend_group.
    + rewrite extend_links by done. intros nm a'. rewrite alist_get_snoc. destruct (alist_get nm (links tn)) as [a0|] eqn:Ea.
      * intros [= <-]. destruct (T3 _ _ Ea) as [(k & Hk & ->)|[Hbn [b0 Hb0]]].
        -- left. exists k. split; [|done]. rewrite app_length. simpl. lia.
        -- right. split; [done|]. simpl. destruct (decide (nm = base)); [by eexists|]. by rewrite Hb0.
      * destruct (decide (nm = base)); [|done]. intros _. right. subst nm. split; [done|]. simpl. rewrite decide_True by done. by eexists.
  - intros a' Ha' [n Hn]. apply P8; [done|]. intros ->. unfold getn in Hn. pose proof (Hwf _ _ Hn). lia.
Qed.

Lemma store_type_ok a n pt base s :
  wf_file (d_file s) -> tinv s -> a <> tbl -> getn s a = Some n ->
  pt = CObject \/ (e_pickles_cls E pt = true /\ base_name base) ->
  exists s', store_type E tbl kw a pt base s = (s', Ok tt) /\ tinv s'.
Proof.
  intros Hwf Ht Ha Hn Hpt. unfold store_type. case_bool_decide as Ho; [by exists s|].
  destruct Hpt as [? |[Hpk Hb]]; [done|].
  assert (forall g s n0, getn s a = Some n0 -> tinv s -> tinv (upd_node a g s)) as Hup.
  { intros g t n0 Hn0 Htt. eapply tinv_same; [| |exact Htt].
    - rewrite (getn_upd _ _ _ _ tbl Hn0). by rewrite decide_False by done.
    - apply upd_node_same. }
  destruct (alist_get pt (d_types s)) as [e|] eqn:Et.
  { eexists. split; [reflexivity|]. by eapply Hup. }
  rewrite bool_decide_eq_false_2 by (by destruct Hb as (? & ? & -> & _)). rewrite Hpk. cbn [negb].
  destruct Ht as (tn & T1 & T2 & T3).
  assert (table_size (d_file s) tbl = N.of_nat (length (links tn))) as Hts.
  { unfold table_size. unfold getn in T1. by rewrite T1. }
  destruct (create_node_total (d_file s) tbl (N_dec (table_size (d_file s) tbl)) (BData (DPickleCls pt)) tn T1 T2) as (f' & e & Hc);
    [|apply N_dec_name|].
  { rewrite Hts. destruct (alist_get _ (links tn)) as [a0|] eqn:Ea; [|done]. destruct (T3 _ _ Ea) as [(k & Hk & He)|Hb0].
    - apply N_dec_inj in He. lia.
    - destruct Hb0 as [Hbn _]. by destruct (base_name_dec _ _ Hbn eq_refl). }
  unfold create_dataset. cbn [is_scalar_or_null andb]. rewrite Hc.
  destruct (create_node_spec _ _ _ _ _ _ Hwf Hc) as (pn & P1 & P2 & P3 & P4 & P5 & P6 & P7 & P8).
  assert (pn = tn) as -> by (unfold getn in T1; congruence).
  assert (tinv (set_file f' s)) as Ht1.
  { exists (extend tn [(N_dec (table_size (d_file s) tbl), e)]). split_and!.
    - exact P6.
    - by rewrite extend_group.
    - rewrite extend_links by done. intros nm a'. rewrite alist_get_snoc, app_length. simpl. destruct (alist_get nm (links tn)) as [a0|] eqn:Ea.
      + intros [= <-]. destruct (T3 _ _ Ea) as [(k & Hk & ->)|?]; [|by right]. left. exists k. split; [lia|done].
      + case_decide; [|done]. intros _. left. subst nm. eexists. split; [|done]. lia. }
  assert (wf_file f') as Hwf'.
  { intros c nc Hnc. destruct (decide (c = e)) as [-> |]; [lia|]. destruct (decide (c = tbl)) as [-> |].
    - rewrite P3 in P4. unfold getn in T1. pose proof (Hwf _ _ T1). lia.
    - rewrite P8 in Hnc by done. pose proof (Hwf _ _ Hnc). lia. }
  assert (a <> e) as Hae. { intros ->. unfold getn in Hn. pose proof (Hwf _ _ Hn). lia. }
  destruct (base_entry_ok base (set_file f' s) Hwf' Ht1 Hb) as (s1 & b & Hbe & Ht2 & Hsame). rewrite Hbe.
  assert (getn s1 a = Some n) as Hn1. { rewrite Hsame; [|done|]; unfold getn; simpl; rewrite P8 by done; [exact Hn|by exists n]. }
  assert (getn s1 e = Some (Node (N_dec (table_size (d_file s) tbl)) ∅ (BData (DPickleCls pt)))) as He1.
  { rewrite Hsame; [exact P5|done|]. by eexists. }
  eexists. split; [reflexivity|].
  eapply tinv_same; [| |exact Ht2].
  - rewrite (getn_upd _ _ _ n tbl), decide_False by (done || (unfold getn; simpl; change (getn (upd_node e (set_attr a_base_type (ARef b)) s1) a = Some n); rewrite (getn_upd _ _ _ _ a He1), decide_False by done; done)).
    change (getn (upd_node e (set_attr a_base_type (ARef b)) s1) tbl = getn s1 tbl).
    rewrite (getn_upd _ _ _ _ tbl He1), decide_False by done. done.
  - rewrite (proj1 (proj2 (proj2 (proj2 (proj2 (upd_node_same _ _ _)))))). simpl. apply upd_node_same.
Qed.

(** ** Creating a node *)
Lemma run_plan_ok (U : gset N) parent nm pl s pn :
  wf_file (d_file s) -> tinv s -> parent <> tbl -> plan_good E kw U (d_heap s) (d_next s) pl ->
  getn s parent = Some pn -> is_group pn = true -> alist_get nm (links pn) = None -> name_ok nm = Ok tt ->
  exists s1 a, run_plan kw parent nm pl s = (s1, Ok a) /\ tinv s1.
Proof.
  intros Hwf Ht Hpt Hg Hpn Hgr Hnm Hno. unfold run_plan.
  destruct (create_node_total (d_file s) parent nm (plan_body pl) pn Hpn Hgr Hnm Hno) as (f & a & Hc).
  assert (match p_data pl with
          | Some d => create_dataset (d_file s) parent nm (if p_nocomp pl then no_compression kw else kw) d
          | None => create_node (d_file s) parent nm (BGroup [])
          end = Ok (f, a)) as ->.
  { unfold plan_body in Hc. destruct (p_data pl) as [d|] eqn:Ed; [|done]. unfold create_dataset.
    destruct (_ && _) eqn:Eb; [exfalso|done].
    pose proof (pg_data _ _ _ _ _ _ Hg) as Hd. unfold data_fine in Hd. rewrite Ed in Hd.
    pose proof (no_compression_clean kw) as Hcl.
    apply andb_true_iff in Eb as [E1 E2]. destruct (p_nocomp pl).
    - rewrite Hcl in E2. done.
    - destruct Hd as [Hk|[Hk|Hk]]; [done|congruence|rewrite Hk in E2; done]. }
  rewrite (pg_fail _ _ _ _ _ _ Hg). eexists _, a. split; [reflexivity|].
  destruct (create_node_spec _ _ _ _ _ _ Hwf Hc) as (pn' & P1 & P2 & P3 & P4 & P5 & P6 & P7 & P8).
  destruct Ht as (tn & T1 & T2 & T3).
  assert (tbl <> a) as Hta. { unfold getn in T1. pose proof (Hwf _ _ T1). lia. }
  eapply tinv_same; [| |by exists tn].
  - erewrite getn_upd by exact P5. rewrite decide_False by done. unfold getn. simpl. by rewrite P8 by done.
  - by rewrite (proj1 (proj2 (proj2 (proj2 (proj2 (upd_node_same _ _ _)))))).
Qed.
Lemma dump_ref_ok parent nm at_ t s pn :
  wf_file (d_file s) -> tinv s -> parent <> tbl ->
  getn s parent = Some pn -> is_group pn = true -> alist_get nm (links pn) = None -> name_ok nm = Ok tt ->
  exists s1, dump_ref parent nm at_ t s = (s1, Ok tt) /\ tinv s1.
Proof.
  intros Hwf Ht Hpt Hpn Hgr Hnm Hno. unfold dump_ref.
  destruct (create_node_total (d_file s) parent nm (BData (DRefTo t)) pn Hpn Hgr Hnm Hno) as (f & a & Hc).
  unfold create_dataset. cbn [is_scalar_or_null existsb andb]. rewrite Hc. eexists. split; [reflexivity|].
  destruct (create_node_spec _ _ _ _ _ _ Hwf Hc) as (pn' & P1 & P2 & P3 & P4 & P5 & P6 & P7 & P8).
  destruct Ht as (tn & T1 & T2 & T3).
  assert (tbl <> a) as Hta. { unfold getn in T1. pose proof (Hwf _ _ T1). lia. }
  eapply tinv_same; [| |by exists tn].
  - erewrite getn_upd by exact P5. rewrite decide_False by done. unfold getn. simpl. by rewrite P8 by done.
  - by rewrite (proj1 (proj2 (proj2 (proj2 (proj2 (upd_node_same _ _ _)))))).
Qed.

Context (h0 : heap) (U : gset N).
Context (HU : forall y, y ∈ U -> exists o, h0 !! y = Some o /\ acceptable E kw h0 o /\ forall z, z ∈ refs o -> z ∈ U).
Context (HL : loader_ok E std_dump).

Lemma dump_node_ok x o parent nm at_ s pn :
  wfs std_dump tbl s -> tinv s -> parent <> tbl -> h0 ⊆ d_heap s -> good E U (d_heap s) x -> d_heap s !! x = Some o ->
  getn s parent = Some pn -> is_group pn = true -> alist_get nm (links pn) = None -> name_ok nm = Ok tt ->
  exists s1 a memo subs, dump_node E std_dump kw tbl o parent nm at_ s = (s1, Ok (a, memo, subs)) /\ tinv s1 /\
    exists pl, plan_good E kw U (d_heap s) (d_next s) pl /\ (forall pt fn base m pl', std_dump (ocls o) = Ok (pt, (fn, base, m)) ->
      create E fn (d_heap s) (d_next s) o = Ok pl' -> pl' = pl).
Proof.
  intros Hw Ht Hpt Hh Hgx Ho Hpn Hgr Hnm Hno.
  destruct (good_acceptable E HE kw h0 U HU (d_heap s) x Hh Hgx) as (o' & Ho' & (H1 & H4 & H2) & H3).
  rewrite Ho in Ho'. inversion Ho'; subst o'. clear Ho'.
  destruct (create_accepted E HE kw h0 U HU (d_heap s) Hh (d_next s) (ws_heap _ _ _ Hw) o H1 H2 H3) as (pt & fn & base & memo & pl & C1 & C2 & C3 & C4).
  unfold dump_node. rewrite C1, C2.
  destruct (run_plan_ok U parent nm pl s pn (ws_file _ _ _ Hw) Ht Hpt C3 Hpn Hgr Hnm Hno) as (s1 & a & Hrp & Ht1). rewrite Hrp.
  destruct (run_plan_spec std_dump tbl _ _ _ _ _ _ _ Hw Hpt Hrp) as (W1 & G1 & M1 & Hh1 & X1 & P1 & -> & Ha & Htb & Hpf & Hn & _).
  set (a := f_next (d_file s)) in *.
  assert (a <> tbl) as Hat. { destruct (ws_tbl _ _ _ Hw) as (tn & Etn & _). pose proof (ws_file _ _ _ Hw _ _ Etn). lia. }
  destruct (store_type_ok a _ pt base s1 (ws_file _ _ _ W1) Ht1 Hat Hn) as (s2 & Hst & Ht2).
  { destruct C4 as [-> |(-> & C5 & C6)]; [by left|right]. split; [by apply H4|done]. }
  rewrite Hst. eexists _, a, memo, (p_subs pl). split; [reflexivity|].
  destruct (store_type_spec _ _ _ _ _ _ _ _ _ _ _ _ _ _ HL W1 C1 Hn Htb Hat Hst) as (W2 & G2 & M2 & Hh2 & X2 & S2 & _).
  destruct (S2 eq_refl) as (te & Hn2 & _).
  split.
  - eapply tinv_same; [| |exact Ht2].
    + rewrite (getn_upd _ _ _ _ tbl Hn2), decide_False by done. done.
    + apply upd_node_same.
  - exists pl. split; [done|]. intros pt' fn' base' m' pl' L1 L2. inversion L1; subst. congruence.
Qed.

Lemma dump_subs_accepted (rec : loc -> pystr -> list (pystr * attrv) -> dst -> dst * res unit) a subs :
  (forall y nm at_ t t' r pn, wfs std_dump tbl t -> tinv t -> at_form at_ -> h0 ⊆ d_heap t -> good E U (d_heap t) y ->
     getn t a = Some pn -> is_group pn = true -> alist_get nm (links pn) = None -> name_ok nm = Ok tt ->
     rec y nm at_ t = (t', r) ->
     r = Err OutOfFuel \/ (r = Ok tt /\ tinv t' /\ wfs std_dump tbl t' /\ d_heap t ⊆ d_heap t' /\ exists c, getn t' a = Some (extend pn [(nm, c)]))) ->
  forall s s' r pn, wfs std_dump tbl s -> tinv s -> h0 ⊆ d_heap s ->
    Forall (fun sb => at_form (snd sb) /\ good E U (d_heap s) (snd (fst sb)) /\ name_ok (fst (fst sb)) = Ok tt /\
              alist_get (fst (fst sb)) (links pn) = None) subs ->
    NoDup (map (fun sb => fst (fst sb)) subs) ->
    getn s a = Some pn -> (is_group pn = true \/ subs = []) ->
    dump_subs rec subs s = (s', r) -> r = Err OutOfFuel \/ (r = Ok tt /\ tinv s').
Proof.
  intros Hrec. induction subs as [|[[nm y] at_] subs IH]; intros s s' r pn Hw Ht Hh Hall Hnd Hpn Hg Hd; cbn [dump_subs] in Hd.
  { inversion Hd; subst. by right. }
  inversion Hall as [|? ? (A1 & A2 & A3 & A4) Hall']; subst. cbn [fst snd] in *. cbn [map] in Hnd. apply list.NoDup_cons in Hnd as [Hni Hnd].
  destruct Hg as [Hg|?]; [|done].
  destruct (rec y nm at_ s) as [s1 r1] eqn:Er.
  destruct (Hrec _ _ _ _ _ _ _ Hw Ht A1 Hh A2 Hpn Hg A4 A3 Er) as [-> |(-> & Ht1 & Hw1 & Hh1 & c & Hpn1)].
  { left. by inversion Hd. }
  eapply (IH s1 s' r (extend pn [(nm, c)])); eauto.
  - by etrans.
  - rewrite list.Forall_forall in Hall' |- *. intros sb Hsb. destruct (Hall' sb Hsb) as (B1 & B2 & B3 & B4). split_and!; auto.
    + by eapply (good_mono E kw h0 U HU (d_heap s)).
    + rewrite extend_links by done. rewrite alist_get_snoc, B4. rewrite decide_False; [done|]. intros <-. apply Hni.
      apply elem_of_list_fmap. by exists sb.
  - left. by rewrite extend_group.
Qed.

Lemma dump_accepted fuel : forall x parent nm at_ s s' r pn,
  wfs std_dump tbl s -> tinv s -> parent <> tbl -> at_form at_ -> h0 ⊆ d_heap s -> good E U (d_heap s) x ->
  getn s parent = Some pn -> is_group pn = true -> alist_get nm (links pn) = None -> name_ok nm = Ok tt ->
  dump_ fuel E std_dump kw tbl x parent nm at_ s = (s', r) ->
  r = Err OutOfFuel \/ (r = Ok tt /\ tinv s').
Proof.
  induction fuel as [|fuel IH]; intros x parent nm at_ s s' r pn Hw Ht Hpt Hat Hh Hgx Hpn Hgr Hnm Hno; cbn [dump_].
  { intros [= <- <-]. by left. }
  destruct (d_memo s !! x) as [t|] eqn:Em.
  { destruct (dump_ref_ok parent nm at_ t s pn (ws_file _ _ _ Hw) Ht Hpt Hpn Hgr Hnm Hno) as (s1 & -> & Ht1).
    intros [= <- <-]. by right. }
  assert (is_Some (d_heap s !! x)) as [o Ho].
  { by eapply (good_known E kw h0 U HU). }
  rewrite Ho.
  destruct (dump_node_ok x o parent nm at_ s pn Hw Ht Hpt Hh Hgx Ho Hpn Hgr Hnm Hno) as (s1 & a & memo & subs & Hd & Ht1 & pl & Hpg & Huniq).
  rewrite Hd.
  destruct (dump_node_spec E std_dump kw tbl HL _ _ _ _ _ _ _ Hw Hpt Hd)
    as (W1 & G1 & M1 & P1 & -> & Ha & Hta & pt & fn & base & pl' & te & EL & Ecr & Hpf & <- & Hh1 & Hn & _ & _ & pn' & Hpn' & _).
  assert (pl' = pl) as -> by (by eapply Huniq). clear Huniq.
  set (a := f_next (d_file s)) in *.
  set (s2 := if memo then set_memo x a s1 else s1).
  assert (wfs std_dump tbl s2) as W2.
  { unfold s2. destruct memo; [|done]. apply set_memo_wfs; auto.
    - exists o. eapply lookup_weaken; [exact Ho|apply G1].
    - congruence.
    - intros y Hy. rewrite M1 in Hy. pose proof (ws_memo_lt _ _ _ Hw _ _ Hy). lia. }
  assert (tinv s2) as Ht2. { unfold s2. destruct memo; [|done]. by eapply tinv_same; [| |exact Ht1]. }
  assert (d_heap s2 = d_heap s1) as Hhs by (unfold s2; by destruct memo).
  assert (forall b, getn s2 b = getn s1 b) as Hg2 by (intros; unfold s2; by destruct memo).
  assert (d_heap s ⊆ d_heap s1) as Hsub by apply G1.
  intros Hs.
  pose proof Hn as Hn'. rewrite <- Hg2 in Hn'.
  refine (dump_subs_accepted (fun y nm at_ => dump_ fuel E std_dump kw tbl y a nm at_) a (p_subs pl) _ _ _ _ _ W2 Ht2 _ _ _ Hn' _ Hs).
  - intros y nm' at' t t' r' pn1 Wt Tt At Ht' Gy N1 N2 N3 N4 Hr.
    destruct (IH y a nm' at' t t' r' pn1 Wt Tt ltac:(lia) At Ht' Gy N1 N2 N3 N4 Hr) as [-> |[-> Tt']]; [by left|right].
    split_and!; auto.
    + assert (a <> tbl) as Hat' by lia. apply (dump_frame E std_dump kw tbl HL _ _ _ _ _ _ _ _ Wt Hat' At Hr).
    + assert (a <> tbl) as Hat' by lia. apply (gr_heap tbl (eq a)). apply (dump_frame E std_dump kw tbl HL _ _ _ _ _ _ _ _ Wt Hat' At Hr).
    + assert (a <> tbl) as Hat' by lia.
      assert (a < f_next (d_file t)) as Haf by (by eapply Wt). assert (tbl < f_next (d_file t)) as Htf.
      { destruct (ws_tbl _ _ _ Wt) as (tn & Etn & _). by eapply Wt. }
      destruct (dump_stored E std_dump kw tbl HL _ _ _ _ _ _ _ (f_next (d_file t)) Wt Hat' At (N.le_refl _) Htf Haf Hr)
        as (_ & _ & _ & c & pn2 & _ & Q1 & _ & Q2). exists c. rewrite N1 in Q1. inversion Q1; subst pn2. exact Q2.
  - by rewrite Hhs; etrans.
  - pose proof (create_at E fn _ _ _ _ Ecr) as Hats.
    rewrite list.Forall_forall in Hats |- *. intros sb Hsb. split_and!.
    + by apply Hats.
    + rewrite Hhs. apply (pg_targets _ _ _ _ _ _ Hpg sb Hsb); [done|]. intros i t Hit. rewrite Hh1.
      destruct (put_temps_spec std_dump tbl s (p_temps pl) Hw) as (_ & _ & T). by apply T.
    + pose proof (pg_names _ _ _ _ _ _ Hpg) as Hns. rewrite list.Forall_forall in Hns. by apply Hns.
    + unfold plan_body. by destruct te, (p_data pl).
  - apply (pg_nodup _ _ _ _ _ _ Hpg).
  - destruct (pg_group _ _ _ _ _ _ Hpg) as [Hs0|Hs0]; [by right|left]. unfold plan_body. rewrite Hs0. by destruct te.
Qed.
End Main.
