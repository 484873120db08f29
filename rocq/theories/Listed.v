(** * Listed: the types of the nodes of a dump are entries of its type table *)
From stdpp Require Import relations.
From Verif Require Import Base Utf8 Dec Num PyObj H5 Env Create Dump LoadFns LoadModel Registry RegistryStd Spec DumpProofs DumpStored
  LoadBase LoadLeaf Api DumpClosed ApiProofs Accept DumpOk Table.
From Coq Require Import Lia ZifyBool ZifyN.
Local Open Scope N_scope.
Local Open Scope list_scope.

Section Listed.
Context (tbl lo : addr).

Definition entry_in (f : file) (e : addr) : Prop := exists tn nm, get_node f tbl = Some tn /\ (nm, e) ∈ links tn.
Definition listed (s : dst) : Prop :=
  (forall c e, alist_get c (d_types s) = Some e -> entry_in (d_file s) e) /\
  (forall a n e, lo <= a -> getn s a = Some n -> nd_attrs n !! a_type = Some (ARef e) -> entry_in (d_file s) e).

Lemma entry_in_upd a g s e : (forall n, nd_body (g n) = nd_body n) -> entry_in (d_file s) e -> entry_in (d_file (upd_node a g s)) e.
Proof.
  intros Hg (tn & nm & H1 & H2). destruct (getn s a) as [n|] eqn:Ea.
  2: { unfold upd_node. unfold getn in Ea. rewrite Ea. by exists tn, nm. }
  change (get_node (d_file s) tbl) with (getn s tbl) in H1.
  destruct (decide (tbl = a)) as [Heq|Hne].
  - exists (g tn), nm. change (get_node (d_file (upd_node a g s)) tbl) with (getn (upd_node a g s) tbl).
    rewrite (getn_upd _ _ _ _ _ Ea), decide_True by done. rewrite <- Heq, H1 in Ea. inversion Ea; subst n. split; [done|].
    unfold links. by rewrite Hg.
  - exists tn, nm. change (get_node (d_file (upd_node a g s)) tbl) with (getn (upd_node a g s) tbl).
    rewrite (getn_upd _ _ _ _ _ Ea), decide_False by done. done.
Qed.
Lemma entry_in_create f p nm b f' a e : wf_file f -> create_node f p nm b = Ok (f', a) -> entry_in f e -> entry_in f' e.
Proof.
  intros Hwf Hc (tn & nm' & H1 & H2). destruct (create_node_spec _ _ _ _ _ _ Hwf Hc) as (pn & C1 & C2 & -> & C4 & C5 & C6 & C7 & C8).
  destruct (decide (tbl = p)) as [<- |Hne].
  - rewrite H1 in C1. inversion C1; subst pn. eexists _, nm'. split; [exact C6|]. rewrite extend_links by done. apply elem_of_app. by left.
  - exists tn, nm'. pose proof (Hwf _ _ H1). rewrite C8 by (try done; lia). done.
Qed.

(** Only [a_type] of [a] matters. *)
Lemma listed_upd a g s :
  (forall n, nd_body (g n) = nd_body n) ->
  (forall n e, nd_attrs (g n) !! a_type = Some (ARef e) -> nd_attrs n !! a_type = Some (ARef e) \/ entry_in (d_file s) e) ->
  listed s -> listed (upd_node a g s).
Proof.
  intros Hg He [H1 H2]. destruct (upd_node_same a g s) as (_ & _ & _ & U4 & _ & _). split.
  - intros c e. rewrite U4. intros Hc. apply entry_in_upd; eauto.
  - intros b n e Hb Hn Ha. apply entry_in_upd; [done|]. destruct (getn s a) as [n0|] eqn:Ea.
    2: { unfold upd_node in Hn. unfold getn in Ea. rewrite Ea in Hn. eauto. }
    rewrite (getn_upd _ _ _ _ _ Ea) in Hn. case_decide; [|eauto]. inversion Hn; subst n b.
    destruct (He _ _ Ha); eauto.
Qed.
Lemma listed_attrs a kvs s : no_refs kvs -> listed s -> listed (upd_node a (set_attrs kvs) s).
Proof. intros Hk. apply listed_upd; [done|]. intros n e He. left. simpl in He. by apply attrs_update_ref in He. Qed.
Lemma listed_type a e s : entry_in (d_file s) e -> listed s -> listed (upd_node a (set_attr a_type (ARef e)) s).
Proof. intros He. apply listed_upd; [done|]. intros n e' H. simpl in H. rewrite lookup_insert in H. inversion H; subst. by right. Qed.
Lemma listed_base a b s : listed s -> listed (upd_node a (set_attr a_base_type (ARef b)) s).
Proof. apply listed_upd; [done|]. intros n e' H. simpl in H. rewrite lookup_insert_ne in H by done. by left. Qed.

Lemma listed_create s p nm b f' a s' :
  wf_file (d_file s) -> listed s -> create_node (d_file s) p nm b = Ok (f', a) -> d_file s' = f' ->
  (forall c e, alist_get c (d_types s') = Some e -> alist_get c (d_types s) = Some e \/ entry_in f' e) -> listed s'.
Proof.
  intros Hwf [H1 H2] Hc Hf Ht. pose proof (fun e => entry_in_create _ _ _ _ _ _ e Hwf Hc) as Hk.
  destruct (create_node_spec _ _ _ _ _ _ Hwf Hc) as (pn & C1 & C2 & -> & C4 & C5 & C6 & C7 & C8). split.
  - intros c e Hce. rewrite Hf. destruct (Ht _ _ Hce); eauto.
  - intros b' n e Hb Hn Ha. rewrite Hf. unfold getn in *. rewrite Hf in Hn. apply Hk.
    destruct (decide (b' = p)) as [-> |Hp]; [rewrite C6 in Hn; inversion Hn; subst n; eapply H2; eauto|].
    destruct (decide (b' = f_next (d_file s))) as [-> |Hn0]; [rewrite C5 in Hn; by inversion Hn; subst n|].
    rewrite C8 in Hn by done. eauto.
Qed.
End Listed.

Section Dump.
Context (E : env) (L : dump_loader) (kw : kwargs) (tbl lo : addr) (HL : loader_ok E L).
Notation listed := (listed tbl lo).

Lemma base_entry_listed base s s' b : wf_file (d_file s) -> listed s -> base_entry tbl kw base s = (s', Ok b) ->
  listed s' /\ d_types s' = d_types s /\ (forall e, entry_in tbl (d_file s) e -> entry_in tbl (d_file s') e).
Proof.
  intros Hw Ho. unfold base_entry. destruct (alist_get base (d_bases s)); [by intros [= <- _]|].
  destruct (ascii_encode base); [|done]. destruct (create_dataset _ _ _ _ _) as [[f' e]|] eqn:Ec; [|done].
  apply create_dataset_node in Ec. intros [= <- _]. split; [|split; [done|]].
  - eapply listed_create; [exact Hw|exact Ho|exact Ec|done|]. intros c e' Hc. by left.
  - intros e' He. by eapply entry_in_create; [exact Hw|exact Ec|].
Qed.
Lemma create_wf f p nm b f' a : wf_file f -> create_node f p nm b = Ok (f', a) -> wf_file f'.
Proof.
  intros Hw Ec. destruct (create_node_spec _ _ _ _ _ _ Hw Ec) as (pn & C1 & C2 & -> & C4 & C5 & C6 & C7 & C8).
  intros c n Hn. destruct (decide (c = p)) as [-> |Hc]; [specialize (Hw _ _ C1); lia|].
  destruct (decide (c = f_next f)) as [-> |Hc2]; [lia|]. rewrite C8 in Hn by done. specialize (Hw _ _ Hn). lia.
Qed.
Lemma store_type_listed a pt base s s' : wf_file (d_file s) -> listed s -> store_type E tbl kw a pt base s = (s', Ok tt) -> listed s'.
Proof.
  intros Hw Ho. unfold store_type. case_bool_decide; [by intros [= <-]|].
  destruct (alist_get pt (d_types s)) as [e0|] eqn:Et; [intros [= <-]; apply listed_type; [|done]; by apply Ho in Et|].
  case_bool_decide; [done|]. destruct (negb _); [done|]. destruct (create_dataset _ _ _ _ _) as [[f' e]|] eqn:Ec; [|done].
  apply create_dataset_node in Ec. destruct (base_entry tbl kw base (set_file f' s)) as [s1 [b|]] eqn:Eb; [|done].
  assert (listed (set_file f' s)) as O1.
  { eapply listed_create; [exact Hw|exact Ho|exact Ec|done|]. intros c e' Hc. by left. }
  assert (entry_in tbl f' e) as He.
  { destruct (create_node_spec _ _ _ _ _ _ Hw Ec) as (pn & C1 & C2 & -> & C4 & C5 & C6 & C7 & C8).
    eexists _, _. split; [exact C6|]. rewrite extend_links by done. apply elem_of_app. right. by left. }
  destruct (base_entry_listed _ (set_file f' s) _ _ (create_wf _ _ _ _ _ _ Hw Ec) O1 Eb) as (O2 & T2 & K2).
  apply K2 in He. apply (listed_base _ _ e b) in O2. apply (entry_in_upd _ e (set_attr a_base_type (ARef b))) in He; [|done].
  intros [= <-]. apply listed_type; [exact He|]. destruct O2 as [P1 P2]. split; [|exact P2].
  intros c e' Hc. simpl in Hc. destruct (decide (c = pt)); [inversion Hc; by subst|by apply P1 in Hc].
Qed.

Lemma run_plan_listed parent nm pl s s' a : wf_file (d_file s) -> plan_plain pl -> listed s -> run_plan kw parent nm pl s = (s', Ok a) -> listed s'.
Proof.
  intros Hw [Hp _] Ho. unfold run_plan.
  destruct (match p_data pl with Some d => _ | None => _ end) as [[f' b]|] eqn:Ec; [|done].
  assert (exists bd, create_node (d_file s) parent nm bd = Ok (f', b)) as [bd Hc].
  { destruct (p_data pl); [apply create_dataset_node in Ec|]; by eexists. }
  destruct (p_fail pl); [done|]. intros [= <- _]. apply listed_attrs; [done|].
  eapply listed_create; [exact Hw|exact Ho|exact Hc|done|]. intros c e Hce. by left.
Qed.
Lemma dump_ref_listed parent nm at_ t s s' : wf_file (d_file s) -> at_form at_ -> listed s -> dump_ref parent nm at_ t s = (s', Ok tt) -> listed s'.
Proof.
  intros Hw Hat Ho. unfold dump_ref. destruct (create_dataset _ _ _ _ _) as [[f a]|] eqn:Ec; [|done]. apply create_dataset_node in Ec.
  intros [= <-]. apply listed_attrs; [by apply no_refs_at|]. eapply listed_create; [exact Hw|exact Ho|exact Ec|done|]. intros c e Hce. by left.
Qed.
Lemma dump_node_listed o parent nm at_ s s' r : wfs L tbl s -> parent <> tbl -> at_form at_ -> listed s ->
  dump_node E L kw tbl o parent nm at_ s = (s', Ok r) -> listed s'.
Proof.
  intros Hw Hp Hat Ho. unfold dump_node. destruct (L (ocls o)) as [[pt [[fn base] memoise]]|] eqn:El; [|done].
  destruct (create E fn (d_heap s) (d_next s) o) as [pl|e] eqn:Ec.
  - destruct (run_plan kw parent nm pl s) as [s1 [b|]] eqn:Er; [|done].
    destruct (run_plan_spec _ _ _ _ _ _ _ _ _ Hw Hp Er) as (W1 & _).
    apply run_plan_listed in Er; auto; [|apply Hw|by eapply create_plain].
    destruct (store_type E tbl kw b pt base s1) as [s2 [[]|]] eqn:Es; [|done]. apply store_type_listed in Es; auto; [|apply W1].
    intros [= <- _]. apply listed_attrs; [by apply at_form_refs|done].
  - destruct e; try done. apply create_nothick in Ec. by destruct (lo_fn _ _ HL _ _ _ _ _ El).
Qed.

Lemma dump_listed fuel : forall x parent nm at_ s s',
  wfs L tbl s -> parent <> tbl -> at_form at_ -> listed s ->
  dump_ fuel E L kw tbl x parent nm at_ s = (s', Ok tt) -> listed s'.
Proof.
  induction fuel as [|fuel IH]; intros x parent nm at_ s s' Hw Hpt Hat Ho; [done|]. simpl.
  destruct (d_memo s !! x) as [t|] eqn:Em; [apply dump_ref_listed; auto; apply Hw|].
  destruct (d_heap s !! x) as [o|] eqn:Eo; [|done].
  destruct (dump_node E L kw tbl o parent nm at_ s) as [s1 [[[a memo] subs]|e]] eqn:Ed; [|done].
  pose proof (dump_node_listed _ _ _ _ _ _ _ Hw Hpt Hat Ho Ed) as O1.
  destruct (dump_node_spec _ _ _ _ HL _ _ _ _ _ _ _ Hw Hpt Ed)
    as (W1 & G1 & M1 & P1 & -> & Ha & Hta & pt & fn & base & pl & te & EL & Ecr & Hpf & <- & Hh & Hn & Hte & Hta' & pn & Hpn & Hpg & Hpn').
  set (a := f_next (d_file s)) in *. set (s2 := if memo then set_memo x a s1 else s1).
  assert (wfs L tbl s2) as W2.
  { unfold s2. destruct memo; [|done]. apply (set_memo_wfs L tbl); auto.
    - exists o. eapply lookup_weaken; [exact Eo|apply G1].
    - congruence.
    - intros y Hy. rewrite M1 in Hy. pose proof (ws_memo_lt _ _ _ Hw _ _ Hy). lia. }
  assert (listed s2) as O2 by (unfold s2; by destruct memo).
  intros Hs. pose proof (create_at _ _ _ _ _ _ Ecr) as Hats. assert (a <> tbl) as Hat' by lia.
  clear -IH Hs O2 W2 Hats Hat' HL. revert W2 O2 Hs. generalize s2. clear s2.
  induction (p_subs pl) as [|[[nm' y] at'] ss IHs]; intros s2 W2 O2; cbn [dump_subs]; [by intros [= <-]|].
  inversion Hats as [|? ? A1 A2]; subst.
  destruct (dump_ fuel E L kw tbl y a nm' at' s2) as [s3 [[]|]] eqn:Ed; [|done]. intros Hs.
  destruct (dump_frame _ _ _ _ HL _ _ _ _ _ _ _ _ W2 Hat' A1 Ed) as (W3 & _).
  exact (IHs A2 s3 W3 (IH _ _ _ _ _ _ W2 Hat' A1 O2 Ed) Hs).
Qed.
End Dump.

(** The file of a successful dump. *)
Lemma dump_file_listed C kw opts x p m f f' m' :
  tree f -> world_ok (c_world C) -> free_above m -> dump_file C kw opts x p m f = (f', m', Ok tt) ->
  exists tbl root c,
    get_path f' p = Some root /\ child f' root n_table = Some tbl /\ child f' root n_data = Some c /\ tree f' /\
    root < tbl /\ tbl < c /\
    (forall a n e, tbl < a -> get_node f' a = Some n -> nd_attrs n !! a_type = Some (ARef e) -> entry_in tbl f' e).
Proof.
  intros Ht HW Hm Hd. unfold dump_file in Hd.
  destruct (root_for_dump f p) as [f1 [root|e]] eqn:Er; [|done].
  destruct (root_for_dump_spec _ _ _ _ Ht Er) as (T1 & S1 & N1 & _ & HR).
  destruct (HR root eq_refl) as (P1 & n0 & P2 & P3 & P4 & P5). clear HR.
  unfold dump_root in Hd. destruct (with_options (stamp C f1 root) root opts) as [f2 r2] eqn:Ew.
  destruct (with_options_spec _ _ _ _ _ _ _ P2 Ew) as (S2 & N2 & R2 & O2 & Hr2).
  destruct r2 as [chain|e]; [|done]. pose proof (fsteps_tree _ _ S2 T1) as T2.
  unfold dump_into in Hd.
  destruct (create_node f2 root n_table (BGroup [])) as [[f3 tbl]|e] eqn:Ec; [|done].
  assert (wf_file f2) as Hwf by apply T2.
  apply fsteps_group in Ec as S3. pose proof (fsteps_tree _ _ S3 T2) as T3.
  destruct (create_node_spec _ _ _ _ _ _ Hwf Ec) as (pn & Hp & Hg & -> & Hnx & Hna & Hnp & Hne & Hoth).
  rewrite R2 in Hp. inversion Hp; subst pn. clear Hp.
  set (D := dump_loader_of (c_world C) chain) in *.
  set (s := Dst (m_heap m) (m_next m) f3 ∅ [] []) in *. set (tbl := f_next f2) in *.
  destruct (dump_ (c_fuel C) (c_env C) D kw tbl x root n_data [] s) as [s' r'] eqn:Ed.
  inversion Hd; subst f' m' r'. clear Hd.
  assert (wfs D tbl s) as Hws. { eapply start_wfs; [apply T3|done|exact Hna|done]. }
  pose proof (dump_loader_ok (c_env C) (c_world C) chain HW) as HL.
  assert (root < f_next f2) as Hr2l. { exact (Hwf _ _ R2). }
  assert (root < f_next f3) as Hrl by lia.
  destruct (dump_stored (c_env C) D kw tbl HL (c_fuel C) x root n_data [] s s' (f_next f3) Hws Hne at_none ltac:(simpl; lia) ltac:(lia) Hrl Ed)
    as (W & G & NS & c & pn & C1 & C2 & C3 & C4).
  pose proof (dump_fsteps (c_env C) D kw tbl (c_fuel C) x root n_data [] s) as S4. rewrite Ed in S4. simpl in S4.
  pose proof (fsteps_tree _ _ S4 T3) as T4.
  assert (nd_body n0 = BGroup []) as Hb0. { unfold links, is_group in *. destruct (nd_body n0); [by subst|done]. }
  assert (listed tbl (tbl + 1) s') as [_ HLs].
  { eapply dump_listed; [exact HL|exact Hws|exact Hne|exact at_none| |exact Ed]. split; [done|].
    intros a n e Ha Hn. pose proof (tr_wf _ T3 _ _ Hn). lia. }
  exists tbl, root, c. split_and!.
  - apply (walk_keeps f1); [|exact P1]. apply fsteps_keeps; [|apply T1]. etrans; [exact S2|]. etrans; [exact S3|exact S4].
  - unfold getn in C2, C4. simpl in C2. rewrite Hnp in C2. inversion C2; subst pn. unfold child. rewrite C4.
    unfold links, extend. simpl. rewrite Hb0. done.
  - unfold getn in C2, C4. simpl in C2. rewrite Hnp in C2. inversion C2; subst pn. unfold child. rewrite C4.
    unfold links, extend. simpl. rewrite Hb0. done.
  - done.
  - done.
  - destruct C1 as (_ & HC & _). simpl in HC. lia.
  - intros a n e Ha. apply HLs. lia.
Qed.
