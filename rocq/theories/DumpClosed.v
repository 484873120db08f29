(** * DumpClosed: what a dump writes is closed under links and references

    Three more invariants of [_dump]: the files it makes are trees, its nodes refer only
    to nodes of the same dump, and the type table holds entries only, each complete. *)
From stdpp Require Import relations.
From Verif Require Import Base Utf8 Utf8Proofs Dec DecProofs Num NumProofs PyObj H5 Env Create Dump
  LoadFns LoadModel Registry DumpProofs DumpStored LoadFrame Api.
From Coq Require Import Lia ZifyBool ZifyN.
Local Open Scope N_scope.
Local Open Scope list_scope.

(** ** Changes made to a file *)
Inductive fstep : file -> file -> Prop :=
| fs_create f p nm b f' a : create_node f p nm b = Ok (f', a) -> (forall l, b = BGroup l -> l = []) -> fstep f f'
| fs_attrs f a n at_ : get_node f a = Some n -> fstep f (put_node f a (Node (nd_name n) at_ (nd_body n))).
Notation fsteps := (rtc fstep).

Lemma fsteps_upd a g s :
  (forall n, exists at_, g n = Node (nd_name n) at_ (nd_body n)) -> fsteps (d_file s) (d_file (upd_node a g s)).
Proof.
  intros Hg. unfold upd_node. destruct (get_node (d_file s) a) as [n|] eqn:E; [|done].
  destruct (Hg n) as [at_ ->]. simpl. apply rtc_once. by eapply fs_attrs.
Qed.
Lemma fsteps_dataset f p nm kw d f' a : create_dataset f p nm kw d = Ok (f', a) -> fsteps f f'.
Proof. intros H%create_dataset_node. apply rtc_once. by eapply fs_create. Qed.
Lemma fsteps_group f p nm f' a : create_node f p nm (BGroup []) = Ok (f', a) -> fsteps f f'.
Proof. intros H. apply rtc_once. eapply fs_create; [done|]. by intros l [= <-]. Qed.

Lemma base_entry_fsteps tbl kw base s : fsteps (d_file s) (d_file (fst (base_entry tbl kw base s))).
Proof.
  unfold base_entry. destruct (alist_get _ _); [done|]. destruct (ascii_encode _) as [nm|]; [|done].
  destruct (create_dataset _ _ _ _ _) as [[f b]|] eqn:E; [|done]. simpl. by eapply fsteps_dataset.
Qed.
Lemma store_type_fsteps E tbl kw a pt base s : fsteps (d_file s) (d_file (fst (store_type E tbl kw a pt base s))).
Proof.
  unfold store_type. case_bool_decide; [done|].
  assert (forall e s, fsteps (d_file s) (d_file (upd_node a (set_attr a_type (ARef e)) s))) as HL.
  { intros. apply fsteps_upd. intros. by eexists. }
  destruct (alist_get _ _); [apply HL|]. case_bool_decide; [done|]. destruct (e_pickles_cls E pt); [|done]. simpl.
  destruct (create_dataset _ _ _ _ _) as [[f e]|] eqn:Ee; [|done]. apply fsteps_dataset in Ee.
  pose proof (base_entry_fsteps tbl kw base (set_file f s)) as Hb.
  destruct (base_entry tbl kw base (set_file f s)) as [s1 [b|x]]; simpl in *; [|by etrans].
  etrans; [exact Ee|]. etrans; [exact Hb|].
  etrans; [|apply HL]. simpl. apply (fsteps_upd e). intros. by eexists.
Qed.
Lemma run_plan_fsteps kw p nm pl s : fsteps (d_file s) (d_file (fst (run_plan kw p nm pl s))).
Proof.
  unfold run_plan.
  assert (forall f a, fsteps (d_file s) f ->
    fsteps (d_file s) (d_file (upd_node a (set_attrs (p_attrs pl)) (set_file f (put_temps (p_temps pl) s))))) as HU.
  { intros f a Hf. etrans; [exact Hf|]. apply (fsteps_upd a _ (set_file f _)). intros. by eexists. }
  destruct (p_data pl) as [d|].
  - destruct (create_dataset _ _ _ _ _) as [[f a]|] eqn:E; [|done]. apply fsteps_dataset in E.
    destruct (p_fail pl); simpl; by apply HU.
  - destruct (create_node _ _ _ _) as [[f a]|] eqn:E; [|done]. apply fsteps_group in E.
    destruct (p_fail pl); simpl; by apply HU.
Qed.
Lemma dump_node_fsteps E L kw tbl o p nm at_ s : fsteps (d_file s) (d_file (fst (dump_node E L kw tbl o p nm at_ s))).
Proof.
  unfold dump_node. destruct (L (ocls o)) as [[pt [[fn base] memo]]|]; [|done].
  assert (forall a s, fsteps (d_file s) (d_file (upd_node a (set_attrs (without_type at_)) s))) as HU.
  { intros. apply fsteps_upd. intros. by eexists. }
  destruct (create E fn _ _ o) as [pl|e].
  - pose proof (run_plan_fsteps kw p nm pl s) as H. destruct (run_plan kw p nm pl s) as [s1 [a|]]; [|done]. simpl in H.
    pose proof (store_type_fsteps E tbl kw a pt base s1) as H2. destruct (store_type E tbl kw a pt base s1) as [s2 [u|]]; simpl in *; [|by etrans].
    etrans; [exact H|]. etrans; [exact H2|]. apply HU.
  - destruct e; try done. destruct (create_pickled E o) as [pl|]; [|done].
    pose proof (run_plan_fsteps kw p nm pl s) as H. destruct (run_plan kw p nm pl s) as [s1 [a|]]; [|done]. simpl in *.
    etrans; [exact H|]. apply HU.
Qed.
Lemma dump_fsteps E L kw tbl fuel : forall x p nm at_ s,
  fsteps (d_file s) (d_file (fst (dump_ fuel E L kw tbl x p nm at_ s))).
Proof.
  induction fuel as [|fuel IH]; intros x p nm at_ s; [done|]. cbn [dump_].
  destruct (d_memo s !! x) as [t|].
  { unfold dump_ref. destruct (create_dataset _ _ _ _ _) as [[f a]|] eqn:E0; [|done]. apply fsteps_dataset in E0. simpl.
    etrans; [exact E0|]. apply (fsteps_upd a _ (set_file f s)). intros. by eexists. }
  destruct (d_heap s !! x) as [o|]; [|done].
  pose proof (dump_node_fsteps E L kw tbl o p nm at_ s) as H.
  destruct (dump_node E L kw tbl o p nm at_ s) as [s1 [[[a memo] subs]|]]; [|done]. simpl in H. etrans; [exact H|].
  assert (forall subs s, fsteps (d_file s) (d_file (fst (dump_subs (fun y nm at_ => dump_ fuel E L kw tbl y a nm at_) subs s)))) as HS.
  { clear -IH. induction subs as [|[[nm y] at_] subs IHs]; intros s; simpl; [done|].
    specialize (IH y a nm at_ s). destruct (dump_ fuel E L kw tbl y a nm at_ s) as [s1 [u|]]; simpl in *; [|done].
    etrans; [exact IH|]. apply IHs. }
  destruct memo; [|apply HS]. apply (HS subs (set_memo x a s1)).
Qed.

(** ** Files are trees

    Every node but the root has at most one link leading to it, which is how h5py files
    look as long as nobody makes links by hand. *)
Record tree (f : file) : Prop := {
  tr_wf : wf_file f;
  tr_root : exists n, get_node f root_addr = Some n /\ is_group n = true;
  tr_link : forall a n nm c, get_node f a = Some n -> (nm, c) ∈ links n ->
              is_Some (get_node f c) /\ a < c;
  tr_names : forall a n, get_node f a = Some n -> NoDup (map fst (links n));
  tr_one : forall a n nm a' n' nm' c, get_node f a = Some n -> get_node f a' = Some n' ->
              (nm, c) ∈ links n -> (nm', c) ∈ links n' -> a = a' /\ nm = nm'
}.

Lemma alist_get_in {K V} `{EqDecision K} (k : K) (v : V) l : alist_get k l = Some v -> (k, v) ∈ l.
Proof.
  induction l as [|[k' v'] l IH]; simpl; [done|]. destruct (decide (k = k')); [|right; auto].
  intros [= ->]. subst. by left.
Qed.
Lemma alist_get_none {K V} `{EqDecision K} (k : K) (l : list (K * V)) : alist_get k l = None -> k ∉ map fst l.
Proof.
  induction l as [|[k' v'] l IH]; simpl; [intros _ H; inversion H|]. destruct (decide (k = k')); [done|].
  intros Hg [->|Hk]%elem_of_cons; [done|]. by apply IH.
Qed.

Lemma create_node_fresh f p nm b f' a pn :
  create_node f p nm b = Ok (f', a) -> get_node f p = Some pn -> alist_get nm (links pn) = None.
Proof.
  unfold create_node. intros H Hp. rewrite Hp in H. destruct (is_group pn); [|done].
  destruct (name_ok nm); simpl in H; [|done]. by destruct (alist_get nm (links pn)).
Qed.

Lemma fstep_tree f f' : fstep f f' -> tree f -> tree f'.
Proof.
  intros [f0 p nm b f1 a Hc Hb|f0 a n at_ Hn] [Hwf [rn [Hr1 Hr2]] Hl Hnm Hone].
  - destruct (create_node_spec _ _ _ _ _ _ Hwf Hc) as (pn & Hp & Hg & -> & Hnx & Hna & Hnp & Hne & Hoth).
    pose proof (create_node_fresh _ _ _ _ _ _ _ Hc Hp) as Hfr.
    assert (p < f_next f0) as Hpl by (by eapply Hwf).
    (* links of the new file *)
    assert (forall c m nm' d, get_node f1 c = Some m -> (nm', d) ∈ links m ->
      (exists m0, get_node f0 c = Some m0 /\ (nm', d) ∈ links m0) \/ (c = p /\ nm' = nm /\ d = f_next f0)) as HL.
    { intros c m nm' d Hm Hd. destruct (decide (c = p)) as [->|Hcp].
      - rewrite Hnp in Hm. inversion Hm; subst m. rewrite extend_links in Hd by done.
        apply elem_of_app in Hd as [Hd|Hd]; [left; by exists pn|]. apply elem_of_list_singleton in Hd. inversion Hd; subst. by right.
      - destruct (decide (c = f_next f0)) as [->|Hca].
        + rewrite Hna in Hm. inversion Hm; subst m. unfold links in Hd. simpl in Hd.
          destruct b as [l|]; [|inversion Hd]. rewrite (Hb l eq_refl) in Hd. inversion Hd.
        + rewrite Hoth in Hm by done. left. by exists m. }
    assert (forall c, is_Some (get_node f0 c) -> is_Some (get_node f1 c)) as HS.
    { intros c [m Hm]. destruct (decide (c = p)) as [->|Hcp]; [by eexists|].
      destruct (decide (c = f_next f0)) as [->|Hca]; [by eexists|]. rewrite Hoth by done. by eexists. }
    split.
    + intros c m Hm. rewrite Hnx. destruct (decide (c = p)) as [->|Hcp]; [lia|].
      destruct (decide (c = f_next f0)) as [->|Hca]; [lia|]. rewrite Hoth in Hm by done. pose proof (Hwf _ _ Hm). lia.
    + assert (root_addr < f_next f0) as Hlt by (by eapply Hwf).
      destruct (decide (root_addr = p)) as [Hcp|Hcp].
      * exists (extend pn [(nm, f_next f0)]). rewrite Hcp, extend_group. rewrite Hcp in Hr1. split; [done|]. congruence.
      * exists rn. rewrite Hoth by lia. done.
    + intros c m nm' d Hm Hd. destruct (HL _ _ _ _ Hm Hd) as [(m0 & Hm0 & Hd0)|(-> & -> & ->)].
      * destruct (Hl _ _ _ _ Hm0 Hd0) as [H1 H2]. split; [by apply HS|done].
      * split; [by eexists|lia].
    + intros c m Hm. destruct (decide (c = p)) as [->|Hcp].
      * rewrite Hnp in Hm. inversion Hm; subst m. rewrite extend_links, map_app by done.
        apply list.NoDup_app. split_and!; [by eapply Hnm| |apply list.NoDup_singleton].
        intros z Hz Hz'. apply elem_of_list_singleton in Hz'. subst z. by eapply alist_get_none.
      * destruct (decide (c = f_next f0)) as [->|Hca].
        -- rewrite Hna in Hm. inversion Hm; subst m. unfold links. simpl. destruct b as [l|]; [|constructor].
           rewrite (Hb l eq_refl). constructor.
        -- rewrite Hoth in Hm by done. by eapply Hnm.
    + intros c m nm1 c' m' nm2 d Hm Hm' Hd Hd'.
      destruct (HL _ _ _ _ Hm Hd) as [(m0 & Hm0 & Hd0)|(-> & -> & ->)];
      destruct (HL _ _ _ _ Hm' Hd') as [(m0' & Hm0' & Hd0')|(-> & -> & Hdd)].
      * by eapply Hone.
      * subst d. destruct (Hl _ _ _ _ Hm0 Hd0) as [[z Hz] _]. pose proof (Hwf _ _ Hz). lia.
      * destruct (Hl _ _ _ _ Hm0' Hd0') as [[z Hz] _]. pose proof (Hwf _ _ Hz). lia.
      * done.
  - set (n' := Node (nd_name n) at_ (nd_body n)).
    assert (forall c m, get_node (put_node f0 a n') c = Some m ->
      exists m0, get_node f0 c = Some m0 /\ links m = links m0 /\ is_group m = is_group m0) as HL.
    { intros c m. unfold get_node, put_node. simpl. rewrite lookup_insert_Some.
      intros [[<- <-]|[_ Hm]]; [exists n|exists m]; done. }
    assert (forall c m0, get_node f0 c = Some m0 -> exists m, get_node (put_node f0 a n') c = Some m /\ is_group m = is_group m0) as HB.
    { intros c m0 Hm. unfold get_node, put_node. simpl. destruct (decide (a = c)) as [->|Hac].
      - exists n'. rewrite lookup_insert. split; [done|]. unfold get_node in *. rewrite Hm in Hn. by inversion Hn.
      - exists m0. rewrite lookup_insert_ne by done. done. }
    split.
    + intros c m Hm. destruct (HL _ _ Hm) as (m0 & Hm0 & _). by eapply Hwf.
    + destruct (HB _ _ Hr1) as (m & H1 & H2). exists m. split; [done|congruence].
    + intros c m nm d Hm Hd. destruct (HL _ _ Hm) as (m0 & Hm0 & E1 & _). rewrite E1 in Hd.
      destruct (Hl _ _ _ _ Hm0 Hd) as [[z Hz] H2]. split; [|done]. destruct (HB _ _ Hz) as (z' & Hz' & _). by eexists.
    + intros c m Hm. destruct (HL _ _ Hm) as (m0 & Hm0 & -> & _). by eapply Hnm.
    + intros c m nm1 c' m' nm2 d Hm Hm' Hd Hd'. destruct (HL _ _ Hm) as (m0 & Hm0 & E1 & _), (HL _ _ Hm') as (m0' & Hm0' & E2 & _).
      rewrite E1 in Hd. rewrite E2 in Hd'. by eapply Hone.
Qed.
Lemma fsteps_tree f f' : fsteps f f' -> tree f -> tree f'.
Proof. induction 1; eauto using fstep_tree. Qed.

Lemma fsteps_some f f' : fsteps f f' -> forall a n, get_node f a = Some n ->
  wf_file f -> exists n', get_node f' a = Some n' /\ nd_name n' = nd_name n /\ is_group n' = is_group n.
Proof.
  induction 1 as [f|f f1 f2 Hs _ IH]; intros a n Hn Hw; [eauto|].
  assert (wf_file f1 /\ exists n', get_node f1 a = Some n' /\ nd_name n' = nd_name n /\ is_group n' = is_group n) as (W1 & n1 & A & B & C).
  { destruct Hs as [f0 p nm b f1 a' Hc Hb|f0 a' n0 at_ Hn0].
    - destruct (create_node_spec _ _ _ _ _ _ Hw Hc) as (pn & Hp & Hg & -> & Hnx & Hna & Hnp & Hne & Hoth). split.
      + intros c m Hm. rewrite Hnx. destruct (decide (c = p)) as [->|Hcp]; [pose proof (Hw _ _ Hp); lia|].
        destruct (decide (c = f_next f0)) as [->|Hca]; [lia|]. rewrite Hoth in Hm by done. pose proof (Hw _ _ Hm). lia.
      + pose proof (Hw _ _ Hn). destruct (decide (a = p)) as [->|]; [|rewrite Hoth by lia; eauto].
        rewrite Hnp. eexists; split; [done|]. rewrite Hp in Hn. inversion Hn; subst. by rewrite extend_group.
    - unfold get_node, put_node in *. simpl. split.
      + intros c m. unfold get_node. simpl. rewrite lookup_insert_Some. intros [[<- _]|[_ Hm]]; [by eapply Hw|by eapply Hw].
      + destruct (decide (a' = a)) as [->|]; [rewrite lookup_insert|rewrite lookup_insert_ne by done; eauto].
        eexists; split; [done|]. rewrite Hn in Hn0. inversion Hn0; subst. done. }
  destruct (IH a n1 A W1) as (n2 & ? & ? & ?). exists n2. split_and!; congruence.
Qed.

(** ** Links and references stay inside the nodes made by the dump

    [lo]: the first address used by the dump. *)
Definition inside (lo : addr) (f : file) (a : addr) : Prop := lo <= a /\ a < f_next f.
Definition node_in (lo : addr) (f : file) (n : node) : Prop :=
  (forall nm c, (nm, c) ∈ links n -> inside lo f c) /\
  (forall t, nd_body n = BData (DRefTo t) -> inside lo f t) /\
  (forall k e, nd_attrs n !! k = Some (ARef e) -> inside lo f e).

Record closed (lo : addr) (s : dst) : Prop := {
  cl_wf : wf_file (d_file s);
  cl_node : forall a n, lo <= a -> getn s a = Some n -> node_in lo (d_file s) n;
  cl_memo : forall x a, d_memo s !! x = Some a -> inside lo (d_file s) a;
  cl_types : forall c e, alist_get c (d_types s) = Some e -> inside lo (d_file s) e;
  cl_bases : forall c e, alist_get c (d_bases s) = Some e -> inside lo (d_file s) e
}.

Lemma inside_le lo f f' a : f_next f <= f_next f' -> inside lo f a -> inside lo f' a.
Proof. unfold inside. lia. Qed.
Lemma node_in_le lo f f' n : f_next f <= f_next f' -> node_in lo f n -> node_in lo f' n.
Proof. intros Hl (H1 & H2 & H3). split_and!; eauto using inside_le. Qed.

Lemma closed_sealed lo s : closed lo s -> sealed (inside lo (d_file s)) (d_file s).
Proof. intros Hc a n [Ha _] Hn. by apply (cl_node _ _ Hc a). Qed.

Lemma closed_temps lo ts s : closed lo s -> closed lo (put_temps ts s).
Proof. intros [H1 H2 H3 H4 H5]. by split. Qed.
Lemma closed_memo lo x a s : inside lo (d_file s) a -> closed lo s -> closed lo (set_memo x a s).
Proof.
  intros Ha [H1 H2 H3 H4 H5]. split; try done. intros y b. simpl. rewrite lookup_insert_Some.
  intros [[_ <-]|[_ Hy]]; [done|by apply (H3 y)].
Qed.

Definition body_in (lo : addr) (f : file) (b : body) : Prop :=
  match b with
  | BGroup l => l = []
  | BData (DRefTo t) => inside lo f t
  | BData _ => True
  end.

Lemma closed_create lo s p nm b f a :
  lo <= f_next (d_file s) -> closed lo s -> create_node (d_file s) p nm b = Ok (f, a) -> body_in lo (d_file s) b ->
  closed lo (set_file f s) /\ a = f_next (d_file s) /\ inside lo f a /\ f_next f = a + 1.
Proof.
  intros Hlo [H1 H2 H3 H4 H5] Hc Hb.
  destruct (create_node_spec _ _ _ _ _ _ H1 Hc) as (pn & Hp & Hg & -> & Hnx & Hna & Hnp & Hne & Hoth).
  assert (f_next (d_file s) <= f_next f) as Hle by lia.
  assert (inside lo f (f_next (d_file s))) as Hin by (unfold inside; lia).
  split_and!; auto. split; simpl; eauto using inside_le.
  - intros c m Hm. rewrite Hnx. destruct (decide (c = p)) as [->|Hcp]; [pose proof (H1 _ _ Hp); lia|].
    destruct (decide (c = f_next (d_file s))) as [->|Hca]; [lia|]. rewrite Hoth in Hm by done. pose proof (H1 _ _ Hm). lia.
  - intros c m Hlc Hm. unfold getn in Hm. simpl in Hm. destruct (decide (c = p)) as [->|Hcp].
    + rewrite Hnp in Hm. inversion Hm; subst m. destruct (H2 p pn Hlc Hp) as (A & B & C). split_and!.
      * intros nm' d Hd. rewrite extend_links in Hd by done. apply elem_of_app in Hd as [Hd|Hd]; [by eapply inside_le, A|].
        apply elem_of_list_singleton in Hd. by inversion Hd; subst.
      * intros t Ht. destruct pn as [? ? []]; done.
      * intros k e He. destruct pn as [? ? []]; simpl in *; eauto using inside_le.
    + destruct (decide (c = f_next (d_file s))) as [->|Hca].
      * rewrite Hna in Hm. inversion Hm; subst m. split_and!.
        -- intros nm' d Hd. unfold links in Hd. simpl in Hd. destruct b; simpl in Hb; subst; inversion Hd.
        -- simpl. intros t ->. simpl in Hb. by eapply inside_le.
        -- simpl. intros k e He. by rewrite lookup_empty in He.
      * rewrite Hoth in Hm by done. eapply node_in_le; [done|]. by apply (H2 c).
Qed.

Lemma closed_upd lo s a g :
  closed lo s ->
  (forall n, node_in lo (d_file s) n -> node_in lo (d_file s) (g n)) -> closed lo (upd_node a g s).
Proof.
  intros Hc Hg. unfold upd_node. destruct (get_node (d_file s) a) as [n|] eqn:Hn; [|done].
  destruct Hc as [H1 H2 H3 H4 H5].
  assert (forall c, inside lo (d_file s) c -> inside lo (put_node (d_file s) a (g n)) c) as Hi by done.
  split; simpl; eauto.
  - intros c m Hm. unfold get_node, put_node in *. simpl in *. rewrite lookup_insert_Some in Hm.
    destruct Hm as [[-> <-]|[_ Hm]]; by eapply H1.
  - intros c m Hlc Hm. unfold getn, get_node, put_node in Hm. simpl in *. rewrite lookup_insert_Some in Hm.
    destruct Hm as [[-> <-]|[_ Hm]]; [apply Hg, (H2 c n Hlc Hn)|by apply (H2 c m Hlc)].
Qed.

(** Attributes that hold no reference. *)
Definition no_refs (kvs : list (pystr * attrv)) : Prop := Forall (fun '(_, v) => forall e, v <> ARef e) kvs.

Lemma attrs_update_ref kvs : forall m k e,
  no_refs kvs -> attrs_update kvs m !! k = Some (ARef e) -> m !! k = Some (ARef e).
Proof.
  induction kvs as [|[k' v] kvs IH]; intros m k e Hf; simpl; [done|].
  inversion Hf as [|? ? Hv Hr]; subst. intros H. apply IH in H; [|done].
  rewrite lookup_insert_Some in H. destruct H as [[-> Hv']|[_ H]]; [|done]. subst v. by edestruct Hv.
Qed.
Lemma closed_attrs lo s a kvs : no_refs kvs -> closed lo s -> closed lo (upd_node a (set_attrs kvs) s).
Proof.
  intros Hk Hc. apply closed_upd; [done|]. intros n (A & B & C). split_and!; auto.
  intros k e He. simpl in He. apply attrs_update_ref in He; eauto.
Qed.
Lemma closed_set lo s a k e :
  inside lo (d_file s) e -> closed lo s -> closed lo (upd_node a (set_attr k (ARef e)) s).
Proof.
  intros He Hc. apply closed_upd; [done|]. intros n (A & B & C). split_and!; auto.
  intros k' e' He'. simpl in He'. rewrite lookup_insert_Some in He'. destruct He' as [[_ [= <-]]|[_ ?]]; eauto.
Qed.

Lemma at_form_refs at_ : at_form at_ -> no_refs (without_type at_).
Proof. destruct 1; unfold no_refs; repeat constructor; done. Qed.
Lemma no_refs_at at_ : at_form at_ -> no_refs at_.
Proof. destruct 1; unfold no_refs; repeat constructor; done. Qed.

(** ** Plans hold no references *)
Definition plan_plain (pl : plan) : Prop :=
  no_refs (p_attrs pl) /\ (forall t, p_data pl <> Some (DRefTo t)).
Lemma plan_data_plain b d at_ : no_refs at_ -> (forall t, d <> DRefTo t) -> plan_plain (plan_data b d at_).
Proof. intros H1 H2. split; [done|]. simpl. intros t [= ->]. by edestruct H2. Qed.
Ltac plain := first [apply plan_data_plain|split; simpl]; unfold no_refs; repeat constructor; done.

Lemma list_items_plain E h items pl : create_list_items E h items = Ok pl -> plan_plain pl.
Proof.
  unfold create_list_items. destruct items as [|x r]; [intros [= <-]; plain|].
  destruct (check_iterable_item_type E h x r) as [[[d| | |]|]|]; simpl; try done.
  - destruct (match h !! x with Some _ => _ | None => _ end) as [vs e]. intros [= <-]. plain.
  - intros [= <-]. plain.
Qed.
Lemma text_plain o pl : create_text o = Ok pl -> plan_plain pl.
Proof.
  unfold create_text. destruct (match oval o with VStr _ => _ | _ => _ end); simpl; [|done].
  destruct (ascii_encode _); intros [= <-]; plain.
Qed.
Lemma listlike_plain E h o pl : create_listlike E h o = Ok pl -> plan_plain pl.
Proof.
  unfold create_listlike. destruct (_ || _); [apply text_plain|].
  destruct (oval o); try done. apply list_items_plain.
Qed.
Lemma no_refs_app a b : no_refs a -> no_refs b -> no_refs (a ++ b).
Proof. intros. by apply Forall_app. Qed.

Lemma create_plain E fn h nx o pl : create E fn h nx o = Ok pl -> plan_plain pl.
Proof.
  destruct fn; simpl; try done.
  - unfold create_scalar. destruct (oval o); try done. destruct n; [|destruct (_ && _)|..]; intros [= <-]; plain.
  - intros [= <-]. plain.
  - apply listlike_plain.
  - unfold create_setlike. destruct (oval o); try done. apply list_items_plain.
  - unfold create_dictlike. destruct (oval o); try done.
    destruct (dict_subs E h nx 0 kvs) as [[ts ss]|] eqn:Ed; simpl; [|done]. intros [= <-]. plain.
  - unfold create_pickled. destruct (oval o); try done. destruct (e_pickles _ _ _); intros [= <-]; plain.
  - unfold create_np_scalar. destruct (oval o); try done. destruct (np_dtype_of_cls _); try done. intros [= <-]; plain.
  - unfold create_np_dtype. destruct (oval o); try done. intros [= <-]; plain.
  - unfold create_np_array. destruct (oval o); try done.
    + destruct shape; [destruct vs as [|? []]; try done|]; intros [= <-]; plain.
    + destruct shape.
      * destruct vs as [|s0 []]; try done. destruct (utf8_encode s0); simpl; [|done]. intros [= <-]; plain.
      * destruct (tolist _ _ _) as [ts els].
        destruct (create_list_items _ _ _) eqn:Ec; simpl; [|done]. intros [= <-].
        apply list_items_plain in Ec as [H1 H2]. split; simpl; [|done].
        try (apply no_refs_app; [done|]); unfold no_refs in *; repeat constructor; auto.
    + destruct shape.
      * destruct vs as [|l0 []]; try done. destruct (h !! l0); [|done].
        destruct (isinst _ _).
        -- destruct (create_listlike E h o0) eqn:Ec; simpl; [|done]. intros [= <-]. apply listlike_plain in Ec as [H1 H2].
           split; simpl; [|done]. try (apply no_refs_app; [done|]); unfold no_refs in *; repeat constructor; auto.
        -- intros [= <-]. plain.
      * destruct (tolist _ _ _) as [ts els].
        destruct (create_list_items _ _ _) eqn:Ec; simpl; [|done]. intros [= <-]. apply list_items_plain in Ec as [H1 H2].
        split; simpl; [|done]. try (apply no_refs_app; [done|]); unfold no_refs in *; repeat constructor; auto.
  - unfold create_np_masked. destruct (oval o); try done. destruct (h !! data); [|done].
    destruct (arr_dtype_str _); [|done]. intros [= <-]. plain.
  - unfold create_sparse. destruct (oval o); try done. intros [= <-]. plain.
Qed.
Lemma pickled_plain E o pl : create_pickled E o = Ok pl -> plan_plain pl /\ p_subs pl = [].
Proof. unfold create_pickled. destruct (oval o); try done. destruct (e_pickles _ _ _); intros [= <-]; split; [plain|done]. Qed.

(** ** The invariant *)
Section Closed.
Context (E : env) (L : dump_loader) (kw : kwargs) (tbl lo : addr).

Lemma closed_dataset s p nm k d f a :
  lo <= f_next (d_file s) -> closed lo s -> create_dataset (d_file s) p nm k d = Ok (f, a) ->
  (forall t, d = DRefTo t -> inside lo (d_file s) t) ->
  closed lo (set_file f s) /\ a = f_next (d_file s) /\ inside lo f a /\ f_next f = a + 1.
Proof.
  intros Hl Hc Hd%create_dataset_node Ht. eapply closed_create; eauto. destruct d; simpl; auto.
Qed.

Lemma base_entry_closed base s s' r :
  lo <= f_next (d_file s) -> closed lo s -> base_entry tbl kw base s = (s', r) ->
  closed lo s' /\ f_next (d_file s) <= f_next (d_file s') /\ d_memo s' = d_memo s /\
  (forall b, r = Ok b -> inside lo (d_file s') b).
Proof.
  intros Hl Hc. unfold base_entry. destruct (alist_get base (d_bases s)) as [b|] eqn:Eb.
  { intros [= <- <-]. split_and!; try done. intros ? [= <-]. by eapply cl_bases. }
  destruct (ascii_encode base) as [nm|]; [|intros [= <- <-]; split_and!; try done; simpl; lia].
  destruct (create_dataset _ _ _ _ _) as [[f b]|] eqn:Ed; [|intros [= <- <-]; split_and!; try done; simpl; lia].
  destruct (closed_dataset _ _ _ _ _ _ _ Hl Hc Ed) as (C1 & -> & C3 & C4); [done|].
  intros [= <- <-]. split_and!; simpl; auto; try lia.
  - destruct C1 as [H1 H2 H3 H4 H5]. split; try done. simpl. intros c e.
    destruct (decide (c = base)); [by intros [= <-]|apply H5].
  - by intros ? [= <-].
Qed.

Lemma store_type_closed a pt base s s' r :
  lo <= f_next (d_file s) -> closed lo s -> store_type E tbl kw a pt base s = (s', r) ->
  closed lo s' /\ f_next (d_file s) <= f_next (d_file s') /\ d_memo s' = d_memo s.
Proof.
  intros Hl Hc. unfold store_type. case_bool_decide; [intros [= <- <-]; split_and!; auto; lia|].
  destruct (alist_get pt (d_types s)) as [e|] eqn:Et.
  { intros [= <- <-]. destruct (upd_node_same a (set_attr a_type (ARef e)) s) as (U1 & U2 & U3 & U4 & U5 & U6).
    split_and!; [|lia|done]. apply closed_set; [|done]. by eapply cl_types. }
  case_bool_decide; [intros [= <- <-]; split_and!; auto; lia|].
  destruct (negb (e_pickles_cls E pt)); [intros [= <- <-]; split_and!; auto; lia|].
  destruct (create_dataset _ _ _ _ _) as [[f e]|] eqn:Ed; [|intros [= <- <-]; split_and!; auto; lia].
  destruct (closed_dataset _ _ _ _ _ _ _ Hl Hc Ed) as (C1 & -> & C3 & C4); [done|].
  set (e := f_next (d_file s)) in *.
  destruct (base_entry tbl kw base (set_file f s)) as [s1 r1] eqn:Eb.
  assert (lo <= f_next (d_file (set_file f s))) as Hl1 by (simpl; lia).
  destruct (base_entry_closed _ _ _ _ Hl1 C1 Eb) as (D1 & D2 & D3 & D4). simpl in D2, D3.
  destruct r1 as [b|x]; [|intros [= <- <-]; split_and!; auto; lia].
  specialize (D4 _ eq_refl). cbv zeta.
  destruct (upd_node_same e (set_attr a_base_type (ARef b)) s1) as (U1 & U2 & U3 & U4 & U5 & U6).
  assert (inside lo (d_file s1) e) as Ie by (eapply inside_le; [|exact C3]; lia).
  set (s2 := upd_node e (set_attr a_base_type (ARef b)) s1) in *.
  assert (closed lo s2) as F1 by (by apply closed_set).
  set (s3 := Dst (d_heap s2) (d_next s2) (d_file s2) (d_memo s2) ((pt, e) :: d_types s2) (d_bases s2)).
  assert (inside lo (d_file s3) e) as Ie3. { unfold inside in *. simpl. rewrite U6. done. }
  assert (closed lo s3) as F2.
  { destruct F1 as [H1 H2 H3 H4 H5]. split; try done. simpl. intros c e'.
    destruct (decide (c = pt)); [by intros [= <-]|apply H4]. }
  intros [= <- <-]. destruct (upd_node_same a (set_attr a_type (ARef e)) s3) as (V1 & V2 & V3 & V4 & V5 & V6).
  split_and!.
  - by apply closed_set.
  - rewrite V6. simpl. rewrite U6. lia.
  - rewrite V3. simpl. congruence.
Qed.

Lemma run_plan_closed p nm pl s s' r :
  lo <= f_next (d_file s) -> closed lo s -> plan_plain pl -> run_plan kw p nm pl s = (s', r) ->
  closed lo s' /\ f_next (d_file s) <= f_next (d_file s') /\ d_memo s' = d_memo s /\
  (forall a, r = Ok a -> inside lo (d_file s') a).
Proof.
  intros Hl Hc [Hp1 Hp2]. unfold run_plan. apply (closed_temps lo (p_temps pl)) in Hc as Hc'.
  assert (forall f a, closed lo (set_file f (put_temps (p_temps pl) s)) -> inside lo f a -> f_next (d_file s) <= f_next f ->
    match p_fail pl with
    | Some e => (upd_node a (set_attrs (p_attrs pl)) (set_file f (put_temps (p_temps pl) s)), Err e)
    | None => (upd_node a (set_attrs (p_attrs pl)) (set_file f (put_temps (p_temps pl) s)), Ok a)
    end = (s', r) ->
    closed lo s' /\ f_next (d_file s) <= f_next (d_file s') /\ d_memo s' = d_memo s /\
    (forall a, r = Ok a -> inside lo (d_file s') a)) as HU.
  { intros f a C1 Ia Hle Hr.
    destruct (upd_node_same a (set_attrs (p_attrs pl)) (set_file f (put_temps (p_temps pl) s))) as (V1 & V2 & V3 & V4 & V5 & V6).
    apply (closed_attrs lo _ a (p_attrs pl) Hp1) in C1.
    assert (inside lo (d_file (upd_node a (set_attrs (p_attrs pl)) (set_file f (put_temps (p_temps pl) s)))) a) as Ia'.
    { unfold inside in *. rewrite V6. simpl. lia. }
    destruct (p_fail pl); inversion Hr; subst s' r; split_and!; auto; try (rewrite V6; simpl; lia); try done.
    by intros ? [= <-]. }
  destruct (p_data pl) as [d|].
  - destruct (create_dataset _ _ _ _ _) as [[f a]|] eqn:Ed; [|intros [= <- <-]; split_and!; try done; simpl; lia].
    destruct (closed_dataset (put_temps (p_temps pl) s) _ _ _ _ _ _ Hl Hc' Ed) as (C1 & -> & C3 & C4).
    { intros t ->. by destruct (Hp2 t). }
    apply HU; auto. simpl in *. lia.
  - destruct (create_node _ _ _ _) as [[f a]|] eqn:Ed; [|intros [= <- <-]; split_and!; try done; simpl; lia].
    destruct (closed_create lo (put_temps (p_temps pl) s) _ _ _ _ _ Hl Hc' Ed) as (C1 & -> & C3 & C4); [done|].
    apply HU; auto. simpl in *. lia.
Qed.

Lemma dump_node_closed o p nm at_ s s' r :
  lo <= f_next (d_file s) -> closed lo s -> at_form at_ -> dump_node E L kw tbl o p nm at_ s = (s', r) ->
  closed lo s' /\ f_next (d_file s) <= f_next (d_file s') /\
  (forall a memo subs, r = Ok (a, memo, subs) -> inside lo (d_file s') a /\ Forall (fun sb => at_form (sub_at sb)) subs).
Proof.
  intros Hl Hc Hat. unfold dump_node. apply at_form_refs in Hat as Hnr.
  destruct (L (ocls o)) as [[pt [[fn base] memo]]|]; [|intros [= <- <-]; split_and!; try done; simpl; lia].
  destruct (create E fn _ _ o) as [pl|e] eqn:Ecr.
  - destruct (run_plan kw p nm pl s) as [s1 r1] eqn:Er.
    destruct (run_plan_closed _ _ _ _ _ _ Hl Hc (create_plain _ _ _ _ _ _ Ecr) Er) as (C1 & C2 & C3 & C4).
    destruct r1 as [a|]; [|intros [= <- <-]; split_and!; try done; simpl; lia]. specialize (C4 _ eq_refl).
    destruct (store_type E tbl kw a pt base s1) as [s2 r2] eqn:Es.
    assert (lo <= f_next (d_file s1)) as Hl1 by lia.
    destruct (store_type_closed _ _ _ _ _ _ Hl1 C1 Es) as (D1 & D2 & D3).
    destruct r2 as [u|]; [|intros [= <- <-]; split_and!; try done; simpl; lia].
    destruct (upd_node_same a (set_attrs (without_type at_)) s2) as (V1 & V2 & V3 & V4 & V5 & V6).
    intros [= <- <-]. split_and!; [by apply closed_attrs|lia|]. intros ? ? ? [= <- <- <-].
    split; [unfold inside in *; rewrite V6; lia|by eapply create_at].
  - destruct e; try (intros [= <- <-]; split_and!; try done; simpl; lia).
    destruct (create_pickled E o) as [pl|] eqn:Ep; [|intros [= <- <-]; split_and!; try done; simpl; lia].
    apply pickled_plain in Ep as [Ep Es].
    destruct (run_plan kw p nm pl s) as [s1 r1] eqn:Er.
    destruct (run_plan_closed _ _ _ _ _ _ Hl Hc Ep Er) as (C1 & C2 & C3 & C4).
    destruct r1 as [a|]; [|intros [= <- <-]; split_and!; try done; simpl; lia]. specialize (C4 _ eq_refl).
    destruct (upd_node_same a (set_attrs (without_type at_)) s1) as (V1 & V2 & V3 & V4 & V5 & V6).
    intros [= <- <-]. split_and!; [by apply closed_attrs|lia|]. intros ? ? ? [= <- <- <-]. rewrite Es.
    split; [unfold inside in *; rewrite V6; lia|constructor].
Qed.

Lemma dump_closed fuel : forall x p nm at_ s,
  lo <= f_next (d_file s) -> closed lo s -> at_form at_ ->
  closed lo (fst (dump_ fuel E L kw tbl x p nm at_ s)) /\
  f_next (d_file s) <= f_next (d_file (fst (dump_ fuel E L kw tbl x p nm at_ s))).
Proof.
  induction fuel as [|fuel IH]; intros x p nm at_ s Hl Hc Hat; [split; [done|simpl; lia]|]. cbn [dump_].
  destruct (d_memo s !! x) as [t|] eqn:Em.
  { unfold dump_ref. destruct (create_dataset _ _ _ _ _) as [[f a]|] eqn:Ed; [|split; [done|simpl; lia]].
    destruct (closed_dataset _ _ _ _ _ _ _ Hl Hc Ed) as (C1 & -> & C3 & C4).
    { intros ? [= <-]. by eapply cl_memo. }
    destruct (upd_node_same (f_next (d_file s)) (set_attrs at_) (set_file f s)) as (V1 & V2 & V3 & V4 & V5 & V6).
    simpl. split; [apply closed_attrs; auto using no_refs_at|]. rewrite V6. simpl. lia. }
  destruct (d_heap s !! x) as [o|]; [|split; [done|simpl; lia]].
  destruct (dump_node E L kw tbl o p nm at_ s) as [s1 r] eqn:Ed.
  destruct (dump_node_closed _ _ _ _ _ _ _ Hl Hc Hat Ed) as (C1 & C2 & C3).
  destruct r as [[[a memo] subs]|]; [|split; [done|simpl; lia]]. destruct (C3 _ _ _ eq_refl) as [Ia Hsub].
  assert (forall subs s, lo <= f_next (d_file s) -> closed lo s -> Forall (fun sb => at_form (sub_at sb)) subs ->
    closed lo (fst (dump_subs (fun y nm at_ => dump_ fuel E L kw tbl y a nm at_) subs s)) /\
    f_next (d_file s) <= f_next (d_file (fst (dump_subs (fun y nm at_ => dump_ fuel E L kw tbl y a nm at_) subs s)))) as HS.
  { clear -IH. induction subs as [|[[nm y] at_] subs IHs]; intros s Hl Hc Hf; simpl; [split; [done|lia]|].
    inversion Hf as [|? ? Hat Hr]; subst. destruct (IH y a nm at_ s Hl Hc Hat) as [A B].
    destruct (dump_ fuel E L kw tbl y a nm at_ s) as [s1 [u|]]; simpl in *; [|done].
    destruct (IHs s1) as [A' B']; auto; [lia|]. split; [done|lia]. }
  assert (lo <= f_next (d_file s1)) as Hl1 by lia.
  destruct memo.
  - destruct (HS subs (set_memo x a s1)) as [A B]; auto; [by apply closed_memo|]. split; [done|]. simpl in B. lia.
  - destruct (HS subs s1) as [A B]; auto. split; [done|lia].
Qed.
End Closed.

(** ** The type table of a finished dump holds complete entries *)
Definition is_Ok {A : Type} (r : res A) : bool := match r with Ok _ => true | Err _ => false end.
Definition entry_good (f : file) (e : addr) : Prop :=
  exists en, get_node f e = Some en /\
    ((nd_body en = BData (DNull KS1) /\ is_Ok (ascii_encode (nd_name en)) = true) \/
     (exists c b bn, nd_body en = BData (DPickleCls c) /\ nd_attrs en !! a_base_type = Some (ARef b) /\
        get_node f b = Some bn /\ is_Ok (ascii_encode (nd_name bn)) = true)).

Lemma entry_good_check f e : entry_good f e -> check_entry f e = Ok tt.
Proof.
  intros (en & He & H). unfold check_entry. rewrite He. destruct H as [[H1 H2]|(c & b & bn & H1 & H2 & H3 & H4)].
  - rewrite H1. by destruct (ascii_encode _).
  - rewrite H1, H2, H3. by destruct (ascii_encode _).
Qed.

Section Table.
Context (E : env) (L : dump_loader) (kw : kwargs) (tbl : addr).

Definition tlinks (f : file) : list (pystr * addr) :=
  match get_node f tbl with Some n => links n | None => [] end.
(** All entries are good, but possibly [ex]. *)
Definition table (ex : option addr) (f : file) : Prop :=
  wf_file f /\ (exists tn, get_node f tbl = Some tn) /\
  forall nm e, (nm, e) ∈ tlinks f -> is_Some (get_node f e) /\ (Some e = ex \/ entry_good f e).
Definition unlisted (a : addr) (f : file) : Prop := a <> tbl /\ forall nm, (nm, a) ∉ tlinks f.

Lemma entry_good_keep f f' e :
  get_node f' e = get_node f e ->
  (forall b bn, get_node f b = Some bn -> exists bn', get_node f' b = Some bn' /\ nd_name bn' = nd_name bn) ->
  entry_good f e -> entry_good f' e.
Proof.
  intros He Hn (en & H1 & H). exists en. split; [congruence|]. destruct H as [H|(c & b & bn & H2 & H3 & H4 & H5)]; [by left|right].
  destruct (Hn _ _ H4) as (bn' & Hb & Hnm). exists c, b, bn'. rewrite Hnm. done.
Qed.

Lemma create_names f p nm b f' a :
  wf_file f -> create_node f p nm b = Ok (f', a) ->
  forall c n, get_node f c = Some n -> exists n', get_node f' c = Some n' /\ nd_name n' = nd_name n.
Proof.
  intros Hw Hc c n Hn. destruct (create_node_spec _ _ _ _ _ _ Hw Hc) as (pn & Hp & Hg & -> & Hnx & Hna & Hnp & Hne & Hoth).
  pose proof (Hw _ _ Hn). destruct (decide (c = p)) as [->|]; [|rewrite Hoth by lia; eauto].
  rewrite Hnp. eexists; split; [done|]. rewrite Hp in Hn. by inversion Hn.
Qed.
Lemma create_wf f p nm b f' a : wf_file f -> create_node f p nm b = Ok (f', a) -> wf_file f'.
Proof.
  intros Hw Hc. destruct (create_node_spec _ _ _ _ _ _ Hw Hc) as (pn & Hp & Hg & -> & Hnx & Hna & Hnp & Hne & Hoth).
  intros c m Hm. rewrite Hnx. destruct (decide (c = p)) as [->|Hcp]; [pose proof (Hw _ _ Hp); lia|].
  destruct (decide (c = f_next f)) as [->|Hca]; [lia|]. rewrite Hoth in Hm by done. pose proof (Hw _ _ Hm). lia.
Qed.

(** A node made outside of the table. *)
Lemma table_create ex f p nm b f' a :
  table ex f -> create_node f p nm b = Ok (f', a) -> unlisted p f ->
  table ex f' /\ unlisted a f' /\ tlinks f' = tlinks f /\ f_next f' = a + 1.
Proof.
  intros (Hw & [tn Ht] & Hl) Hc [Hpt Hpl].
  destruct (create_node_spec _ _ _ _ _ _ Hw Hc) as (pn & Hp & Hg & -> & Hnx & Hna & Hnp & Hne & Hoth).
  pose proof (Hw _ _ Ht) as Htl.
  assert (get_node f' tbl = Some tn) as Ht'. { rewrite Hoth by lia. done. }
  assert (tlinks f' = tlinks f) as Etl. { unfold tlinks. by rewrite Ht, Ht'. }
  split_and!; auto.
  - split_and!; [by eapply create_wf|by eexists|]. rewrite Etl. intros nm' e He. destruct (Hl _ _ He) as [[en Hen] Hgood].
    pose proof (Hw _ _ Hen). assert (e <> p) by (intros ->; by eapply Hpl).
    split; [rewrite Hoth by lia; by eexists|]. destruct Hgood as [?|Hgood]; [by left|right].
    eapply entry_good_keep; [|by eapply create_names|done]. apply Hoth; lia.
  - unfold unlisted. rewrite Etl. split; [lia|]. intros nm' Hin. destruct (Hl _ _ Hin) as [[en Hen] _].
    pose proof (Hw _ _ Hen). lia.
Qed.

(** An entry made in the table. *)
Lemma table_entry ex ex' f nm b f' a :
  table ex f -> create_node f tbl nm b = Ok (f', a) -> (forall l, b = BGroup l -> l = []) ->
  (forall e, Some e = ex -> Some e = ex' \/ entry_good f' e) -> (Some a = ex' \/ entry_good f' a) ->
  table ex' f' /\ f_next f' = a + 1 /\ a = f_next f /\ get_node f' a = Some (Node nm ∅ b) /\
  tlinks f' = tlinks f ++ [(nm, a)].
Proof.
  intros (Hw & [tn Ht] & Hl) Hc Hb Hex Ha.
  destruct (create_node_spec _ _ _ _ _ _ Hw Hc) as (pn & Hp & Hg & -> & Hnx & Hna & Hnp & Hne & Hoth).
  assert (tlinks f' = tlinks f ++ [(nm, f_next f)]) as Etl. { unfold tlinks. rewrite Hnp, Hp. by rewrite extend_links. }
  split_and!; auto. split_and!; [by eapply create_wf|by eexists|]. rewrite Etl. intros nm' e [He|He]%elem_of_app.
  - destruct (Hl _ _ He) as [[en Hen] Hgood]. destruct (decide (e = tbl)) as [->|Het].
    + split; [by eexists|]. destruct Hgood as [?|(en' & Hen' & Hd)]; [by apply Hex|].
      exfalso. rewrite Hp in Hen'. inversion Hen'; subst en'. unfold is_group in Hg.
      destruct Hd as [[Hd _]|(? & ? & ? & Hd & _)]; by rewrite Hd in Hg.
    + pose proof (Hw _ _ Hen). split; [rewrite Hoth by lia; by eexists|].
      destruct Hgood as [?|Hgood]; [by apply Hex|right]. eapply entry_good_keep; [|by eapply create_names|done]. apply Hoth; lia.
  - apply elem_of_list_singleton in He. inversion He; subst. split; [by eexists|done].
Qed.

(** Attributes of a node outside of the table. *)
Lemma table_attrs ex s a g :
  table ex (d_file s) -> unlisted a (d_file s) -> (forall n, nd_name (g n) = nd_name n) ->
  table ex (d_file (upd_node a g s)) /\ tlinks (d_file (upd_node a g s)) = tlinks (d_file s).
Proof.
  intros (Hw & [tn Ht] & Hl) [Ha1 Ha2] Hg. unfold upd_node. destruct (get_node (d_file s) a) as [n|] eqn:Hn.
  2: { split; [|done]. split; [done|]. split; [by eexists|done]. }
  assert (forall c, get_node (put_node (d_file s) a (g n)) c = if decide (c = a) then Some (g n) else get_node (d_file s) c) as HP.
  { intros c. unfold get_node, put_node. simpl. case_decide; [subst; by rewrite lookup_insert|by rewrite lookup_insert_ne]. }
  simpl. assert (tlinks (put_node (d_file s) a (g n)) = tlinks (d_file s)) as Etl.
  { unfold tlinks. rewrite HP. rewrite decide_False by done. done. }
  split; [|done]. split_and!.
  - intros c m. rewrite HP. case_decide; [intros _; subst; by eapply Hw|apply Hw].
  - exists tn. rewrite HP, decide_False by done. done.
  - rewrite Etl. intros nm e He. assert (e <> a) by (intros ->; by eapply Ha2). rewrite HP, decide_False by done.
    destruct (Hl _ _ He) as [He1 He2]. split; [done|]. destruct He2 as [?|He2]; [by left|right].
    eapply entry_good_keep; [| |exact He2].
    + by rewrite HP, decide_False.
    + intros b bn Hb. rewrite HP. case_decide; [subst|by eexists]. eexists; split; [done|]. rewrite Hg. congruence.
Qed.

Lemma base_entry_table ex base s s' b :
  table ex (d_file s) -> (forall c e, alist_get c (d_bases s) = Some e -> exists n, getn s e = Some n /\ is_Ok (ascii_encode (nd_name n)) = true) ->
  base_entry tbl kw base s = (s', Ok b) ->
  table ex (d_file s') /\ (exists bn, getn s' b = Some bn /\ is_Ok (ascii_encode (nd_name bn)) = true) /\
  (forall c e, alist_get c (d_bases s') = Some e -> exists n, getn s' e = Some n /\ is_Ok (ascii_encode (nd_name n)) = true) /\
  (forall c n, getn s c = Some n -> c <> tbl -> getn s' c = Some n) /\
  (forall nm e, (nm, e) ∈ tlinks (d_file s') -> (nm, e) ∈ tlinks (d_file s) \/ f_next (d_file s) <= e) /\
  d_types s' = d_types s /\ f_next (d_file s) <= f_next (d_file s').
Proof.
  intros Ht Hb. unfold base_entry. destruct (alist_get base (d_bases s)) as [b0|] eqn:Eb.
  { intros [= <- <-]. split_and!; eauto; lia. }
  destruct (ascii_encode base) as [nm|] eqn:Ea; [|done].
  destruct (create_dataset _ _ _ _ _) as [[f b1]|] eqn:Ed; [|done]. apply create_dataset_node in Ed. intros [= <- <-].
  assert (wf_file (d_file s)) as Hw by apply Ht.
  destruct (create_node_spec _ _ _ _ _ _ Hw Ed) as (pn & Hp & Hg & -> & Hnx & Hna & Hnp & Hne & Hoth).
  assert (is_Ok (ascii_encode nm) = true) as Hasc.
  { unfold ascii_encode in *. destruct (forallb _ base) eqn:Ef; [|done]. inversion Ea; subst. by rewrite Ef. }
  destruct (table_entry ex ex _ _ _ _ _ Ht Ed) as (T1 & T2 & T3 & T4 & T5); auto.
  { by intros l [=]. }
  { right. exists (Node nm ∅ (BData (DNull KS1))). split; [done|]. left. done. }
  unfold getn. simpl. split_and!; auto.
  - eexists. split; [exact Hna|done].
  - intros c e. destruct (decide (c = base)).
    + intros [= <-]. eexists. split; [exact Hna|done].
    + intros Hc. destruct (Hb _ _ Hc) as (n0 & H1 & H2). destruct (create_names _ _ _ _ _ _ Hw Ed _ _ H1) as (n' & H3 & H4).
      exists n'. split; [done|]. by rewrite H4.
  - intros c n0 Hn0 Hct. pose proof (Hw _ _ Hn0). rewrite Hoth by lia. done.
  - intros nm' e. rewrite T5. intros [H|H]%elem_of_app; [by left|right]. apply elem_of_list_singleton in H. inversion H; lia.
  - lia.
Qed.

(** The part of the state that matters. *)
Definition tstate (s : dst) : Prop :=
  table None (d_file s) /\
  (forall c e, alist_get c (d_bases s) = Some e -> exists n, getn s e = Some n /\ is_Ok (ascii_encode (nd_name n)) = true).

Lemma upd_names s a g : (forall n, nd_name (g n) = nd_name n) ->
  forall c n, getn s c = Some n -> exists n', getn (upd_node a g s) c = Some n' /\ nd_name n' = nd_name n.
Proof.
  intros Hg c n Hn. unfold upd_node. destruct (get_node (d_file s) a) as [m|] eqn:Hm; [|eauto].
  unfold getn, get_node, put_node. simpl. destruct (decide (a = c)) as [->|].
  - rewrite lookup_insert. eexists; split; [done|]. rewrite Hg. unfold getn in Hn. congruence.
  - rewrite lookup_insert_ne by done. eauto.
Qed.
Lemma tstate_attrs s a g :
  tstate s -> unlisted a (d_file s) -> (forall n, nd_name (g n) = nd_name n) ->
  tstate (upd_node a g s) /\ tlinks (d_file (upd_node a g s)) = tlinks (d_file s).
Proof.
  intros [H1 H2] Hu Hg. destruct (table_attrs _ _ _ _ H1 Hu Hg) as [T1 T2]. split; [|done]. split; [done|].
  destruct (upd_node_same a g s) as (U1 & U2 & U3 & U4 & U5 & U6). rewrite U5. intros c e Hc.
  destruct (H2 _ _ Hc) as (n & Hn & Ha). destruct (upd_names s a g Hg _ _ Hn) as (n' & Hn' & E'). exists n'. by rewrite E'.
Qed.

(** Entries added later have later addresses. *)
Definition newer (f f' : file) : Prop :=
  f_next f <= f_next f' /\ forall nm e, (nm, e) ∈ tlinks f' -> (nm, e) ∈ tlinks f \/ f_next f <= e.
Lemma newer_refl f : newer f f.
Proof. split; [lia|auto]. Qed.
Lemma newer_same f f' : f_next f <= f_next f' -> tlinks f' = tlinks f -> newer f f'.
Proof. intros H1 H2. split; [done|]. rewrite H2. auto. Qed.
Lemma newer_trans f1 f2 f3 : newer f1 f2 -> newer f2 f3 -> newer f1 f3.
Proof.
  intros [H1 H2] [H3 H4]. split; [lia|]. intros nm e He. destruct (H4 _ _ He) as [H|H]; [|right; lia]. auto.
Qed.
Lemma newer_unlisted f f' a : newer f f' -> a < f_next f -> unlisted a f -> unlisted a f'.
Proof.
  intros [H1 H2] Ha [H3 H4]. split; [done|]. intros nm Hin. destruct (H2 _ _ Hin) as [H|H]; [by eapply H4|lia].
Qed.

Lemma store_type_table a pt base s s' :
  tstate s -> unlisted a (d_file s) -> is_Some (getn s a) -> store_type E tbl kw a pt base s = (s', Ok tt) ->
  tstate s' /\ newer (d_file s) (d_file s').
Proof.
  intros Ht Hu [an Han]. unfold store_type. case_bool_decide; [intros [= <-]; split; [done|apply newer_refl]|].
  destruct (alist_get pt (d_types s)) as [e|] eqn:Et.
  { intros [= <-]. destruct (tstate_attrs s a (set_attr a_type (ARef e)) Ht Hu) as [T1 T2]; [done|].
    destruct (upd_node_same a (set_attr a_type (ARef e)) s) as (U1 & U2 & U3 & U4 & U5 & U6).
    split; [done|]. split; [lia|]. rewrite T2. auto. }
  case_bool_decide; [done|]. destruct (negb _); [done|].
  destruct (create_dataset _ _ _ _ _) as [[f e]|] eqn:Ed; [|done]. apply create_dataset_node in Ed.
  destruct Ht as [Ht Hb]. assert (wf_file (d_file s)) as Hw by apply Ht.
  destruct (table_entry None (Some e) _ _ _ _ _ Ht Ed) as (T1 & T2 & T3 & T4 & T5); auto; [by intros l [=]..|].
  pose proof (create_names _ _ _ _ _ _ Hw Ed) as Hnames.
  assert (getn (set_file f s) a = Some an) as Han1.
  { destruct (create_node_spec _ _ _ _ _ _ Hw Ed) as (pn & Hp & Hg & _ & Hnx & Hna & Hnp & Hne & Hoth).
    unfold getn. simpl. rewrite Hoth; [done|apply Hu|]. pose proof (Hw _ _ Han). lia. }
  destruct (base_entry tbl kw base (set_file f s)) as [s1 [b|]] eqn:Eb; [|done].
  destruct (base_entry_table (Some e) base (set_file f s) s1 b) as (B1 & (bn & B2 & B3) & B4 & B5 & B6 & B7 & B8); auto.
  { intros c e' Hc. destruct (Hb _ _ Hc) as (n & Hn & Ha). destruct (Hnames _ _ Hn) as (n' & Hn' & E'). exists n'. by rewrite E'. }
  simpl in B7, B8. cbv zeta.
  assert (e <> tbl) as Het. { destruct Ht as (_ & [tn Htn] & _). pose proof (Hw _ _ Htn). lia. }
  assert (getn s1 e = Some (Node (N_dec (table_size (d_file s) tbl)) ∅ (BData (DPickleCls pt)))) as He1 by (by apply B5).
  set (s2 := upd_node e (set_attr a_base_type (ARef b)) s1).
  destruct (upd_node_same e (set_attr a_base_type (ARef b)) s1) as (U1 & U2 & U3 & U4 & U5 & U6). fold s2 in U1, U2, U3, U4, U5, U6.
  assert (forall c, getn s2 c = if decide (c = e) then Some (set_attr a_base_type (ARef b) (Node (N_dec (table_size (d_file s) tbl)) ∅ (BData (DPickleCls pt)))) else getn s1 c) as HG.
  { intros c. by apply getn_upd. }
  assert (forall c n, getn s1 c = Some n -> exists n', getn s2 c = Some n' /\ nd_name n' = nd_name n) as HN.
  { by apply upd_names. }
  assert (tlinks (d_file s2) = tlinks (d_file s1)) as Etl.
  { unfold tlinks. change (get_node (d_file s2) tbl) with (getn s2 tbl). rewrite HG, decide_False by done. done. }
  assert (table None (d_file s2)) as Ts2.
  { destruct B1 as (W1 & [tn Htn] & Hl1). split_and!.
    - intros c n Hn. rewrite U6. change (getn s2 c = Some n) in Hn. rewrite HG in Hn. case_decide; [subst; by eapply W1|by eapply W1].
    - exists tn. change (getn s2 tbl = Some tn). rewrite HG, decide_False by done. done.
    - rewrite Etl. intros nm0 e0 Hi0. destruct (Hl1 _ _ Hi0) as [[n0 Hn0] Hgood].
      destruct (decide (e0 = e)) as [->|Hne].
      + split; [change (is_Some (getn s2 e)); rewrite HG, decide_True by done; by eexists|]. right.
        eexists. change (get_node (d_file s2) e) with (getn s2 e). rewrite HG, decide_True by done. split; [done|]. right.
        destruct (HN _ _ B2) as (bn' & Hb1 & Hb2). exists pt, b, bn'. simpl. rewrite lookup_insert. split_and!; auto. by rewrite Hb2.
      + split; [change (is_Some (getn s2 e0)); rewrite HG, decide_False by done; by eexists|]. right.
        destruct Hgood as [[= ?]|Hgood]; [done|]. eapply entry_good_keep; [|exact HN|exact Hgood].
        change (getn s2 e0 = getn s1 e0). by rewrite HG, decide_False. }
  set (s3 := Dst (d_heap s2) (d_next s2) (d_file s2) (d_memo s2) ((pt, e) :: d_types s2) (d_bases s2)).
  assert (tstate s3) as Ts3.
  { split; [done|]. simpl. rewrite U5. intros c e0 Hc. destruct (B4 _ _ Hc) as (n & Hn & Ha). destruct (HN _ _ Hn) as (n' & Hn' & E'). exists n'. by rewrite E'. }
  assert (unlisted a (d_file s3)) as U3'.
  { split; [apply Hu|]. simpl. rewrite Etl. intros nm0 Hi0. destruct (B6 _ _ Hi0) as [H1|H1].
    - simpl in H1. rewrite T5 in H1. apply elem_of_app in H1 as [H1|H1]; [by destruct (proj2 Hu nm0)|].
      apply elem_of_list_singleton in H1. inversion H1; subst. pose proof (Hw _ _ Han). lia.
    - simpl in H1. pose proof (Hw _ _ Han). lia. }
  intros [= <-]. destruct (tstate_attrs s3 a (set_attr a_type (ARef e)) Ts3 U3') as [A1 A2]; [done|].
  destruct (upd_node_same a (set_attr a_type (ARef e)) s3) as (V1 & V2 & V3 & V4 & V5 & V6).
  split; [done|]. split; [rewrite V6; simpl; rewrite U6; lia|].
  rewrite A2. simpl. rewrite Etl. intros nm0 e0 Hi0. destruct (B6 _ _ Hi0) as [H1|H1].
  - simpl in H1. rewrite T5 in H1. apply elem_of_app in H1 as [H1|H1]; [by left|].
    apply elem_of_list_singleton in H1. inversion H1; subst. right. lia.
  - simpl in H1. right. lia.
Qed.

Lemma tstate_create s p nm b f a :
  tstate s -> unlisted p (d_file s) -> create_node (d_file s) p nm b = Ok (f, a) ->
  forall ts, tstate (set_file f (put_temps ts s)) /\ unlisted a f /\ newer (d_file s) f /\ is_Some (get_node f a).
Proof.
  intros [Ht Hb] Hu Hc ts. assert (wf_file (d_file s)) as Hw by apply Ht.
  destruct (table_create _ _ _ _ _ _ _ Ht Hc Hu) as (T1 & T2 & T3 & T4).
  destruct (create_node_spec _ _ _ _ _ _ Hw Hc) as (pn & Hp & Hg & -> & Hnx & Hna & Hnp & Hne & Hoth).
  split; [|split; [done|split; [apply newer_same; [lia|done]|by eexists]]]. split; [done|]. simpl. intros c e He. destruct (Hb _ _ He) as (n & Hn & Ha).
  destruct (create_names _ _ _ _ _ _ Hw Hc _ _ Hn) as (n' & Hn' & E'). exists n'. by rewrite E'.
Qed.

Lemma upd_newer s a g :
  tstate s -> unlisted a (d_file s) -> (forall n, nd_name (g n) = nd_name n) ->
  tstate (upd_node a g s) /\ newer (d_file s) (d_file (upd_node a g s)).
Proof.
  intros H1 H2 H3. destruct (tstate_attrs s a g H1 H2 H3) as [A1 A2]. split; [done|].
  destruct (upd_node_same a g s) as (U1 & U2 & U3 & U4 & U5 & U6). apply newer_same; [lia|done].
Qed.
Lemma tstate_lt s a : tstate s -> is_Some (getn s a) -> a < f_next (d_file s).
Proof. intros [(Hw & _) _] [n Hn]. by eapply Hw. Qed.

Lemma run_plan_table p nm pl s s' a :
  tstate s -> unlisted p (d_file s) -> run_plan kw p nm pl s = (s', Ok a) ->
  tstate s' /\ unlisted a (d_file s') /\ newer (d_file s) (d_file s') /\ is_Some (getn s' a).
Proof.
  intros Ht Hu. unfold run_plan.
  assert (forall b f a', create_node (d_file s) p nm b = Ok (f, a') ->
    match p_fail pl with
    | Some e => (upd_node a' (set_attrs (p_attrs pl)) (set_file f (put_temps (p_temps pl) s)), Err e)
    | None => (upd_node a' (set_attrs (p_attrs pl)) (set_file f (put_temps (p_temps pl) s)), Ok a')
    end = (s', Ok a) ->
    tstate s' /\ unlisted a (d_file s') /\ newer (d_file s) (d_file s') /\ is_Some (getn s' a)) as HU.
  { intros b f a' Hc. destruct (tstate_create _ _ _ _ _ _ Ht Hu Hc (p_temps pl)) as (T1 & T2 & T3 & [n T4]).
    destruct (p_fail pl); [done|]. intros [= <- <-].
    destruct (upd_newer _ a' (set_attrs (p_attrs pl)) T1 T2) as [A1 A2]; [done|].
    split; [done|]. split; [|split].
    - eapply newer_unlisted; [exact A2| |done]. apply (tstate_lt _ _ T1). by exists n.
    - eapply newer_trans; [exact T3|exact A2].
    - destruct (upd_names (set_file f (put_temps (p_temps pl) s)) a' (set_attrs (p_attrs pl)) (fun _ => eq_refl) a' n T4) as (n' & -> & _).
      by eexists. }
  destruct (p_data pl) as [d|].
  - destruct (create_dataset _ _ _ _ _) as [[f a']|] eqn:Ed; [|done]. apply create_dataset_node in Ed. by eapply HU.
  - destruct (create_node _ _ _ _) as [[f a']|] eqn:Ed; [|done]. by eapply HU.
Qed.

Lemma dump_node_table o p nm at_ s s' a memo subs :
  tstate s -> unlisted p (d_file s) -> dump_node E L kw tbl o p nm at_ s = (s', Ok (a, memo, subs)) ->
  tstate s' /\ unlisted a (d_file s') /\ newer (d_file s) (d_file s') /\ is_Some (getn s' a).
Proof.
  intros Ht Hu. unfold dump_node. destruct (L (ocls o)) as [[pt [[fn base] memo']]|]; [|done].
  assert (forall s a n, tstate s -> unlisted a (d_file s) -> getn s a = Some n ->
    tstate (upd_node a (set_attrs (without_type at_)) s) /\ unlisted a (d_file (upd_node a (set_attrs (without_type at_)) s)) /\
    newer (d_file s) (d_file (upd_node a (set_attrs (without_type at_)) s)) /\
    is_Some (getn (upd_node a (set_attrs (without_type at_)) s) a)) as HF.
  { clear. intros s a n T1 T2 T3. destruct (upd_newer _ a (set_attrs (without_type at_)) T1 T2) as [A1 A2]; [done|].
    split; [done|]. split; [|split; [done|]].
    - eapply newer_unlisted; [exact A2| |done]. apply (tstate_lt _ _ T1). by exists n.
    - destruct (upd_names s a (set_attrs (without_type at_)) (fun _ => eq_refl) a n T3) as (n' & -> & _). by eexists. }
  destruct (create E fn _ _ o) as [pl|e].
  - destruct (run_plan kw p nm pl s) as [s1 [a1|]] eqn:Er; [|done].
    destruct (run_plan_table _ _ _ _ _ _ Ht Hu Er) as (T1 & T2 & T3 & T4).
    destruct (store_type E tbl kw a1 pt base s1) as [s2 [[]|]] eqn:Es; [|done].
    destruct (store_type_table _ _ _ _ _ T1 T2 T4 Es) as (A1 & A2).
    pose proof (tstate_lt _ _ T1 T4) as Hlt. destruct T4 as [n1 T4].
    assert (exists n, getn s2 a1 = Some n) as [n Hn].
    { pose proof (store_type_fsteps E tbl kw a1 pt base s1) as HK. rewrite Es in HK.
      destruct (fsteps_some _ _ HK a1 n1 T4) as (n & Hn & _); [apply T1|by exists n]. }
    intros [= <- <- _ _]. destruct (HF s2 a1 n A1) as (F1 & F2 & F3 & F4); auto.
    { by eapply newer_unlisted. }
    split_and!; auto; try apply F1. eapply newer_trans; [exact T3|]. by eapply newer_trans.
  - destruct e; try done. destruct (create_pickled E o) as [pl|]; [|done].
    destruct (run_plan kw p nm pl s) as [s1 [a1|]] eqn:Er; [|done].
    destruct (run_plan_table _ _ _ _ _ _ Ht Hu Er) as (T1 & T2 & T3 & [n T4]).
    intros [= <- <- _ _]. destruct (HF s1 a1 n T1 T2 T4) as (F1 & F2 & F3 & F4); auto.
    split_and!; auto; try apply F1. by eapply newer_trans.
Qed.

Lemma dump_table fuel : forall x p nm at_ s s',
  tstate s -> unlisted p (d_file s) -> dump_ fuel E L kw tbl x p nm at_ s = (s', Ok tt) ->
  tstate s' /\ newer (d_file s) (d_file s').
Proof.
  induction fuel as [|fuel IH]; intros x p nm at_ s s' Ht Hu; [done|]. cbn [dump_].
  destruct (d_memo s !! x) as [t|].
  { unfold dump_ref. destruct (create_dataset _ _ _ _ _) as [[f a]|] eqn:Ed; [|done]. apply create_dataset_node in Ed. intros [= <-].
    destruct (tstate_create _ _ _ _ _ _ Ht Hu Ed []) as (T1 & T2 & T3 & T4).
    assert (tstate (set_file f s)) as T1' by done.
    destruct (upd_newer (set_file f s) a (set_attrs at_) T1' T2) as [A1 A2]; [done|]. split; [done|]. by eapply newer_trans. }
  destruct (d_heap s !! x) as [o|]; [|done].
  destruct (dump_node E L kw tbl o p nm at_ s) as [s1 [[[a memo] subs]|]] eqn:Ed; [|done].
  destruct (dump_node_table _ _ _ _ _ _ _ _ _ Ht Hu Ed) as (T1 & T2 & T3 & T4).
  pose proof (tstate_lt _ _ T1 T4) as Hlt.
  assert (forall subs s s', tstate s -> unlisted a (d_file s) -> a < f_next (d_file s) ->
    dump_subs (fun y nm at_ => dump_ fuel E L kw tbl y a nm at_) subs s = (s', Ok tt) ->
    tstate s' /\ newer (d_file s) (d_file s')) as HS.
  { clear -IH. induction subs as [|[[nm y] at_] subs IHs]; intros s s' Ht Hu Hlt; simpl.
    { intros [= <-]. split; [done|apply newer_refl]. }
    destruct (dump_ fuel E L kw tbl y a nm at_ s) as [s1 [[]|]] eqn:Ed; [|done].
    destruct (IH _ _ _ _ _ _ Ht Hu Ed) as [A1 A2]. intros Hr. destruct (IHs s1 s') as [B1 B2]; auto.
    - by eapply newer_unlisted.
    - destruct A2. lia.
    - split; [done|]. by eapply newer_trans. }
  intros Hr. destruct memo.
  - destruct (HS subs (set_memo x a s1) s') as [B1 B2]; auto. split; [done|]. by eapply newer_trans.
  - destruct (HS subs s1 s') as [B1 B2]; auto. split; [done|]. by eapply newer_trans.
Qed.
End Table.
