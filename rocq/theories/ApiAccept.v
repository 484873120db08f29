(** * ApiAccept: a call of [dump] with an acceptable object and a free path succeeds *)
From stdpp Require Import relations.
From Verif Require Import Base Utf8 Utf8Proofs Dec DecProofs Num NumProofs PyObj H5 Env Create Dump
  LoadFns LoadModel Registry DumpProofs DumpStored RegistryStd Spec Accept LoadBase LoadInv RoundTrip LoadFrame Api DumpClosed
  ApiProofs DumpTerm ApiEnds DumpOk DumpAccept.
From Coq Require Import Lia ZifyBool ZifyN.
Local Open Scope N_scope.
Local Open Scope list_scope.
Local Opaque std_loader std_dump dump_loader_of loader_of.

(** From group [a] the path [cs] leads to an empty group, or leaves the existing groups
    with components that can be names of groups. *)
Fixpoint free_from (f : file) (a : addr) (cs : list pystr) : Prop :=
  exists n, get_node f a = Some n /\ is_group n = true /\
    match cs with
    | [] => links n = []
    | c :: r => match alist_get c (links n) with
                | Some b => free_from f b r
                | None => Forall (fun c => name_ok c = Ok tt) cs
                end
    end.
Definition free_path (f : file) (p : pystr) : Prop := free_from f root_addr (components p).

Lemma make_groups_new cs : forall f a n, wf_file f -> get_node f a = Some n -> is_group n = true -> cs <> [] ->
  (forall c r, cs = c :: r -> alist_get c (links n) = None) -> Forall (fun c => name_ok c = Ok tt) cs ->
  exists f' b, make_groups f a cs = (f', Ok b).
Proof.
  induction cs as [|c cs IH]; intros f a n Hwf Hn Hg Hne Hl Hno; [done|]. cbn [make_groups].
  specialize (Hl _ _ eq_refl). inversion Hno; subst.
  assert (child f a c = None) as -> by (unfold child; by rewrite Hn).
  destruct (create_node_total f a c (BGroup []) n) as (f' & b & Hc); auto. rewrite Hc.
  destruct (create_node_spec _ _ _ _ _ _ Hwf Hc) as (pn & P1 & P2 & P3 & P4 & P5 & P6 & P7 & P8).
  destruct cs as [|c' cs]; [by eexists _, _|].
  eapply (IH f' b _); [|exact P5|done|done| |done].
  - intros d nd Hd. destruct (decide (d = b)) as [-> |]; [lia|]. destruct (decide (d = a)) as [-> |].
    + pose proof (Hwf _ _ Hn). lia.
    + rewrite P8 in Hd by done. pose proof (Hwf _ _ Hd). lia.
  - intros c0 r0 _. done.
Qed.

Lemma free_walk cs : forall f a, wf_file f -> free_from f a cs ->
  (exists b n, walk f a cs = Some b /\ get_node f b = Some n /\ is_group n = true /\ links n = []) \/
  (walk f a cs = None /\ exists f' b, make_groups f a cs = (f', Ok b)).
Proof.
  induction cs as [|c cs IH]; intros f a Hwf (n & Hn & Hg & H).
  - left. exists a, n. done.
  - cbn [walk]. assert (child f a c = alist_get c (links n)) as Hch by (unfold child; by rewrite Hn). rewrite Hch.
    destruct (alist_get c (links n)) as [b|] eqn:Eb.
    + destruct (IH f b Hwf H) as [(b' & n' & W)|[W (f' & b' & M)]].
      * left. by exists b', n'.
      * right. split; [done|]. exists f', b'. cbn [make_groups]. rewrite Hch. destruct cs; [done|exact M].
    + right. split; [done|]. eapply make_groups_new; eauto. by intros ? ? [= <- <-].
Qed.

Lemma root_for_dump_ok f p : tree f -> free_path f p -> exists f' root, root_for_dump f p = (f', Ok root).
Proof.
  intros Ht Hf. unfold root_for_dump. destruct (free_walk _ _ _ (tr_wf _ Ht) Hf) as [(b & n & W1 & W2 & W3 & W4)|[W1 M]].
  - unfold get_path. rewrite W1, W2. unfold is_group, links in *. destruct (nd_body n); [|done]. subst. by eexists _, _.
  - unfold get_path. rewrite W1. exact M.
Qed.

Lemma acceptable_dims E kw h o : acceptable E kw h o -> (dims o <= 32)%nat.
Proof. intros (_ & _ & Hc). destruct o as [c v]. unfold dims. simpl in *. destruct v; simpl in Hc; try lia; apply Hc. Qed.

Lemma dump_into_accepts C kw x root m f n :
  tree f -> c_world C = std_world -> env_ok (c_env C) -> free_above m ->
  get_node f root = Some n -> is_group n = true -> links n = [] ->
  acceptable_graph (c_env C) kw (m_heap m) x -> (34 * size (m_heap m) < c_fuel C)%nat ->
  snd (dump_into C kw [None] x root m f) = Ok tt.
Proof.
  intros Ht HW HE Hm Hn Hg Hl (U & HxU & HU) Hfu. unfold dump_into. rewrite HW, std_dump_eq.
  destruct (create_node_total f root n_table (BGroup []) n Hn Hg) as (f1 & tbl & Ec); [by rewrite Hl|vm_compute; reflexivity|].
  rewrite Ec. assert (wf_file f) as Hwf by apply Ht.
  apply fsteps_group in Ec as S1. pose proof (fsteps_tree _ _ S1 Ht) as T1.
  destruct (create_node_spec _ _ _ _ _ _ Hwf Ec) as (pn & Hp & _ & -> & Hnx & Hna & Hnp & Hne & Hoth).
  rewrite Hn in Hp. inversion Hp; subst pn. clear Hp.
  assert (loader_ok (c_env C) std_dump) as HL. { rewrite <- std_dump_eq, <- HW. apply dump_loader_ok. rewrite HW. apply std_world_ok. }
  set (s := Dst (m_heap m) (m_next m) f1 ∅ [] []). set (tbl := f_next f) in *.
  assert (wfs std_dump tbl s) as Hws. { eapply start_wfs; [apply T1|done|exact Hna|done]. }
  assert (forall z, z ∈ U -> is_Some (m_heap m !! z)) as HUd. { intros z Hz. destruct (HU z Hz) as (o & Ho & _). by exists o. }
  assert (fine (snd (dump_ (c_fuel C) (c_env C) std_dump kw tbl x root n_data [] s))) as Hfi.
  { eapply (dump_fine _ _ _ _ HL) with (U := U) (h0 := m_heap m) (K := 32%nat) (k := 0%nat); auto.
    - intros c. rewrite <- std_dump_eq. apply dump_loader_fine.
    - intros y Hy. destruct (HU y Hy) as (o & Ho & Ha & Hr). exists o. split; [done|]. split; [|done]. by eapply acceptable_dims.
    - apply at_none.
    - by apply deep_in.
    - unfold budget, todo. change (d_memo s) with (∅ : gmap N N). rewrite dom_empty_L, difference_empty_L.
      assert (size U <= size (m_heap m))%nat; [|lia]. rewrite <- size_dom. apply subseteq_size. intros z Hz. apply elem_of_dom. by apply HUd. }
  destruct (dump_ (c_fuel C) (c_env C) std_dump kw tbl x root n_data [] s) as [s' r'] eqn:Ed. simpl in *.
  destruct (dump_accepted (c_env C) HE kw tbl (m_heap m) U HU HL (c_fuel C) x root n_data [] s s' r' (extend n [(n_table, tbl)])) as [-> |[-> _]]; auto.
  - exists (Node n_table ∅ (BGroup [])). split; [exact Hna|]. split; [done|]. intros nm a Ha. done.
  - apply at_none.
  - by apply good_in.
  - by rewrite extend_group.
  - rewrite extend_links, Hl by done. vm_compute. reflexivity.
  - by destruct Hfi.
Qed.

Lemma dump_file_accepts C kw opts x p m f :
  env_ok (c_env C) -> c_world C = std_world -> tree f -> free_above m -> Forall (fun o => snd o = false) opts ->
  free_path f p -> acceptable_graph (c_env C) kw (m_heap m) x -> (34 * size (m_heap m) < c_fuel C)%nat ->
  exists f' m', dump_file C kw opts x p m f = (f', m', Ok tt).
Proof.
  intros HE HW Ht Hm Hop Hp Hx Hfu. unfold dump_file.
  destruct (root_for_dump_ok f p Ht Hp) as (f1 & root & Er). rewrite Er.
  destruct (root_for_dump_spec _ _ _ _ Ht Er) as (T1 & _ & _ & _ & R). destruct (R root eq_refl) as (_ & n & Hn & Hg & Hl & _).
  unfold dump_root.
  destruct (with_options (stamp C f1 root) root opts) as [f2 r2] eqn:Ew.
  destruct (with_options_spec _ _ _ _ _ _ _ Hn Ew) as (S1 & N1 & R1 & O1 & ->).
  rewrite (options_off opts _ Hop) in *. simpl in *. pose proof (fsteps_tree _ _ S1 T1) as T2.
  pose proof (dump_into_accepts C kw x root m f2 _ T2 HW HE Hm R1 Hg Hl Hx Hfu) as Hd.
  destruct (dump_into C kw [None] x root m f2) as [[f' m'] r]. simpl in Hd. subst r. by eexists _, _.
Qed.
