(** * Subclass: instances of subclasses, and the samples for the theorems on cycles *)
From stdpp Require Import relations.
From Verif Require Import Base Utf8 Dec Num PyObj H5 Env Create Dump LoadFns LoadModel Registry RegistryStd Spec RoundTrip
  DumpProofs Api DumpClosed ApiProofs Instance Samples SampleProofs Cyclic Accept ApiAccept DumpEnv Cases DumpSamples LoadCycle DumpCycle Acyclic.
From Coq Require Import Lia ZifyBool ZifyN.
Local Open Scope N_scope.
Local Open Scope list_scope.

(** [class C(int): pass], also in several steps, and the same for float, complex and bytes:
    the contents fit the class. *)
Inductive plain_subclass : obj -> Prop :=
| ps_int c z : base_cls c = CInt -> plain_subclass (Obj c (VNum (NZ z)))
| ps_float c d : base_cls c = CFloat -> fits F8 d = true -> plain_subclass (Obj c (VNum (NF d)))
| ps_complex c a b : base_cls c = CComplex -> fits F8 a = true -> fits F8 b = true -> plain_subclass (Obj c (VNum (NC a b)))
| ps_bytes c b : base_cls c = CBytes -> cls_name c <> str "str" -> ascii_name c -> plain_subclass (Obj c (VBytes b)).

Lemma subclass_back C E' kw opts x p m f o :
  setting C E' opts p m f -> m_heap m !! x = Some o -> plain_subclass o ->
  outside_hickle (ocls o) -> e_pickles_cls E' (ocls o) = true -> e_imports E' (ocls o) = true ->
  comes_back C E' kw opts x p m f (fun h v => h !! v = Some o).
Proof.
  intros Hse Ho Hb Hout Hpk Him. apply leaf_back; auto.
  - by destruct Hb.
  - by destruct Hb.
  - split; [done|]. split; [done|]. destruct Hb as [c z Hc|c d Hc|c a b Hc|c b Hc]; cbn [contents_fine ocls oval]; unfold number_ok; rewrite ?Hc; auto.
  - destruct Hb as [c z Hc|c d Hc|c a b Hc|c b Hc]; constructor; unfold number_ok; rewrite ?Hc; auto.
  - by destruct Hb.
Qed.

(** ** Samples *)
Definition c_int2 : cls := CSub (str "m") (str "A") (CSub (str "m") (str "B") CInt).
Definition c_list2 : cls := CSub (str "m") (str "L") CList.
(** L(['abc', A(5)]) *)
Definition m_sub : mem := mem_of [Obj c_list2 (VSeq [2; 3]); o_str "abc"; Obj c_int2 (VNum (NZ 5))].

Lemma c_int2_outside : outside_hickle c_int2. Proof. outside. Qed.
Lemma c_list2_outside : outside_hickle c_list2. Proof. outside. Qed.

Lemma m_sub_size : (34 * size (m_heap m_sub) < 900)%nat.
Proof. vm_compute. lia. Qed.
Lemma subclass_sample :
  setting C0 ienv [] p_ab m_sub f0 /\ m_heap m_sub !! 3 = Some (Obj c_int2 (VNum (NZ 5))) /\ plain_subclass (Obj c_int2 (VNum (NZ 5))) /\
  outside_hickle c_int2 /\ e_pickles_cls ienv c_int2 = true /\ e_imports ienv c_int2 = true.
Proof.
  split; [exact (setting0 _ m_sub_size)|]. split; [look|]. split; [by constructor|]. split; [exact c_int2_outside|]. split; look.
Qed.

Lemma m_sub_not_numbers : ~ all_numbers (m_heap m_sub) [2; 3].
Proof. intros Ha. destruct (Ha 2 ltac:(left)) as (c & n & d & Hl & Hd). vm_compute in Hl. inversion Hl. Qed.
Lemma m_sub_acceptable kw : acceptable_graph ienv kw (m_heap m_sub) 1.
Proof.
  exists {[1; 2; 3]}. split; [inU|]. intros y Hy.
  assert (y ∈ [1; 2; 3]) as Hy' by set_solver. clear Hy. rename Hy' into Hy. each Hy.
  - eexists. split; [look|]. split.
    + split; [exact c_list2_outside|]. split; [done|]. split; [by left|]. split.
      * intros z Hz. each Hz; intros o Ho; vm_compute in Ho; inversion Ho; done.
      * intros Ha. by destruct (m_sub_not_numbers Ha).
    + intros z Hz. simpl in Hz. each Hz; inU.
  - eexists. split; [look|]. split; [|intros z Hz; simpl in Hz; each Hz].
    split; [outside|]. split; [done|]. split; [by left|]. split; [look|]. unfold ascii_name. inU.
  - eexists. split; [look|]. split; [|intros z Hz; simpl in Hz; each Hz].
    split; [exact c_int2_outside|]. split; [done|]. exact I.
Qed.
Lemma m_sub_ok : graph_ok ienv (m_heap m_sub) 1.
Proof.
  eapply graph_ok_intro; [look| |exact c_list2_outside|look|discriminate|].
  - apply st_seq; [by left|]. intros Ha. by destruct (m_sub_not_numbers Ha).
  - intros y Hy. simpl in Hy. each Hy.
    + eapply graph_ok_intro; [look|constructor|outside|look|discriminate|]. intros z Hz. simpl in Hz. each Hz.
    + eapply graph_ok_intro; [look|by constructor|exact c_int2_outside|look|discriminate|]. intros z Hz. simpl in Hz. each Hz.
Qed.

Lemma cyclic_sample : cyclic (m_heap m_cyclic) 1.
Proof.
  exists 1. split; [apply rtc_refl|]. apply tc_once. eexists. split; [look|]. split; [|by left].
  split; [outside|]. by left.
Qed.
Lemma cyclic_sound : sound_graph ienv (m_heap m_cyclic) 1.
Proof.
  exists {[1]}. split; [inU|]. intros y Hy. apply elem_of_singleton in Hy as ->. eexists. split; [look|].
  split; [|split; [outside|split; [look|split; [discriminate|]]]].
  - apply st_seq; [by left|]. intros Ha. destruct (Ha 1 ltac:(left)) as (c & n & d & Hl & _). vm_compute in Hl. inversion Hl.
  - intros z Hz. simpl in Hz. each Hz. inU.
Qed.
Lemma m_cyclic_size : (34 * size (m_heap m_cyclic) < 900)%nat.
Proof. vm_compute. lia. Qed.

(** A file made by other means: the group 'data' is a member of itself. *)
Definition f_own : file :=
  File {[root_addr := Node [] (<[str "HICKLE_VERSION" := AStr (str "5.0.3")]> ∅) (BGroup [(n_data, 1)]); 1 := Node n_data ∅ (BGroup [(str "x", 1)])]} 2.
Lemma own_member_file :
  wf_file f_own /\ detect (node_attrs f_own root_addr) (node_attrs f_own root_addr) <> Ok V3 /\
  get_path f_own [] = Some root_addr /\ child f_own root_addr n_data = Some 1 /\ rtc (leads (v4_file f_own root_addr) f_own) 1 1 /\ tc (leads (v4_file f_own root_addr) f_own) 1 1.
Proof.
  split.
  { intros a n Ha. unfold get_node, f_own in Ha. cbn [f_nodes f_next] in *.
    destruct (decide (a = root_addr)) as [-> |H1]; [done|]. rewrite lookup_insert_ne in Ha by done.
    destruct (decide (a = 1)) as [-> |H2]; [done|]. by rewrite lookup_singleton_ne in Ha. }
  split; [vm_compute; discriminate|]. split; [reflexivity|]. split; [reflexivity|].
  split; [constructor|]. apply tc_once, (leads_member _ f_own 1 (Node n_data ∅ (BGroup [(str "x", 1)])) (str "x") 1); [reflexivity|by left|].
  intros H. vm_compute in H. discriminate H.
Qed.

Lemma m_ex_items kw :
  m_heap m_ex !! 5 = Some (Obj CSet (VSeq [2; 3])) /\ (forall y, y ∈ [2; 3] -> acceptable_graph ienv kw (m_heap m_ex) y) /\
  items_fine ienv (m_heap m_ex) [2; 3].
Proof.
  split; [look|]. split; [intros y Hy; each Hy; apply m_ex_acceptable_at; inU|]. split.
  - intros z Hz. each Hz; intros o Ho; vm_compute in Ho; inversion Ho; done.
  - intros Ha. destruct (Ha 3 ltac:(right; left)) as (c & n & d & Hl & _). vm_compute in Hl. done.
Qed.
