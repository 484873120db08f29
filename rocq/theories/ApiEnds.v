(** * ApiEnds: a whole call of [dump] ends *)
From stdpp Require Import relations.
From Verif Require Import Base Utf8 Utf8Proofs Dec DecProofs Num NumProofs PyObj H5 Env Create Dump
  LoadFns LoadModel Registry DumpProofs DumpStored RegistryStd Spec LoadBase LoadInv RoundTrip LoadFrame Api DumpClosed
  ApiProofs DumpTerm.
From Coq Require Import Lia ZifyBool ZifyN.
Local Open Scope N_scope.
Local Open Scope list_scope.
Local Opaque std_loader std_dump dump_loader_of loader_of.

(** Every object held by an object of the heap is in the heap. *)
Definition heap_closed (h : heap) : Prop :=
  forall x o, h !! x = Some o -> forall y, y ∈ refs o -> is_Some (h !! y).

Lemma set_options_fine opts : forall a chain, fine (snd (set_options opts a chain)).
Proof.
  induction opts as [|[nm b] opts IH]; intros a chain; simpl; [done|]. repeat (case_match; try done; try apply IH).
Qed.
Lemma make_groups_fine cs : forall f a, fine (snd (make_groups f a cs)).
Proof.
  induction cs as [|c cs IH]; intros f a; simpl; [done|].
  destruct (child f a c); [destruct cs; [done|apply IH]|].
  pose proof (create_node_fine f a c (BGroup [])) as Hf. destruct (create_node _ _ _ _) as [[f' b]|e].
  - destruct cs; [done|apply IH].
  - destruct e; try done.
Qed.
Lemma root_for_dump_fine f p : fine (snd (root_for_dump f p)).
Proof.
  unfold root_for_dump. repeat (case_match; try done). apply make_groups_fine.
Qed.

Definition more_fuel (C C' : config) : Prop :=
  c_env C' = c_env C /\ c_world C' = c_world C /\ c_pyver C' = c_pyver C /\ (c_fuel C <= c_fuel C')%nat.

Lemma dump_into_ends C C' kw chain x root m f n K :
  tree f -> world_ok (c_world C) -> free_above m -> get_node f root = Some n ->
  heap_closed (m_heap m) -> is_Some (m_heap m !! x) ->
  (forall y o, m_heap m !! y = Some o -> (dims o <= K)%nat) ->
  ((K + 2) * size (m_heap m) < c_fuel C)%nat -> more_fuel C C' ->
  fine (snd (dump_into C kw chain x root m f)) /\ dump_into C' kw chain x root m f = dump_into C kw chain x root m f.
Proof.
  intros Ht HW Hm Hn Hcl Hx HK Hfu (HE & HWo & _ & Hle). unfold dump_into. rewrite HE, HWo.
  pose proof (create_node_fine f root n_table (BGroup [])) as Hcf.
  destruct (create_node f root n_table (BGroup [])) as [[f1 tbl]|e] eqn:Ec.
  2: { split; [|done]. simpl. intros [= ->]. by apply Hcf. }
  assert (wf_file f) as Hwf by apply Ht.
  apply fsteps_group in Ec as S1. pose proof (fsteps_tree _ _ S1 Ht) as T1.
  destruct (create_node_spec _ _ _ _ _ _ Hwf Ec) as (pn & Hp & Hg & -> & Hnx & Hna & Hnp & Hne & Hoth).
  pose proof (dump_loader_ok (c_env C) (c_world C) chain HW) as HL.
  set (s := Dst (m_heap m) (m_next m) f1 ∅ [] []). set (tbl := f_next f) in *.
  assert (wfs (dump_loader_of (c_world C) chain) tbl s) as Hws.
  { eapply start_wfs; [apply T1|done|exact Hna|done]. }
  assert (fine (snd (dump_ (c_fuel C) (c_env C) (dump_loader_of (c_world C) chain) kw tbl x root n_data [] s))) as Hfi.
  { eapply (dump_fine _ _ _ _ HL (dump_loader_fine _ _) (dom (m_heap m)) (m_heap m) K) with (k := 0%nat); auto.
    - intros y [o Ho]%elem_of_dom. exists o. split; [done|]. split; [by eapply HK|]. intros z Hz. apply elem_of_dom. by eapply Hcl.
    - apply at_none.
    - apply deep_in. by apply elem_of_dom.
    - unfold budget, todo. change (d_memo s) with (∅ : gmap N N). rewrite dom_empty_L, difference_empty_L, size_dom. lia. }
  destruct (dump_ (c_fuel C) (c_env C) (dump_loader_of (c_world C) chain) kw tbl x root n_data [] s) as [s' r'] eqn:Ed.
  rewrite (dump_le _ _ _ _ _ _ _ _ _ _ _ _ _ Hle Ed Hfi). split; [exact Hfi|done].
Qed.

Lemma dump_file_ends C C' kw opts x p m f K :
  tree f -> world_ok (c_world C) -> free_above m ->
  heap_closed (m_heap m) -> is_Some (m_heap m !! x) ->
  (forall y o, m_heap m !! y = Some o -> (dims o <= K)%nat) ->
  ((K + 2) * size (m_heap m) < c_fuel C)%nat -> more_fuel C C' ->
  snd (dump_file C kw opts x p m f) <> Err OutOfFuel /\ dump_file C' kw opts x p m f = dump_file C kw opts x p m f.
Proof.
  intros Ht HW Hm Hcl Hx HK Hfu Hmo. unfold dump_file.
  pose proof (root_for_dump_fine f p) as Hr. destruct (root_for_dump f p) as [f1 [root|e]] eqn:Er.
  2: { split; [|done]. simpl in *. intros [= ->]. by apply Hr. }
  destruct (root_for_dump_spec _ _ _ _ Ht Er) as (T1 & _ & _ & _ & R). destruct (R root eq_refl) as (_ & n & Hn & _).
  unfold dump_root.
  assert (stamp C' f1 root = stamp C f1 root) as ->. { unfold stamp. by rewrite (proj1 (proj2 (proj2 Hmo))). }
  destruct (with_options (stamp C f1 root) root opts) as [f2 r2] eqn:Ew.
  destruct (with_options_spec _ _ _ _ _ _ _ Hn Ew) as (S1 & N1 & R1 & O1 & ->).
  pose proof (set_options_fine opts (stamped C (nd_attrs n)) [None]) as Hso. fold (dump_options opts (stamped C (nd_attrs n))) in Hso.
  pose proof (fsteps_tree _ _ S1 T1) as T2.
  destruct (snd (dump_options opts (stamped C (nd_attrs n)))) as [chain|e].
  - by eapply dump_into_ends.
  - split; [|done]. simpl. intros [= ->]. by apply Hso.
Qed.
