(** * Acyclic: what dump stores can be loaded exactly when there is no cycle *)
From stdpp Require Import relations.
From Verif Require Import Base Utf8 Dec Num PyObj H5 Env Create Dump LoadFns LoadModel Registry RegistryStd Spec RoundTrip
  DumpProofs Api DumpClosed ApiProofs Accept ApiAccept DumpEnv Cases LoadCycle DumpCycle.
From Coq Require Import Lia ZifyBool ZifyN.
Local Open Scope N_scope.
Local Open Scope list_scope.
Local Opaque std_loader std_dump dump_loader_of loader_of.

(** Everything [graph_ok] (Spec.v) asks for except that there is no cycle. *)
Definition sound_graph (E : env) (h : heap) (x : loc) : Prop :=
  exists U : gset N, x ∈ U /\
    forall y, y ∈ U -> exists o, h !! y = Some o /\
      storable h o /\ outside_hickle (ocls o) /\ e_imports E (ocls o) = true /\ (o = empty_tuple -> y = nobody) /\
      forall z, z ∈ refs o -> z ∈ U.

Lemma storable_container h o : storable h o -> outside_hickle (ocls o) -> refs o <> [] -> container o.
Proof.
  intros Hs Ho Hr. split; [done|]. destruct Hs; cbn [oval ocls] in *; try done; auto.
  - naive_solver.
  - by exists k.
Qed.

Lemma sound_acyclic E h x : sound_graph E h x -> ~ cyclic h x -> graph_ok E h x.
Proof.
  intros (U & Hx & HU) Hac.
  assert (forall n (V : gset N) y, (size (U ∖ V) <= n)%nat -> y ∈ U -> rtc (holds h) x y ->
    (forall v, v ∈ V -> tc (holds h) v y) -> graph_ok E h y) as Hgen.
  { induction n as [|n IH]; intros V y Hn Hy Hr HV.
    - assert (y ∈ V) as Hv. { assert (size (U ∖ V) = 0%nat) as H0 by lia. apply size_empty_inv in H0. set_solver. }
      exfalso. apply Hac. exists y. split; [done|by apply HV].
    - destruct (HU y Hy) as (o & Ho & Hs & Hout & Him & Het & Href).
      apply (graph_ok_intro E h y o Ho Hs Hout Him Het). intros z Hz.
      assert (holds h y z) as Hyz.
      { exists o. split; [done|]. split; [|done]. eapply storable_container; [exact Hs|exact Hout|]. intros Hn0. rewrite Hn0 in Hz. by apply elem_of_nil in Hz. }
      destruct (decide (y ∈ V)) as [Hin|Hnin].
      { exfalso. apply Hac. exists y. split; [done|by apply HV]. }
      apply (IH (V ∪ {[y]}) z).
      + assert (size (U ∖ (V ∪ {[y]})) < size (U ∖ V))%nat; [|lia]. apply subset_size. set_solver.
      + by apply Href.
      + eapply rtc_r; [exact Hr|exact Hyz].
      + intros v [Hv|Hv]%elem_of_union.
        * eapply tc_r; [by apply HV|exact Hyz].
        * apply elem_of_singleton in Hv as ->. by apply tc_once. }
  apply (Hgen (size (U ∖ ∅)) ∅ x); [done|done|apply rtc_refl|]. intros v Hv. by apply elem_of_empty in Hv.
Qed.

(** Some process with the environment [E'] can load the path. *)
Definition loads (E' : env) (f : file) (p : pystr) : Prop :=
  exists C' w m2 f2 m3 v ov, c_env C' = E' /\ c_world C' = std_world /\ load_file C' w f p m2 = (f2, Ok (m3, v), ov).

(** A process that has just been started. *)
Definition mem_empty : mem := Mem {[nobody := empty_tuple]} 1.
Lemma mem_empty_ok : mem_ok mem_empty.
Proof.
  split; cbn [m_next m_heap mem_empty].
  - intros l Hl. apply lookup_singleton_ne. unfold nobody. lia.
  - apply lookup_singleton.
Qed.

Lemma loads_iff_acyclic C E' kw opts x p m f :
  setting C E' opts p m f -> acceptable_graph E' kw (m_heap m) x -> sound_graph E' (m_heap m) x ->
  exists f' m', dump_file C kw opts x p m f = (f', m', Ok tt) /\ (loads E' f' p <-> ~ cyclic (m_heap m) x).
Proof.
  intros Hs Hacc Hsd. pose proof Hs as [(o & fp & cp & im & ->) HE HW Hpy Ht Hv Hp Ha Hop Hm Hfu].
  destruct (dump_file_accepts (with_env C (other_loader (c_env C) o fp cp im)) kw opts x p m f HE HW Ht Hm Hop Hp Hacc Hfu) as (f' & m' & Hd).
  rewrite dump_file_other in Hd. exists f', m'. split; [done|]. split.
  - intros (C' & w & m3 & f2 & m4 & v & ov & He' & Hw' & Hl) Hcy.
    eapply (cyclic_never_loads C kw opts x p m f f' m' Ht Hv HW Hm Hop Hcy Hd); [|exact Hl]. rewrite He'. apply HE.
  - intros Hac. pose proof (sound_acyclic _ _ _ Hsd Hac) as Hg.
    destruct (whole_graph _ _ _ _ _ _ _ _ Hs Hacc Hg) as (f1 & m1 & Hd1 & N & HN).
    rewrite Hd in Hd1. inversion Hd1; subst f1 m1.
    destruct (HN (Config (other_loader (c_env C) o fp cp im) std_world [] (fun _ _ _ => Err Unmodelled) N) false mem_empty
      eq_refl eq_refl ltac:(cbn; lia) mem_empty_ok) as (m3 & v & L1 & _).
    eexists _, false, mem_empty, f', m3, v, false. split; [|split; [|exact L1]]; done.
Qed.

(** ** The conditions on acyclic graphs of Spec.v are met *)
Lemma graph_ok_fine E h x : graph_ok E h x -> fine_at h x.
Proof.
  induction 1 as [x o Ho _ _ _ _ _ IH]. constructor. intros y (o' & Ho' & _ & Hy). rewrite Ho in Ho'. inversion Ho'; subst o'. by apply IH.
Qed.
Lemma graph_ok_acyclic E h x : graph_ok E h x -> ~ cyclic h x.
Proof. intros Hg. apply fine_no_cycle. by eapply graph_ok_fine. Qed.
Lemma graph_ok_sound E h x : graph_ok E h x -> sound_graph E h x.
Proof.
  induction 1 as [x o Ho H1 H2 H3 H4 _ IH].
  assert (forall l : list N, (forall y, y ∈ l -> sound_graph E h y) -> exists U : gset N, (forall y, y ∈ l -> y ∈ U) /\
    forall y, y ∈ U -> exists o, h !! y = Some o /\
      storable h o /\ outside_hickle (ocls o) /\ e_imports E (ocls o) = true /\ (o = empty_tuple -> y = nobody) /\
      forall z, z ∈ refs o -> z ∈ U) as Hl.
  { induction l as [|y l IHl]; intros Hall.
    - exists ∅. split; [intros ? Hy; by apply elem_of_nil in Hy|]. intros ? Hy. by apply elem_of_empty in Hy.
    - destruct IHl as (U1 & A1 & B1); [intros z Hz; apply Hall; by right|].
      destruct (Hall y ltac:(by left)) as (U2 & A2 & B2). exists (U1 ∪ U2). split.
      + intros z [-> |Hz]%elem_of_cons; apply elem_of_union; [by right|left; by apply A1].
      + intros z [Hz|Hz]%elem_of_union.
        * destruct (B1 z Hz) as (oz & K1 & K2 & K3 & K4 & K5 & K6). exists oz. do 5 (split; [done|]).
          intros w Hw. apply elem_of_union. left. by apply K6.
        * destruct (B2 z Hz) as (oz & K1 & K2 & K3 & K4 & K5 & K6). exists oz. do 5 (split; [done|]).
          intros w Hw. apply elem_of_union. right. by apply K6. }
  destruct (Hl (refs o) IH) as (U & A & B). exists ({[x]} ∪ U). split; [apply elem_of_union; left; by apply elem_of_singleton|].
  intros y [Hy|Hy]%elem_of_union.
  - apply elem_of_singleton in Hy as ->. exists o. do 5 (split; [done|]). intros z Hz. apply elem_of_union. right. by apply A.
  - destruct (B y Hy) as (oz & K1 & K2 & K3 & K4 & K5 & K6). exists oz. do 5 (split; [done|]).
    intros w Hw. apply elem_of_union. right. by apply K6.
Qed.

(** ** Lists of acceptable items *)
Lemma items_acceptable E kw h (l : list N) : (forall y, y ∈ l -> acceptable_graph E kw h y) ->
  exists U : gset N, (forall y, y ∈ l -> y ∈ U) /\
    forall y, y ∈ U -> exists o, h !! y = Some o /\ acceptable E kw h o /\ forall z, z ∈ refs o -> z ∈ U.
Proof.
  induction l as [|y l IHl]; intros Hall.
  - exists ∅. split; [intros ? Hy; by apply elem_of_nil in Hy|]. intros ? Hy. by apply elem_of_empty in Hy.
  - destruct IHl as (U1 & A1 & B1); [intros z Hz; apply Hall; by right|].
    destruct (Hall y ltac:(by left)) as (U2 & A2 & B2). exists (U1 ∪ U2). split.
    + intros z [-> |Hz]%elem_of_cons; apply elem_of_union; [by right|left; by apply A1].
    + intros z [Hz|Hz]%elem_of_union.
      * destruct (B1 z Hz) as (oz & K1 & K2 & K3). exists oz. do 2 (split; [done|]). intros w Hw. apply elem_of_union. left. by apply K3.
      * destruct (B2 z Hz) as (oz & K1 & K2 & K3). exists oz. do 2 (split; [done|]). intros w Hw. apply elem_of_union. right. by apply K3.
Qed.

Lemma list_accepted C kw opts x p m f c xs :
  env_ok (c_env C) -> c_world C = std_world -> tree f -> free_above m -> Forall (fun o => snd o = false) opts ->
  free_path f p -> (34 * size (m_heap m) < c_fuel C)%nat ->
  m_heap m !! x = Some (Obj c (VSeq xs)) -> base_cls c = CList \/ base_cls c = CTuple \/ base_cls c = CSet ->
  outside_hickle c -> e_pickles_cls (c_env C) c = true ->
  (forall y, y ∈ xs -> acceptable_graph (c_env C) kw (m_heap m) y) -> items_fine (c_env C) (m_heap m) xs ->
  exists f' m', dump_file C kw opts x p m f = (f', m', Ok tt).
Proof.
  intros HE HW Ht Hm Hop Hp Hfu Hx Hb Ho Hpk Hit Hfine. apply dump_file_accepts; try done.
  destruct (items_acceptable _ _ _ _ Hit) as (U & A & B). exists ({[x]} ∪ U). split; [apply elem_of_union; left; by apply elem_of_singleton|].
  intros y [Hy|Hy]%elem_of_union.
  - apply elem_of_singleton in Hy as ->. eexists. split; [exact Hx|]. split.
    + split; [done|]. split; [done|]. cbn [contents_fine]. split; [|done]. destruct Hb as [Hb|[Hb|Hb]]; auto.
    + intros z Hz. apply elem_of_union. right. by apply A.
  - destruct (B y Hy) as (oz & K1 & K2 & K3). exists oz. do 2 (split; [done|]). intros w Hw. apply elem_of_union. right. by apply K3.
Qed.
