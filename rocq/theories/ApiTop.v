(** * ApiTop: dump and load of paths of one file, put together *)
From stdpp Require Import relations.
From Verif Require Import Base Utf8 Dec Num PyObj H5 Env Create Dump LoadFns LoadModel Registry RegistryStd Spec PartSpec RoundTrip
  LoadFrame Api DumpProofs DumpClosed ApiProofs DumpEnv Reach Crash CrashProofs.
From Coq Require Import Lia ZifyBool ZifyN.
Local Open Scope N_scope.
Local Open Scope list_scope.
Local Opaque std_loader std_dump dump_loader_of loader_of.

Lemma dump_load_file_part C kw opts x p m f f' m' o fp cp im :
  let E' := other_loader (c_env C) o fp cp im in
  env_ok E' -> c_world C = std_world -> c_pyver C <> [] ->
  tree f -> not_v3 f -> no_options (target_attrs f p) -> Forall (fun o => snd o = false) opts ->
  free_above m -> graph_part E' (m_heap m) x ->
  dump_file C kw opts x p m f = (f', m', Ok tt) ->
  exists N, forall C' writable m2,
    c_env C' = E' -> c_world C' = std_world -> (N <= c_fuel C')%nat -> mem_ok m2 ->
    exists m3 v, load_file C' writable f' p m2 = (f', Ok (m3, v), false) /\
      m_heap m2 ⊆ m_heap m3 /\ restored E' (m_heap m) x (m_heap m3) v.
Proof.
  intros E' HE HW Hpy Ht Hv Hno Hop Hm Hx Hd. rewrite <-(dump_file_other C o fp cp im) in Hd. fold E' in Hd.
  destruct (dump_file_loadable (with_env C E') _ _ _ _ _ _ _ _ Ht HE HW Hpy Hm Hx Hv Hno Hop Hd) as (lo & hi & root & tbl & c & n & HL).
  exact (loadable_load _ _ _ _ _ _ _ _ _ _ _ HL).
Qed.

Lemma dump_load_file C kw opts x p m f f' m' o fp cp im :
  let E' := other_loader (c_env C) o fp cp im in
  env_ok E' -> c_world C = std_world -> c_pyver C <> [] ->
  tree f -> not_v3 f -> no_options (target_attrs f p) -> Forall (fun o => snd o = false) opts ->
  free_above m -> graph_ok E' (m_heap m) x ->
  dump_file C kw opts x p m f = (f', m', Ok tt) ->
  exists N, forall C' writable m2,
    c_env C' = E' -> c_world C' = std_world -> (N <= c_fuel C')%nat -> mem_ok m2 ->
    exists m3 v, load_file C' writable f' p m2 = (f', Ok (m3, v), false) /\
      m_heap m2 ⊆ m_heap m3 /\ isomorphic (m_heap m) x (m_heap m3) v.
Proof.
  intros E' HE HW Hpy Ht Hv Hno Hop Hm Hx Hd.
  destruct (dump_load_file_part C kw opts x p m f f' m' o fp cp im HE HW Hpy Ht Hv Hno Hop Hm (graph_ok_part _ _ _ Hx) Hd) as (N & HN).
  exists N. intros C' w m2 H1 H2 H3 H4. destruct (HN C' w m2 H1 H2 H3 H4) as (m3 & v & L1 & L2 & L3).
  exists m3, v. split; [done|]. split; [done|]. by eapply restored_isomorphic.
Qed.

Lemma dump_load_alias C kw opts x p m f f' m' o fp cp im P Q a b :
  let E' := other_loader (c_env C) o fp cp im in
  env_ok E' -> c_world C = std_world -> c_pyver C <> [] ->
  tree f -> not_v3 f -> no_options (target_attrs f p) -> Forall (fun o => snd o = false) opts ->
  free_above m -> graph_ok E' (m_heap m) x ->
  reach (m_heap m) x P a -> reach (m_heap m) x Q b -> ~ scalar_at (m_heap m) a -> ~ scalar_at (m_heap m) b ->
  dump_file C kw opts x p m f = (f', m', Ok tt) ->
  exists N, forall C' writable m2,
    c_env C' = E' -> c_world C' = std_world -> (N <= c_fuel C')%nat -> mem_ok m2 ->
    exists m3 v a' b', load_file C' writable f' p m2 = (f', Ok (m3, v), false) /\
      reach (m_heap m3) v P a' /\ reach (m_heap m3) v Q b' /\ (a = b <-> a' = b').
Proof.
  intros E' HE HW Hpy Ht Hv Hno Hop Hm Hx HP HQ Ha Hb Hd.
  destruct (dump_load_file C kw opts x p m f f' m' o fp cp im HE HW Hpy Ht Hv Hno Hop Hm Hx Hd) as (N & HN).
  exists N. intros C' w m2 H1 H2 H3 H4. destruct (HN C' w m2 H1 H2 H3 H4) as (m3 & v & L1 & L2 & L3).
  destruct (isomorphic_alias _ _ _ _ _ _ _ _ L3 HP HQ Ha Hb) as (a' & b' & R1 & R2 & R3). exists m3, v, a', b'. done.
Qed.

(** Containers of numbers. *)
Lemma same_obj_number h h' R o o' n : same_obj h h' R o o' -> oval o = VNum n -> o' = o.
Proof. intros [Hc Hs] E. rewrite E in Hs. destruct o as [c v], o' as [c' v']. simpl in *. subst. by destruct v', Hs as [_ ->]. Qed.
Lemma same_items_numbers h h' (R : loc -> loc -> Prop) xs ys :
  (forall a b, R a b -> exists o o', h !! a = Some o /\ h' !! b = Some o' /\ same_obj h h' R o o') ->
  (forall x o, x ∈ xs -> h !! x = Some o -> storable h o) ->
  all_numbers h xs -> same_items h h' R xs ys -> Forall2 (same_number h h') xs ys.
Proof.
  intros HR Hst Hall [Hs|Hs]; [|apply Hs]. induction Hs as [|a b xs ys Hab Hs IH]; constructor.
  - destruct (Hall a ltac:(by left)) as (c & n & d & Hn & _).
    destruct (HR _ _ Hab) as (o & o' & Ho & Ho' & Hso). rewrite Hn in Ho. inversion Ho; subst o.
    pose proof (same_obj_number _ _ _ _ _ n Hso eq_refl) as ->. exists c, n, c, n. split_and!; try done.
    assert (storable h (Obj c (VNum n))) as Hst' by (eapply Hst; [by left|done]). by inversion Hst'.
  - apply IH; [intros z o Hz; apply Hst; by right|intros z Hz; apply Hall; by right].
Qed.
Lemma dump_load_numbers C kw opts x p m f f' m' o fp cp im c xs :
  let E' := other_loader (c_env C) o fp cp im in
  env_ok E' -> c_world C = std_world -> c_pyver C <> [] ->
  tree f -> not_v3 f -> no_options (target_attrs f p) -> Forall (fun o => snd o = false) opts ->
  free_above m -> graph_ok E' (m_heap m) x ->
  m_heap m !! x = Some (Obj c (VSeq xs)) -> all_numbers (m_heap m) xs ->
  dump_file C kw opts x p m f = (f', m', Ok tt) ->
  exists N, forall C' writable m2,
    c_env C' = E' -> c_world C' = std_world -> (N <= c_fuel C')%nat -> mem_ok m2 ->
    exists m3 v ys ys', load_file C' writable f' p m2 = (f', Ok (m3, v), false) /\
      m_heap m3 !! v = Some (Obj c (VSeq ys)) /\ Permutation ys ys' /\ (isinst c CSet = false -> ys' = ys) /\
      Forall2 (same_number (m_heap m) (m_heap m3)) xs ys'.
Proof.
  intros E' HE HW Hpy Ht Hv Hno Hop Hm Hx Hxs Hall Hd.
  destruct (dump_load_file C kw opts x p m f f' m' o fp cp im HE HW Hpy Ht Hv Hno Hop Hm Hx Hd) as (N & HN).
  exists N. intros C' w m2 H1 H2 H3 H4. destruct (HN C' w m2 H1 H2 H3 H4) as (m3 & v & L1 & L2 & (R & Hxv & HR & _)).
  destruct (HR _ _ Hxv) as (ob & [c' v'] & Ho & Ho' & Hcl & Hs). rewrite Hxs in Ho. inversion Ho; subst ob. simpl in *. subst c'.
  destruct v' as [| | | |ys| | | | | | | | | |]; try (by destruct Hs). exists m3, v, ys.
  assert (forall y o, y ∈ xs -> m_heap m !! y = Some o -> storable (m_heap m) o) as Hst.
  { intros y ob Hy Hob. inversion Hx as [? o1 Ho1 _ _ _ _ Hch]; subst. rewrite Hxs in Ho1. inversion Ho1; subst o1.
    specialize (Hch y Hy). inversion Hch as [? o2 Ho2 Hs2]; subst. rewrite Hob in Ho2. by inversion Ho2; subst. } destruct (isinst c CSet) eqn:Ec.
  - destruct Hs as (ys' & P & Hs). exists ys'. split; [done|]. split; [done|]. split; [done|]. split; [done|].
    by eapply same_items_numbers.
  - exists ys. split; [done|]. split; [done|]. split; [done|]. split; [done|]. by eapply same_items_numbers.
Qed.

(** ** Histories of dumps *)

(** What a program does with an open file: dump something, with any outcome, be interrupted
    in the middle of a dump, or change its memory.  [ps]: the paths of the dumps. *)
Inductive history : list pystr -> file * mem -> file * mem -> Prop :=
| hist_none s : history [] s s
| hist_dump C kw opts x p m f f1 m1 r ps s :
    c_world C = std_world -> dump_file C kw opts x p m f = (f1, m1, r) ->
    history ps (f1, m1) s -> history (p :: ps) (f, m) s
| hist_interrupted C kw opts x p k m f ps s :
    history ps (interrupted C kw opts x p m f k, m) s -> history (p :: ps) (f, m) s
| hist_mem m1 m f ps s : free_above m1 -> history ps (f, m1) s -> history ps (f, m) s.

Lemma history_loadable E ps s s' p h x :
  (forall a l, Permutation (e_order E a l) l) ->
  history ps s s' -> forall lo hi root tbl c n, tree (fst s) -> free_above (snd s) -> Forall (fun p2 => ~ into p p2) ps ->
  loadable E (fst s) p lo hi root tbl c n h x -> exists n', loadable E (fst s') p lo hi root tbl c n' h x.
Proof.
  intros HO. induction 1 as [s|C kw opts y p2 m f f1 m1 r ps s HW Hd Hh IH|C kw opts y p2 k m f ps s Hh IH|m1 m f ps s Hm Hh IH]; intros lo hi root tbl c n Ht Hfa Hni HL.
  - by exists n.
  - simpl in *. inversion Hni as [|? ? Hn1 Hn2]; subst.
    assert (world_ok (c_world C)) as Hwo by (rewrite HW; apply std_world_ok).
    destruct (dump_file_frame _ _ _ _ _ _ _ _ _ _ Ht Hwo Hfa Hd) as (T & _ & _ & M & _).
    destruct (loadable_dump E C kw opts y p2 m f f1 m1 r p lo hi root tbl c n h x HO Ht Hwo Hfa Hn1 Hd HL) as (n' & HL').
    eapply IH; eauto.
  - simpl in *. inversion Hni as [|? ? Hn1 Hn2]; subst.
    destruct (interrupted_frame C kw opts y p2 m f k Ht) as (T & S & N & Q).
    destruct (loadable_frame E p2 f _ p lo hi root tbl c n h x HO Ht Hn1 T S N Q HL) as (n' & HL').
    eapply IH; eauto.
  - simpl in *. eapply IH; eauto.
Qed.

Lemma history_load_part C kw opts x p m f f1 m1 ps f2 m2 o fp cp im :
  let E' := other_loader (c_env C) o fp cp im in
  env_ok E' -> c_world C = std_world -> c_pyver C <> [] ->
  tree f -> not_v3 f -> no_options (target_attrs f p) -> Forall (fun o => snd o = false) opts ->
  free_above m -> graph_part E' (m_heap m) x ->
  dump_file C kw opts x p m f = (f1, m1, Ok tt) ->
  history ps (f1, m1) (f2, m2) -> Forall (fun p2 => ~ into p p2) ps ->
  exists N, forall C' writable m3,
    c_env C' = E' -> c_world C' = std_world -> (N <= c_fuel C')%nat -> mem_ok m3 ->
    exists m4 v, load_file C' writable f2 p m3 = (f2, Ok (m4, v), false) /\
      m_heap m3 ⊆ m_heap m4 /\ restored E' (m_heap m) x (m_heap m4) v.
Proof.
  intros E' HE HW Hpy Ht Hv Hno Hop Hm Hx Hd Hh Hni.
  assert (world_ok (c_world C)) as Hwo by (rewrite HW; apply std_world_ok).
  destruct (dump_file_frame _ _ _ _ _ _ _ _ _ _ Ht Hwo Hm Hd) as (T & _ & _ & M & _).
  rewrite <-(dump_file_other C o fp cp im) in Hd. fold E' in Hd.
  destruct (dump_file_loadable (with_env C E') _ _ _ _ _ _ _ _ Ht HE HW Hpy Hm Hx Hv Hno Hop Hd) as (lo & hi & root & tbl & c & n & HL).
  destruct (history_loadable E' _ _ _ p _ _ (ok_order _ HE) Hh lo hi root tbl c n T M Hni HL) as (n' & HL').
  exact (loadable_load _ _ _ _ _ _ _ _ _ _ _ HL').
Qed.

Lemma history_load C kw opts x p m f f1 m1 ps f2 m2 o fp cp im :
  let E' := other_loader (c_env C) o fp cp im in
  env_ok E' -> c_world C = std_world -> c_pyver C <> [] ->
  tree f -> not_v3 f -> no_options (target_attrs f p) -> Forall (fun o => snd o = false) opts ->
  free_above m -> graph_ok E' (m_heap m) x ->
  dump_file C kw opts x p m f = (f1, m1, Ok tt) ->
  history ps (f1, m1) (f2, m2) -> Forall (fun p2 => ~ into p p2) ps ->
  exists N, forall C' writable m3,
    c_env C' = E' -> c_world C' = std_world -> (N <= c_fuel C')%nat -> mem_ok m3 ->
    exists m4 v, load_file C' writable f2 p m3 = (f2, Ok (m4, v), false) /\
      m_heap m3 ⊆ m_heap m4 /\ isomorphic (m_heap m) x (m_heap m4) v.
Proof.
  intros E' HE HW Hpy Ht Hv Hno Hop Hm Hx Hd Hh Hni.
  destruct (history_load_part C kw opts x p m f f1 m1 ps f2 m2 o fp cp im HE HW Hpy Ht Hv Hno Hop Hm (graph_ok_part _ _ _ Hx) Hd Hh Hni) as (N & HN).
  exists N. intros C' w m3 H1 H2 H3 H4. destruct (HN C' w m3 H1 H2 H3 H4) as (m4 & v & L1 & L2 & L3).
  exists m4, v. split; [done|]. split; [done|]. by eapply restored_isomorphic.
Qed.

(** ** What a dump changes, path by path *)

(** What is at a path: attributes, data or the members. *)
Definition content (f : file) (cs : list pystr) : option (attrs * body) :=
  match walk f root_addr cs with
  | Some a => match get_node f a with Some n => Some (nd_attrs n, nd_body n) | None => None end
  | None => None
  end.

Lemma changed_content p f f' cs at_ b :
  tree f -> fsteps f f' -> one_changed p f f' -> content f cs = Some (at_, b) ->
  (~ cs `prefix_of` components p -> content f' cs = Some (at_, b)) /\
  (cs <> components p ->
     content f' cs = Some (at_, b) \/
     exists l ls, b = BGroup l /\ content f' cs = Some (at_, BGroup (l ++ ls)) /\ Forall (fun k => f_next f <= snd k) ls).
Proof.
  intros Ht S (q & cq & Q1 & Q2 & Q3 & Q4) Hc.
  unfold content in Hc. destruct (walk f root_addr cs) as [a|] eqn:Hw; [|done].
  destruct (get_node f a) as [n|] eqn:Hn; [|done]. inversion Hc; subst at_ b. clear Hc.
  assert (keeps_links f f') as Hk by (apply fsteps_keeps; [done|apply Ht]).
  pose proof (walk_keeps _ _ _ _ _ Hk Hw) as Hw'.
  pose proof (tr_wf _ Ht _ _ Hn) as Hlt.
  assert (a <> q -> content f' cs = Some (nd_attrs n, nd_body n)) as Hsame.
  { intros Hne. unfold content. rewrite Hw', Q3 by done. by rewrite Hn. }
  split.
  - intros Hnp. apply Hsame. intros ->. pose proof (walk_inj _ Ht _ _ _ Hw Q1) as ->. done.
  - intros Hne. destruct (decide (a = q)) as [->|]; [|by left; apply Hsame].
    pose proof (walk_inj _ Ht _ _ _ Hw Q1) as ->.
    destruct (Q4 _ Hn) as (at_ & ls & L1 & L2 & L3).
    assert (at_ = nd_attrs n) as ->.
    { destruct L3 as [->|[L3 _]]; [done|]. exfalso. apply Hne. exact (walk_inj _ Ht _ _ _ Hw L3). }
    unfold content. rewrite Hw', L1. simpl. destruct (nd_body n) as [l|d] eqn:Eb; [|by left].
    right. exists l, ls. done.
Qed.

Lemma dump_file_content C kw opts x p m f f' m' r cs at_ b :
  tree f -> c_world C = std_world -> free_above m -> dump_file C kw opts x p m f = (f', m', r) ->
  content f cs = Some (at_, b) ->
  (~ cs `prefix_of` components p -> content f' cs = Some (at_, b)) /\
  (cs <> components p ->
     content f' cs = Some (at_, b) \/
     exists l ls, b = BGroup l /\ content f' cs = Some (at_, BGroup (l ++ ls)) /\ Forall (fun k => f_next f <= snd k) ls).
Proof.
  intros Ht HW Hm Hd. assert (world_ok (c_world C)) as Hwo by (rewrite HW; apply std_world_ok).
  destruct (dump_file_frame _ _ _ _ _ _ _ _ _ _ Ht Hwo Hm Hd) as (T & S & N & _ & _ & Q). by apply changed_content.
Qed.

(** A target that is not an empty group is refused and nothing changes. *)
Lemma dump_file_refuse C kw opts x p m f at_ b :
  tree f -> content f (components p) = Some (at_, b) -> b <> BGroup [] ->
  exists e, (e = ValueError \/ e = AttributeError) /\ dump_file C kw opts x p m f = (f, m, Err e).
Proof.
  intros Ht Hc Hb. unfold content in Hc. destruct (walk f root_addr (components p)) as [a|] eqn:Hw; [|done].
  destruct (get_node f a) as [n|] eqn:Hn; [|done]. inversion Hc; subst at_ b.
  unfold dump_file, root_for_dump, get_path. rewrite Hw, Hn.
  destruct (nd_body n) as [[|]|] eqn:Eb; [done| |]; eexists; split; [|done| |done]; auto.
Qed.
