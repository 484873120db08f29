(** * Cases: the round trip for single objects and containers

    [setting] collects the circumstances of a dump and a later load, [comes_back] says
    that both succeed and what is known of the loaded object. *)
From Verif Require Import Base Utf8 Utf8Proofs Dec Num PyObj H5 Env Create Dump LoadFns LoadModel Registry RegistryStd Spec RoundTrip
  Api DumpProofs DumpClosed ApiProofs DumpEnv Reach Accept ApiAccept ApiTop LoadInv.
From Coq Require Import Lia ZifyBool ZifyN.
Local Open Scope N_scope.
Local Open Scope list_scope.
Local Opaque std_loader std_dump dump_loader_of loader_of.

(** [C]: the dumping process; [E']: what the loading process sees of its surroundings, it
    may iterate the members of groups in another order, have other float parsers and be able
    to import other classes.  [f]: the file before the dump, [p]: the path, not in use;
    [m]: memory of the dumping process. *)
Record setting (C : config) (E' : env) (opts : list (pystr * bool)) (p : pystr) (m : mem) (f : file) : Prop := {
  se_other : exists o fp cp im, E' = other_loader (c_env C) o fp cp im;
  se_env : env_ok E';
  se_world : c_world C = std_world;
  se_pyver : c_pyver C <> [];
  se_tree : tree f;
  se_v3 : not_v3 f;
  se_path : free_path f p;
  se_attrs : no_options (target_attrs f p);
  se_opts : Forall (fun o => snd o = false) opts;
  se_mem : free_above m;
  se_fuel : (34 * size (m_heap m) < c_fuel C)%nat
}.

Definition comes_back (C : config) (E' : env) (kw : kwargs) (opts : list (pystr * bool)) (x : loc) (p : pystr)
    (m : mem) (f : file) (P : heap -> loc -> Prop) : Prop :=
  exists f' m', dump_file C kw opts x p m f = (f', m', Ok tt) /\
  exists N, forall C' writable m2,
    c_env C' = E' -> c_world C' = std_world -> (N <= c_fuel C')%nat -> mem_ok m2 ->
    exists m3 v, load_file C' writable f' p m2 = (f', Ok (m3, v), false) /\
      m_heap m2 ⊆ m_heap m3 /\ P (m_heap m3) v.

Lemma comes_back_impl C E' kw opts x p m f (P Q : heap -> loc -> Prop) :
  (forall h v, P h v -> Q h v) -> comes_back C E' kw opts x p m f P -> comes_back C E' kw opts x p m f Q.
Proof.
  intros HPQ (f' & m' & Hd & N & HN). exists f', m'. split; [done|]. exists N. intros C' w m2 H1 H2 H3 H4.
  destruct (HN C' w m2 H1 H2 H3 H4) as (m3 & v & L1 & L2 & L3). exists m3, v. auto.
Qed.

Lemma whole_graph C E' kw opts x p m f :
  setting C E' opts p m f -> acceptable_graph E' kw (m_heap m) x -> graph_ok E' (m_heap m) x ->
  comes_back C E' kw opts x p m f (isomorphic (m_heap m) x).
Proof.
  intros [(o & fp & cp & im & ->) HE HW Hpy Ht Hv Hp Ha Hop Hm Hfu] Hacc Hg.
  destruct (dump_file_accepts (with_env C (other_loader (c_env C) o fp cp im)) kw opts x p m f HE HW Ht Hm Hop Hp Hacc Hfu) as (f' & m' & Hd).
  rewrite dump_file_other in Hd. exists f', m'. split; [done|].
  exact (dump_load_file C kw opts x p m f f' m' o fp cp im HE HW Hpy Ht Hv Ha Hop Hm Hg Hd).
Qed.

(** ** What an isomorphism gives *)
Lemma iso_obj h x h' v o : isomorphic h x h' v -> h !! x = Some o ->
  exists o', h' !! v = Some o' /\ ocls o' = ocls o.
Proof.
  intros (R & Hxv & HR & _) Ho. destruct (HR _ _ Hxv) as (o1 & o' & H1 & H2 & Hs). rewrite Ho in H1. inversion H1; subst.
  exists o'. split; [done|]. apply Hs.
Qed.
Lemma iso_leaf h x h' v o : isomorphic h x h' v -> h !! x = Some o -> refs o = [] ->
  match oval o with VSeq _ | VDict _ => False | _ => True end -> h' !! v = Some o.
Proof.
  intros (R & Hxv & HR & _) Ho Hr Hl. destruct (HR _ _ Hxv) as (o1 & o' & H1 & H2 & Hc & Hs). rewrite Ho in H1. inversion H1; subst.
  destruct o1 as [c v1], o' as [c' v']. simpl in *. subst c'. rewrite H2.
  destruct v1; try done; destruct v'; simpl in *; try (destruct Hs as [_ ?]; congruence).
  destruct Hs as [-> Hs]. unfold refs in Hr. simpl in Hr. subst. apply same_rows_items in Hs. by inversion Hs.
Qed.
Lemma iso_sub h x h' v (R : loc -> loc -> Prop) a b :
  (forall a b, R a b -> exists o o', h !! a = Some o /\ h' !! b = Some o' /\ same_obj h h' R o o') ->
  (forall a b b', R a b -> R a b' -> (forall o, h !! a = Some o -> ~ scalar o) -> b = b') ->
  (forall a a' b, R a b -> R a' b -> (forall o, h !! a = Some o -> ~ scalar o) -> a = a') ->
  isomorphic h x h' v -> R a b -> isomorphic h a h' b.
Proof. intros H1 H2 H3 _ Hab. exists R. done. Qed.
Lemma iso_same_leaf h h' a b : same_leaf h h' a b -> isomorphic h a h' b.
Proof.
  intros (o & H1 & Hr & H2). exists (fun a0 b0 => a0 = a /\ b0 = b). split; [done|]. split; [|split].
  - intros a0 b0 [-> ->]. exists o, o. split; [done|]. split; [done|]. split; [done|].
    destruct o as [c v]. by destruct v.
  - intros ? ? ? [-> ->] [_ ->] _. done.
  - intros ? ? ? [-> ->] [-> _] _. done.
Qed.

(** Items of lists, tuples and sets. *)
Definition same_item (h h' : heap) (a b : loc) : Prop := isomorphic h a h' b \/ same_number h h' a b.
Definition items_back (h h' : heap) (xs ys : list loc) : Prop :=
  Forall2 (fun a b => isomorphic h a h' b) xs ys \/ same_numbers h h' xs ys.

Lemma iso_seq h x h' v c xs : isomorphic h x h' v -> h !! x = Some (Obj c (VSeq xs)) ->
  exists ys ys', h' !! v = Some (Obj c (VSeq ys)) /\ Permutation ys ys' /\ (isinst c CSet = false -> ys' = ys) /\
    items_back h h' xs ys'.
Proof.
  intros Hi Ho. pose proof Hi as (R & Hxv & HR & HF & HI). destruct (HR _ _ Hxv) as (o1 & [c' v'] & H1 & H2 & Hc & Hs).
  rewrite Ho in H1. inversion H1; subst o1. simpl in *. subst c'.
  assert (forall xs ys, same_items h h' R xs ys -> items_back h h' xs ys) as Hsi.
  { intros xs0 ys0 [Hf|Hn]; [left|by right]. eapply Forall2_impl; [exact Hf|]. intros a b Hab. exact (iso_sub _ _ _ _ R a b HR HF HI Hi Hab). }
  destruct v' as [| | | |ys| | | | | | | | | |]; try (by destruct Hs). exists ys. destruct (isinst c CSet).
  - destruct Hs as (ys' & HP & Hs). exists ys'. split; [done|]. split; [done|]. split; [done|]. by apply Hsi.
  - exists ys. split; [done|]. split; [done|]. split; [done|]. by apply Hsi.
Qed.
Lemma items_back_same h h' xs ys : items_back h h' xs ys -> Forall2 (same_item h h') xs ys.
Proof.
  intros [H|(_ & H & _)]; (eapply Forall2_impl; [exact H|]); intros a b Hab; [by left|by right].
Qed.

(** Entries of dicts. *)
Definition entry_back (h h' : heap) (p q : loc * loc) : Prop :=
  isomorphic h (fst p) h' (fst q) /\ isomorphic h (snd p) h' (snd q) \/
  same_numbers h h' [fst p; snd p] [fst q; snd q] /\ forall o, h !! fst p = Some o -> ocls o ∉ builtin_scalars.
Lemma iso_dict h x h' v c kvs : isomorphic h x h' v -> h !! x = Some (Obj c (VDict kvs)) ->
  exists kvs', h' !! v = Some (Obj c (VDict kvs')) /\ Forall2 (entry_back h h') kvs kvs'.
Proof.
  intros Hi Ho. pose proof Hi as (R & Hxv & HR & HF & HI). destruct (HR _ _ Hxv) as (o1 & [c' v'] & H1 & H2 & Hc & Hs).
  rewrite Ho in H1. inversion H1; subst o1. simpl in *. subst c'.
  destruct v' as [| | | | |kvs'| | | | | | | | |]; try (by destruct Hs). exists kvs'. split; [done|].
  eapply Forall2_impl; [exact Hs|]. intros p q [[[Hk|Hk] Hv]|[Hn Hb]].
  - left. split; [exact (iso_sub _ _ _ _ R _ _ HR HF HI Hi Hk)|exact (iso_sub _ _ _ _ R _ _ HR HF HI Hi Hv)].
  - left. split; [by apply iso_same_leaf|]. exact (iso_sub _ _ _ _ R _ _ HR HF HI Hi Hv).
  - by right.
Qed.
Lemma iso_masked h x h' v c d k : isomorphic h x h' v -> h !! x = Some (Obj c (VMasked d k)) ->
  exists d' k', h' !! v = Some (Obj c (VMasked d' k')) /\ isomorphic h d h' d' /\ isomorphic h k h' k'.
Proof.
  intros Hi Ho. pose proof Hi as (R & Hxv & HR & HF & HI). destruct (HR _ _ Hxv) as (o1 & [c' v'] & H1 & H2 & Hc & Hs).
  rewrite Ho in H1. inversion H1; subst o1. simpl in *. subst c'.
  destruct v'; try (by destruct Hs). destruct Hs as [Hs1 Hs2]. eexists _, _. split; [done|].
  split; eapply (iso_sub _ _ _ _ R); eauto.
Qed.
Lemma iso_objarr h x h' v c shape xs : isomorphic h x h' v -> h !! x = Some (Obj c (VObjArr shape xs)) ->
  exists ys, h' !! v = Some (Obj c (VObjArr shape ys)) /\ Forall2 (same_item h h') xs ys.
Proof.
  intros Hi Ho. pose proof Hi as (R & Hxv & HR & HF & HI). destruct (HR _ _ Hxv) as (o1 & [c' v'] & H1 & H2 & Hc & Hs).
  rewrite Ho in H1. inversion H1; subst o1. simpl in *. subst c'.
  destruct v'; try (by destruct Hs). destruct Hs as [<- Hs]. eexists. split; [done|].
  eapply Forall2_impl; [exact (same_rows_items _ _ _ _ _ _ Hs)|]. intros a b [Hab|Hab]; [left|by right]. eapply (iso_sub _ _ _ _ R); eauto.
Qed.
Lemma iso_sparse h x h' v c d i p s : isomorphic h x h' v -> h !! x = Some (Obj c (VSparse d i p s)) ->
  exists d' i' p' s', h' !! v = Some (Obj c (VSparse d' i' p' s')) /\ isomorphic h d h' d' /\ isomorphic h i h' i' /\
    isomorphic h p h' p' /\ isomorphic h s h' s'.
Proof.
  intros Hi Ho. pose proof Hi as (R & Hxv & HR & HF & HI). destruct (HR _ _ Hxv) as (o1 & [c' v'] & H1 & H2 & Hc & Hs).
  rewrite Ho in H1. inversion H1; subst o1. simpl in *. subst c'.
  destruct v'; try (by destruct Hs). destruct Hs as (Hs1 & Hs2 & Hs3 & Hs4). eexists _, _, _, _. split; [done|].
  split_and!; eapply (iso_sub _ _ _ _ R); eauto.
Qed.

(** ** Objects without references *)
Lemma leaf_back C E' kw opts x p m f o :
  setting C E' opts p m f -> m_heap m !! x = Some o -> refs o = [] ->
  match oval o with VSeq _ | VDict _ => False | _ => True end ->
  acceptable E' kw (m_heap m) o -> storable (m_heap m) o -> e_imports E' (ocls o) = true -> o <> empty_tuple ->
  comes_back C E' kw opts x p m f (fun h v => h !! v = Some o).
Proof.
  intros Hse Ho Hr Hl Hac Hst Him Hne. eapply comes_back_impl; [|apply (whole_graph _ _ _ _ _ _ _ _ Hse)].
  - intros h v Hi. by eapply iso_leaf.
  - exists {[x]}. split; [by apply elem_of_singleton|]. intros y Hy. apply elem_of_singleton in Hy as ->.
    exists o. split; [done|]. split; [done|]. intros z Hz. rewrite Hr in Hz. by apply elem_of_nil in Hz.
  - apply (graph_ok_intro _ _ _ _ Ho); auto.
    + apply Hac.
    + done.
    + intros y Hy. rewrite Hr in Hy. by apply elem_of_nil in Hy.
Qed.

Lemma pickled_builtin_outside c : c ∈ pickled_builtins -> outside_hickle c.
Proof.
  intros Hc. unfold pickled_builtins in Hc.
  repeat (apply elem_of_cons in Hc as [-> |Hc]; [intros k Hk; simpl in Hk;
    repeat (apply elem_of_cons in Hk as [-> |Hk]; [vm_compute; discriminate|]); by apply elem_of_nil in Hk|]).
  by apply elem_of_nil in Hc.
Qed.
Lemma pickled_builtin_module c : c ∈ pickled_builtins -> cls_module c = str "builtins".
Proof.
  intros Hc. unfold pickled_builtins in Hc.
  repeat (apply elem_of_cons in Hc as [-> |Hc]; [done|]). by apply elem_of_nil in Hc.
Qed.

(** None and the numbers Python has classes of its own for; a float is one of double
    precision. *)
Inductive builtin_number : obj -> Prop :=
| bn_none : builtin_number (Obj CNoneType VNone)
| bn_bool b : builtin_number (Obj CBool (VNum (NB b)))
| bn_int z : builtin_number (Obj CInt (VNum (NZ z)))
| bn_float d : fits F8 d = true -> builtin_number (Obj CFloat (VNum (NF d)))
| bn_complex a b : fits F8 a = true -> fits F8 b = true -> builtin_number (Obj CComplex (VNum (NC a b))).

Lemma number_back C E' kw opts x p m f o :
  setting C E' opts p m f -> m_heap m !! x = Some o -> builtin_number o ->
  comes_back C E' kw opts x p m f (fun h v => h !! v = Some o).
Proof.
  intros Hse Ho Hb.
  assert (ocls o ∈ pickled_builtins) as Hc by (destruct Hb; apply (bool_decide_unpack _); vm_compute; exact I).
  apply leaf_back; auto.
  - by destruct Hb.
  - by destruct Hb.
  - split; [by apply pickled_builtin_outside|]. split; [intros _; by apply (ok_pickles _ (se_env _ _ _ _ _ _ Hse))|].
    destruct Hb; simpl; unfold number_ok; simpl; auto.
  - destruct Hb; constructor; unfold number_ok; simpl; auto.
  - apply (ok_imports _ (se_env _ _ _ _ _ _ Hse)). by apply pickled_builtin_module.
  - by destruct Hb.
Qed.

Lemma str_back C E' kw opts x p m f s :
  setting C E' opts p m f -> m_heap m !! x = Some (Obj CStr (VStr s)) -> encodable s = true ->
  comes_back C E' kw opts x p m f (fun h v => h !! v = Some (Obj CStr (VStr s))).
Proof.
  intros Hse Ho Hs. assert (CStr ∈ pickled_builtins) as Hc by (apply (bool_decide_unpack _); vm_compute; exact I).
  apply leaf_back; auto; [done| | |].
  - split; [by apply pickled_builtin_outside|]. split; [intros _; by apply (ok_pickles _ (se_env _ _ _ _ _ _ Hse))|].
    simpl. split; [by left|]. split; [done|]. apply (bool_decide_unpack _). vm_compute. exact I.
  - constructor.
  - by apply (ok_imports _ (se_env _ _ _ _ _ _ Hse)).
Qed.
Lemma bytes_back C E' kw opts x p m f b :
  setting C E' opts p m f -> m_heap m !! x = Some (Obj CBytes (VBytes b)) ->
  comes_back C E' kw opts x p m f (fun h v => h !! v = Some (Obj CBytes (VBytes b))).
Proof.
  intros Hse Ho. assert (CBytes ∈ pickled_builtins) as Hc by (apply (bool_decide_unpack _); vm_compute; exact I).
  apply leaf_back; auto; [done| | |].
  - split; [by apply pickled_builtin_outside|]. split; [intros _; by apply (ok_pickles _ (se_env _ _ _ _ _ _ Hse))|].
    simpl. split; [by left|]. apply (bool_decide_unpack _). vm_compute. exact I.
  - by constructor.
  - by apply (ok_imports _ (se_env _ _ _ _ _ _ Hse)).
Qed.

(** ** Containers *)
Lemma seq_back C E' kw opts x p m f c xs :
  setting C E' opts p m f -> acceptable_graph E' kw (m_heap m) x -> graph_ok E' (m_heap m) x ->
  m_heap m !! x = Some (Obj c (VSeq xs)) -> isinst c CSet = false ->
  comes_back C E' kw opts x p m f (fun h v => exists ys, h !! v = Some (Obj c (VSeq ys)) /\ items_back (m_heap m) h xs ys).
Proof.
  intros Hse Ha Hg Ho Hc. eapply comes_back_impl; [|apply (whole_graph _ _ _ _ _ _ _ _ Hse Ha Hg)].
  intros h v Hi. destruct (iso_seq _ _ _ _ _ _ Hi Ho) as (ys & ys' & H1 & _ & H3 & H4). rewrite (H3 Hc) in H4. by exists ys.
Qed.
Lemma set_back C E' kw opts x p m f c xs :
  setting C E' opts p m f -> acceptable_graph E' kw (m_heap m) x -> graph_ok E' (m_heap m) x ->
  m_heap m !! x = Some (Obj c (VSeq xs)) ->
  comes_back C E' kw opts x p m f
    (fun h v => exists ys ys', h !! v = Some (Obj c (VSeq ys)) /\ Permutation ys ys' /\ items_back (m_heap m) h xs ys').
Proof.
  intros Hse Ha Hg Ho. eapply comes_back_impl; [|apply (whole_graph _ _ _ _ _ _ _ _ Hse Ha Hg)].
  intros h v Hi. destruct (iso_seq _ _ _ _ _ _ Hi Ho) as (ys & ys' & H1 & H2 & H3 & H4). by exists ys, ys'.
Qed.
Lemma dict_back C E' kw opts x p m f c kvs :
  setting C E' opts p m f -> acceptable_graph E' kw (m_heap m) x -> graph_ok E' (m_heap m) x ->
  m_heap m !! x = Some (Obj c (VDict kvs)) ->
  comes_back C E' kw opts x p m f
    (fun h v => exists kvs', h !! v = Some (Obj c (VDict kvs')) /\ Forall2 (entry_back (m_heap m) h) kvs kvs').
Proof.
  intros Hse Ha Hg Ho. eapply comes_back_impl; [|apply (whole_graph _ _ _ _ _ _ _ _ Hse Ha Hg)].
  intros h v Hi. exact (iso_dict _ _ _ _ _ _ Hi Ho).
Qed.

(** ** Classes of items *)
Definition same_class (h h' : heap) (a b : loc) : Prop :=
  exists o o', h !! a = Some o /\ h' !! b = Some o' /\ ocls o' = ocls o.
Lemma iso_class h h' a b : isomorphic h a h' b -> same_class h h' a b.
Proof.
  intros (R & Hab & HR & _). destruct (HR _ _ Hab) as (o & o' & H1 & H2 & [Hc _]). by exists o, o'.
Qed.
Lemma items_back_class h h' xs ys : items_back h h' xs ys ->
  ~ all_numbers h xs \/ (exists d, numpy_of h d xs) -> Forall2 (same_class h h') xs ys.
Proof.
  intros [Hf|(Ha & Hf & d & Hd & Hsame)] Hx.
  - eapply Forall2_impl; [exact Hf|]. intros a b. apply iso_class.
  - destruct Hx as [Hx|(d' & Hd')]; [done|]. destruct (Hsame d') as [-> | ->]; [intros z Hz; destruct (Hd' z Hz) as [n Hn]; by exists (CNp d'), n| |]; [inversion Hf; constructor|].
    clear Ha Hsame. induction Hf as [|a b xs ys Hab Hf IH]; constructor.
    + destruct (Hd' a ltac:(by left)) as (n & Hn), (Hd b ltac:(by left)) as (n' & Hn'). by exists (Obj (CNp d) (VNum n)), (Obj (CNp d) (VNum n')).
    + apply IH; intros z Hz; [apply Hd|apply Hd']; by right.
Qed.

(** A str with a code point UTF-8 does not encode. *)
Local Transparent std_dump.
Lemma std_dump_str : std_dump CStr = Ok (CStr, (FList, str "str", true)).
Proof. vm_compute. reflexivity. Qed.
Local Opaque std_dump.
Lemma surrogate_refused C kw opts x p m f s :
  c_world C = std_world -> Forall (fun o => snd o = false) opts ->
  m_heap m !! x = Some (Obj CStr (VStr s)) -> encodable s = false ->
  exists e, snd (dump_file C kw opts x p m f) = Err e.
Proof.
  intros HW Hop Ho Hs. unfold dump_file. destruct (root_for_dump f p) as [f1 [root|e]]; [|by exists e].
  unfold dump_root, with_options. rewrite options_off by done. unfold dump_into.
  destruct (create_node _ _ _ _) as [[f2 tbl]|e]; [|by exists e]. rewrite HW, std_dump_eq.
  destruct (c_fuel C) as [|fuel]; [by exists OutOfFuel|]. cbn [dump_ d_memo d_heap]. rewrite lookup_empty, Ho.
  unfold dump_node. cbn [ocls]. rewrite std_dump_str. cbn [create oval]. unfold create_listlike. change (isinst CStr CStr || isinst CStr CBytes) with true. cbn [ocls oval]. unfold create_text. cbn [oval].
  rewrite utf8_encode_err by done. cbn [res_bind res_map]. by eexists.
Qed.

(** ** Masked arrays, sparse matrices and pickled objects *)
Lemma masked_back C E' kw opts x p m f c d k cd td sd vd ck tk sk vk :
  setting C E' opts p m f -> acceptable_graph E' kw (m_heap m) x -> graph_ok E' (m_heap m) x ->
  m_heap m !! x = Some (Obj c (VMasked d k)) ->
  m_heap m !! d = Some (Obj cd (VArr td sd vd)) -> m_heap m !! k = Some (Obj ck (VArr tk sk vk)) ->
  comes_back C E' kw opts x p m f (fun h v => exists d' k', h !! v = Some (Obj c (VMasked d' k')) /\
    h !! d' = Some (Obj cd (VArr td sd vd)) /\ h !! k' = Some (Obj ck (VArr tk sk vk))).
Proof.
  intros Hse Ha Hg Hx Hd Hk. eapply comes_back_impl; [|by apply whole_graph]. intros h v Hi.
  destruct (iso_masked _ _ _ _ _ _ _ Hi Hx) as (d' & k' & H1 & H2 & H3). exists d', k'. split; [done|].
  split; [by apply (iso_leaf _ _ _ _ _ H2 Hd)|by apply (iso_leaf _ _ _ _ _ H3 Hk)].
Qed.
Lemma sparse_back C E' kw opts x p m f c d i q s cd td sd vd ci ti si vi cq tq sq vq :
  setting C E' opts p m f -> acceptable_graph E' kw (m_heap m) x -> graph_ok E' (m_heap m) x ->
  m_heap m !! x = Some (Obj c (VSparse d i q s)) ->
  m_heap m !! d = Some (Obj cd (VArr td sd vd)) -> m_heap m !! i = Some (Obj ci (VArr ti si vi)) ->
  m_heap m !! q = Some (Obj cq (VArr tq sq vq)) ->
  comes_back C E' kw opts x p m f (fun h v => exists d' i' q' s', h !! v = Some (Obj c (VSparse d' i' q' s')) /\
    h !! d' = Some (Obj cd (VArr td sd vd)) /\ h !! i' = Some (Obj ci (VArr ti si vi)) /\
    h !! q' = Some (Obj cq (VArr tq sq vq)) /\ isomorphic (m_heap m) s h s').
Proof.
  intros Hse Ha Hg Hx Hd Hk Hq. eapply comes_back_impl; [|by apply whole_graph]. intros h v Hi.
  destruct (iso_sparse _ _ _ _ _ _ _ _ _ Hi Hx) as (d' & i' & q' & s' & H1 & H2 & H3 & H4 & H5). exists d', i', q', s'. split; [done|].
  split; [by apply (iso_leaf _ _ _ _ _ H2 Hd)|]. split; [by apply (iso_leaf _ _ _ _ _ H3 Hk)|]. split; [by apply (iso_leaf _ _ _ _ _ H4 Hq)|done].
Qed.
Lemma pickled_back C E' kw opts x p m f c k n :
  setting C E' opts p m f -> m_heap m !! x = Some (Obj c (VOpaque k n)) -> outside_hickle c ->
  match base_cls c with COpaque _ _ | CFunction | CType | CObject => True | _ => False end ->
  e_pickles E' c n = true -> e_imports E' c = true ->
  comes_back C E' kw opts x p m f (fun h v => h !! v = Some (Obj c (VOpaque k n))).
Proof.
  intros Hse Hx Ho Hc Hp Hi. apply leaf_back; try done. by apply st_opaque.
Qed.
Lemma array_back C E' kw opts x p m f c d shape vs :
  setting C E' opts p m f -> m_heap m !! x = Some (Obj c (VArr d shape vs)) -> outside_hickle c ->
  c = CNdarray \/ base_cls c = CMatrix -> Forall (fun v => num_of_dtype d v = true) vs ->
  (shape = [] -> length vs = 1%nat /\ Forall (fun k => k ∉ filter_keys) kw) ->
  e_pickles_cls E' c = true -> e_imports E' c = true ->
  comes_back C E' kw opts x p m f (fun h v => h !! v = Some (Obj c (VArr d shape vs))).
Proof.
  intros Hse Hx Ho Hc Hv Hs Hp Hi. apply leaf_back; try done.
  - split; [done|]. split; [done|]. split; [|done]. destruct Hc as [-> |Hc]; [by left|by right].
  - apply st_arr; try done. intros H. by apply Hs.
Qed.
Lemma strarr_back C E' kw opts x p m f w shape vs :
  setting C E' opts p m f -> m_heap m !! x = Some (Obj CNdarray (VStrArr w shape vs)) ->
  shape_ok shape -> N.of_nat (length vs) = size_of shape -> 1 <= w ->
  Forall (fits_width w) vs -> Forall (fun s => encodable s = true) vs ->
  e_pickles_cls E' CNdarray = true -> e_imports E' CNdarray = true ->
  comes_back C E' kw opts x p m f (fun h v => h !! v = Some (Obj CNdarray (VStrArr w shape vs))).
Proof.
  intros Hse Hx Hs Hl Hw Hf He Hp Hi. apply leaf_back; try done.
  - split; [|split; [done|]].
    + intros k Hk. repeat (apply elem_of_cons in Hk as [-> |Hk]; [done|]). by apply elem_of_nil in Hk.
    + split; [done|]. split; [apply Hs|]. done.
  - by apply st_strarr.
Qed.
Lemma objarr_back C E' kw opts x p m f c shape xs :
  setting C E' opts p m f -> acceptable_graph E' kw (m_heap m) x -> graph_ok E' (m_heap m) x ->
  m_heap m !! x = Some (Obj c (VObjArr shape xs)) ->
  comes_back C E' kw opts x p m f (fun h v => exists ys, h !! v = Some (Obj c (VObjArr shape ys)) /\
    Forall2 (same_item (m_heap m) h) xs ys).
Proof.
  intros Hse Ha Hg Hx. eapply comes_back_impl; [|by apply whole_graph]. intros h v Hi. by eapply iso_objarr.
Qed.
Lemma seq_classes_back C E' kw opts x p m f c xs :
  setting C E' opts p m f -> acceptable_graph E' kw (m_heap m) x -> graph_ok E' (m_heap m) x ->
  m_heap m !! x = Some (Obj c (VSeq xs)) -> isinst c CSet = false ->
  ~ all_numbers (m_heap m) xs \/ (exists d, numpy_of (m_heap m) d xs) ->
  comes_back C E' kw opts x p m f
    (fun h v => exists ys, h !! v = Some (Obj c (VSeq ys)) /\ Forall2 (same_class (m_heap m) h) xs ys).
Proof.
  intros H1 H2 H3 H4 H5 H6. eapply comes_back_impl; [|by eapply seq_back]. intros h v (ys & Hy & Hi). exists ys.
  split; [done|]. by apply items_back_class.
Qed.
