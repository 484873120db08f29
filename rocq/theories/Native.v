(** * Native: data are stored as plain HDF5 datasets other programs can read *)
From stdpp Require Import relations.
From Verif Require Import Base Utf8 Utf8Proofs Dec Num NumProofs PyObj H5 Env Create Dump LoadFns LoadModel Registry RegistryStd Spec
  DumpProofs DumpStored LoadBase LoadLeaf Api DumpClosed ApiProofs Accept DumpOk Count Table LoaderSearch Layout Samples.
From Coq Require Import Lia ZifyBool ZifyN.
Local Open Scope N_scope.
Local Open Scope list_scope.
Local Opaque std_loader std_dump dump_loader_of loader_of.

(** ** Specification

    The HDF5 type of the numbers of a class. *)
Definition number_type (c : cls) : option dtype :=
  match c with
  | CBool => Some DBool | CInt => Some (DInt W8) | CFloat => Some (DFloat F8) | CComplex => Some (DComplex C16)
  | CNp d => Some d
  | _ => None
  end.
(** [n] is a number of HDF5 type [d]. *)
Definition of_type (d : dtype) (n : num) : Prop :=
  match d, n with
  | DBool, NB _ | DFloat _, NF _ | DComplex _, NC _ _ => True
  | DInt w, NZ z => int_range w z = true
  | DUInt w, NZ z => uint_range w z = true
  | _, _ => False
  end.

(** The dataset an object is stored as. *)
Inductive native (h : heap) : obj -> hdata -> Prop :=
| native_none : native h (Obj CNoneType VNone) (DNull KVoid)
| native_number c d n : number_type c = Some d -> of_type d n -> n <> NZ (- 2 ^ 63) -> native h (Obj c (VNum n)) (DScalar d n)
| native_big z : (2 ^ 63 <= Z.abs z)%Z -> native h (Obj CInt (VNum (NZ z))) (DU8 (Z_dec z))
| native_str s b : utf8_encode s = Ok b -> native h (Obj CStr (VStr s)) (DS1 b)
| native_bytes b : native h (Obj CBytes (VBytes b)) (DS1 b)
| native_array d shape vs : shape <> [] -> native h (Obj CNdarray (VArr d shape vs)) (DArray d shape vs)
| native_array0 d v : native h (Obj CNdarray (VArr d [] [v])) (DScalar d v)
| native_empty c : c ∈ [CList; CTuple; CSet] -> native h (Obj c (VSeq [])) (DNull KInt)
| native_seq c k d xs vs : c ∈ [CList; CTuple; CSet] -> number_type k = Some d -> xs <> [] ->
    Forall2 (fun x v => h !! x = Some (Obj k (VNum v)) /\ of_type d v) xs vs ->
    native h (Obj c (VSeq xs)) (DArray d [N.of_nat (length xs)] vs).

(** ** Proof *)
Lemma outside_intro c : forallb (fun k => negb (bool_decide (part 0 (cls_module k) = str "hickle"))) (mro c) = true -> outside_hickle c.
Proof.
  rewrite List.forallb_forall. intros H k Hk. specialize (H k (proj1 (elem_of_list_In _ _) Hk)).
  apply negb_true_iff, bool_decide_eq_false in H. done.
Qed.
Lemma enumerate_in {A} (l : list A) i v : l !! i = Some v -> (N.of_nat i, v) ∈ enumerate l.
Proof.
  unfold enumerate. change (N.of_nat i) with (0 + N.of_nat i). generalize 0. revert i.
  induction l as [|x l IH]; intros [|i] n; simpl; try done; [intros [= ->]; rewrite N.add_0_r; left|].
  intros H. right. replace (n + N.pos (Pos.of_succ_nat i)) with (n + 1 + N.of_nat i) by lia. by apply IH.
Qed.
Lemma native_loader h o d : native h o d -> outside_hickle (ocls o) /\
  std_dump (ocls o) = Ok (match first_item (mro (base_cls (ocls o))) with Some i => (ocls o, i) | None => fallback end).
Proof.
  assert (forall c, c ∈ [CList; CTuple; CSet] -> outside_hickle c).
  { intros c. rewrite !elem_of_cons, elem_of_nil. intros [-> |[-> |[-> |[]]]]; apply outside_intro; vm_compute; done. }
  intros H'. assert (outside_hickle (ocls o)) as Ho.
  { destruct H'; simpl; auto; try (apply outside_intro; vm_compute; done). unfold number_type in *.
    destruct c; try done; apply outside_intro; try (vm_compute; done).
    match goal with |- context [CNp ?x] => destruct x as [|[]|[]|[]|[]]; vm_compute; done end. }
  split; [done|]. by apply std_dump_base.
Qed.
Lemma cast_same d n : of_type d n -> cast d n = Ok n.
Proof. destruct d, n; simpl; try done; by intros ->. Qed.

Lemma number_type_np k d : number_type k = Some d -> np_dtype_of_cls k = PNum d.
Proof. destruct k; simpl; try done; congruence. Qed.
Lemma promote_same d : promote d d = d.
Proof. by destruct d as [|[]|[]|[]|[]]. Qed.
Lemma check_rest_same E h h0 k d xs : forall od, number_type k = Some d -> h0 ⊆ h ->
  Forall (fun x => exists v, h !! x = Some (Obj k (VNum v))) xs -> check_rest E h0 (PNum d) xs = Ok od -> od = Some (PNum d).
Proof.
  induction xs as [|x xs IH]; intros od Hk Hs Hf; simpl; [congruence|].
  inversion Hf as [|? ? [v Hv] Hf']; subst. destruct (h0 !! x) as [o|] eqn:Ex; [|done].
  pose proof (lookup_weaken _ _ _ _ Ex Hs) as Hx. rewrite Hv in Hx. inversion Hx; subst o. simpl.
  rewrite (number_type_np _ _ Hk). simpl. rewrite promote_same. by apply IH.
Qed.
Lemma write_items_same h h0 k d xs vs : h0 ⊆ h -> (forall x, x ∈ xs -> is_Some (h0 !! x)) ->
  Forall2 (fun x v => h !! x = Some (Obj k (VNum v)) /\ of_type d v) xs vs -> write_items h0 d xs = (vs, None).
Proof.
  intros Hs Hin Hf. induction Hf as [|x v xs vs [Hx Hv] Hf IH]; [done|]. simpl.
  destruct (Hin x ltac:(left)) as [o Ho]. rewrite Ho. pose proof (lookup_weaken _ _ _ _ Ho Hs) as Ho'. rewrite Hx in Ho'. inversion Ho'; subst o.
  rewrite (cast_same _ _ Hv). rewrite IH; [done|]. intros y Hy. apply Hin. by right.
Qed.
Lemma check_rest_present E h h0 k d xs : forall od, number_type k = Some d -> h0 ⊆ h ->
  Forall (fun x => exists v, h !! x = Some (Obj k (VNum v))) xs -> check_rest E h0 (PNum d) xs = Ok od -> forall x, x ∈ xs -> is_Some (h0 !! x).
Proof.
  induction xs as [|x xs IH]; intros od Hk Hs Hf; simpl; [intros _ y Hy; by apply elem_of_nil in Hy|].
  inversion Hf as [|? ? [v Hv] Hf']; subst. destruct (h0 !! x) as [o|] eqn:Ex; [|done].
  pose proof (lookup_weaken _ _ _ _ Ex Hs) as Hx. rewrite Hv in Hx. inversion Hx; subst o. simpl.
  rewrite (number_type_np _ _ Hk). simpl. rewrite promote_same. intros Hc y [-> |Hy]%elem_of_cons; [by rewrite Ex|]. by eapply IH.
Qed.
Lemma list_items_native E h h0 k d xs vs pl : number_type k = Some d -> h0 ⊆ h -> xs <> [] ->
  Forall2 (fun x v => h !! x = Some (Obj k (VNum v)) /\ of_type d v) xs vs ->
  create_list_items E h0 xs = Ok pl -> p_data pl = Some (DArray d [N.of_nat (length xs)] vs).
Proof.
  intros Hk Hs Hne Hf. destruct xs as [|x xs]; [done|]. unfold create_list_items.
  destruct (check_iterable_item_type E h0 x xs) as [od|] eqn:Ec; [|done].
  assert (Hall : Forall (fun x => exists v, h !! x = Some (Obj k (VNum v))) (x :: xs)).
  { clear -Hf. induction Hf as [|? ? ? ? [? ?]]; constructor; eauto. }
  inversion Hall as [|? ? [v Hv] Hall']; subst.
  unfold check_iterable_item_type in Ec. destruct (h0 !! x) as [o|] eqn:Ex; [|done].
  pose proof (lookup_weaken _ _ _ _ Ex Hs) as Hx. rewrite Hv in Hx. inversion Hx; subst o.
  change (length_hint (Obj k (VNum v))) with 0 in Ec. cbn [N.ltb N.compare N.eqb orb andb] in Ec.
  cbn [has_dims oval res_bind ocls] in Ec. rewrite (number_type_np _ _ Hk) in Ec.
  pose proof (check_rest_same _ _ _ _ _ _ _ Hk Hs Hall' Ec) as ->.
  pose proof (check_rest_present _ _ _ _ _ _ _ Hk Hs Hall' Ec) as Hp.
  cbn [res_bind].
  rewrite (write_items_same h h0 k d (x :: xs) vs Hs); [| |done].
  - intros [= <-]. simpl. unfold pad. apply Forall2_length in Hf. rewrite <- Hf. simpl length. rewrite Nat.sub_diag. by rewrite app_nil_r.
  - intros y [-> |Hy]%elem_of_cons; [by rewrite Ex|by apply Hp].
Qed.

Lemma native_create E s h0 nx o d fn base memo pt pl :
  h0 ⊆ s -> native s o d -> std_dump (ocls o) = Ok (pt, (fn, base, memo)) -> create E fn h0 nx o = Ok pl -> p_data pl = Some d.
Proof.
  intros Hs Hn Hl Hc. destruct (native_loader _ _ _ Hn) as [_ Hl']. rewrite Hl' in Hl. clear Hl'.
  assert (Hseq : forall c xs, c ∈ [CList; CTuple; CSet] -> o = Obj c (VSeq xs) -> create_list_items E h0 xs = Ok pl).
  { intros c xs Hin ->. revert Hin Hl. rewrite !elem_of_cons, elem_of_nil.
    intros [-> |[-> |[-> |[]]]]; vm_compute first_item; simpl; intros [= _ <- _ _]; exact Hc. }
  destruct Hn as [|c dt n Hd Ht Hne|z Hz|str_ b Hb|b|dt shape vs Hsh|dt v|c Hin|c k dt xs vs Hin Hk Hne Hf].
  - vm_compute in Hl. injection Hl as _ <- _ _. simpl in Hc. by inversion Hc.
  - assert (fn = FScalar \/ (fn = FNpScalar /\ np_dtype_of_cls c = PNum dt)) as Hfn.
    { destruct c; try done; simpl in Hd; injection Hd as <-; simpl ocls in Hl; try (vm_compute in Hl; injection Hl as _ <- _ _; by left).
      right. split; [|done]. destruct d as [|[]|[]|[]|[]]; vm_compute in Hl; injection Hl as _ <- _ _; done. }
    destruct Hfn as [-> |[-> Hnp]]; simpl in Hc.
    + unfold create_scalar in Hc. simpl in Hc. assert (Hcc : c = CBool \/ c = CInt \/ c = CFloat \/ c = CComplex).
      { destruct c; try done; auto. simpl ocls in Hl. destruct d as [|[]|[]|[]|[]]; vm_compute in Hl; discriminate. }
      destruct Hcc as [-> |[-> |[-> | ->]]]; simpl in Hd; injection Hd as <-; destruct n; try done; try (by inversion Hc).
      unfold needs_str in Hc. simpl in Ht. unfold int_range in Ht. cbn [iw_bits] in Ht.
      destruct (2 ^ 63 <=? Z.abs z)%Z eqn:Ez; [|rewrite andb_false_r in Hc; by inversion Hc].
      change (64 - 1)%Z with 63%Z in Ht. assert (z = - 2 ^ 63)%Z by lia. congruence.
    + unfold create_np_scalar in Hc. simpl in Hc. rewrite Hnp in Hc. by inversion Hc.
  - vm_compute in Hl. injection Hl as _ <- _ _. simpl in Hc. unfold create_scalar in Hc. simpl in Hc.
    unfold needs_str in Hc. rewrite (proj2 (Z.leb_le _ _) Hz) in Hc. by inversion Hc.
  - vm_compute in Hl. injection Hl as _ <- _ _. simpl in Hc. unfold create_listlike in Hc. simpl in Hc. unfold create_text in Hc. simpl in Hc.
    rewrite Hb in Hc. by inversion Hc.
  - vm_compute in Hl. injection Hl as _ <- _ _. simpl in Hc. unfold create_listlike in Hc. simpl in Hc. by inversion Hc.
  - vm_compute in Hl. injection Hl as _ <- _ _. simpl in Hc. unfold create_np_array in Hc. simpl in Hc. destruct shape; [done|]. by inversion Hc.
  - vm_compute in Hl. injection Hl as _ <- _ _. simpl in Hc. by inversion Hc.
  - specialize (Hseq c [] Hin eq_refl). by inversion Hseq.
  - eapply list_items_native; [exact Hk|exact Hs|exact Hne|exact Hf|]. by eapply Hseq.
Qed.

(** What a node is there for: [y] is the object stored in it, or the one it refers to. *)
Inductive holds (h : heap) (f : file) (place : gmap N addr) (a : addr) : loc -> Prop :=
| holds_object n y o : get_node f a = Some n -> h !! y = Some o ->
    (forall d, native h o d -> nd_body n = BData d) ->
    (forall pt fn base, std_dump (ocls o) = Ok (pt, (fn, base, true)) -> place !! y = Some a) -> holds h f place a y
| holds_reference n y t : get_node f a = Some n -> nd_body n = BData (DRefTo t) -> place !! y = Some t -> t <> a -> holds h f place a y.

Lemma placed_native E s y a at_ pl memo ls : placed E std_dump s y a at_ pl memo ls ->
  exists n o pt fn base, getn s a = Some n /\ d_heap s !! y = Some o /\ std_dump (ocls o) = Ok (pt, (fn, base, memo)) /\
    (forall d, native (d_heap s) o d -> nd_body n = BData d).
Proof.
  intros (o & h0 & nx & pt & fn & base & te & nm & H1 & H2 & H3 & H4 & H5 & H6 & H7 & H8).
  eexists _, o, pt, fn, base. split; [exact H7|]. split; [done|]. split; [done|].
  intros d Hd. pose proof (native_create _ _ _ _ _ _ _ _ _ _ _ H1 Hd H3 H4) as Hp.
  unfold extend, plan_body. simpl. destruct te; simpl; by rewrite Hp.
Qed.
Lemma child_holds E lo s nm y at_ lk :
  (forall y b, d_memo s !! y = Some b -> stored E std_dump lo s y b) ->
  child_ok E std_dump lo s (nm, y, at_) lk -> fst lk = nm /\ holds (d_heap s) (d_file s) (d_memo s) (snd lk) y.
Proof.
  intros Hst. destruct lk as [nm' a]. intros (Hnm & _ & _ & Hat & H). simpl in Hnm, H |- *. split; [done|]. subst nm'.
  destruct H as [(t & Ht & H)|(pl & Hpl & Hs & Hd)].
  - destruct (Hst _ _ Ht) as (_ & _ & at' & pl & ls & Hat' & Hpl & _).
    destruct (placed_native _ _ _ _ _ _ _ _ Hpl) as (n & o & pt & fn & base & R1 & R2 & R3 & R4).
    destruct (decide (a = t)) as [-> |Hne]; [by eapply holds_object|].
    destruct H as [[-> _]|Hn]; [done|]. eapply holds_reference; [exact Hn|done|exact Ht|done].
  - destruct (placed_native _ _ _ _ _ _ _ _ Hpl) as (n & o & pt & fn & base & R1 & R2 & R3 & R4).
    eapply holds_object; [exact R1|exact R2|exact R4|]. intros ? ? ? Hx. congruence.
Qed.

Lemma placed_links E s y a at_ pl memo ls : placed E std_dump s y a at_ pl memo ls ->
  exists n, getn s a = Some n /\ links n = match p_data pl with None => ls | Some _ => [] end.
Proof.
  intros (o & h0 & nx & pt & fn & base & te & nm & H1 & H2 & H3 & H4 & H5 & H6 & H7 & H8).
  eexists. split; [exact H7|]. unfold links, extend, plan_body. simpl. destruct te; simpl; by destruct (p_data pl).
Qed.

(** Members of the group of a dict. *)
Lemma dict_subs_name E h kvs : forall nx idx ts ss k v s, dict_subs E h nx idx kvs = Ok (ts, ss) ->
  (k, v) ∈ kvs -> h !! k = Some (Obj CStr (VStr s)) -> has_char 47 s = false -> has_char 92 s = false ->
  exists at_, ([34] ++ s ++ [34], v, at_) ∈ ss.
Proof.
  induction kvs as [|[k0 v0] kvs IH]; intros nx idx ts ss k v s; simpl; [intros _ H; by apply elem_of_nil in H|].
  intros Hd Hin Hk H1 H2. destruct (h !! k0) as [ko|] eqn:Ek; [|done]. apply elem_of_cons in Hin.
  destruct (key_name E ko) as [[nm|]|] eqn:En; simpl in Hd; [| |done].
  - destruct (utf8_encode _) as [kb|]; [|done]. simpl in Hd. destruct (dict_subs E h nx (idx + 1) kvs) as [[ts' ss']|] eqn:Es; [|done].
    simpl in Hd. inversion Hd; subst. destruct Hin as [[= -> ->]|Hin].
    + rewrite Ek in Hk. inversion Hk; subst ko. unfold key_name, str_slashes in En. simpl in En. rewrite H1, H2 in En. simpl in En. inversion En; subst nm.
      eexists. left.
    + destruct (IH _ _ _ _ _ _ _ Es Hin Hk H1 H2) as [at_ Ha]. exists at_. by right.
  - destruct (dict_subs E h (nx + 1) (idx + 1) kvs) as [[ts' ss']|] eqn:Es; [|done].
    simpl in Hd. inversion Hd; subst. destruct Hin as [[= -> ->]|Hin].
    + rewrite Ek in Hk. inversion Hk; subst ko. unfold key_name, str_slashes in En. simpl in En. rewrite H1, H2 in En. simpl in En. discriminate.
    + destruct (IH _ _ _ _ _ _ _ Es Hin Hk H1 H2) as [at_ Ha]. exists at_. by right.
Qed.
Lemma dict_subs_keys E h kvs : forall nx idx ts ss k v, dict_subs E h nx idx kvs = Ok (ts, ss) -> (k, v) ∈ kvs -> is_Some (h !! k).
Proof.
  induction kvs as [|[k0 v0] kvs IH]; intros nx idx ts ss k v; simpl; [intros _ H; by apply elem_of_nil in H|].
  intros Hd Hin. destruct (h !! k0) as [ko|] eqn:Ek; [|done]. apply elem_of_cons in Hin. destruct Hin as [[= -> ->]|Hin]; [by rewrite Ek|].
  destruct (key_name E ko) as [[nm|]|]; simpl in Hd; [| |done].
  - destruct (utf8_encode _); [|done]. simpl in Hd. destruct (dict_subs E h nx (idx + 1) kvs) as [[ts' ss']|] eqn:Es; [|done]. by eapply IH.
  - destruct (dict_subs E h (nx + 1) (idx + 1) kvs) as [[ts' ss']|] eqn:Es; [|done]. by eapply IH.
Qed.

Lemma dump_file_native C kw opts x p m f f' m' :
  tree f -> c_world C = std_world -> free_above m -> Forall (fun o => snd o = false) opts ->
  dump_file C kw opts x p m f = (f', m', Ok tt) ->
  exists (place : gmap N addr) root c,
    get_path f' p = Some root /\ child f' root n_data = Some c /\ m_heap m ⊆ m_heap m' /\
    holds (m_heap m') f' place c x /\
    (forall a, below f' c a -> exists y, holds (m_heap m') f' place a y) /\
    (forall y a k v kvs s, place !! y = Some a -> m_heap m' !! y = Some (Obj CDict (VDict kvs)) -> (k, v) ∈ kvs ->
       m_heap m' !! k = Some (Obj CStr (VStr s)) -> has_char 47 s = false -> has_char 92 s = false ->
       exists b, child f' a ([34] ++ s ++ [34]) = Some b /\ holds (m_heap m') f' place b v) /\
    (forall y a cl xs n i v, place !! y = Some a -> m_heap m' !! y = Some (Obj cl (VSeq xs)) -> cl ∈ [CList; CTuple; CSet] ->
       get_node f' a = Some n -> is_group n = true -> xs !! i = Some v ->
       exists b, child f' a (str "data" ++ N_dec (N.of_nat i)) = Some b /\ holds (m_heap m') f' place b v).
Proof.
  intros Ht HW Hm Hop Hd.
  destruct (dump_file_state C kw opts x p m f f' m' Ht ltac:(rewrite HW; apply std_world_ok) Hm Hd)
    as (chain & s & lo & tbl & root & c & <- & Hh & Hsub & Ht' & Hw & Hp & Htb & Hc & _ & _ & _ & Hst & Hch & _ & Hchain & _ & _).
  rewrite (Hchain Hop), HW, std_dump_eq in *.
  exists (d_memo s), root, c. split; [done|]. split; [done|]. split; [done|]. rewrite <- Hh.
  split; [exact (proj2 (child_holds _ _ _ _ _ _ _ Hst Hch))|].
  assert (Hmem : forall a n y pl at_ ls memo nm b, placed (c_env C) std_dump s y a at_ pl memo ls -> Forall2 (child_ok (c_env C) std_dump lo s) (p_subs pl) ls ->
    getn s a = Some n -> (nm, b) ∈ links n -> exists z, holds (d_heap s) (d_file s) (d_memo s) b z).
  { intros a n y pl at_ ls memo nm b Hpl Hf Hn Hin. destruct (placed_links _ _ _ _ _ _ _ _ Hpl) as (n' & N1 & N2).
    rewrite Hn in N1. inversion N1; subst n'. rewrite N2 in Hin. destruct (p_data pl); [by apply elem_of_nil in Hin|].
    apply elem_of_list_lookup in Hin as [i Hi]. destruct (Forall2_lookup_r _ _ _ _ _ Hf Hi) as ([[nm' z] at'] & _ & Hck).
    exists z. exact (proj2 (child_holds _ _ _ _ _ _ _ Hst Hck)). }
  assert (Hname : forall a y pl at_ ls memo nm v at', placed (c_env C) std_dump s y a at_ pl memo ls -> Forall2 (child_ok (c_env C) std_dump lo s) (p_subs pl) ls ->
    p_data pl = None -> (nm, v, at') ∈ p_subs pl -> exists b, child (d_file s) a nm = Some b /\ holds (d_heap s) (d_file s) (d_memo s) b v).
  { intros a y pl at_ ls memo nm v at' Hpl Hf Hnd Hin. destruct (placed_links _ _ _ _ _ _ _ _ Hpl) as (n & N1 & N2). rewrite Hnd in N2.
    apply elem_of_list_lookup in Hin as [i Hi]. destruct (Forall2_lookup_l _ _ _ _ _ Hf Hi) as ([nm' b] & Hli & Hck).
    destruct (child_holds _ _ _ _ _ _ _ Hst Hck) as [Hnm Hb]. simpl in Hnm, Hb. subst nm'. exists b. split; [|done].
    unfold child. unfold getn in N1. rewrite N1, N2. apply alist_get_unique.
    - rewrite <- N2. by eapply tr_names.
    - by eapply elem_of_list_lookup_2. }
  split; [|split].
  - intros a Hb. remember c as c0 eqn:Ec in Hb. revert Ec.
    assert (forall a, below (d_file s) c0 a -> c0 = c ->
       (exists y, holds (d_heap s) (d_file s) (d_memo s) a y) /\ ((exists y, d_memo s !! y = Some a) \/ (exists n, getn s a = Some n /\ links n = []))) as Hg; [|intros Ec; exact (proj1 (Hg a Hb Ec))].
    clear a Hb. intros a Hb. 
    assert (Hcases : forall nm y at_ lk, child_ok (c_env C) std_dump lo s (nm, y, at_) lk ->
      (exists y, d_memo s !! y = Some (snd lk)) \/ (exists n, getn s (snd lk) = Some n /\ links n = [])).
    { intros nm y at_ lk (_ & _ & _ & Hat & [(t & Hmt & [[-> _]|Hn])|(pl & Hpl & Hsb & Hdd)]).
      - left. by exists y.
      - right. eexists. split; [exact Hn|done].
      - right. destruct (placed_links _ _ _ _ _ _ _ _ Hpl) as (n & N1 & N2). exists n. split; [done|]. rewrite N2. by destruct (p_data pl). }
    induction Hb as [a|a n nm b b' Hb IH Hn Hin]; intros ->.
    + split; [exists x; exact (proj2 (child_holds _ _ _ _ _ _ _ Hst Hch))|]. exact (Hcases _ _ _ _ Hch).
    + destruct (IH eq_refl) as [_ [[y Hy]|(n' & Hn' & Hl)]].
      2:{ unfold getn in Hn'. rewrite Hn in Hn'. inversion Hn'; subst n'. rewrite Hl in Hin. by apply elem_of_nil in Hin. }
      destruct (Hst _ _ Hy) as (_ & _ & at' & pl & ls & Hat' & Hpl & Hf).
      split; [by eapply Hmem|]. destruct (placed_links _ _ _ _ _ _ _ _ Hpl) as (n' & N1 & N2). unfold getn in N1. rewrite Hn in N1. inversion N1; subst n'.
      rewrite N2 in Hin. destruct (p_data pl); [by apply elem_of_nil in Hin|].
      apply elem_of_list_lookup in Hin as [i Hi]. destruct (Forall2_lookup_r _ _ _ _ _ Hf Hi) as ([[nm' z] at2] & _ & Hck).
      exact (Hcases _ _ _ _ Hck).
  - intros y a k v kvs st Hy Ho Hkv Hk H1 H2. destruct (Hst _ _ Hy) as (_ & _ & at' & pl & ls & Hat' & Hpl & Hf).
    pose proof Hpl as (o & h0 & nx & pt & fn & base & te & nm & P1 & P2 & P3 & P4 & P5 & P6 & P7 & P8).
    rewrite Ho in P2. inversion P2; subst o. cbn [ocls] in P3. rewrite (std_dump_base CDict CDict ltac:(apply outside_intro; vm_compute; done) eq_refl) in P3. vm_compute in P3. injection P3 as _ <- _.
    cbn [create] in P4. unfold create_dictlike in P4. cbn [oval] in P4. destruct (dict_subs (c_env C) h0 nx 0 kvs) as [[ts ss]|] eqn:Es; [|done].
    simpl in P4. injection P4 as <-. destruct (dict_subs_keys _ _ _ _ _ _ _ _ _ Es Hkv) as [ko Hko].
    pose proof (lookup_weaken _ _ _ _ Hko P1) as Hko'. rewrite Hk in Hko'. inversion Hko'; subst ko.
    destruct (dict_subs_name _ _ _ _ _ _ _ _ _ _ Es Hkv Hko H1 H2) as [at2 Hin].
    by eapply Hname.
  - intros y a cl xs n i v Hy Ho Hcl Hn Hg Hi. destruct (Hst _ _ Hy) as (_ & _ & at' & pl & ls & Hat' & Hpl & Hf).
    pose proof Hpl as (o & h0 & nx & pt & fn & base & te & nm & P1 & P2 & P3 & P4 & P5 & P6 & P7 & P8).
    rewrite Ho in P2. inversion P2; subst o. clear P2. cbn [ocls] in P3.
    assert (create_list_items (c_env C) h0 xs = Ok pl) as P4'.
    { assert (outside_hickle cl) as Hout.
      { clear -Hcl. revert Hcl. rewrite !elem_of_cons, elem_of_nil. intros [-> |[-> |[-> |[]]]]; apply outside_intro; vm_compute; done. }
      revert Hcl Hout P3. rewrite !elem_of_cons, elem_of_nil. intros [-> |[-> |[-> |[]]]] Hout;
        (rewrite (std_dump_base _ _ Hout eq_refl); vm_compute first_item; cbn beta iota; intros [= _ <- _]; exact P4). }
    unfold getn in P7. rewrite P7 in Hn. injection Hn as <-.
    assert (p_data pl = None) as Hnd.
    { unfold is_group, extend, plan_body in Hg. simpl in Hg. destruct te; simpl in Hg; destruct (p_data pl); done. }
    unfold create_list_items in P4'. destruct xs as [|x0 xs]; [injection P4' as <-; done|].
    destruct (check_iterable_item_type _ _ _ _) as [[[d| | |]|]|]; simpl in P4'; try done.
    { destruct (write_items h0 d (x0 :: xs)) as [vs e] eqn:Ew. simpl in Ew. rewrite Ew in P4'. injection P4' as <-. done. }
    injection P4' as <-. eapply (Hname _ _ _ _ _ _ _ _ _ Hpl Hf Hnd). simpl p_subs.
    unfold list_subs. apply elem_of_list_fmap. exists (N.of_nat i, v). split; [done|]. 
    by apply enumerate_in.
Qed.

(** ** Samples *)
Definition m_native : mem :=
  mem_of [o_bool true; o_int (-5); o_float (FFin false 5 (-1)); o_int (2 ^ 63); o_list [6; 7]; o_int 1; o_int 2; Obj CStr (VStr [233])].
(** The dataset the value of a file is stored as. *)
Definition data_at (f : file) : option hdata :=
  match get_path f (str "/data") with
  | Some a => match get_node f a with Some n => match nd_body n with BData d => Some d | _ => None end | None => None end
  | None => None
  end.
