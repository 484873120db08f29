(** * LoadCont: objects stored as groups are loaded back *)
From stdpp Require Import relations.
From Verif Require Import Base Utf8 Utf8Proofs Dec DecProofs Num NumProofs PyObj H5 Env Create Dump
  LoadFns LoadModel Registry DumpProofs DumpStored RegistryStd Spec PartSpec LoadBase Damage Recover LoadInv LoadLeaf.
From Coq Require Import Lia ZifyBool ZifyN.
Local Open Scope N_scope.
Local Open Scope list_scope.

(** ** Lists *)
Fixpoint enum_from {A} (i : N) (l : list A) : list (N * A) :=
  match l with [] => [] | x :: r => (i, x) :: enum_from (i + 1) r end.
Lemma enumerate_from {A} (l : list A) : enumerate l = enum_from 0 l.
Proof. unfold enumerate. generalize 0. induction l as [|x l IH]; intros i; simpl; [done|]. by rewrite IH. Qed.
Lemma enum_from_lookup {A} (l : list A) : forall i j, enum_from i l !! j = (fun x => (i + N.of_nat j, x)) <$> l !! j.
Proof.
  induction l as [|x l IH]; intros i [|j]; simpl; try done.
  - f_equal. f_equal. lia.
  - rewrite IH. destruct (l !! j); simpl; [|done]. f_equal. f_equal. lia.
Qed.
Lemma enum_from_snd {A} (l : list A) i : map snd (enum_from i l) = l.
Proof. revert i. induction l as [|x l IH]; intros i; simpl; [done|]. by rewrite IH. Qed.
Lemma enum_from_length {A} (l : list A) i : length (enum_from i l) = length l.
Proof. rewrite <- (enum_from_snd l i) at 2. by rewrite map_length. Qed.
Lemma enum_from_fst {A} (l : list A) : forall i, NoDup (map fst (enum_from i l)) /\ forall j, j ∈ map fst (enum_from i l) -> i <= j.
Proof.
  induction l as [|x l IH]; intros i; simpl.
  - split; [constructor|]. intros j Hj. inversion Hj.
  - destruct (IH (i + 1)) as [IH1 IH2]. split.
    + apply list.NoDup_cons. split; [|done]. intros Hi. specialize (IH2 _ Hi). lia.
    + intros j [-> |Hj]%elem_of_cons; [lia|]. specialize (IH2 _ Hj). lia.
Qed.

Lemma Forall2_permute {A B} (R : A -> B -> Prop) xs xs' :
  Permutation xs xs' -> forall ys, Forall2 R xs ys -> exists ys', Permutation ys ys' /\ Forall2 R xs' ys'.
Proof.
  induction 1 as [|x xs xs' _ IH|x y xs|xs xs' xs'' _ IH1 _ IH2]; intros ys Hf.
  - inversion Hf; subst. by exists [].
  - inversion Hf as [|? z ? zs Hz Hf']; subst. destruct (IH _ Hf') as (ys' & P1 & P2).
    exists (z :: ys'). split; [by constructor|by constructor].
  - inversion Hf as [|? z ? zs Hz Hf']; subst. inversion Hf' as [|? z' ? zs' Hz' Hf'']; subst.
    exists (z' :: z :: zs'). split; [constructor|repeat constructor; done].
  - destruct (IH1 _ Hf) as (ys' & P1 & P2). destruct (IH2 _ P2) as (ys'' & P3 & P4).
    exists ys''. split; [by etrans|done].
Qed.

(** ** Nodes *)
Lemma create_no_ref E fn h nx o pl d t : create E fn h nx o = Ok pl -> p_data pl = Some d -> d <> DRefTo t.
Proof.
  assert (forall h items pl, create_list_items E h items = Ok pl -> p_data pl <> Some (DRefTo t)) as Hli.
  { intros h' items pl'. unfold create_list_items. destruct items as [|x r]; [by intros [= <-]|].
    destruct (check_iterable_item_type E h' x r) as [[[d'| | |]|]|]; cbn [res_bind]; try done.
    - destruct (write_items h' d' (x :: r)). by intros [= <-].
    - by intros [= <-]. }
  assert (forall o pl, create_listlike E h o = Ok pl -> p_data pl <> Some (DRefTo t)) as Hll.
  { intros o' pl'. unfold create_listlike. destruct (_ || _).
    - unfold create_text. destruct (match oval o' with VStr _ => _ | _ => _ end); simpl; [|done].
      destruct (ascii_encode _); by intros [= <-].
    - destruct (oval o'); try done. apply Hli. }
  intros Hc Hd ->. destruct fn; simpl in Hc; try done.
  - unfold create_scalar in Hc. destruct (oval o); try done. destruct n; try (inversion Hc; subst; done).
    destruct (_ && _); inversion Hc; subst; done.
  - inversion Hc; subst; done.
  - by apply (Hll _ _ Hc).
  - unfold create_setlike in Hc. destruct (oval o); try done. by apply (Hli _ _ _ Hc).
  - unfold create_dictlike in Hc. destruct (oval o); try done. destruct (dict_subs _ _ _ _ _) as [[? ?]|]; inversion Hc; subst; done.
  - unfold create_pickled in Hc. destruct (oval o); try done. destruct (e_pickles _ _ _); inversion Hc; subst; done.
  - unfold create_np_scalar in Hc. destruct (oval o); try done. destruct (np_dtype_of_cls _); inversion Hc; subst; done.
  - unfold create_np_dtype in Hc. destruct (oval o); try done. inversion Hc; subst; done.
  - unfold create_np_array in Hc. destruct (oval o) as [| | | | | |d0 shape vs|w shape vs|shape ls| | | | | |]; try done.
    + destruct shape, vs as [|v [|]]; inversion Hc; subst; done.
    + destruct shape as [|n shape].
      * destruct vs as [|v [|]]; try done. destruct (utf8_encode v); inversion Hc; subst; done.
      * destruct (tolist (n :: shape) _ _) as [ts els].
        destruct (create_list_items E _ els) as [pl'|] eqn:El; simpl in Hc; inversion Hc; subst. by apply (Hli _ _ _ El).
    + destruct shape as [|n shape].
      * destruct ls as [|v [|]]; try done. destruct (h !! v); [|done]. destruct (isinst _ _).
        -- destruct (create_listlike E h o0) as [pl'|] eqn:El; simpl in Hc; inversion Hc; subst. by apply (Hll _ _ El).
        -- inversion Hc; subst; done.
      * destruct (tolist (n :: shape) _ _) as [ts els].
        destruct (create_list_items E _ els) as [pl'|] eqn:El; simpl in Hc; inversion Hc; subst. by apply (Hli _ _ _ El).
  - unfold create_np_masked in Hc. destruct (oval o); try done. destruct (h !! data); [|done].
    destruct (arr_dtype_str _); inversion Hc; subst; done.
  - unfold create_sparse in Hc. destruct (oval o); try done. inversion Hc; subst; done.
Qed.

Definition no_base (at_ : list (pystr * attrv)) : Prop := Forall (fun p => fst p <> a_base_type /\ fst p <> a_type) at_.
Lemma no_base_lookup at_ : no_base at_ -> forall m, m !! a_base_type = None -> attrs_update at_ m !! a_base_type = None.
Proof.
  unfold attrs_update. induction 1 as [|[k v] at_ [Hk _] _ IH]; intros m Hm; simpl; [done|]. apply IH.
  by rewrite lookup_insert_ne by done.
Qed.
Lemma no_type_lookup at_ : no_base at_ -> forall m, m !! a_type = None -> attrs_update at_ m !! a_type = None.
Proof.
  unfold attrs_update. induction 1 as [|[k v] at_ [_ Hk] _ IH]; intros m Hm; simpl; [done|]. apply IH.
  by rewrite lookup_insert_ne by done.
Qed.
Lemma create_no_base E fn h nx o pl : create E fn h nx o = Ok pl -> no_base (p_attrs pl).
Proof.
  assert (forall h items pl, create_list_items E h items = Ok pl -> no_base (p_attrs pl)) as Hli.
  { intros h' items pl'. unfold create_list_items. destruct items as [|x r]; [intros [= <-]; repeat constructor|].
    destruct (check_iterable_item_type E h' x r) as [[[d'| | |]|]|]; cbn [res_bind]; try done.
    - destruct (write_items h' d' (x :: r)). intros [= <-]. repeat constructor.
    - intros [= <-]. by repeat constructor. }
  assert (forall o pl, create_listlike E h o = Ok pl -> no_base (p_attrs pl)) as Hll.
  { intros o' pl'. unfold create_listlike. destruct (_ || _).
    - unfold create_text. destruct (match oval o' with VStr _ => _ | _ => _ end); simpl; [|done].
      destruct (ascii_encode _); intros [= <-]; by repeat constructor.
    - destruct (oval o'); try done. apply Hli. }
  assert (forall ts k v pl, k <> a_base_type /\ k <> a_type -> no_base (p_attrs pl) -> no_base (p_attrs (with_temps ts [(k, v)] pl))) as Hwt.
  { intros ts k v pl' Hk Hp. unfold no_base, with_temps. simpl. apply Forall_app. split; [done|]. destruct Hk. by repeat constructor. }
  intros Hc. destruct fn; simpl in Hc; try done.
  - unfold create_scalar in Hc. destruct (oval o); try done. destruct n; try (inversion Hc; subst; by repeat constructor).
    destruct (_ && _); inversion Hc; subst; by repeat constructor.
  - inversion Hc; subst; by repeat constructor.
  - by apply (Hll _ _ Hc).
  - unfold create_setlike in Hc. destruct (oval o); try done. by apply (Hli _ _ _ Hc).
  - unfold create_dictlike in Hc. destruct (oval o); try done. destruct (dict_subs _ _ _ _ _) as [[? ?]|]; inversion Hc; subst; by repeat constructor.
  - unfold create_pickled in Hc. destruct (oval o); try done. destruct (e_pickles _ _ _); inversion Hc; subst; by repeat constructor.
  - unfold create_np_scalar in Hc. destruct (oval o); try done. destruct (np_dtype_of_cls _); inversion Hc; subst; by repeat constructor.
  - unfold create_np_dtype in Hc. destruct (oval o); try done. inversion Hc; subst; by repeat constructor.
  - unfold create_np_array in Hc. destruct (oval o) as [| | | | | |d0 shape vs|w shape vs|shape ls| | | | | |]; try done.
    + destruct shape, vs as [|v [|]]; inversion Hc; subst; by repeat constructor.
    + destruct shape as [|n shape].
      * destruct vs as [|v [|]]; try done. destruct (utf8_encode v); inversion Hc; subst; by repeat constructor.
      * destruct (tolist (n :: shape) _ _) as [ts els].
        destruct (create_list_items E _ els) as [pl'|] eqn:El; simpl in Hc; inversion Hc; subst. apply Hwt; [done|]. by apply (Hli _ _ _ El).
    + destruct shape as [|n shape].
      * destruct ls as [|v [|]]; try done. destruct (h !! v); [|done]. destruct (isinst _ _).
        -- destruct (create_listlike E h o0) as [pl'|] eqn:El; simpl in Hc; inversion Hc; subst. apply Hwt; [done|]. by apply (Hll _ _ El).
        -- inversion Hc; subst; by repeat constructor.
      * destruct (tolist (n :: shape) _ _) as [ts els].
        destruct (create_list_items E _ els) as [pl'|] eqn:El; simpl in Hc; inversion Hc; subst. apply Hwt; [done|]. by apply (Hli _ _ _ El).
  - unfold create_np_masked in Hc. destruct (oval o); try done. destruct (h !! data); [|done].
    destruct (arr_dtype_str _); inversion Hc; subst; by repeat constructor.
  - unfold create_sparse in Hc. destruct (oval o); try done. inversion Hc; subst; by repeat constructor.
Qed.

(** Containers of the base types. *)
Lemma lc_ndarray : ld_conts std_loader (str "ndarray") = Some KNDArray.
Proof. vm_compute. reflexivity. Qed.
Lemma lc_list : ld_conts std_loader (str "list") = Some KList.
Proof. vm_compute. reflexivity. Qed.
Lemma lc_tuple : ld_conts std_loader (str "tuple") = Some KList.
Proof. vm_compute. reflexivity. Qed.
Lemma lc_set : ld_conts std_loader (str "set") = Some KSet.
Proof. vm_compute. reflexivity. Qed.
Lemma lc_dict : ld_conts std_loader (str "dict") = Some KDict.
Proof. vm_compute. reflexivity. Qed.
Lemma lc_masked : ld_conts std_loader (str "ndarray_masked") = Some KMasked.
Proof. vm_compute. reflexivity. Qed.
Lemma lc_csr : ld_conts std_loader (str "csr_matrix") = Some KSparse.
Proof. vm_compute. reflexivity. Qed.
Lemma lc_csc : ld_conts std_loader (str "csc_matrix") = Some KSparse.
Proof. vm_compute. reflexivity. Qed.
Lemma lc_bsr : ld_conts std_loader (str "bsr_matrix") = Some KSparse.
Proof. vm_compute. reflexivity. Qed.
Lemma lc_ref : ld_conts std_loader b_reference = Some KExpand.
Proof. vm_compute. reflexivity. Qed.
Lemma ref_load : exists pt, ld_load std_loader CNodeReference b_reference = Ok (pt, false).
Proof. eexists. vm_compute. reflexivity. Qed.

Lemma rec_load : ld_load std_loader CRecoverCustom b_recover = Ok (CRecoverCustom, true).
Proof. vm_compute. reflexivity. Qed.
Lemma rec_type : default LRecover (ld_types std_loader b_recover) = LRecover.
Proof. vm_compute. reflexivity. Qed.
Lemma rec_cont : ld_conts std_loader b_recover = Some KRecover.
Proof. vm_compute. reflexivity. Qed.

Local Opaque std_loader std_dump.

Section Load.
Context (E : env) (HE : env_ok E) (tbl lo : addr) (s : dst).
Context (Hw : wfs std_dump tbl s).
Context (Hst : forall y a, d_memo s !! y = Some a -> stored E std_dump lo s y a).

Notation H := (d_heap s).
Notation F := (d_file s).
Notation inv := (inv E s).
Notation rel := (rel E s).
Notation loaded := (loaded E s).

(** Loading node [c] yields an object matching [y]. *)
Definition loads_at (n : nat) (c : addr) (y : loc) : Prop :=
  forall fuel st, (n <= fuel)%nat -> inv st ->
    exists st' v, load_ fuel E std_loader F c st = Ok (st', v) /\
      inv st' /\ ext st st' /\ news s y st st' /\ rel st' y v.
Definition loads (c : addr) (y : loc) : Prop := exists n, loads_at n c y.
Lemma loads_at_mono n n' c y : loads_at n c y -> (n <= n')%nat -> loads_at n' c y.
Proof. intros Hl Hn fuel st Hf. apply Hl. lia. Qed.
Lemma loads_all {A} (f : A -> addr * loc) (ps : list A) :
  (forall p, p ∈ ps -> loads (fst (f p)) (snd (f p))) ->
  exists n, forall p, p ∈ ps -> loads_at n (fst (f p)) (snd (f p)).
Proof.
  induction ps as [|p ps IH]; intros Hp.
  - exists O. intros p Hp'. inversion Hp'.
  - destruct IH as [n Hn]. { intros q Hq. apply Hp. by right. }
    destruct (Hp p) as [n' Hn']. { by left. }
    exists (max n n'). intros q [-> |Hq]%elem_of_cons.
    + eapply loads_at_mono; [done|lia].
    + eapply loads_at_mono; [by apply Hn|lia].
Qed.

(** How a graph's object was dumped. *)
Lemma placed_class y o c at_ pl memo ls :
  graph_part E H y -> H !! y = Some o -> e_imports E (ocls o) = true ->
  placed E std_dump s y c at_ pl memo ls -> at_form at_ ->
  exists h0 nx fn base n,
    h0 ⊆ H /\ create E fn h0 nx o = Ok pl /\ p_fail pl = None /\
    (forall i t, p_temps pl !! i = Some t -> H !! (nx + N.of_nat i) = Some t) /\
    getn s c = Some n /\
    nd_body n = match plan_body pl with BGroup l => BGroup (l ++ ls) | BData d => BData d end /\
    (forall k, k ≠ a_item_index -> k ≠ a_key_idx -> k ≠ a_key_base_type -> k ≠ a_type ->
       nd_attrs n !! k = attrs_update (p_attrs pl) ∅ !! k) /\
    ((std_dump (ocls o) = Ok (ocls o, (fn, base, memo)) /\
      resolve_type E false F n = Ok (Resolved (ocls o) base base (is_group n)) /\
      ld_load std_loader (ocls o) base = Ok (ocls o, memo) /\
      is_Some (nd_attrs n !! a_type)) \/
     (std_dump (ocls o) = Ok (CObject, (FPickle, b_pickle, true)) /\ memo = true /\ fn = FPickle /\ base = b_pickle /\
      nd_attrs n !! a_type = None)).
Proof.
  intros Hg Ho Him Hpl Hat.
  destruct (placed_view E s y c at_ pl memo ls Hpl Hat)
    as (o' & h0 & nx & pt & fn & base & n & Hh0 & Ho' & Ha & Hcr & Hpf & Htm & Hn & Hbody & Hattr & Hty).
  rewrite Ho in Ho'. inversion Ho'; subst o'. clear Ho'.
  inversion Hg as [? o' Ho' Hso Hout _ _ Hch]; subst. rewrite Ho in Ho'. inversion Ho'; subst o'. clear Ho'.
  exists h0, nx, fn, base, n. do 7 (split; [done|]).
  pose proof (std_dump_base (ocls o) _ Hout eq_refl) as Hans. rewrite Ha in Hans.
  destruct Hty as [[-> Hty]|[Hne (e & He & Hen)]].
  - right. assert (fn = FPickle /\ base = b_pickle /\ memo = true) as (-> & -> & ->).
    { destruct (first_item (mro (base_cls (ocls o)))) as [i|] eqn:Ei.
      - inversion Hans as [[Hoc Hi]]. rewrite <- Hoc in Ei. simpl in Ei. vm_compute in Ei. discriminate.
      - inversion Hans; subst; done. }
    split_and!; auto. rewrite Hty. simpl in Hcr. unfold create_pickled in Hcr. destruct (oval o); try done.
    destruct (e_pickles _ _ _); inversion Hcr; subst; done.
  - left. assert (pt = ocls o) as ->.
    { destruct (first_item (mro (base_cls (ocls o)))) as [i|] eqn:Ei; inversion Hans; subst; done. }
    destruct (entry_resolve E s _ e n Hen He Him) as (fn' & base' & memo' & Ha' & Hr).
    rewrite Ha in Ha'. inversion Ha'; subst fn' base' memo'.
    split_and!; auto. by eapply std_ld_load_same.
Qed.

(** A node is that of a memoised object or not. *)
Lemma placed_leaf y o c at_ pl ls :
  graph_part E H y -> H !! y = Some o -> at_form at_ -> placed E std_dump s y c at_ pl false ls ->
  exists n fn base e, getn s c = Some n /\ std_dump (ocls o) = Ok (ocls o, (fn, base, false)) /\
    nd_attrs n !! a_type = Some (ARef e) /\ entry_ok std_dump s (ocls o) e.
Proof.
  intros Hg Ho Hat Hpl.
  destruct (placed_view E s y c at_ pl false ls Hpl Hat)
    as (o' & h0 & nx & pt & fn & base & n & Hh0 & Ho' & Ha & Hcr & Hpf & Htm & Hn & Hbody & Hattr & Hty).
  rewrite Ho in Ho'. inversion Ho'; subst o'. clear Ho'.
  inversion Hg as [? o' Ho' _ Hout _ _ _]; subst. rewrite Ho in Ho'. inversion Ho'; subst o'. clear Ho'.
  pose proof (std_dump_base (ocls o) _ Hout eq_refl) as Hans. rewrite Ha in Hans.
  destruct (first_item (mro (base_cls (ocls o)))) as [i|] eqn:Ei; [|discriminate Hans].
  inversion Hans as [[Hoc Hi]]. subst pt.
  destruct Hty as [[Hobj _]|[Hne (e & He & Hen)]].
  { rewrite Hobj in Ei. vm_compute in Ei. discriminate Ei. }
  exists n, fn, base, e. split_and!; auto.
Qed.
Lemma std_scalar o pt fn base :
  storable H o -> outside_hickle (ocls o) -> std_dump (ocls o) = Ok (pt, (fn, base, false)) -> scalar o.
Proof.
  intros Hso Hout Ha. pose proof (std_dump_base (ocls o) _ Hout eq_refl) as Hans. rewrite Ha in Hans. clear Ha.
  inversion Hso as [|c0 n0 Hnum|str0|c0 b0 Hb0 Hnm|c0 xs Hb0 Hll|c0 xs Hb0 Hdk Hll|c0 kvs Hb0 _ _ _|c0 d0 shape vs Hb0 Hsh Hvs|w0 shape vs Hsh Hlen Hw1 Hvs|shape xs Hsh Hlen Hel Hnu Hrow|d0|c0 d0 m0 Hb0|c0 k0 d0 i0 p0 s0 Hb0|c0 k0 n0 Hb0];
    subst o; cbn [ocls] in *; try exact I; exfalso.
  - inversion Hans.
  - rewrite Hb0 in Hans. inversion Hans.
  - destruct Hb0 as [Eb|Eb]; rewrite Eb in Hans; inversion Hans.
  - rewrite Hb0 in Hans. inversion Hans.
  - destruct Hb0 as [Eb|Eb]; rewrite Eb in Hans; inversion Hans.
  - destruct Hb0 as [->|Eb]; [inversion Hans|]. rewrite Eb in Hans; inversion Hans.
  - inversion Hans.
  - inversion Hans.
  - inversion Hans.
  - rewrite Hb0 in Hans. inversion Hans.
  - rewrite Hb0 in Hans. destruct k0; inversion Hans.
  - destruct (base_cls c0); try done; simpl in Hans; inversion Hans.
Qed.
Lemma placed_excl y y' c at_ pl ls at' pl' ls' :
  graph_part E H y -> at_form at_ -> at_form at' ->
  placed E std_dump s y c at_ pl false ls -> placed E std_dump s y' c at' pl' true ls' -> False.
Proof.
  intros Hg Ha Ha' Hp Hp'.
  inversion Hg as [? o Ho _ _ _ _ _]; subst.
  destruct (placed_leaf _ _ _ _ _ _ Hg Ho Ha Hp) as (n & fn & base & e & Hn & Hd & He & Hen).
  destruct (placed_view E s y' c at' pl' true ls' Hp' Ha')
    as (o' & h0 & nx & pt & fn' & base' & n' & _ & Ho' & Hd' & Hcr & _ & _ & Hn' & _ & _ & Hty).
  rewrite Hn in Hn'. inversion Hn'; subst n'. destruct Hty as [[_ Hty]|[Hne (e' & He' & Hen')]].
  - rewrite no_type_lookup in Hty; [congruence|by eapply create_no_base|done].
  - rewrite He in He'. inversion He'; subst e'.
    destruct Hen as (en & _ & _ & _ & _ & _ & H1 & H2 & _). destruct Hen' as (en' & _ & _ & _ & _ & _ & H1' & H2' & _).
    rewrite H1 in H1'. inversion H1'; subst en'. rewrite H2 in H2'. inversion H2'; subst pt.
    destruct (lo_cls _ _ (std_dump_ok E) _ _ _ Hd') as [Hc|Hc]; [|done]. rewrite Hc in Hd. congruence.
Qed.
Lemma leaf_excl y c at_ pl ls :
  graph_part E H y -> at_form at_ -> placed E std_dump s y c at_ pl false ls -> forall z, d_memo s !! z <> Some c.
Proof.
  intros Hg Ha Hp z Hz. destruct (Hst _ _ Hz) as (_ & _ & at' & pl' & ls' & Ha' & Hp' & _).
  exact (placed_excl y z c at_ pl ls at' pl' ls' Hg Ha Ha' Hp Hp').
Qed.
Lemma leaf_not_memo y c at_ pl ls st :
  graph_part E H y -> imported E H y -> at_form at_ -> placed E std_dump s y c at_ pl false ls -> inv st -> l_memo st !! c = None.
Proof.
  intros Hg (o & Ho & Him) Ha Hp Hi. destruct (l_memo st !! c) as [v|] eqn:Ec; [exfalso|done].
  destruct (iv_memo _ _ _ Hi _ _ Ec) as [(y' & Hy' & _)|(_ & n & d & c' & b & Hn & _ & (e & en & He & Hen & _ & Hb & Hno) & _)].
  { by eapply leaf_excl. }
  destruct (placed_leaf _ _ _ _ _ _ Hg Ho Ha Hp) as (n' & fn & base & e' & Hn' & _ & He' & (en' & _ & _ & _ & _ & _ & H1 & H2 & _)).
  rewrite Hn in Hn'. inversion Hn'; subst n'. rewrite He in He'. inversion He'; subst e'.
  unfold getn in H1. rewrite Hen in H1. inversion H1; subst en'. rewrite Hb in H2. inversion H2; subst c'. congruence.
Qed.
Lemma ref_not_memo c nm a t st :
  getn s c = Some (Node nm a (BData (DRefTo t))) -> a !! a_type = None -> inv st -> l_memo st !! c = None.
Proof.
  intros Hn Hnt Hi. destruct (l_memo st !! c) as [v|] eqn:Ec; [exfalso|done].
  destruct (iv_memo _ _ _ Hi _ _ Ec) as [(y' & Hy' & Hg' & _)|(_ & n & d & c' & b & Hn' & _ & (e & en & He & _) & _)].
  2: { rewrite Hn in Hn'. inversion Hn'; subst n. simpl in He. congruence. }
  destruct (Hst _ _ Hy') as (_ & _ & at' & pl' & ls' & Ha' & Hp' & _).
  destruct (placed_view E s y' c at' pl' true ls' Hp' Ha')
    as (o' & h0 & nx & pt & fn' & base' & n2 & _ & Ho' & Hd' & Hcr & _ & _ & Hn2 & Hb & _).
  rewrite Hn in Hn2. inversion Hn2; subst n2. simpl in Hb. unfold plan_body in Hb.
  destruct (p_data pl') as [d|] eqn:Ed; [|done]. inversion Hb; subst d.
  by apply (create_no_ref _ _ _ _ _ _ _ t Hcr Ed).
Qed.

Lemma set_mem_id st : set_mem (l_mem st) st = st.
Proof. by destruct st. Qed.
Lemma news_refl y st : news s y st st.
Proof. intros b w ?. by left. Qed.

(** The attributes of the members. *)
Lemma placed_no_base y a at_ pl memo ls :
  placed E std_dump s y a at_ pl memo ls -> at_form at_ -> forall n, getn s a = Some n -> nd_attrs n !! a_base_type = None.
Proof.
  intros Hpl Hat n Hn.
  destruct (placed_view E s y a at_ pl memo ls Hpl Hat) as (o & h0 & nx & pt & fn & base & n' & _ & _ & _ & Hcr & _ & _ & Hn' & _ & Hattr & _).
  rewrite Hn in Hn'. inversion Hn'; subst n'. rewrite Hattr by done.
  apply no_base_lookup; [by eapply create_no_base|done].
Qed.
Lemma child_attrs nm y at_ lk :
  child_ok E std_dump lo s (nm, y, at_) lk ->
  exists n m0, get_node F (snd lk) = Some n /\ nd_attrs n = attrs_update at_ m0 /\ m0 !! a_base_type = None.
Proof.
  intros (_ & _ & _ & Hat & [(t & Ht & [(-> & n & m0 & Hn & Ha)|Hn])|(pl & Hpl & _)]).
  - exists n, m0. split_and!; auto. destruct (Hst _ _ Ht) as (_ & _ & at' & pl' & ls' & Ha' & Hp' & _).
    pose proof (placed_no_base _ _ _ _ _ _ Hp' Ha' _ Hn) as Hb. rewrite Ha in Hb. by rewrite attrs_update_other in Hb.
  - eexists _, _. split; [exact Hn|done].
  - pose proof (placed_no_base _ _ _ _ _ _ Hpl Hat) as Hb.
    destruct Hpl as (o & h0 & nx & pt & fn & base & te & nm0 & _ & _ & _ & _ & _ & _ & Hn & _).
    specialize (Hb _ Hn).
    rewrite extend_nil in Hn, Hb. eexists _, _. split; [exact Hn|]. split; [done|]. cbn [nd_attrs set_attrs] in Hb.
    by rewrite attrs_update_other in Hb.
Qed.

(** A member is the node of the object, a reference to it, or a scalar. *)
Lemma child_loads nm y at_ lk :
  graph_part E H y -> (forall a, d_memo s !! y = Some a -> loads a y) ->
  child_ok E std_dump lo s (nm, y, at_) lk -> loads (snd lk) y.
Proof.
  intros Hg HQ (_ & _ & _ & Hat & Hc). destruct lk as [nm' c]. simpl in *.
  destruct Hc as [(t & Ht & [(-> & _)|Hn])|(pl & Hpl & Hsubs & Hd)].
  - by apply HQ.
  - destruct (HQ _ Ht) as [n Hl]. exists (S n). intros fuel st Hf Hi.
    destruct fuel as [|fu]; [lia|].
    assert (Hs := Hst _ _ Ht). destruct Hs as (_ & _ & at' & pl' & ls' & Ha' & Hp' & _).
    destruct (placed_view E s y t at' pl' true ls' Hp' Ha') as (o' & h2 & n2 & pt2 & fn2 & b2 & nd2 & _ & _ & _ & _ & _ & _ & Hn2 & _).
    destruct (Hl fu st) as (st' & v & L1 & L2 & L3 & L4 & L5); [lia|done|].
    exists st', v. split; [|done].
    assert (attrs_update at_ ∅ !! a_type = None) as Hnt. { inversion Hat; subst; done. }
    assert (resolve_type E false F (Node nm (attrs_update at_ ∅) (BData (DRefTo t))) =
            Ok (Resolved CNodeReference b_reference b_reference true)) as Hr.
    { unfold resolve_type. simpl nd_attrs. by rewrite Hnt. }
    destruct ref_load as [pt Hrl].
    pose proof (load_cont fu E F c st _ _ pt false KExpand [(nd_name nd2, t)] st' (SList [v]) (l_mem st') v
                 (ref_not_memo _ _ _ _ _ Hn Hnt Hi) Hn Hr Hrl eq_refl lc_ref eq_refl) as Hlc.
    clear Hrl. rewrite set_mem_id in Hlc. apply Hlc.
    + simpl. unfold getn in Hn2. by rewrite Hn2.
    + simpl. unfold getn in Hn2. rewrite Hn2, L1. simpl. by rewrite set_mem_id.
    + done.
  - destruct (p_data pl) as [d|] eqn:Ed; [|done].
    inversion Hg as [? o Ho Hso _ _ _ _]; subst.
    destruct (placed_leaf _ _ _ _ _ _ Hg Ho Hat Hpl) as (n0 & fn & base & e & _ & Hdmp & _).
    assert (scalar o) as Hsc.
    { inversion Hg as [? o' Ho' _ Hout _ _ _]; subst. rewrite Ho in Ho'. inversion Ho'; subst o'. clear Ho'.
      by eapply std_scalar. }
    destruct (e_imports E (ocls o)) eqn:Him.
    + assert (imported E H y) as Himp by (by exists o).
      destruct (data_loads E tbl lo s Hw Hst y c at_ pl false [] d Hg Himp Hpl Hat Ed) as [N HN].
      exists (S N). intros fuel st Hf Hi. destruct fuel as [|fu]; [lia|].
      destruct (HN fu st) as (m & v & L1 & (I1 & I2 & I3 & I4) & L3); [lia|done|by eapply leaf_not_memo|].
      exists (set_mem m st), v. split_and!; auto.
      * intros b w ?. by left.
      * right. left. destruct (L3 eq_refl) as (o2 & O1 & O2 & O3). exists o2. split_and!; auto. congruence.
    + pose proof (leaf_excl _ _ _ _ _ Hg Hat Hpl) as Hex.
      destruct (missing_data E s y o c at_ pl false [] d Hg Ho Him Hpl Hat Ed)
        as (n & Hn & Hb & Hdk & [(b & Hcm & Hkk)|(_ & [=] & _)]).
      set (o' := Obj CRecoveredDataset (VRecD d (rec_attrs (<[a_base_type := ABytes b]> (nd_attrs n))))).
      assert (forall h, recovered_as H h (fun _ _ => False) o o') as Hrec.
      { intros h. left. by eexists _, _. }
      exists 1%nat. intros fuel st Hf Hi. destruct fuel as [|fu]; [lia|].
      destruct (l_memo st !! c) as [v|] eqn:Ec.
      * exists st, v. split_and!; [by apply load_memo|done|apply ext_refl|apply news_refl|].
        destruct (iv_memo _ _ _ Hi _ _ Ec) as [(y' & Hy' & _)|(_ & n' & d' & c' & b' & Hn' & Hb' & Hcm' & Hv)]; [by destruct (Hex y')|].
        rewrite Hn in Hn'. inversion Hn'; subst n'. rewrite Hb in Hb'. inversion Hb'; subst d'.
        assert (b' = b) as ->.
        { destruct Hcm as (e1 & en1 & A1 & A2 & A3 & _), Hcm' as (e2 & en2 & B1 & B2 & B3 & _). congruence. }
        do 2 right. exists o, o', c. split_and!; auto.
      * destruct (inv_alloc E lo s Hst st o' Hi) as (A1 & A2 & A3 & A4).
        destruct (inv_lone_put E lo s Hst _ c (snd (alloc o' (l_mem st))) A1) as [B1 B2].
        { split; [done|]. exists n, d, (ocls o), b. split_and!; auto. }
        { done. } { done. }
        eexists _, _. split; [|split; [exact B1|split; [eapply ext_trans; [exact Hst|exact A2|exact B2]|split]]].
        -- apply (load_data fu E F c st n (Resolved CRecoverCustom b_recover b false) CRecoverCustom true d _ _ Ec Hn);
             [|exact rec_load|done|exact Hb|].
           ++ destruct Hcm as (e1 & en1 & C1 & C2 & C3 & C4 & C5). unfold resolve_type. rewrite C1, C2, C3. cbn [res_bind].
              rewrite C4, C5. unfold is_group. by rewrite Hb.
           ++ cbn [r_base r_orig]. rewrite rec_type. cbn [load_fn]. unfold recover_dataset.
              cbn [res_map]. done.
        -- intros b' w. simpl. destruct (decide (b' = c)) as [->|Hne].
           ++ intros _. by do 2 right.
           ++ rewrite lookup_insert_ne by done. by left.
        -- do 2 right. exists o, o', c. split_and!; auto. simpl. apply lookup_insert.
Qed.

(** ** The loop over the members *)
Lemma members_loop {A} k y (f : A -> sub) (I : list (A * (pystr * addr)) -> cstate -> lst -> Prop)
    fu n (qs : list (A * (pystr * addr))) :
  (n <= fu)%nat ->
  (forall p lk, (p, lk) ∈ qs -> child_ok E std_dump lo s (f p) lk /\ dep s (snd (fst (f p))) y /\
     loads_at n (snd lk) (snd (fst (f p)))) ->
  (forall dn p lk rest cs st nd v m0,
     qs = dn ++ (p, lk) :: rest -> I dn cs st -> inv st -> rel st (snd (fst (f p))) v ->
     nd_attrs nd = attrs_update (snd (f p)) m0 -> m0 !! a_base_type = None ->
     exists m cs', cont_append E fu k (fst (fst (f p))) v (nd_attrs nd) cs (l_mem st) = Ok (m, cs') /\
       inv (set_mem m st) /\ ext st (set_mem m st) /\ I (dn ++ [(p, lk)]) cs' (set_mem m st)) ->
  (forall dn cs st st', I dn cs st -> inv st -> inv st' -> ext st st' -> I dn cs st') ->
  forall rest dn cs st, qs = dn ++ rest -> I dn cs st -> inv st ->
  exists st' cs', load_members E fu F (load_ fu E std_loader F) k (map snd rest) cs st = Ok (st', cs') /\
    inv st' /\ ext st st' /\ news_below s y st st' /\ I qs cs' st'.
Proof.
  intros Hn Hq Hstep Hmono. induction rest as [|[p lk] rest IH]; intros dn cs st Hqs HI Hi.
  - exists st, cs. rewrite app_nil_r in Hqs. subst dn. split_and!; auto using ext_refl, news_below_refl.
  - destruct (Hq p lk) as (Hc & Hd & Hl). { rewrite Hqs. apply elem_of_app. right. left. }
    destruct (f p) as [[nm z] at_] eqn:Ef. simpl in Hd, Hl.
    destruct (child_attrs _ _ _ _ Hc) as (nd & m0 & Hnd & Hat & Hm0).
    destruct (Hl fu st) as (st1 & v & L1 & L2 & L3 & L4 & L5); [lia|done|].
    destruct (Hstep dn p lk rest cs st1 nd v m0) as (m & cs' & S1 & S2 & S3 & S4); auto.
    { by eapply Hmono. } { by rewrite Ef. } { by rewrite Ef. }
    destruct (IH (dn ++ [(p, lk)]) cs' (set_mem m st1)) as (st' & cs'' & R1 & R2 & R3 & R4 & R5); auto.
    { by rewrite <- app_assoc. }
    exists st', cs''. split_and!; auto.
    + destruct lk as [nm' c]. simpl. simpl in Hnd, L1. rewrite Hnd, L1. cbn [res_bind].
      destruct Hc as (Hnm & _). simpl in Hnm. subst nm'. rewrite Ef in S1. simpl in S1. rewrite S1. cbn [res_bind]. exact R1.
    + eapply ext_trans; [exact Hst|exact L3|]. eapply ext_trans; [exact Hst|exact S3|exact R3].
    + eapply news_below_trans; [by eapply news_part|].
      eapply news_below_trans; [apply news_same|exact R4].
Qed.

(** Sub items and links in the order of the members. *)
Lemma members_perm {A} (as_ : list A) ls (P : A -> pystr * addr -> Prop) c :
  Forall2 P as_ ls ->
  exists qs, e_order E c ls = map snd qs /\ Permutation (map fst qs) as_ /\ forall p lk, (p, lk) ∈ qs -> P p lk.
Proof.
  intros Hf. pose proof (ok_order E HE c ls) as Hp.
  assert (ls = map snd (zip as_ ls)) as Hz. { symmetry. apply snd_zip. by rewrite (Forall2_length _ _ _ Hf). }
  rewrite Hz in Hp at 2. apply Permutation_map_inv in Hp as (qs & Hqs & Hp).
  exists qs. split; [done|]. split.
  - rewrite <- Hp. rewrite fst_zip; [done|]. by rewrite (Forall2_length _ _ _ Hf).
  - intros p lk Hin. rewrite <- Hp in Hin. clear -Hf Hin. induction Hf as [|a l as_ ls Ha Hf IH]; simpl in *.
    + inversion Hin.
    + apply elem_of_cons in Hin as [[= -> ->]|Hin]; [done|]. by apply IH.
Qed.
End Load.
