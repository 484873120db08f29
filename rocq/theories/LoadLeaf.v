(** * LoadLeaf: objects stored as datasets are loaded back *)
From stdpp Require Import relations.
From Verif Require Import Base Utf8 Utf8Proofs Dec DecProofs Num NumProofs PyObj H5 Env Create Dump
  LoadFns LoadModel Registry DumpProofs DumpStored RegistryStd Spec PartSpec LoadBase ArrayProofs Damage Recover LoadInv.
From Coq Require Import Lia ZifyBool ZifyN.
Local Open Scope N_scope.
Local Open Scope list_scope.

Arguments std_loader : simpl never.
Arguments std_dump : simpl never.
Arguments str : simpl never.

(** ** One step of [_load] *)
Lemma load_memo fu E LD f a st l : l_memo st !! a = Some l -> load_ (S fu) E LD f a st = Ok (st, l).
Proof. intros H. cbn [load_]. by rewrite H. Qed.

(** (Every load function except that of the masked arrays of hickle 4 looks at its own node only.) *)
Lemma load_dataset_fn E fu f a fn at_ d orig pt m x :
  load_fn E fu fn at_ d orig pt m = Ok x -> load_dataset E fu f a fn at_ d orig pt m = Ok x.
Proof. by destruct fn. Qed.
Lemma load_data fu E f c st n r pt (memo : bool) d m v :
  let LD := std_loader in
  l_memo st !! c = None -> get_node f c = Some n -> resolve_type E false f n = Ok r ->
  ld_load LD (r_cls r) (r_base r) = Ok (pt, memo) -> r_cont r = false -> nd_body n = BData d ->
  load_fn E fu (default LRecover (ld_types LD (r_base r))) (nd_attrs n) d (r_orig r) pt (l_mem st) = Ok (m, v) ->
  load_ (S fu) E LD f c st = Ok (if memo then memo_put c v (set_mem m st) else set_mem m st, v).
Proof.
  intros LD H1 H2 H3 H4 H5 H6 H7. cbn [load_]. rewrite H1, H2. change (ld_legacy LD) with false. rewrite H3. cbn [res_bind]. rewrite H4. cbn [res_bind].
  rewrite H5, H6, (load_dataset_fn _ _ _ _ _ _ _ _ _ _ _ H7). done.
Qed.

Lemma load_cont fu E f c st n r pt (memo : bool) k ms st1 cs m v :
  let LD := std_loader in
  l_memo st !! c = None -> get_node f c = Some n -> resolve_type E false f n = Ok r ->
  ld_load LD (r_cls r) (r_base r) = Ok (pt, memo) -> r_cont r = true ->
  ld_conts LD (r_base r) = Some k -> redirected k pt = false -> members E f k c n = Ok ms ->
  load_members E fu f (load_ fu E LD f) k ms (cont_init k (nd_attrs n)) st = Ok (st1, cs) ->
  cont_convert fu k (nd_attrs n) (r_orig r) pt cs (l_mem st1) = Ok (m, v) ->
  load_ (S fu) E LD f c st = Ok (if memo then memo_put c v (set_mem m st1) else set_mem m st1, v).
Proof.
  intros LD H1 H2 H3 H4 H5 H6 Hrd H7 H8 H9. cbn [load_]. rewrite H1, H2. change (ld_legacy LD) with false. rewrite H3. cbn [res_bind]. rewrite H4. cbn [res_bind].
  rewrite H5, H6. cbn [default]. unfold id. rewrite Hrd, H7. cbn [res_bind]. rewrite H8. cbn [res_bind]. rewrite H9. done.
Qed.

(** ** Answers of the standard loader *)
Lemma std_dump_base c b :
  outside_hickle c -> base_cls c = b ->
  std_dump c = Ok (match first_item (mro b) with Some i => (c, i) | None => fallback end).
Proof.
  intros H <-. rewrite std_dump_answer by (by apply outside_foreign). unfold std_answer.
  by rewrite first_item_base.
Qed.
Lemma std_ld_load_same c b fn base memo :
  outside_hickle c -> std_dump c = Ok (c, (fn, base, memo)) -> ld_load std_loader c b = Ok (c, memo).
Proof.
  intros H Hd. rewrite std_ld_load by (by apply outside_foreign).
  rewrite std_dump_answer in Hd by (by apply outside_foreign). inversion Hd as [Hd1]. by rewrite Hd1.
Qed.
Lemma std_legacy : ld_legacy std_loader = false.
Proof. done. Qed.
(** The load functions of the base types. *)
Lemma lt_None : default LRecover (ld_types std_loader (str "None")) = LNone.
Proof. vm_compute. reflexivity. Qed.
Lemma lt_bool : default LRecover (ld_types std_loader (str "bool")) = LScalar.
Proof. vm_compute. reflexivity. Qed.
Lemma lt_int : default LRecover (ld_types std_loader (str "int")) = LScalar.
Proof. vm_compute. reflexivity. Qed.
Lemma lt_float : default LRecover (ld_types std_loader (str "float")) = LScalar.
Proof. vm_compute. reflexivity. Qed.
Lemma lt_complex : default LRecover (ld_types std_loader (str "complex")) = LScalar.
Proof. vm_compute. reflexivity. Qed.
Lemma lt_np_scalar : default LRecover (ld_types std_loader (str "np_scalar")) = LNpScalar.
Proof. vm_compute. reflexivity. Qed.
Lemma lt_str : default LRecover (ld_types std_loader (str "str")) = LList.
Proof. vm_compute. reflexivity. Qed.
Lemma lt_bytes : default LRecover (ld_types std_loader (str "bytes")) = LList.
Proof. vm_compute. reflexivity. Qed.
Lemma lt_list : default LRecover (ld_types std_loader (str "list")) = LList.
Proof. vm_compute. reflexivity. Qed.
Lemma lt_tuple : default LRecover (ld_types std_loader (str "tuple")) = LList.
Proof. vm_compute. reflexivity. Qed.
Lemma lt_set : default LRecover (ld_types std_loader (str "set")) = LList.
Proof. vm_compute. reflexivity. Qed.
Lemma lt_ndarray : default LRecover (ld_types std_loader (str "ndarray")) = LNdarray.
Proof. vm_compute. reflexivity. Qed.
Lemma lt_np_matrix : default LRecover (ld_types std_loader (str "np_matrix")) = LNdarray.
Proof. vm_compute. reflexivity. Qed.
Lemma lt_np_dtype : default LRecover (ld_types std_loader (str "np_dtype")) = LNpDtype.
Proof. vm_compute. reflexivity. Qed.
Lemma lt_pickle : default LRecover (ld_types std_loader (str "pickle")) = LPickled.
Proof. vm_compute. reflexivity. Qed.
Lemma pickle_load b : ld_load std_loader CObject b = Ok (CObject, true).
Proof. vm_compute. reflexivity. Qed.
Arguments load_ : simpl never.
Local Opaque std_loader std_dump.

Section Load.
Context (E : env) (HE : env_ok E) (tbl lo : addr) (s : dst).
Context (Hw : wfs std_dump tbl s).
Context (Hst : forall y a, d_memo s !! y = Some a -> stored E std_dump lo s y a).

Notation H := (d_heap s).
Notation F := (d_file s).

(** Instances of list are sequences for numpy. *)
Lemma storable_list o l : H !! l = Some o -> storable H o -> isinst (ocls o) CList = true -> outer_len H l <> None.
Proof.
  intros Hl Hs Hi. rewrite isinst_base in Hi by done.
  inversion Hs as [|c0 n0 Hnum|str0|c0 b0 Hb0 Hnm|c0 xs Hb0 Hll|c0 xs Hb0 Hdk Hll|c0 kvs Hb0 _ _ _|c0 d0 shape vs Hb0 Hsh Hvs|w0 shape vs _ _ _ _|shape xs _ _ _ _ _|d0|c0 d0 m0 Hb0|c0 k0 d0 i0 p0 s0 Hb0|c0 k0 n0 Hb0];
    subst o; cbn [ocls oval] in Hi; try done.
  - exfalso. unfold number_ok in Hnum. destruct (base_cls c0); try done; try (by destruct n0). by destruct d as [|[]|[]|[]|[]].
  - by rewrite Hb0 in Hi.
  - unfold outer_len. rewrite Hl. rewrite !(isinst_base c0) by done. by rewrite Hi.
  - by rewrite Hb0 in Hi.
  - by destruct Hb0 as [Hb0|Hb0]; rewrite Hb0 in Hi.
  - destruct Hb0 as [Hb0|Hb0]; [subst c0; done|by rewrite Hb0 in Hi].
  - by rewrite Hb0 in Hi.
  - by rewrite Hb0 in Hi.
  - exfalso. destruct (base_cls c0); done.
Qed.
Lemma alone_no_list l : graph_part E H l -> not_uniform H [l] -> forall o, H !! l = Some o -> isinst (ocls o) CList = false.
Proof.
  intros Hg [|(x & y & Hx & Hy & Hxy)] o Ho; [done|].
  apply elem_of_list_singleton in Hx, Hy. subst x y. assert (outer_len H l = None) as Hn by (by destruct Hxy).
  inversion Hg as [? o' Ho' Hso _ _ _ _]; subst. rewrite Ho in Ho'. inversion Ho'; subst o'.
  apply not_true_is_false. intros Hi. by eapply storable_list.
Qed.

(** Numeric containers. *)
Definition python_class (d : dtype) : cls :=
  match d with DBool => CBool | DInt _ | DUInt _ => CInt | DFloat _ => CFloat | DComplex _ => CComplex end.
Lemma builtin_dtype c : c ∈ [CBool; CInt; CFloat; CComplex] -> exists d, np_dtype_of_cls c = PNum d /\ python_class d = c.
Proof.
  intros Hc. repeat (apply elem_of_cons in Hc as [-> |Hc]; [by eexists|]). by apply elem_of_nil in Hc.
Qed.
Lemma python_number_ok d v : num_of_dtype d v = true -> python_number v = Obj (python_class d) (VNum v) /\ number_ok (python_class d) v.
Proof.
  intros Hv. destruct v, d as [|w|w|w|w]; try done; (split; [done|]); simpl in *; try done.
  - by eapply fits_mono; [|exact Hv]; destruct w.
  - apply andb_true_iff in Hv as [H1 H2]. split; (eapply fits_mono; [|eassumption]; by destruct w).
Qed.
Lemma alloc_objects (g : num -> obj) d c0 st vs xs :
  (forall v, num_of_dtype d v = true -> g v = Obj c0 (VNum v) /\ number_ok c0 v) ->
  inv E s st ->
  Forall2 (fun x m => exists c n, H !! x = Some (Obj c (VNum n)) /\ num_val m = num_val n /\ num_of_dtype d m = true) xs vs ->
  let m := fst (alloc_list (map g vs) (l_mem st)) in
  let ls := snd (alloc_list (map g vs) (l_mem st)) in
  inv E s (set_mem m st) /\ ext st (set_mem m st) /\ Forall2 (same_number H (m_heap m)) xs ls /\
  forall y, y ∈ ls -> exists n, m_heap m !! y = Some (Obj c0 (VNum n)).
Proof.
  intros Hgv Hi Hf. destruct (inv_alloc_list E lo s Hst (map g vs) st Hi) as (A1 & A2 & A3).
  simpl. split; [done|]. split; [done|]. simpl in A3.
  set (m := fst _) in *. set (ls := snd _) in *. clearbody m ls. clear A1 A2.
  revert ls A3. induction Hf as [|x v xs vs (c & n & H1 & H2 & H3) Hf IH]; intros ls A3; inversion A3 as [|l ? ls' ? Hl A3']; subst.
  - split; [constructor|]. intros y Hy. by apply elem_of_nil in Hy.
  - destruct (IH _ A3') as [I1 I2]. destruct (Hgv v H3) as [Hc' Hok]. rewrite Hc' in Hl. split.
    + constructor; [|done]. by exists c, n, c0, v.
    + intros y Hy. apply elem_of_cons in Hy as [-> |Hy]; [by exists v|by apply I2].
Qed.
Lemma alloc_numbers st d vs xs :
  inv E s st ->
  Forall2 (fun x m => exists c n, H !! x = Some (Obj c (VNum n)) /\ num_val m = num_val n /\ num_of_dtype d m = true) xs vs ->
  let m := fst (alloc_list (map (fun v => Obj (CNp d) (VNum v)) vs) (l_mem st)) in
  let ls := snd (alloc_list (map (fun v => Obj (CNp d) (VNum v)) vs) (l_mem st)) in
  inv E s (set_mem m st) /\ ext st (set_mem m st) /\ Forall2 (same_number H (m_heap m)) xs ls /\ numpy_of (m_heap m) d ls.
Proof.
  intros Hi Hf. destruct (inv_alloc_list E lo s Hst (map (fun v => Obj (CNp d) (VNum v)) vs) st Hi) as (A1 & A2 & A3).
  simpl. split; [done|]. split; [done|]. simpl in A3.
  set (m := fst _) in *. set (ls := snd _) in *. clearbody m ls. clear A1 A2.
  revert ls A3. induction Hf as [|x v xs vs (c & n & H1 & H2 & H3) Hf IH]; intros ls A3; inversion A3 as [|l ? ls' ? Hl A3']; subst.
  - split; [constructor|]. intros x Hx. inversion Hx.
  - destruct (IH _ A3') as [I1 I2]. split.
    + constructor; [|done]. by exists c, n, (CNp d), v.
    + intros z Hz. apply elem_of_cons in Hz as [-> |Hz]; [by exists v|by apply I2].
Qed.

Lemma distinct_loaded st ks ks' :
  inv E s st -> Forall2 (kmatch s st) ks ks' -> NoDup (map coarse ks) -> NoDup ks'.
Proof.
  intros Hi Hf. induction Hf as [|k k' ks ks' Hk Hf IH]; simpl; [constructor|].
  intros Hnd. apply list.NoDup_cons in Hnd as [Hn Hnd]. apply list.NoDup_cons. split; [|by apply IH]. intros Hin.
  apply elem_of_list_lookup in Hin as [i Hin]. destruct (Forall2_lookup_r _ _ _ _ _ Hf Hin) as (k2 & Hk2 & Hm).
  apply Hn. rewrite (kmatch_inj E tbl s Hw _ _ _ _ Hi Hk Hm). apply elem_of_list_fmap. exists k2.
  split; [done|]. by eapply elem_of_list_lookup_2.
Qed.

Lemma keys_of_numbers st xs ls ks d :
  Forall2 (fun x k => hval d H x = Ok k) xs ks -> Forall2 (same_number H (m_heap (l_mem st))) xs ls ->
  exists ks', Forall2 (fun x k => hval d (m_heap (l_mem st)) x = Ok k) ls ks' /\ Forall2 (kmatch s st) ks ks'.
Proof.
  intros Hk Hl. revert ls Hl. induction Hk as [|x k xs ks Hx Hk IH]; intros ls Hl; inversion Hl as [|? l ? ls' Hxl Hl']; subst.
  - by exists [].
  - destruct (hval_number s st _ _ _ _ Hxl Hx) as (k' & K1 & K2). destruct (IH _ Hl') as (ks' & K3 & K4).
    exists (k' :: ks'). split; by constructor.
Qed.

(** The result of a load function. *)
Definition loaded (st : lst) (y : loc) (m : mem) (v : loc) : Prop :=
  inv E s (set_mem m st) /\ ext st (set_mem m st) /\ matched E s (set_mem m st) y v /\
  (fresh (set_mem m st) v \/ v = nobody).

Lemma loaded_alloc st y o o' :
  inv E s st -> H !! y = Some o -> e_imports E (ocls o) = true ->
  (forall st', ext st st' -> same_obj H (m_heap (l_mem st')) (rel E s st') o o') ->
  loaded st y (fst (alloc o' (l_mem st))) (snd (alloc o' (l_mem st))) /\
  m_heap (fst (alloc o' (l_mem st))) !! snd (alloc o' (l_mem st)) = Some o'.
Proof.
  intros Hi Hy Him Hs. destruct (inv_alloc E lo s Hst st o' Hi) as (A1 & A2 & A3 & A4).
  split; [|done]. split_and!; auto. exists o, o'. split_and!; auto. unfold stands_for. rewrite Him. auto.
Qed.
Lemma loaded_trans st st1 y m v :
  inv E s st1 -> ext st st1 -> l_memo st1 = l_memo st -> loaded st1 y m v -> loaded st y m v.
Proof.
  intros H1 H2 H3 (A1 & A2 & A3 & A4).
  assert (set_mem m st1 = set_mem m st) as Hs. { unfold set_mem. by rewrite H3. }
  unfold loaded. rewrite <- Hs. split_and!; auto. eapply ext_trans; eauto.
Qed.

Lemma loaded_same st y o :
  inv E s st -> H !! y = Some o -> e_imports E (ocls o) = true -> refs o = [] ->
  match oval o with VSeq _ | VDict _ | VObjArr _ _ | VMasked _ _ | VSparse _ _ _ _ => False | _ => True end ->
  loaded st y (fst (alloc o (l_mem st))) (snd (alloc o (l_mem st))) /\
  m_heap (fst (alloc o (l_mem st))) !! snd (alloc o (l_mem st)) = Some o.
Proof.
  intros Hi Hy Him Hr Hv. eapply loaded_alloc; eauto. intros st' _. split; [done|].
  destruct (oval o); try done; naive_solver.
Qed.

(** A sequence class applied to loaded items. *)
Lemma construct_seq_perm st fu y c xs ls ys :
  inv E s st -> e_imports E c = true -> H !! y = Some (Obj c (VSeq xs)) ->
  Permutation ls ys -> (isinst c CSet = false -> ls = ys) -> same_items H (m_heap (l_mem st)) (rel E s st) xs ys ->
  (base_cls c = CList \/ base_cls c = CTuple) \/
  (base_cls c = CSet /\ exists ks', Forall2 (fun x k => hval fu (m_heap (l_mem st)) x = Ok k) ls ks' /\ NoDup ks') ->
  exists m v, construct_seq fu c ls (l_mem st) = Ok (m, v) /\ loaded st y m v.
Proof.
  intros Hi Him Hy Hp Hns Hs Hb.
  assert (forall P : Prop, isinst c CSet = true -> base_cls c = CSet) as Hset.
  { intros _ Hic. rewrite isinst_base in Hic by done. destruct Hb as [[Eb|Eb]|[Eb _]]; rewrite Eb in *; done. }
  assert (forall st', ext st st' -> same_obj H (m_heap (l_mem st')) (rel E s st') (Obj c (VSeq xs)) (Obj c (VSeq ls))) as Hsame.
  { intros st' He. split; [done|]. simpl.
    assert (same_items H (m_heap (l_mem st')) (rel E s st') xs ys) as Hs'.
    { eapply same_items_mono; [exact Hs|apply He|]. intros. by eapply rel_mono. }
    destruct (isinst c CSet); [by exists ys|by rewrite Hns]. }
  destruct (loaded_alloc st y (Obj c (VSeq xs)) (Obj c (VSeq ls)) Hi Hy Him Hsame) as [Hla _].
  unfold construct_seq. destruct Hb as [[Eb|Eb]|[Eb (ks' & K1 & K2)]]; rewrite Eb.
  - eexists _, _. split; [done|exact Hla].
  - case_bool_decide as Hc; simpl; [|eexists _, _; split; [done|exact Hla]].
    case_bool_decide as Hl; simpl; [|eexists _, _; split; [done|exact Hla]].
    subst. eexists _, _. split; [done|].
    assert (set_mem (l_mem st) st = st) as Hsm by (by destruct st).
    unfold loaded. rewrite Hsm. split_and!; auto using ext_refl.
    exists (Obj CTuple (VSeq xs)), empty_tuple. split_and!; auto; [apply Hi|]. unfold stands_for. cbn [ocls]. rewrite Him. apply Hsame, ext_refl.
  - rewrite (set_of_distinct _ _ _ ks') by done. simpl.
    assert (map snd (zip ks' ls) = ls) as ->.
    { apply snd_zip. by rewrite (Forall2_length _ _ _ K1). }
    eexists _, _. split; [done|exact Hla].
Qed.

Lemma construct_seq_ok st fu y c xs ls :
  inv E s st -> e_imports E c = true -> H !! y = Some (Obj c (VSeq xs)) ->
  same_items H (m_heap (l_mem st)) (rel E s st) xs ls ->
  (base_cls c = CList \/ base_cls c = CTuple) \/
  (base_cls c = CSet /\ exists ks', Forall2 (fun x k => hval fu (m_heap (l_mem st)) x = Ok k) ls ks' /\ NoDup ks') ->
  exists m v, construct_seq fu c ls (l_mem st) = Ok (m, v) /\ loaded st y m v.
Proof. intros. by eapply (construct_seq_perm st fu y c xs ls ls). Qed.

(** ** Every object stored as a dataset *)
Lemma np_scalar_item d : first_item (mro (CNp d)) = Some (FNpScalar, str "np_scalar", false).
Proof. destruct d as [|[]|[]|[]|[]]; done. Qed.
Lemma dtype_str_parse d : dtype_of_str (dtype_str d) = Some d.
Proof. destruct d as [|[]|[]|[]|[]]; done. Qed.
Lemma dtype_str_named d : named_dtype (dtype_str d) = Some d.
Proof. unfold named_dtype. by rewrite dtype_str_parse. Qed.
Lemma parse_adtype_num d : parse_adtype (dtype_str d) = Ok (ADNum d).
Proof. unfold parse_adtype. by rewrite dtype_str_named. Qed.

Lemma Z_dec_length z : needs_str z = true -> (length (Z_dec z) <? 2)%nat = false.
Proof.
  intros Hn. apply Nat.ltb_ge. destruct (Z_dec_first z) as (c & r & Hz & Hc). rewrite Hz. simpl.
  destruct r as [|]; [exfalso|simpl; lia].
  pose proof (Z_parse_dec z) as Hp. rewrite Hz in Hp. unfold needs_str in Hn.
  destruct Hc as [->|Hc].
  - done.
  - unfold is_digit in Hc. unfold Z_parse in Hp. revert Hp.
    assert (c <> 45) as Hne by lia. 
    destruct c as [|p]; [lia|].
    do 6 (destruct p as [p|p|]; try lia); cbn; intros [= <-]; lia.
Qed.

Lemma data_loads y c at_ pl memo ls d :
  graph_part E H y -> imported E H y -> placed E std_dump s y c at_ pl memo ls -> at_form at_ -> p_data pl = Some d ->
  exists N, forall fu st, (N <= fu)%nat -> inv E s st -> l_memo st !! c = None ->
    exists m v, load_ (S fu) E std_loader F c st =
        Ok (if memo then memo_put c v (set_mem m st) else set_mem m st, v) /\
      loaded st y m v /\
      (memo = false -> exists o, H !! y = Some o /\ scalar o /\ m_heap m !! v = Some o).
Proof.
  intros Hg (oi & Hoi & Him) Hpl Hat Hd.
  destruct (placed_view E s y c at_ pl memo ls Hpl Hat)
    as (o & h0 & nx & pt & fn & base & n & Hh0 & Ho & Ha & Hcr & Hpf & Htm & Hn & Hbody & Hattr & Hty).
  rewrite Ho in Hoi. inversion Hoi; subst oi. clear Hoi.
  inversion Hg as [? o' Ho' Hso Hout _ _ Hch]; subst. rewrite Ho in Ho'. inversion Ho'; subst o'. clear Ho'.
  unfold plan_body in Hbody. rewrite Hd in Hbody.
  (* how the node is resolved and which class is used *)
  assert (forall fu st m v, pt = ocls o -> fn <> FPickle -> l_memo st !! c = None ->
      load_fn E fu (default LRecover (ld_types std_loader base)) (nd_attrs n) d base (ocls o) (l_mem st) = Ok (m, v) ->
      load_ (S fu) E std_loader F c st = Ok (if memo then memo_put c v (set_mem m st) else set_mem m st, v)) as Hstep.
  { intros fu st m v -> Hfn Hc Hf.
    destruct Hty as [[Hobj _]|[Hne (e & He & Hen)]].
    { pose proof (std_dump_base (ocls o) _ Hout eq_refl) as Hd'. rewrite Ha in Hd'. rewrite Hobj in Hd'. simpl in Hd'.
      inversion Hd' as [[Hf1 Hf2 Hf3]]. exfalso. by apply Hfn. }
    destruct (entry_resolve E s _ e n Hen He Him) as (fn' & base' & memo' & Ha' & Hr).
    rewrite Ha in Ha'. inversion Ha'; subst fn' base' memo'.
    assert (is_group n = false) as Hgr. { unfold is_group. by rewrite Hbody. }
    rewrite Hgr in Hr.
    eapply (load_data _ _ _ _ _ _ _ _ _ _ _ _ Hc Hn Hr); [|done|exact Hbody|exact Hf].
    simpl. by eapply std_ld_load_same. }
  pose proof (std_dump_base (ocls o) _ Hout eq_refl) as Hans. rewrite Ha in Hans. clear Ha.
  inversion Hso as [|c0 n0 Hnum|str0|c0 b0 Hb0 Hnm|c0 xs Hb0 Hll|c0 xs Hb0 Hdk Hll|c0 kvs Hb0 _ _ _|c0 d0 shape vs Hb0 Hsh Hvs|w0 shape vs Hsh Hlen Hw1 Hvs|shape xs Hsh Hlen Hel Hnu Hrow|d0|c0 d0 m0 Hb0|c0 k0 d0 i0 p0 s0 Hb0|c0 k0 n0 Hb0]; subst o; cbn [ocls oval refs] in *.
  - (* None *)
    inversion Hans; subst. inversion Hcr; subst pl. exists O. intros fu st _ Hi Hc.
    destruct (loaded_same st y (Obj CNoneType VNone) Hi Ho Him eq_refl I) as [L1 L2].
    eexists _, _. split; [apply Hstep; [done|done|done|]; by rewrite lt_None|]. split; [exact L1|]. intros _. by exists (Obj CNoneType VNone).
  - (* numbers *)
    exists O. intros fu st _ Hi Hc.
    destruct (loaded_same st y (Obj c0 (VNum n0)) Hi Ho Him eq_refl I) as [L1 L2].
    eexists _, _. split; [|split; [exact L1|intros _; by exists (Obj c0 (VNum n0))]].
    unfold number_ok in Hnum. destruct (base_cls c0) as [| | | | | | | | | | | | | | | | | |d1| | | | | | | | | | | | | | | |] eqn:Eb; try done.
    + destruct n0; try done. inversion Hans; subst. inversion Hcr; subst pl. simpl in Hd. inversion Hd; subst d.
      apply Hstep; [done|done|done|]. rewrite lt_bool. simpl. rewrite Eb. by destruct b.
    + destruct n0; try done. inversion Hans; subst. simpl in Hcr. unfold create_scalar in Hcr. simpl in Hcr.
      destruct (isinst c0 CInt && needs_str z) eqn:En; inversion Hcr; subst pl; simpl in Hd; inversion Hd; subst d;
        (apply Hstep; [done|done|done|]); rewrite lt_int; simpl; rewrite Eb.
      * apply andb_true_iff in En as [_ En]. rewrite Z_dec_length by done. by rewrite Z_parse_dec.
      * done.
    + destruct n0; try done. inversion Hans; subst. inversion Hcr; subst pl. simpl in Hd. inversion Hd; subst d.
      apply Hstep; [done|done|done|]. rewrite lt_float. simpl. by rewrite Eb.
    + destruct n0; try done. inversion Hans; subst. inversion Hcr; subst pl. simpl in Hd. inversion Hd; subst d.
      apply Hstep; [done|done|done|]. rewrite lt_complex. simpl. by rewrite Eb.
    + destruct Hnum as [-> Hnd]. change (base_cls (CNp d1)) with (CNp d1) in Hans. rewrite np_scalar_item in Hans.
      inversion Hans; subst. inversion Hcr; subst pl. simpl in Hd. inversion Hd; subst d.
      apply Hstep; [done|done|done|]. rewrite lt_np_scalar. cbn [load_fn].
      unfold load_np_scalar, attr_dtype. rewrite Hattr by done. simpl. rewrite lookup_insert. cbn [res_bind].
      rewrite dtype_str_named. by rewrite (cast_same _ _ Hnd).
  - (* str *)
    inversion Hans; subst. simpl in Hcr.
    change (res_map (fun b => match ascii_encode (str "str") with Ok n => plan_data false (DS1 b) [(a_str_type, ABytes n)] | Err e => Plan [] false (Some (DS1 b)) [] (Some e) [] end) (utf8_encode str0) = Ok pl) in Hcr.
    destruct (utf8_encode str0) as [b|] eqn:Eu; simpl in Hcr; [|done]. inversion Hcr; subst pl. simpl in Hd. inversion Hd; subst d.
    exists O. intros fu st _ Hi Hc.
    destruct (loaded_same st y (Obj CStr (VStr str0)) Hi Ho Him eq_refl I) as [L1 L2].
    eexists _, _. split; [|split; [exact L1|done]]. apply Hstep; [done|done|done|].
    rewrite lt_str. cbn [load_fn load_list].
    rewrite Hattr by done. simpl. rewrite lookup_insert. by rewrite (utf8_decode_encode _ _ Eu).
  - (* bytes *)
    rewrite Hb0 in Hans. inversion Hans; subst. simpl in Hcr. unfold create_listlike in Hcr. simpl in Hcr.
    rewrite (isinst_base c0 CBytes), Hb0, orb_true_r in Hcr by done. unfold create_text in Hcr. simpl in Hcr.
    destruct (ascii_encode (cls_name c0)) as [nm|] eqn:Ea; inversion Hcr; subst pl; [|done].
    simpl in Hd. inversion Hd; subst d.
    assert (nm = cls_name c0) as ->. { unfold ascii_encode in Ea. destruct (forallb _ _); by inversion Ea. }
    exists O. intros fu st _ Hi Hc.
    destruct (loaded_same st y (Obj c0 (VBytes b0)) Hi Ho Him eq_refl I) as [L1 L2].
    eexists _, _. split; [|split; [exact L1|done]]. apply Hstep; [done|done|done|].
    rewrite lt_bytes. cbn [load_fn load_list].
    rewrite Hattr by done. simpl. rewrite lookup_insert. simpl. rewrite bool_decide_eq_false_2 by done. by rewrite Hb0.
  - (* list, tuple *)
    assert (pt = c0 /\ fn = FList /\ memo = true /\ default LRecover (ld_types std_loader base) = LList) as (-> & -> & -> & Hld).
    { destruct Hb0 as [Eb|Eb]; rewrite Eb in Hans; inversion Hans; subst; auto using lt_list, lt_tuple. }
    rewrite Hld in Hstep. clear Hld.
    simpl in Hcr. unfold create_listlike in Hcr. simpl in Hcr.
    rewrite !(isinst_base c0) in Hcr by done.
    assert (isinst (base_cls c0) CStr || isinst (base_cls c0) CBytes = false) as Hnt.
    { destruct Hb0 as [Eb|Eb]; rewrite Eb; done. }
    rewrite Hnt in Hcr. unfold create_list_items in Hcr. destruct xs as [|x0 xs].
    + inversion Hcr; subst pl. simpl in Hd. inversion Hd; subst d. exists O. intros fu st _ Hi Hc.
      destruct (construct_seq_ok st fu y c0 [] [] Hi Him Ho) as (m & v & C1 & C2); [by left|by left|].
      exists m, v. split; [|split; [exact C2|done]]. apply Hstep; [done|done|done|]. cbn [load_fn load_list].
      destruct Hb0 as [Eb|Eb]; rewrite Eb; done.
    + destruct (check_iterable_item_type E h0 x0 xs) as [[[dt| | |]|]|] eqn:Ec; cbn [res_bind] in Hcr; try done.
      2: { inversion Hcr; subst pl. done. }
      destruct (write_items h0 dt (x0 :: xs)) as [vs e] eqn:Ew. inversion Hcr; subst pl. simpl in Hd, Hpf.
      subst e. inversion Hd; subst d.
      pose proof (number_array E h0 x0 xs dt vs Ec Ew) as Hna.
      assert (forall x o, h0 !! x = Some o -> H !! x = Some o) as Hwk. { intros. by eapply lookup_weaken. }
      assert (Forall2 (fun x m => exists c n, H !! x = Some (Obj c (VNum n)) /\ num_val m = num_val n /\ num_of_dtype dt m = true) (x0 :: xs) vs) as Hnv.
      { eapply Forall2_impl; [apply Hna|].
        - intros x c1 n1 Hin Hx. specialize (Hch x Hin). inversion Hch as [? ox Hox Hsx _ _ _ _]; subst.
          rewrite (Hwk _ _ Hx) in Hox. inversion Hox; subst. inversion Hsx; subst. done.
        - intros Hall. assert (all_numbers H (x0 :: xs)) as HallH.
          { intros x Hin. destruct (Hall x Hin) as (c1 & n1 & d1 & Hx & Hd1). exists c1, n1, d1. split; [|done]. by apply Hwk. }
          destruct (Hll HallH) as [Hl|[Hl|[d1 Hl]]]; [left|right; left|right; right; exists d1]; intros; eauto.
        - intros x m (c1 & n1 & Hx & Hm). exists c1, n1. split; [|done]. by apply Hwk. }
      assert (length vs = length (x0 :: xs)) as Hlen. { symmetry. by eapply Forall2_length. }
      exists O. intros fu st _ Hi Hc.
      destruct (alloc_numbers st dt vs _ Hi Hnv) as (A1 & A2 & A3 & A4).
      destruct (alloc_list (map (λ v : num, Obj (CNp dt) (VNum v)) vs) (l_mem st)) as [m1 ls1] eqn:Eal. simpl in A1, A2, A3, A4.
      assert (same_numbers H (m_heap m1) (x0 :: xs) ls1) as A5.
      { destruct (number_array_cls E h0 x0 xs dt vs Ec Ew) as [N1 N2]. split; [|split; [exact A3|exists dt; split; [exact A4|]]].
        - intros x Hx. destruct (N1 x Hx) as (c1 & n1 & d1 & Hx1 & Hd1). exists c1, n1, d1. split; [by apply Hwk|done].
        - intros d' Hd'. right. apply N2. intros x Hx. destruct (Hd' x Hx) as (c2 & n1 & Hn1 & Hc2). destruct (N1 x Hx) as (c1 & n2 & d1 & Hx1 & Hd1).
          rewrite (Hwk _ _ Hx1) in Hn1. inversion Hn1; subst. eexists _, _. split; [exact Hx1|done]. }
      destruct (construct_seq_ok (set_mem m1 st) fu y c0 (x0 :: xs) ls1 A1 Him Ho) as (m & v & C1 & C2); [by right|by left|].
      exists m, v. split; [|split; [by eapply loaded_trans|done]].
      apply Hstep; [done|done|done|]. cbn [load_fn load_list]. unfold pad. rewrite Hlen, Nat.sub_diag. simpl repeat.
      rewrite app_nil_r, Eal. exact C1.
  - (* set *)
    rewrite Hb0 in Hans. inversion Hans; subst. simpl in Hcr. unfold create_setlike in Hcr. simpl in Hcr.
    unfold create_list_items in Hcr. destruct xs as [|x0 xs].
    + inversion Hcr; subst pl. simpl in Hd. inversion Hd; subst d. exists O. intros fu st _ Hi Hc.
      destruct (construct_seq_ok st fu y c0 [] [] Hi Him Ho) as (m & v & C1 & C2);
        [by left|right; split; [done|]; exists []; by repeat constructor|].
      exists m, v. split; [|split; [exact C2|done]]. apply Hstep; [done|done|done|].
      rewrite lt_set. cbn [load_fn load_list].
      by rewrite Hb0.
    + destruct (check_iterable_item_type E h0 x0 xs) as [[[dt| | |]|]|] eqn:Ec; cbn [res_bind] in Hcr; try done.
      2: { inversion Hcr; subst pl. done. }
      destruct (write_items h0 dt (x0 :: xs)) as [vs e] eqn:Ew. inversion Hcr; subst pl. simpl in Hd, Hpf.
      subst e. inversion Hd; subst d.
      pose proof (number_array E h0 x0 xs dt vs Ec Ew) as Hna.
      assert (forall x o, h0 !! x = Some o -> H !! x = Some o) as Hwk. { intros. by eapply lookup_weaken. }
      assert (Forall2 (fun x m => exists c n, H !! x = Some (Obj c (VNum n)) /\ num_val m = num_val n /\ num_of_dtype dt m = true) (x0 :: xs) vs) as Hnv.
      { eapply Forall2_impl; [apply Hna|].
        - intros x c1 n1 Hin Hx. specialize (Hch x Hin). inversion Hch as [? ox Hox Hsx _ _ _ _]; subst.
          rewrite (Hwk _ _ Hx) in Hox. inversion Hox; subst. inversion Hsx; subst. done.
        - intros Hall. assert (all_numbers H (x0 :: xs)) as HallH.
          { intros x Hin. destruct (Hall x Hin) as (c1 & n1 & d1 & Hx & Hd1). exists c1, n1, d1. split; [|done]. by apply Hwk. }
          destruct (Hll HallH) as [Hl|[Hl|[d1 Hl]]]; [left|right; left|right; right; exists d1]; intros; eauto.
        - intros x m (c1 & n1 & Hx & Hm). exists c1, n1. split; [|done]. by apply Hwk. }
      assert (length vs = length (x0 :: xs)) as Hlen. { symmetry. by eapply Forall2_length. }
      destruct Hdk as (ks & Hks & Hnd). apply hashes_fuel in Hks as [dd Hks].
      exists dd. intros fu st Hfu Hi Hc.
      destruct (alloc_numbers st dt vs _ Hi Hnv) as (A1 & A2 & A3 & A4).
      destruct (alloc_list (map (λ v : num, Obj (CNp dt) (VNum v)) vs) (l_mem st)) as [m1 ls1] eqn:Eal. simpl in A1, A2, A3, A4.
      assert (same_numbers H (m_heap m1) (x0 :: xs) ls1) as A5.
      { destruct (number_array_cls E h0 x0 xs dt vs Ec Ew) as [N1 N2]. split; [|split; [exact A3|exists dt; split; [exact A4|]]].
        - intros x Hx. destruct (N1 x Hx) as (c1 & n1 & d1 & Hx1 & Hd1). exists c1, n1, d1. split; [by apply Hwk|done].
        - intros d' Hd'. right. apply N2. intros x Hx. destruct (Hd' x Hx) as (c2 & n1 & Hn1 & Hc2). destruct (N1 x Hx) as (c1 & n2 & d1 & Hx1 & Hd1).
          rewrite (Hwk _ _ Hx1) in Hn1. inversion Hn1; subst. eexists _, _. split; [exact Hx1|done]. }
      destruct (keys_of_numbers (set_mem m1 st) _ _ _ _ Hks A3) as (ks' & K1 & K2).
      destruct (construct_seq_ok (set_mem m1 st) fu y c0 (x0 :: xs) ls1 A1 Him Ho) as (m & v & C1 & C2); [by right| |].
      { right. split; [done|]. exists ks'. split; [|by eapply distinct_loaded].
        eapply Forall2_impl; [exact K1|]. intros x k Hk. eapply hval_mono; [exact Hk|lia|done]. }
      exists m, v. split; [|split; [by eapply loaded_trans|done]].
      apply Hstep; [done|done|done|]. rewrite lt_set.
      cbn [load_fn load_list]. unfold pad. rewrite Hlen, Nat.sub_diag. simpl repeat.
      rewrite app_nil_r, Eal. exact C1.
  - (* dict: a group *)
    assert (fn = FDict) as ->. { destruct Hb0 as [Eb|Eb]; rewrite Eb in Hans; inversion Hans; subst; done. }
    simpl in Hcr. unfold create_dictlike in Hcr. simpl in Hcr.
    destruct (dict_subs E h0 nx 0 kvs) as [[? ?]|]; simpl in Hcr; inversion Hcr; subst pl. done.
  - (* ndarray *)
    assert (pt = c0 /\ fn = FNpArray /\ memo = true /\ default LRecover (ld_types std_loader base) = LNdarray /\ arr_cls c0 = c0)
      as (-> & -> & -> & Hld & Hac).
    { destruct Hb0 as [->|Eb]; [inversion Hans; subst; auto using lt_ndarray|]. rewrite Eb in Hans. inversion Hans; subst. split_and!; auto using lt_np_matrix.
      unfold arr_cls. rewrite (isinst_base c0 CMatrix), Eb; done. }
    rewrite Hld in Hstep. clear Hld.
    simpl in Hcr. exists O. intros fu st _ Hi Hc.
    destruct (loaded_same st y (Obj c0 (VArr d0 shape vs)) Hi Ho Him eq_refl I) as [L1 L2].
    eexists _, _. split; [|split; [exact L1|done]]. apply Hstep; [done|done|done|]. cbn [load_fn].
    unfold create_np_array in Hcr. simpl in Hcr. unfold load_ndarray, attr_dtype. rewrite Hattr by done.
    assert (res_mapM (cast d0) vs = Ok vs) as Hcast.
    { apply res_mapM_ok. clear -Hvs. induction Hvs; constructor; auto. by apply cast_same. }
    destruct shape as [|n0 shape].
    + specialize (Hsh eq_refl). destruct vs as [|v0 [|]]; try done. inversion Hcr; subst pl. simpl in Hd. inversion Hd; subst d.
      simpl p_attrs. simpl attrs_update. rewrite lookup_insert. cbn [res_bind]. rewrite parse_adtype_num. cbn [res_bind].
      inversion Hvs; subst. rewrite cast_same by done. simpl. by rewrite Hac.
    + inversion Hcr; subst pl. simpl in Hd. inversion Hd; subst d.
      simpl p_attrs. simpl attrs_update. rewrite lookup_insert. cbn [res_bind]. rewrite parse_adtype_num. cbn [res_bind].
      rewrite Hcast. simpl. by rewrite Hac.
  - (* array of strings: a group unless it has no dimensions *)
    inversion Hans; subst. cbn [create] in Hcr.
    destruct shape as [|n0 shape].
    2: { destruct (strarr_plan E H h0 nx Hh0 w0 (n0 :: shape) vs pl ltac:(done) Hsh Hlen Hcr Htm) as (? & ? & ? & [Hno _] & _). congruence. }
    unfold create_np_array in Hcr. cbn [oval] in Hcr. destruct vs as [|t [|]]; try done.
    destruct (utf8_encode t) as [b|] eqn:Eu; simpl in Hcr; [|done]. inversion Hcr; subst pl. simpl in Hd. inversion Hd; subst d.
    exists O. intros fu st _ Hi Hc.
    destruct (loaded_same st y (Obj CNdarray (VStrArr w0 [] [t])) Hi Ho Him eq_refl I) as [L1 L2].
    eexists _, _. split; [|split; [exact L1|done]]. apply Hstep; [done|done|done|]. rewrite lt_ndarray. cbn [load_fn].
    unfold load_ndarray, attr_dtype. rewrite Hattr by done.
    simpl p_attrs. simpl attrs_update. rewrite lookup_insert. cbn [res_bind]. rewrite parse_str_dtype by done. cbn [res_bind].
    rewrite (utf8_decode_encode _ _ Eu). cbn [res_map res_bind]. inversion Hvs; subst. by rewrite np_clip_id.
  - (* array of objects *)
    inversion Hans; subst. cbn [create] in Hcr.
    destruct shape as [|n0 shape].
    + exfalso. unfold create_np_array in Hcr. cbn [oval] in Hcr. destruct xs as [|l [|]]; try done.
      destruct (h0 !! l) as [io|] eqn:El; [|done].
      rewrite (alone_no_list l (Hch l ltac:(left)) Hnu io) in Hcr by (by eapply lookup_weaken).
      inversion Hcr; subst pl. done.
    + destruct (objarr_plan E H h0 nx Hh0 (n0 :: shape) xs pl ltac:(done) Hsh Hlen Hrow Hcr Htm)
        as (els & lss & _ & Hls & _ & _ & [[Hno _]|(n1 & x0 & xs0 & h1 & dt & vs & e & Esh & Exs & _ & Hh1 & Ec & Ew & Ee & Eat & Eda)]);
        [congruence|].
      clear Hls lss els. rewrite Hpf in Ee. subst e. rewrite Eda in Hd. inversion Hd; subst d. subst xs. inversion Esh; subst n1 shape. clear Esh.
      pose proof (number_array E h1 x0 xs0 dt vs Ec Ew) as Hna.
      assert (forall x o, h1 !! x = Some o -> H !! x = Some o) as Hwk. { intros. by eapply lookup_weaken. }
      assert (N.of_nat (length (x0 :: xs0)) = n0) as Hn0. { cbn in Hlen |- *. lia. }
      assert (Forall2 (fun x m => exists c n, H !! x = Some (Obj c (VNum n)) /\ num_val m = num_val n /\ num_of_dtype dt m = true) (x0 :: xs0) vs) as Hnv.
      { eapply Forall2_impl; [apply Hna|].
        - intros x c1 n1 Hin Hx. specialize (Hch x Hin). inversion Hch as [? ox Hox Hsx _ _ _ _]; subst.
          rewrite (Hwk _ _ Hx) in Hox. inversion Hox; subst. inversion Hsx; subst. done.
        - intros Hall. assert (all_numbers H (x0 :: xs0)) as HallH.
          { intros x Hin. destruct (Hall x Hin) as (c1 & n1 & d1 & Hx & Hd1). exists c1, n1, d1. split; [|done]. by apply Hwk. }
          assert (row [n0] (x0 :: xs0) 0 = x0 :: xs0) as Hr0.
          { unfold row. cbn [List.last]. rewrite <- Hn0, Nat2N.id. simpl drop. by apply take_ge. }
          specialize (Hrow 0%nat). rewrite Hr0 in Hrow.
          destruct (Hrow HallH) as [Hl|[Hl|[d1 Hl]]]; [left|right; left|right; right; exists d1]; intros; eauto.
        - intros x m (c1 & n1 & Hx & Hm). exists c1, n1. split; [|done]. by apply Hwk. }
      assert (length vs = length (x0 :: xs0)) as Hlv. { symmetry. by eapply Forall2_length. }
      exists O. intros fu st _ Hi Hc.
      destruct (alloc_objects python_number dt _ st vs _ (python_number_ok dt) Hi Hnv) as (A1 & A2 & A3 & A4).
      destruct (alloc_list (map python_number vs) (l_mem st)) as [m1 ls1] eqn:Eal. simpl in A1, A2, A3, A4.
      destruct (loaded_alloc (set_mem m1 st) y _ (Obj CNdarray (VObjArr [n0] ls1)) A1 Ho Him) as [C1 C2].
      { intros st' He. split; [done|]. cbn [oval]. split; [done|]. exists [x0 :: xs0], [ls1]. cbn [concat]. rewrite !app_nil_r.
        split; [done|]. split; [done|]. split; [by constructor|]. constructor; [|constructor]. right.
        split; [|split].
        - intros x Hin. destruct (proj1 (number_array_cls E h1 x0 xs0 dt vs Ec Ew) x Hin) as (c1 & n1 & d1 & Hx & Hd1).
          exists c1, n1, d1. split; [|done]. by apply Hwk.
        - eapply Forall2_impl; [exact A3|]. intros x v Hx. eapply same_number_mono; [exact Hx|apply He].
        - exists (python_class dt). split.
          { split; [by destruct dt; apply (bool_decide_unpack _)|].
            intros v Hv. destruct (A4 v Hv) as [n9 Hn9]. exists n9. eapply lookup_weaken; [exact Hn9|apply He]. }
          intros c' [Hc' Hall']. right. destruct (builtin_dtype c' Hc') as (d9 & Hd9 & <-).
          destruct (number_array_cls E h1 x0 xs0 dt vs Ec Ew) as [N1 N2]. f_equal. apply N2. intros x Hx.
          destruct (Hall' x Hx) as (n1 & Hn1). destruct (N1 x Hx) as (c1 & n2 & d1 & Hx1 & Hd1).
          rewrite (Hwk _ _ Hx1) in Hn1. inversion Hn1; subst. eexists _, _. split; [exact Hx1|done]. }
      eexists _, _. split; [|split; [by eapply (loaded_trans _ (set_mem m1 st))|done]].
      apply Hstep; [done|done|done|]. rewrite lt_ndarray. cbn [load_fn].
      unfold load_ndarray, attr_dtype. rewrite Hattr by done. rewrite Eat.
      simpl attrs_update. rewrite lookup_insert. cbn [res_bind]. rewrite parse_obj_dtype. cbn [res_bind].
      unfold pad. rewrite Hlv, Nat.sub_diag. simpl repeat. rewrite app_nil_r, Eal, Hn0. done.
  - (* dtype *)
    inversion Hans; subst. simpl in Hcr. inversion Hcr; subst pl. simpl in Hd. inversion Hd; subst d.
    exists O. intros fu st _ Hi Hc.
    destruct (loaded_same st y (Obj CNpDtype (VDtype d0)) Hi Ho Him eq_refl I) as [L1 L2].
    eexists _, _. split; [|split; [exact L1|done]]. apply Hstep; [done|done|done|].
    rewrite lt_np_dtype. cbn [load_fn].
    unfold load_np_dtype. by rewrite dtype_str_parse.
  - (* masked: a group *)
    rewrite Hb0 in Hans. inversion Hans; subst. simpl in Hcr. unfold create_np_masked in Hcr. simpl in Hcr.
    destruct (h0 !! d0); [|done]. destruct (arr_dtype_str _); inversion Hcr; subst pl. done.
  - (* sparse: a group *)
    rewrite Hb0 in Hans. destruct k0; inversion Hans; subst; inversion Hcr; subst pl; done.
  - (* anything else: pickled *)
    assert (pt = CObject /\ fn = FPickle /\ base = b_pickle /\ memo = true) as (-> & -> & -> & ->).
    { destruct (base_cls c0) eqn:Eb; try done; simpl in Hans; inversion Hans; subst; done. }
    simpl in Hcr. unfold create_pickled in Hcr. simpl in Hcr. destruct (e_pickles E c0 n0); inversion Hcr; subst pl.
    simpl in Hd. inversion Hd; subst d.
    exists O. intros fu st _ Hi Hc.
    destruct (loaded_same st y (Obj c0 (VOpaque k0 n0)) Hi Ho Him eq_refl I) as [L1 L2].
    eexists _, _. split; [|split; [exact L1|done]].
    destruct Hty as [[_ Hty]|[Hne _]]; [|done]. simpl in Hty.
    assert (resolve_type E false F n = Ok (Resolved CObject b_pickle b_pickle false)) as Hr.
    { unfold resolve_type. rewrite Hty, Hbody. done. }
    eapply (load_data _ _ _ _ _ _ _ CObject true _ _ _ Hc Hn Hr); [apply pickle_load|done|exact Hbody|].
    cbn [r_base r_orig]. change b_pickle with (str "pickle"); rewrite lt_pickle. cbn [load_fn load_pickled]. by rewrite Him.
Qed.

(** ** Datasets of classes that cannot be imported *)
Lemma base_name_item c fn base m b :
  outside_hickle c -> std_dump c = Ok (c, (fn, base, m)) -> base_name c = Some b -> b = base.
Proof.
  intros Hout Ha Hb. pose proof (std_dump_base c _ Hout eq_refl) as Hans. rewrite Ha in Hans. clear Ha.
  unfold base_name in Hb. destruct (base_cls c) eqn:Eb; try discriminate Hb;
    try (match type of Hb with context [match ?k with SCsr => _ | _ => _ end] => destruct k end); injection Hb as <-; inversion Hans; subst; reflexivity.
Qed.
Lemma stored_numbers h0 xs pl d :
  h0 ⊆ H -> (forall x, x ∈ xs -> graph_part E H x) -> (all_numbers H xs -> lossless H xs) ->
  create_list_items E h0 xs = Ok pl -> p_fail pl = None -> p_data pl = Some d ->
  (xs = [] /\ exists k, d = DNull k) \/
  exists dt vs, d = DArray dt [N.of_nat (length xs)] vs /\
    Forall2 (fun x v => exists c n, H !! x = Some (Obj c (VNum n)) /\ num_val v = num_val n) xs vs.
Proof.
  intros Hh0 Hch Hll Hcr Hpf Hd. unfold create_list_items in Hcr. destruct xs as [|x0 xs].
  { inversion Hcr; subst pl. simpl in Hd. inversion Hd; subst d. left. split; [done|]. by eexists. }
  right. destruct (check_iterable_item_type E h0 x0 xs) as [[[dt| | |]|]|] eqn:Ec; cbn [res_bind] in Hcr; try done.
  2: { inversion Hcr; subst pl. done. }
  destruct (write_items h0 dt (x0 :: xs)) as [vs e] eqn:Ew. inversion Hcr; subst pl. simpl in Hd, Hpf.
  subst e. inversion Hd; subst d.
  pose proof (number_array E h0 x0 xs dt vs Ec Ew) as Hna.
  assert (forall x o, h0 !! x = Some o -> H !! x = Some o) as Hwk. { intros. by eapply lookup_weaken. }
  exists dt, vs.
  assert (Forall2 (fun x m => exists c n, H !! x = Some (Obj c (VNum n)) /\ num_val m = num_val n) (x0 :: xs) vs) as Hnv.
  { eapply Forall2_impl; [apply Hna|].
    - intros x c1 n1 Hin Hx. specialize (Hch x Hin). inversion Hch as [? ox Hox Hsx _ _ _ _]; subst.
      rewrite (Hwk _ _ Hx) in Hox. inversion Hox; subst. inversion Hsx; subst. done.
    - intros Hall. assert (all_numbers H (x0 :: xs)) as HallH.
      { intros x Hin. destruct (Hall x Hin) as (c1 & n1 & d1 & Hx & Hd1). exists c1, n1, d1. split; [|done]. by apply Hwk. }
      destruct (Hll HallH) as [Hl|[Hl|[d1 Hl]]]; [left|right; left|right; right; exists d1]; intros; eauto.
    - intros x m (c1 & n1 & Hx & Hm & _). exists c1, n1. split; [|done]. by apply Hwk. }
  assert (length vs = length (x0 :: xs)) as Hlen. { symmetry. by eapply Forall2_length. }
  split; [|done]. unfold pad. simpl in Hlen. rewrite Hlen, Nat.sub_diag. simpl repeat. by rewrite app_nil_r.
Qed.

Lemma entry_missing c e n fn base memo :
  entry_ok std_dump s c e -> nd_attrs n !! a_type = Some (ARef e) -> e_imports E c = false ->
  std_dump c = Ok (c, (fn, base, memo)) -> class_missing E F n c base.
Proof.
  intros (en & b & bn & base' & fn' & m & H1 & H2 & H3 & H4 & H5 & H6 & H7 & H8 & H9) Ha Hi Hd.
  assert (base' = base) as -> by congruence.
  exists e, en. unfold getn in *. split_and!; auto. unfold entry_base. by rewrite H3, H4, H6, H7.
Qed.

Lemma missing_data y o c at_ pl memo ls d :
  graph_part E H y -> H !! y = Some o -> e_imports E (ocls o) = false ->
  placed E std_dump s y c at_ pl memo ls -> at_form at_ -> p_data pl = Some d ->
  exists n, getn s c = Some n /\ nd_body n = BData d /\ data_kept H o d /\
    ((exists b, class_missing E F n (ocls o) b /\ kind_kept o (rec_attrs (<[a_base_type := ABytes b]> (nd_attrs n)))) \/
     (nd_attrs n !! a_type = None /\ memo = true /\ kind_kept o (rec_attrs (nd_attrs n)) /\ exists k m, d = DPickle (ocls o) k m)).
Proof.
  intros Hg Ho Him Hpl Hat Hd.
  destruct (placed_view E s y c at_ pl memo ls Hpl Hat)
    as (o' & h0 & nx & pt & fn & base & n & Hh0 & Ho' & Ha & Hcr & Hpf & Htm & Hn & Hbody & Hattr & Hty).
  rewrite Ho in Ho'. inversion Ho'; subst o'. clear Ho'.
  inversion Hg as [? o' Ho' Hso Hout Hpo _ Hch]; subst. rewrite Ho in Ho'. inversion Ho'; subst o'. clear Ho'.
  unfold plan_body in Hbody. rewrite Hd in Hbody. exists n. split; [done|]. split; [done|].
  assert (pt = ocls o -> fn <> FPickle ->
    exists b, class_missing E F n (ocls o) b /\ kind_kept o (rec_attrs (<[a_base_type := ABytes b]> (nd_attrs n)))) as Hk.
  { intros -> Hfn. destruct Hty as [[Hobj _]|[Hne (e & He & Hen)]].
    { pose proof (std_dump_base (ocls o) _ Hout eq_refl) as Hd'. rewrite Ha in Hd'. rewrite Hobj in Hd'. simpl in Hd'.
      inversion Hd' as [[Hf1 Hf2 Hf3]]. exfalso. by apply Hfn. }
    exists base. split; [by eapply entry_missing|].
    destruct (rec_attrs_spec (nd_attrs n) base) as (R1 & R2 & _). split; [done|]. intros b Hb.
    by rewrite (base_name_item _ _ _ _ _ Hout Ha Hb). }
  pose proof (std_dump_base (ocls o) _ Hout eq_refl) as Hans. rewrite Ha in Hans. clear Ha.
  unfold parts_ok in Hpo. rewrite Him in Hpo. unfold data_kept.
  inversion Hso as [|c0 n0 Hnum|str0|c0 b0 Hb0 Hnm|c0 xs Hb0 Hll|c0 xs Hb0 Hdk Hll|c0 kvs Hb0 _ _ _|c0 d0 shape vs Hb0 Hsh Hvs|w0 shape vs Hsh Hlen Hw1 Hvs|shape xs Hsh Hlen Hel Hnu Hrow|d0|c0 d0 m0 Hb0|c0 k0 d0 i0 p0 s0 Hb0|c0 k0 n0 Hb0]; subst o; cbn [ocls oval refs] in *; try done.
  - (* numbers *)
    unfold number_ok in Hnum. destruct (base_cls c0) as [| | | | | | | | | | | | | | | | | |d1| | | | | | | | | | | | | | | |] eqn:Eb; try done.
    + destruct n0; try done. inversion Hans; subst. inversion Hcr; subst pl. simpl in Hd. inversion Hd; subst d.
      split; [left; by eexists _, _|]. left. by apply Hk.
    + destruct n0; try done. inversion Hans; subst. simpl in Hcr. unfold create_scalar in Hcr. simpl in Hcr.
      destruct (isinst c0 CInt && needs_str z) eqn:En; inversion Hcr; subst pl; simpl in Hd; inversion Hd; subst d.
      * split; [right; by eexists|]. left. by apply Hk.
      * split; [left; by eexists _, _|]. left. by apply Hk.
    + destruct n0; try done. inversion Hans; subst. inversion Hcr; subst pl. simpl in Hd. inversion Hd; subst d.
      split; [left; by eexists _, _|]. left. by apply Hk.
    + destruct n0; try done. inversion Hans; subst. inversion Hcr; subst pl. simpl in Hd. inversion Hd; subst d.
      split; [left; by eexists _, _|]. left. by apply Hk.
    + destruct Hnum as [-> Hnd]. by destruct (Hpo d1).
  - (* bytes *)
    rewrite Hb0 in Hans. inversion Hans; subst. simpl in Hcr. unfold create_listlike in Hcr. simpl in Hcr.
    rewrite (isinst_base c0 CBytes), Hb0, orb_true_r in Hcr by done. unfold create_text in Hcr. simpl in Hcr.
    destruct (ascii_encode (cls_name c0)) as [nm|] eqn:Ea; inversion Hcr; subst pl; [|done].
    simpl in Hd. inversion Hd; subst d. split; [done|]. left. by apply Hk.
  - (* list, tuple *)
    assert (pt = c0 /\ fn = FList) as (-> & ->).
    { destruct Hb0 as [Eb|Eb]; rewrite Eb in Hans; inversion Hans; subst; auto. }
    simpl in Hcr. unfold create_listlike in Hcr. simpl in Hcr.
    rewrite !(isinst_base c0) in Hcr by done.
    assert (isinst (base_cls c0) CStr || isinst (base_cls c0) CBytes = false) as Hnt.
    { destruct Hb0 as [Eb|Eb]; rewrite Eb; done. }
    rewrite Hnt in Hcr. split; [by eapply stored_numbers|]. left. by apply Hk.
  - (* set *)
    rewrite Hb0 in Hans. inversion Hans; subst. simpl in Hcr. unfold create_setlike in Hcr. simpl in Hcr.
    split; [by eapply stored_numbers|]. left. by apply Hk.
  - (* dict: a group *)
    assert (fn = FDict) as ->. { destruct Hb0 as [Eb|Eb]; rewrite Eb in Hans; inversion Hans; subst; done. }
    simpl in Hcr. unfold create_dictlike in Hcr. simpl in Hcr.
    destruct (dict_subs E h0 nx 0 kvs) as [[? ?]|]; simpl in Hcr; inversion Hcr; subst pl. done.
  - (* ndarray *)
    assert (pt = c0 /\ fn = FNpArray) as (-> & ->).
    { destruct Hb0 as [->|Eb]; [inversion Hans; subst; auto|]. rewrite Eb in Hans. inversion Hans; subst. auto. }
    simpl in Hcr. unfold create_np_array in Hcr. simpl in Hcr.
    destruct shape as [|n0 shape].
    + specialize (Hsh eq_refl). destruct vs as [|v0 [|]]; try done. inversion Hcr; subst pl. simpl in Hd. inversion Hd; subst d.
      split; [right; by exists v0|]. left. by apply Hk.
    + inversion Hcr; subst pl. simpl in Hd. inversion Hd; subst d. split; [by left|]. left. by apply Hk.
  - (* masked: a group *)
    rewrite Hb0 in Hans. inversion Hans; subst. simpl in Hcr. unfold create_np_masked in Hcr. simpl in Hcr.
    destruct (h0 !! d0); [|done]. destruct (arr_dtype_str _); inversion Hcr; subst pl. done.
  - (* sparse: a group *)
    rewrite Hb0 in Hans. destruct k0; inversion Hans; subst; inversion Hcr; subst pl; done.
  - (* anything else: pickled *)
    assert (pt = CObject /\ fn = FPickle /\ base = b_pickle /\ memo = true) as (-> & -> & -> & ->).
    { destruct (base_cls c0) eqn:Eb; try done; simpl in Hans; inversion Hans; subst; done. }
    simpl in Hcr. unfold create_pickled in Hcr. simpl in Hcr. destruct (e_pickles E c0 n0); inversion Hcr; subst pl.
    simpl in Hd. inversion Hd; subst d. split; [done|]. right.
    destruct Hty as [[_ Hty]|[Hne _]]; [|done]. simpl in Hty. split; [done|]. split; [done|]. split; [|by eexists _, _].
    split; [apply lookup_delete|]. intros b Hb. unfold base_name in Hb. cbn [ocls] in Hb. by destruct (base_cls c0).
Qed.
End Load.
