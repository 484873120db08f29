(** * Load4: files of hickle 4 are loaded *)
From Verif Require Import Base Utf8 Utf8Proofs Dec DecProofs Num NumProofs PyObj H5 Env Create Repr Dump LoadFns LoadModel Registry
  Proxy Spec4 Det4 ArrayProofs LoadLeaf LoadInv LoadDict Api RoundTrip ApiProofs.
From Coq Require Import Lia ZifyBool ZifyN.
Local Open Scope N_scope.
Local Open Scope list_scope.

Arguments str : simpl never.

(** ** Memory *)
Definition mgood (m : mem) : Prop :=
  m_heap m !! nobody = Some empty_tuple /\ nobody < m_next m /\ forall l, m_next m <= l -> m_heap m !! l = None.
Definition grown (m m' : mem) : Prop := mgood m' /\ m_heap m ⊆ m_heap m'.
Lemma grown_refl m : mgood m -> grown m m.
Proof. by split. Qed.
Lemma grown_trans m1 m2 m3 : grown m1 m2 -> grown m2 m3 -> grown m1 m3.
Proof. intros [_ H1] [H2 H3]. split; [done|]. by etrans. Qed.
Lemma alloc_grown m o m' l : mgood m -> alloc o m = (m', l) -> grown m m' /\ m_heap m' !! l = Some o /\ l <> nobody.
Proof.
  intros (H1 & H2 & H3) [= <- <-]. unfold grown, mgood. cbn [m_heap m_next]. split_and!.
  - rewrite lookup_insert_ne by lia. done.
  - lia.
  - intros l Hl. rewrite lookup_insert_ne by lia. apply H3. lia.
  - apply insert_subseteq. apply H3. lia.
  - by rewrite lookup_insert.
  - lia.
Qed.
Lemma alloc_list_grown os : forall m m' ls, mgood m -> alloc_list os m = (m', ls) ->
  grown m m' /\ Forall2 (fun o l => m_heap m' !! l = Some o) os ls.
Proof.
  induction os as [|o os IH]; intros m m' ls Hm H; cbn [alloc_list] in H.
  - injection H as <- <-. split; [by apply grown_refl|constructor].
  - destruct (alloc o m) as [m1 l] eqn:Ea. destruct (alloc_list os m1) as [m2 ls2] eqn:El. injection H as <- <-.
    destruct (alloc_grown _ _ _ _ Hm Ea) as (G1 & H1 & _).
    destruct (IH m1 m2 ls2 (proj1 G1) El) as (G2 & H2). split; [by eapply grown_trans|].
    constructor; [|done]. eapply lookup_weaken; [exact H1|apply G2].
Qed.

Lemma key_shows_mono h h' k l : h ⊆ h' -> key_shows h k l -> key_shows h' k l.
Proof. intros Hh. destruct k; simpl; intros H; by eapply lookup_weaken. Qed.
Lemma elem_shows_mono h h' d v l : h ⊆ h' -> elem_shows h d v l -> elem_shows h' d v l.
Proof. intros Hh. destruct v; simpl; try done; intros H; by eapply lookup_weaken. Qed.
Lemma size_shows_mono h h' d vs l : h ⊆ h' -> size_shows h d vs l -> size_shows h' d vs l.
Proof.
  intros Hh (ls & H & Ha). exists ls. split; [by eapply lookup_weaken|]. apply all2_Forall2 in Ha. apply all2_Forall2.
  eapply Forall2_impl; [exact Ha|]. intros n x Hx. exact (lookup_weaken _ _ _ _ Hx Hh).
Qed.
Lemma shows_mono h h' v : h ⊆ h' -> forall l, shows h v l -> shows h' v l.
Proof.
  intros Hh. induction v as [|c n|s|b|c xs IH|c kvs IH|d sh vs|w sh vs|x IH|c k n|k d dims vs ix ip sh|d dims vs ms] using val4_ind'; intros l; cbn [shows].
  1,2,3,4,7,8,10: intros H; by eapply lookup_weaken.
  - intros (ls & H & Ha). exists ls. split; [by eapply lookup_weaken|].
    destruct Ha as [Ha|[d Ha]]; [left|right; exists d]; apply all2_Forall2 in Ha; apply all2_Forall2.
    + clear H. revert ls Ha. induction IH as [|x xs Hx _ IHxs]; intros ls Ha; inversion Ha; subst; constructor; auto.
    + eapply Forall2_impl; [exact Ha|]. intros x y. by apply elem_shows_mono.
  - intros (ls & H & Ha). exists ls. split; [by eapply lookup_weaken|]. apply all2_Forall2 in Ha. apply all2_Forall2.
    clear H. revert ls Ha. induction IH as [|[k x] xs Hx _ IHxs]; intros ls Ha; [inversion Ha; constructor|].
    destruct ls as [|p ls]; [inversion Ha|]. apply Forall2_cons_1 in Ha as [[K1 K2] Ha]. constructor; [|by apply IHxs].
    split; [by eapply key_shows_mono|by apply Hx].
  - intros (lx & H & Hx). exists lx. split; [by eapply lookup_weaken|by apply IH].
  - intros (ld & li & lp & ls & H & H1 & H2 & H3 & H4). exists ld, li, lp, ls. unfold vector_shows in *.
    split_and!; try (by eapply lookup_weaken). by eapply size_shows_mono.
  - intros (ld & lm & H & H1 & H2). exists ld, lm. split_and!; by eapply lookup_weaken.
Qed.

(** ** The loaders for hickle 4 *)
Notation L4 := std_loader_4x.
Lemma l4_load c b : c ∈ [CNoneType; CBool; CInt; CFloat; CComplex; CStr; CBytes; CList; CTuple; CDict; COrderedDict; CNdarray; CObject; moc_lambda; return_first; CMasked] ->
  exists memo, ld_load L4 c b = Ok (c, memo).
Proof.
  intros H. assert (exists memo, ld_load L4 c b = Ok (c, memo)) as X.
  { repeat (apply elem_of_cons in H as [->|H]; [eexists; vm_compute; reflexivity|]). by apply elem_of_nil in H. }
  exact X.
Qed.
Lemma l4_np d b : exists memo, ld_load L4 (CNp d) b = Ok (CNp d, memo).
Proof. destruct d as [|[]|[]|[]|[]]; eexists; vm_compute; reflexivity. Qed.
Definition l4_types : list (bytes * loadfn) := 
  [(str "None", LNone); (str "bool", LScalar); (str "int", LScalar); (str "float", LScalar); (str "complex", LScalar);
   (str "str", L4xString); (str "bytes", LList); (str "list", LList); (str "tuple", LList); (str "ndarray", LNdarray);
   (str "np_scalar", LNpScalar); (str "pickle", LPickled); (str "ndarray_masked_data", LNdarrayMasked); (str "ndarray_masked_mask", LNothing)].
Lemma l4_type b fn : (b, fn) ∈ l4_types -> ld_types L4 b = Some fn.
Proof.
  intros H. unfold l4_types in H.
  repeat (apply elem_of_cons in H as [[= -> ->]|H]; [vm_compute; reflexivity|]). by apply elem_of_nil in H.
Qed.
Definition l4_conts : list (bytes * contk) :=
  [(str "list", KList); (str "tuple", KList); (str "dict", KDict); (str "ndarray", KNDArray); (str "dict_item", KFirst);
   (str "csr_matrix", KSparse); (str "csc_matrix", KSparse); (str "bsr_matrix", KSparse)].
Lemma l4_cont b k : (b, k) ∈ l4_conts -> ld_conts L4 b = Some k.
Proof.
  intros H. unfold l4_conts in H.
  repeat (apply elem_of_cons in H as [[= -> ->]|H]; [vm_compute; reflexivity|]). by apply elem_of_nil in H.
Qed.
Lemma l4_legacy : ld_legacy L4 = true.
Proof. reflexivity. Qed.
Lemma l4_of : loader_of std_world [opt_4x; None] true = L4.
Proof. reflexivity. Qed.
Global Opaque std_loader_4x.
Local Opaque loader_of std_world.

(** ** Small steps *)
Lemma construct_ok fuel c ls m : c = CList \/ c = CTuple -> mgood m ->
  exists m' l, construct_seq fuel c ls m = Ok (m', l) /\ grown m m' /\ m_heap m' !! l = Some (Obj c (VSeq ls)).
Proof.
  intros Hc Hm. destruct (alloc (Obj c (VSeq ls)) m) as [m' l] eqn:Ea.
  destruct (alloc_grown _ _ _ _ Hm Ea) as (G & Hl & _).
  destruct Hc as [-> | ->]; unfold construct_seq; cbn [base_cls].
  - rewrite Ea. eauto.
  - rewrite bool_decide_eq_true_2 by done. cbn [andb]. case_bool_decide as He.
    + subst ls. exists m, nobody. split; [done|]. split; [by apply grown_refl|]. apply Hm.
    + rewrite Ea. eauto.
Qed.

Lemma set_slot_ok {A} (hole : A) (is_hole : A -> bool) i x xs : is_hole hole = true ->
  (forall y, xs !! i = Some y -> is_hole y = true) ->
  exists xs', set_slot hole is_hole i x xs = Ok xs' /\ length xs' = Nat.max (length xs) (i + 1) /\ xs' !! i = Some x /\
    (forall j y, j <> i -> xs' !! j = Some y -> xs !! j = Some y \/ y = hole) /\
    (forall j y, j <> i -> xs !! j = Some y -> xs' !! j = Some y).
Proof.
  intros Hh Hx. unfold set_slot. set (ys := xs ++ repeat hole (i + 1 - length xs)).
  assert (length ys = Nat.max (length xs) (i + 1)) as Hl. { unfold ys. rewrite app_length, repeat_length. lia. }
  assert (forall j y, ys !! j = Some y -> xs !! j = Some y \/ y = hole) as Hys.
  { intros j y Hy. unfold ys in Hy. apply lookup_app_Some in Hy as [Hy|[_ Hy]]; [by left|]. right.
    apply elem_of_list_lookup_2, elem_of_list_In, repeat_spec in Hy. done. }
  destruct (lookup_lt_is_Some_2 ys i) as [y Hy]; [lia|]. rewrite Hy.
  assert (is_hole y = true) as ->. { destruct (Hys i y Hy) as [H| ->]; auto. }
  eexists. split; [reflexivity|]. split; [by rewrite insert_length|].
  split; [apply list_lookup_insert; lia|]. split.
  - intros j z Hj Hz. rewrite list_lookup_insert_ne in Hz by done. by apply Hys.
  - intros j z Hj Hz. rewrite list_lookup_insert_ne by done. unfold ys. by apply lookup_app_l_Some.
Qed.

Lemma leading_digits_app d r : Forall (fun c => is_digit c = true) d -> match r with c :: _ => is_digit c = false | [] => True end ->
  leading_digits (d ++ r) = d.
Proof.
  intros Hd Hr. induction Hd as [|c d Hc _ IH]; simpl.
  - destruct r as [|c r]; [done|]. simpl. by rewrite Hr.
  - by rewrite Hc, IH.
Qed.
Lemma item_name_index i : trailing_int (item_name i) = Some i.
Proof.
  unfold trailing_int, item_name. rewrite rev_app_distr, leading_digits_app.
  - rewrite rev_involutive. apply N_parse_dec.
  - apply Forall_rev. apply N_dec_digit.
  - done.
Qed.

(** ** The state of a load *)
Section Main.
Context (E : env) (HE : env_ok E) (f : file).
Context (Himp : forall c, cls_module c ∈ [str "numpy"; str "collections"] -> e_imports E c = true).

(** What the members of sparse matrices are loaded as. *)
Definition part_shows (h : heap) (nm : pystr) (d : dtype) (dims : list N) (vs : list num) (l : loc) : Prop :=
  if bool_decide (nm = str "shape") then size_shows h d vs l else h !! l = Some (Obj CNdarray (VArr d dims vs)).
Lemma part_shows_mono h h' nm d dims vs l : h ⊆ h' -> part_shows h nm d dims vs l -> part_shows h' nm d dims vs l.
Proof. intros Hh. unfold part_shows. case_bool_decide; [by apply size_shows_mono|]. intros H1. by eapply lookup_weaken. Qed.

Definition sgood (s : lst) : Prop :=
  mgood (l_mem s) /\ forall a l, l_memo s !! a = Some l ->
    (forall v, stored4 E f v a -> shows (m_heap (l_mem s)) v l) /\
    (forall i k b v, item4 E f i k b a -> stored4 E f v b -> shows (m_heap (l_mem s)) v l) /\
    (forall k nm d dims vs, part4 f k nm d dims vs a -> part_shows (m_heap (l_mem s)) nm d dims vs l) /\
    (forall d, mask4 f a d -> l = nobody).
(** The load of a node succeeds with the value [v]. *)
Definition gives (s : lst) (v : val4) (r : res (lst * loc)) : Prop :=
  exists s' l, r = Ok (s', l) /\ sgood s' /\ m_heap (l_mem s) ⊆ m_heap (l_mem s') /\ shows (m_heap (l_mem s')) v l.

Lemma set_mem_good s m : sgood s -> grown (l_mem s) m -> sgood (set_mem m s).
Proof.
  intros [Hm Hs] [G1 G2]. split; [done|]. intros a l Hl. destruct (Hs a l Hl) as (A & B & D & F). cbn [set_mem l_mem].
  split_and!; [intros v Hv|intros i k b v Hi Hv|intros k nm d dims vs Hp|done]; [eapply shows_mono; eauto..|]. eapply part_shows_mono; eauto.
Qed.
Lemma put_good (memo : bool) a l s : sgood s -> (forall v, stored4 E f v a -> shows (m_heap (l_mem s)) v l) ->
  (forall i k b v, item4 E f i k b a -> stored4 E f v b -> shows (m_heap (l_mem s)) v l) ->
  (forall k nm d dims vs, part4 f k nm d dims vs a -> part_shows (m_heap (l_mem s)) nm d dims vs l) ->
  (forall d, mask4 f a d -> l = nobody) ->
  sgood (if memo then memo_put a l s else s).
Proof.
  intros [Hm Hs] A B D F. destruct memo; [|by split]. split; [done|]. cbn [memo_put l_memo l_mem].
  intros a' l' H. apply lookup_insert_Some in H as [[<- <-]|[_ H]]; [by split_and!|by apply Hs].
Qed.
Lemma put_heap (memo : bool) a l s : m_heap (l_mem (if memo then memo_put a l s else s)) = m_heap (l_mem s).
Proof. by destruct memo. Qed.

Lemma item_no_stored i k b v a : item4 E f i k b a -> stored4 E f v a -> False.
Proof.
  intros (l & Hi & _) Hs. destruct (stored4_kind E f v a Hs) as (at_ & d & N & T).
  destruct (node4_det _ _ _ _ _ _ Hi N) as [<- _]. unfold item_attrs in T. rewrite attrs4_type in T by reflexivity.
  destruct v; cbn [kind4 option_map] in T; try discriminate T.
  destruct Hs as [_ N2]. destruct (node4_det _ _ _ _ _ _ Hi N2) as [_ X]. discriminate X.
Qed.
Lemma item_det i k b i' k' b' a : item4 E f i k b a -> item4 E f i' k' b' a -> b = b'.
Proof. intros H1 H2. by destruct (item4_det _ _ _ _ _ _ _ _ _ H1 H2). Qed.

Lemma part_type k nm : nm ∈ part_names ->
  part_attrs k nm !! a_type = Some (APickle (if bool_decide (nm = str "data") then CSparse k else CNoneType)).
Proof. intros _. unfold part_attrs. case_bool_decide; by rewrite attrs4_type by reflexivity. Qed.
Lemma part_base k nm : nm ∈ part_names ->
  part_attrs k nm !! a_base_type = Some (AStr (if bool_decide (nm = str "data") then cls_name (CSparse k) else cls_name (CSparse k) ++ str "_" ++ nm)).
Proof. intros _. unfold part_attrs. case_bool_decide; by rewrite attrs4_base. Qed.
Lemma part_no_stored k nm d dims vs v a : part4 f k nm d dims vs a -> stored4 E f v a -> False.
Proof.
  intros (Hn & _ & Hp) Hs. destruct (stored4_kind E f v a Hs) as (at_ & b & N & T).
  destruct (node4_det _ _ _ _ _ _ Hp N) as [<- _]. rewrite (part_type k nm Hn) in T.
  destruct (kind4 v) as [c|] eqn:Ek; [|done]. injection T as T. case_bool_decide.
  - subst c. destruct v; cbn [kind4] in Ek; try discriminate Ek.
    + injection Ek as ->. by destruct Hs.
    + injection Ek as ->. destruct Hs as [[H1|H1] _]; discriminate H1.
    + injection Ek as ->. destruct Hs as [[H1|H1] _]; discriminate H1.
  - subst c. destruct v; cbn [kind4] in Ek; try discriminate Ek.
    + destruct Hs as [d' N']. destruct (node4_det _ _ _ _ _ _ Hp N') as [X _].
      pose proof (part_base k nm Hn) as B. rewrite X, attrs4_base, bool_decide_eq_false_2 in B by done. destruct k; discriminate B.
    + injection Ek as ->. by destruct Hs.
    + injection Ek as ->. destruct Hs as [[H1|H1] _]; discriminate H1.
    + injection Ek as ->. destruct Hs as [[H1|H1] _]; discriminate H1.
Qed.
Lemma part_no_item k nm d dims vs i ky b a : part4 f k nm d dims vs a -> item4 E f i ky b a -> False.
Proof. intros (_ & _ & H1) (l & H2 & _). destruct (node4_det _ _ _ _ _ _ H1 H2) as [_ X]. discriminate X. Qed.
Lemma mask_no_part k nm d dims vs d' a : mask4 f a d' -> part4 f k nm d dims vs a -> False.
Proof.
  intros H1 (Hn & _ & H2). destruct (node4_det _ _ _ _ _ _ H1 H2) as [X _]. pose proof (part_type k nm Hn) as T.
  rewrite <-X in T. unfold mask_attrs in T. rewrite attrs4_type in T by done. injection T as T. by case_bool_decide.
Qed.
Lemma mask_no_item d i ky b a : mask4 f a d -> item4 E f i ky b a -> False.
Proof. intros H1 (l & H2 & _). destruct (node4_det _ _ _ _ _ _ H1 H2) as [_ X]. discriminate X. Qed.
Lemma array_mask_attrs dt : array_attrs dt <> mask_attrs.
Proof. intros X. pose proof (f_equal (fun m : attrs => m !! a_base_type) X) as B. cbv beta in B. unfold array_attrs, mask_attrs in B. rewrite !attrs4_base in B. discriminate B. Qed.
Lemma mask_no_stored d v a : mask4 f a d -> stored4 E f v a -> False.
Proof.
  intros Hm Hs. destruct (stored4_kind E f v a Hs) as (at_ & b & N & T).
  destruct (node4_det _ _ _ _ _ _ Hm N) as [<- _]. unfold mask_attrs in T. rewrite attrs4_type in T by done.
  destruct (kind4 v) as [c|] eqn:Ek; [|done]. injection T as <-.
  destruct v; cbn [kind4] in Ek; try discriminate Ek.
  - injection Ek as ->. by destruct Hs.
  - injection Ek as ->. destruct Hs as [[H1|H1] _]; discriminate H1.
  - injection Ek as ->. destruct Hs as [[H1|H1] _]; discriminate H1.
  - destruct Hs as [_ [N'|(n & _ & _ & N')]]; destruct (node4_det _ _ _ _ _ _ N' Hm) as [X _]; by apply array_mask_attrs in X.
  - destruct Hs as (k & _ & _ & _ & N'). destruct (node4_det _ _ _ _ _ _ N' Hm) as [X _]; by apply array_mask_attrs in X.
Qed.

(** ** One node *)
Definition inner (fu : nat) (a : addr) (nm : pystr) (at_ : attrs) (b : body) (c : cls) (base : bytes) (s : lst) : res (lst * loc) :=
  match b with
  | BGroup l =>
      let k := default KRecover (ld_conts L4 base) in
      res_bind (members E f k a (Node nm at_ (BGroup l))) (fun ms =>
        if redirected k c then
          res_bind (redirect_members E fu L4 f ms c (cont_init k at_) s) (fun '(s1, cs, c') =>
            res_map (fun '(m, l) => (set_mem m s1, l)) (cont_convert fu k at_ base c' cs (l_mem s1)))
        else
        res_bind (load_members E fu f (load_ fu E L4 f) k ms (cont_init k at_) s) (fun '(s1, cs) =>
          res_map (fun '(m, l) => (set_mem m s1, l)) (cont_convert fu k at_ base c cs (l_mem s1))))
  | BData d =>
      res_map (fun '(m, l) => (set_mem m s, l)) (load_dataset E fu f a (default LRecover (ld_types L4 base)) at_ d base c (l_mem s))
  end.

Lemma load_step fu a nm at_ b c base memo s v :
  get_node f a = Some (Node nm at_ b) ->
  resolve_type E true f (Node nm at_ b) = Ok (Resolved c base base (is_group (Node nm at_ b))) ->
  ld_load L4 c base = Ok (c, memo) ->
  (stored4 E f v a \/ exists i k b', item4 E f i k b' a /\ stored4 E f v b') -> sgood s ->
  gives s v (inner fu a nm at_ b c base s) ->
  gives s v (load_ (S fu) E L4 f a s).
Proof.
  intros Hn Hr Hl Hv Hs Hg. unfold load_; fold load_.
  destruct (l_memo s !! a) as [l|] eqn:Em.
  { exists s, l. split; [done|]. split; [done|]. split; [done|]. destruct Hs as [_ Hs]. destruct (Hs a l Em) as (A & B & _).
    destruct Hv as [Hv|(i & k & b' & Hi & Hv)]; eauto. }
  rewrite Hn, l4_legacy, Hr. cbn [res_bind r_cls r_base r_orig r_cont]. rewrite Hl. cbn [res_bind].
  destruct Hg as (s' & l & Hg & G1 & G2 & G3).
  assert (gives s v (res_map (fun '(s', l) => (if memo then memo_put a l s' else s', l)) (inner fu a nm at_ b c base s))) as X.
  { rewrite Hg. cbn [res_map]. eexists _, l. split; [reflexivity|]. rewrite put_heap. split; [|done].
    apply put_good; [done| | | |].
    - intros v' Hv'. destruct Hv as [Hv|(i & k & b' & Hi & Hv)]; [|by destruct (item_no_stored _ _ _ _ _ Hi Hv')].
      by rewrite (stored4_det E f HE _ _ _ Hv' Hv).
    - intros i' k' b'' v' Hi' Hv'. destruct Hv as [Hv|(i & k & b' & Hi & Hv)]; [by destruct (item_no_stored _ _ _ _ _ Hi' Hv)|].
      rewrite (item_det _ _ _ _ _ _ _ Hi' Hi) in Hv'. by rewrite (stored4_det E f HE _ _ _ Hv' Hv).
    - intros ks nm' d dims vs Hp. destruct Hv as [Hv|(i & k & b' & Hi & Hv)]; [by destruct (part_no_stored _ _ _ _ _ _ _ Hp Hv)|].
      by destruct (part_no_item _ _ _ _ _ _ _ _ _ Hp Hi).
    - intros d Hmk. destruct Hv as [Hv|(i & k & b' & Hi & Hv)]; [by destruct (mask_no_stored _ _ _ Hmk Hv)|].
      by destruct (mask_no_item _ _ _ _ _ Hmk Hi). }
  clear Hg G1 G2 G3 s' l. destruct b as [l|d]; exact X.
Qed.

(** ** Types *)
Lemma base_attr4 t b more : base_attr (attrs4 t b more) = b.
Proof. unfold base_attr. by rewrite attrs4_base. Qed.
Lemma resolve_typed nm c b more bd : c <> CFunction -> e_imports E c = true -> (list_to_map more : attrs) !! a_type = None ->
  resolve_type E true f (Node nm (attrs4 (Some c) b more) bd) =
  Ok (Resolved c b b (is_group (Node nm (attrs4 (Some c) b more) bd))).
Proof.
  intros H1 H2 H3. unfold resolve_type. cbn [nd_attrs]. rewrite attrs4_type by done. cbn [option_map].
  rewrite bool_decide_eq_false_2 by done. rewrite H2. cbv zeta. by rewrite base_attr4.
Qed.
Lemma importable c : c ∈ [CNoneType; CBool; CInt; CFloat; CComplex; CStr; CBytes; CList; CTuple; CDict; COrderedDict; CNdarray] \/ (exists d, c = CNp d) ->
  c <> CFunction /\ e_imports E c = true.
Proof.
  intros [H|[d ->]].
  - repeat (apply elem_of_cons in H as [->|H]; [split; [done|]; first [by apply (ok_imports E HE)|apply Himp; apply (bool_decide_unpack _); vm_compute; exact I]|]).
    by apply elem_of_nil in H.
  - split; [done|]. apply Himp. destruct d as [|[]|[]|[]|[]]; apply (bool_decide_unpack _); vm_compute; exact I.
Qed.

(** A dataset. *)
Lemma leaf4 fu a c b more d v s fn :
  node4 f a (attrs4 (Some c) b more) (BData d) -> stored4 E f v a -> sgood s ->
  c ∈ [CNoneType; CBool; CInt; CFloat; CComplex; CStr; CBytes; CList; CTuple; CDict; COrderedDict; CNdarray] \/ (exists d, c = CNp d) ->
  (list_to_map more : attrs) !! a_type = None ->
  (b, fn) ∈ l4_types ->
  (exists m' l, load_fn E fu fn (attrs4 (Some c) b more) d b c (l_mem s) = Ok (m', l) /\ grown (l_mem s) m' /\ shows (m_heap m') v l) ->
  gives s v (load_ (S fu) E L4 f a s).
Proof.
  intros [nm Hn] Hv Hs Hc Hm Hf (m' & l & Hx & G & Hsh).
  destruct (importable c Hc) as [H1 H2].
  assert (exists memo, ld_load L4 c b = Ok (c, memo)) as [memo Hl].
  { destruct Hc as [Hc|[dt ->]]; [|apply l4_np]. apply l4_load.
    repeat (apply elem_of_cons in Hc as [->|Hc]; [apply (bool_decide_unpack _); vm_compute; exact I|]). by apply elem_of_nil in Hc. }
  eapply load_step; [exact Hn|by apply resolve_typed|exact Hl|by left|done|].
  unfold inner. rewrite (l4_type _ _ Hf). change (default LRecover (Some fn)) with fn. rewrite (load_dataset_fn _ _ _ _ _ _ _ _ _ _ _ Hx). cbn [res_map].
  eexists _, l. split; [reflexivity|]. cbn [set_mem l_mem]. split; [by apply set_mem_good|]. split; [apply G|done].
Qed.

(** ** The members of a group *)
Lemma members_inv fuel rec k (P : list (pystr * addr) -> cstate -> lst -> Prop) ms :
  (forall done nm a r cs s, ms = done ++ (nm, a) :: r -> P done cs s ->
     exists n s1 l m cs', get_node f a = Some n /\ rec a s = Ok (s1, l) /\
       cont_append E fuel k nm l (nd_attrs n) cs (l_mem s1) = Ok (m, cs') /\ P (done ++ [(nm, a)]) cs' (set_mem m s1)) ->
  forall cs s, P [] cs s -> exists s' cs', load_members E fuel f rec k ms cs s = Ok (s', cs') /\ P ms cs' s'.
Proof.
  intros Hst. assert (forall r done cs s, ms = done ++ r -> P done cs s ->
    exists s' cs', load_members E fuel f rec k r cs s = Ok (s', cs') /\ P ms cs' s') as X; [|intros; by apply (X ms [])].
  induction r as [|[nm a] r IH]; intros done cs s Hms HP.
  - rewrite app_nil_r in Hms. subst. exists s, cs. by split.
  - destruct (Hst done nm a r cs s Hms HP) as (n & s1 & l & m & cs' & H1 & H2 & H3 & H4).
    cbn [load_members]. rewrite H1, H2. cbn [res_bind]. rewrite H3. cbn [res_bind].
    apply (IH (done ++ [(nm, a)])); [|done]. by rewrite <-app_assoc.
Qed.

(** A group. *)
Lemma group4 fu a c b more ms v s k c' memo nm :
  get_node f a = Some (Node nm (attrs4 c b more) (BGroup ms)) ->
  resolve_type E true f (Node nm (attrs4 c b more) (BGroup ms)) = Ok (Resolved c' b b true) ->
  ld_load L4 c' b = Ok (c', memo) ->
  (stored4 E f v a \/ exists i k b', item4 E f i k b' a /\ stored4 E f v b') -> sgood s -> (b, k) ∈ l4_conts ->
  redirected k c' = false ->
  (exists s1 cs m' l, load_members E fu f (load_ fu E L4 f) k (e_order E a ms) (cont_init k (attrs4 c b more)) s = Ok (s1, cs) /\
     cont_convert fu k (attrs4 c b more) b c' cs (l_mem s1) = Ok (m', l) /\
     sgood s1 /\ m_heap (l_mem s) ⊆ m_heap (l_mem s1) /\ grown (l_mem s1) m' /\ shows (m_heap m') v l) ->
  gives s v (load_ (S fu) E L4 f a s).
Proof.
  intros Hn Hr Hl Hv Hs Hk Hrd (s1 & cs & m' & l & H1 & H2 & G1 & G2 & G3 & Hsh).
  eapply load_step; [exact Hn|exact Hr|exact Hl|done|done|].
  unfold inner. rewrite (l4_cont _ _ Hk). change (default KRecover (Some k)) with k. cbv zeta.
  assert (members E f k a (Node nm (attrs4 c b more) (BGroup ms)) = Ok (e_order E a ms)) as ->.
  { unfold l4_conts in Hk. repeat (apply elem_of_cons in Hk as [[= -> ->]|Hk]; [reflexivity|]). by apply elem_of_nil in Hk. }
  cbn [res_bind]. rewrite Hrd, H1. cbn [res_bind]. rewrite H2. cbn [res_map].
  eexists _, l. split; [reflexivity|]. cbn [set_mem l_mem]. split; [by apply set_mem_good|].
  split; [|done]. etrans; [exact G2|apply G3].
Qed.

Lemma stored4_plain v a n : stored4 E f v a -> get_node f a = Some n -> nd_attrs n !! a_item_index = None.
Proof.
  assert (forall t b more d, node4 f a (attrs4 t b more) d -> (list_to_map more : attrs) !! a_item_index = None ->
    get_node f a = Some n -> nd_attrs n !! a_item_index = None) as Hw.
  { intros t b more d [nm H1] H2 H3. rewrite H1 in H3. injection H3 as <-. cbn [nd_attrs]. by rewrite attrs4_more. }
  destruct v; cbn [stored4]; unfold array_attrs.
  - intros [d H]. by apply (Hw _ _ _ _ H).
  - destruct c; try (intros [? [dt H]]; by apply (Hw _ _ _ _ H)). intros [? H]. by apply (Hw _ _ _ _ H).
  - intros (b & _ & H). by apply (Hw _ _ _ _ H).
  - intros H. by apply (Hw _ _ _ _ H).
  - intros [Hc [(as_ & ms & l & H & _)|[(_ & H)|[(k & d & vs & _ & _ & H)|[(w & ss & _ & _ & _ & H)|(w & bs & _ & H)]]]]];
      by apply (Hw _ _ _ _ H).
  - intros (Hc & _ & _ & as_ & bs & l & H & _). by apply (Hw _ _ _ _ H).
  - intros [_ [H|(? & _ & _ & H)]]; by apply (Hw _ _ _ _ H).
  - intros (k & _ & _ & _ & H). by apply (Hw _ _ _ _ H).
  - intros (_ & b & H & _). by apply (Hw _ _ _ _ H).
  - intros [_ H]. by apply (Hw _ _ _ _ H).
  - intros (_ & _ & a1 & a2 & a3 & a4 & l & H & _). by apply (Hw _ _ _ _ H).
  - intros (_ & _ & _ & hd & _ & H). by apply (Hw _ _ _ _ H).
Qed.
Lemma stored4_node v a : stored4 E f v a -> exists n, get_node f a = Some n.
Proof. intros H. destruct (stored4_kind E f v a H) as (at_ & d & [nm N] & _). by eexists. Qed.

Lemma named_items_fst_nodup i as_ : NoDup (map fst (named_items i as_)).
Proof.
  revert i. induction as_ as [|a as_ IH]; intros i; cbn [named_items map fst]; constructor; [|apply IH].
  intros H. apply elem_of_list_fmap in H as ([nm b] & Hn & H). cbn [fst] in Hn. subst nm.
  apply named_items_in in H as (j & _ & Hj). apply item_name_inj in Hj. lia.
Qed.

(** *** Masks *)
Lemma mask_load fu b d s : mask4 f b d -> sgood s ->
  exists s1, load_ (S fu) E L4 f b s = Ok (s1, nobody) /\ sgood s1 /\ l_mem s1 = l_mem s.
Proof.
  intros Hm Hs. pose proof Hm as [nm Hn]. unfold load_; fold load_. destruct (l_memo s !! b) as [l|] eqn:Em.
  { exists s. destruct Hs as [Hg Hs]. destruct (Hs b l Em) as (_ & _ & _ & F). rewrite (F d Hm). done. }
  destruct (importable CNdarray) as [Hf Hi]. { left. apply (bool_decide_unpack _). vm_compute. exact I. }
  destruct (l4_load CNdarray (str "ndarray_masked_mask")) as [memo Hl]; [apply (bool_decide_unpack _); vm_compute; exact I|].
  unfold mask_attrs in Hn. rewrite Hn, l4_legacy, resolve_typed by done. cbn [res_bind r_cls r_base r_orig r_cont]. rewrite Hl. cbn [res_bind].
  change (is_group (Node nm (attrs4 (Some CNdarray) (str "ndarray_masked_mask") []) (BData d))) with false. cbv iota. cbn [nd_body].
  rewrite (l4_type (str "ndarray_masked_mask") LNothing) by (apply (bool_decide_unpack _); vm_compute; exact I).
  change (default LRecover (Some LNothing)) with LNothing. cbn [load_dataset load_fn res_map].
  assert (set_mem (l_mem s) s = s) as -> by (by destruct s).
  eexists. split; [reflexivity|]. split; [|by destruct memo].
  apply put_good; [done|..|done].
  - intros v Hv. by destruct (mask_no_stored _ _ _ Hm Hv).
  - intros i k c v Hi' _. by destruct (mask_no_item _ _ _ _ _ Hm Hi').
  - intros k nm' d' dims vs Hp. by destruct (mask_no_part _ _ _ _ _ _ _ Hm Hp).
Qed.
Lemma mask_name_index i : trailing_int (item_name i ++ str "_mask") = None.
Proof. unfold trailing_int. rewrite rev_app_distr. reflexivity. Qed.

(** *** Lists and tuples *)
Lemma list4 fu xs as_ xt a ms s at_ :
  NoDup (map fst ms) -> Permutation ms (named_items 0 as_ ++ xt) -> Forall (mask_member f (length as_)) xt ->  Forall2 (stored4 E f) xs as_ -> sgood s -> num_items at_ = O ->
  (forall x b s', x ∈ xs -> stored4 E f x b -> sgood s' -> gives s' x (load_ fu E L4 f b s')) ->
  exists s1 ls, load_members E fu f (load_ fu E L4 f) KList (e_order E a ms) (cont_init KList at_) s = Ok (s1, SList ls) /\
    sgood s1 /\ m_heap (l_mem s) ⊆ m_heap (l_mem s1) /\ Forall2 (shows (m_heap (l_mem s1))) xs ls.
Proof.
  intros Hnd Hp Hxt Ha Hs Hat IH.
  set (P := fun (done : list (pystr * addr)) cs s' => sgood s' /\ m_heap (l_mem s) ⊆ m_heap (l_mem s') /\
    exists ls, cs = SList ls /\ (length ls <= length xs)%nat /\
      (forall i x, xs !! i = Some x -> item_name (N.of_nat i) ∈ map fst done -> exists l, ls !! i = Some l /\ shows (m_heap (l_mem s')) x l) /\
      (forall i l, item_name (N.of_nat i) ∉ map fst done -> ls !! i = Some l -> l = nobody)).
  assert (Permutation (e_order E a ms) (named_items 0 as_ ++ xt)) as Hp'. { rewrite <-Hp. apply (ok_order E HE). }
  assert (NoDup (map fst (e_order E a ms))) as Hnd'. { rewrite (ok_order E HE a ms). exact Hnd. }
  destruct (members_inv fu (load_ fu E L4 f) KList P (e_order E a ms)) with (cs := cont_init KList at_) (s := s)
    as (s1 & cs & H1 & Hg & Hh & ls & -> & Hlen & Hdone & _).
  - intros done nm b r cs s' Hms (Hg & Hh & ls & -> & Hlen & Hdone & Hopen).
    assert ((nm, b) ∈ named_items 0 as_ ++ xt) as Hin. { rewrite <-Hp', Hms. apply elem_of_app. right. constructor. }
    apply elem_of_app in Hin as [Hin|Hin].
    2: { rewrite list.Forall_forall in Hxt. destruct (Hxt _ Hin) as (j & d & Hj & Hnm & Hmk). cbn [fst snd] in Hnm, Hmk. subst nm.
         assert (exists fu', fu = S fu') as [fu' ->].
         { destruct (lookup_lt_is_Some_2 as_ (N.to_nat j)) as [b0 Hb0]; [lia|].
           destruct (Forall2_lookup_r _ _ _ _ _ Ha Hb0) as (x & Hx & Hxs).
           destruct (IH x b0 s' (elem_of_list_lookup_2 _ _ _ Hx) Hxs Hg) as (s1 & l & L1 & _).
           destruct fu as [|fu']; [discriminate L1|by eexists]. }
         destruct (mask_load fu' b d s' Hmk Hg) as (s1 & L1 & L2 & L3). pose proof Hmk as [nn Hn].
         exists (Node nn mask_attrs (BData d)), s1, nobody, (l_mem s1), (SList ls). split; [done|]. split; [done|]. split.
         { cbn [cont_append nd_attrs]. unfold list_append, mask_attrs. rewrite attrs4_more by done. change ((list_to_map [] : attrs) !! a_item_index) with (@None attrv).
           cbn [index_of res_bind]. rewrite mask_name_index. reflexivity. }
         unfold P. assert (set_mem (l_mem s1) s1 = s1) as -> by (by destruct s1). rewrite L3. split; [done|]. split; [done|].
         exists ls. split; [done|]. split; [done|]. split.
         - intros i y Hy Hi. apply Hdone; [done|]. rewrite map_app in Hi. apply elem_of_app in Hi as [Hi|Hi]; [done|].
           cbn [map fst] in Hi. apply elem_of_list_singleton in Hi. by apply mask_name_no_item in Hi.
         - intros i y Hi. apply Hopen. intros Hc. apply Hi. rewrite map_app. apply elem_of_app. by left. }
    apply named_items_in in Hin as (j & Hj & ->). replace (0 + N.of_nat j) with (N.of_nat j) in Hms |- * by lia.
    destruct (Forall2_lookup_r _ _ _ _ _ Ha Hj) as (x & Hx & Hxs).
    destruct (stored4_node x b Hxs) as [n Hn].
    destruct (IH x b s' (elem_of_list_lookup_2 _ _ _ Hx) Hxs Hg) as (s1 & l & L1 & L2 & L3 & L4').
    assert (item_name (N.of_nat j) ∉ map fst done) as Hnew.
    { rewrite Hms, map_app in Hnd'. apply NoDup_app in Hnd' as (_ & Hnd' & _). intros Hc. apply (Hnd' _ Hc). constructor. }
    destruct (set_slot_ok nobody (N.eqb nobody) j l ls) as (ls' & S1 & S2 & S3 & S4 & S5); [done| |].
    { intros y Hy. rewrite (Hopen j y Hnew Hy). done. }
    exists n, s1, l, (l_mem s1), (SList ls'). split; [done|]. split; [done|]. split.
    { cbn [cont_append]. unfold list_append. rewrite (stored4_plain x b n Hxs Hn). cbn [index_of res_bind].
      rewrite item_name_index. rewrite Nat2N.id. by rewrite S1. }
    assert (length ls' <= length xs)%nat as Hlen'. { apply lookup_lt_Some in Hx. lia. }
    unfold P. destruct s1 as [m1 memo1]. cbn [set_mem l_mem l_memo] in *. split; [done|]. split; [by etrans|].
    exists ls'. split; [done|]. split; [done|]. split.
    + intros i y Hy Hi. destruct (decide (i = j)) as [-> |Hij].
      * rewrite Hx in Hy. injection Hy as <-. eauto.
      * rewrite map_app in Hi. apply elem_of_app in Hi as [Hi|Hi].
        -- destruct (Hdone i y Hy Hi) as (li & Hli & Hsh). exists li. split; [by apply S5|]. by eapply shows_mono.
        -- exfalso. cbn [map fst] in Hi. apply elem_of_list_singleton in Hi. apply item_name_inj in Hi. lia.
    + intros i y Hi Hy. destruct (decide (i = j)) as [-> |Hij].
      * exfalso. apply Hi. rewrite map_app. apply elem_of_app. right. constructor.
      * destruct (S4 i y Hij Hy) as [Hy'|Hy']; [|done]. apply (Hopen i); [|done].
        intros Hc. apply Hi. rewrite map_app. apply elem_of_app. by left.
  - cbn [cont_init]. rewrite Hat. split; [done|]. split; [done|]. exists []. split; [done|]. split; [cbn; lia|]. split.
    + intros i x _ Hi. by apply elem_of_nil in Hi.
    + intros i l _ Hl. done.
  - exists s1, ls. split; [done|]. split; [done|]. split; [done|].
    assert (forall i x, xs !! i = Some x -> exists l, ls !! i = Some l /\ shows (m_heap (l_mem s1)) x l) as Hall.
    { intros i x Hx. apply Hdone; [done|]. rewrite Hp'. destruct (Forall2_lookup_l _ _ _ _ _ Ha Hx) as (b & Hb & _).
      apply elem_of_list_fmap. exists (item_name (N.of_nat i), b). split; [done|]. apply elem_of_app. left. apply named_items_in. exists i. split; [done|]. f_equal. }
    apply Forall2_same_length_lookup. split.
    + destruct (decide (length ls = length xs)) as [->|Hne]; [done|exfalso].
      destruct (lookup_lt_is_Some_2 xs (length ls)) as [x Hx]; [lia|].
      destruct (Hall _ _ Hx) as (l & Hl & _). apply lookup_lt_Some in Hl. lia.
    + intros i x l Hx Hl. destruct (Hall i x Hx) as (l' & Hl' & Hsh). congruence.
Qed.

(** *** Dicts *)
Definition key_obj (k : key4) : obj :=
  match k with KStr s => Obj CStr (VStr s) | KNum c n => Obj c (VNum n) | KNone => Obj CNoneType VNone end.
Lemma key_obj_shows h k l : key_shows h k l <-> h !! l = Some (key_obj k).
Proof. by destruct k. Qed.

Lemma plain_no_backslash s : forallb plain_char s = true -> has_char 92 s = false.
Proof.
  unfold has_char. induction s as [|c s IH]; [done|]. cbn [forallb existsb].
  intros [H1 H2]%andb_true_iff. rewrite (IH H2). unfold plain_char in H1. lia.
Qed.
Lemma num_repr_plain n : has_char 92 (num_repr E n) = false.
Proof.
  apply plain_no_backslash. destruct n as [[]|z|g|a b]; cbn [num_repr]; [done|done| |apply (ok_frepr_plain E HE)|apply (ok_crepr_plain E HE)].
  pose proof (Z_dec_chars z) as Hz. induction Hz as [|c0 l Hc _ IH]; [done|]. cbn [forallb]. rewrite IH.
  unfold is_digit in Hc. unfold plain_char, is_scalar, is_surrogate. lia.
Qed.
Lemma has_char_app c s t : has_char c (s ++ t) = has_char c s || has_char c t.
Proof. unfold has_char. apply existsb_app. Qed.

Lemma key_recovered4 k : key_ok4 k -> dict_key E (key_name4 E k) (cls_name (key_cls k)) = Ok (Some (key_obj k)).
Proof.
  destruct k as [s|c n|]; cbn [key_ok4 key_name4 key_cls key_obj].
  - intros [_ Hs]. unfold dict_key. rewrite bool_decide_eq_true_2 by done. do 4 f_equal.
    assert (forall q, strip_ends (q :: s ++ [q]) = s) as Hq.
    { intros q. unfold strip_ends. cbn [tail]. apply removelast_last. }
    assert (swap_slashes (quote_for s :: s ++ [quote_for s]) = quote_for s :: s ++ [quote_for s]) as Hw.
    { apply swap_plain. change (quote_for s :: s ++ [quote_for s]) with ([quote_for s] ++ s ++ [quote_for s]).
      rewrite !has_char_app, Hs. unfold quote_for. destruct (_ && _); reflexivity. }
    unfold quote_for in *. destruct (has_char 39 s && negb (has_char 34 s)).
    + apply Hq.
    + rewrite Hw. apply Hq.
  - intros (Hc & _ & Hn). pose proof (swap_plain _ (num_repr_plain n)) as Hsw.
    unfold dict_key, load_key. rewrite Hsw.
    destruct c; try done; destruct n as [b|z|g|x y]; try done; cbn [num_repr] in *.
    + subst b. reflexivity.
    + do 5 (rewrite bool_decide_eq_false_2 by done). rewrite bool_decide_eq_true_2 by done.
      by rewrite Z_parse_dec.
    + do 3 (rewrite bool_decide_eq_false_2 by done). rewrite bool_decide_eq_true_2 by done.
      by rewrite (ok_fparse E HE) by done.
    + do 6 (rewrite bool_decide_eq_false_2 by done). rewrite bool_decide_eq_true_2 by done.
      destruct Hn. by rewrite (ok_cparse E HE).
  - reflexivity.
Qed.
Lemma key_hashes h fu k l : key_ok4 k -> key_shows h k l -> hval (S fu) h l = Ok (key_form k).
Proof.
  destruct k as [s|c n|]; cbn [key_ok4 key_shows key_form]; intros Hk Hl; cbn [hval]; rewrite Hl; try done.
  destruct Hk as (_ & Hn & _). f_equal. unfold num_nan in Hn. unfold num_hv. destruct (num_val n) as [x y]. by rewrite Hn.
Qed.

(** The group between dict and value. *)
Lemma item_load fu i k b a v s : item4 E f i k b a -> stored4 E f v b -> sgood s ->
  (forall s', sgood s' -> gives s' v (load_ fu E L4 f b s')) ->
  gives s v (load_ (S fu) E L4 f a s).
Proof.
  intros Hi Hv Hs IH. pose proof Hi as (mm & [nm Hn] & Hmm). unfold item_attrs in Hn.
  destruct (l4_load CObject (str "dict_item")) as [memo Hl]; [apply (bool_decide_unpack _); vm_compute; exact I|].
  eapply (group4 fu a None (str "dict_item") _ _ v s KFirst CObject memo nm Hn); [|exact Hl|right; by eauto|done|apply (bool_decide_unpack _); vm_compute; exact I|reflexivity|].
  { unfold resolve_type. cbn [nd_attrs nd_body]. rewrite attrs4_type by reflexivity. cbn [option_map]. cbv zeta. by rewrite base_attr4. }
  destruct (IH s Hs) as (s1 & l & L1 & L2 & L3 & L4').
  destruct (stored4_node v b Hv) as [n Hn'].
  destruct Hmm as [-> |(c & d & Hmk & _ & Ho)].
  2: { destruct fu as [|fu]; [discriminate L1|]. destruct (mask_load fu c d s1 Hmk L2) as (s2 & M1 & M2 & M3). pose proof Hmk as [nn Hnn].
       exists s2, (SList [l; nobody]), (l_mem s2), l. split_and!; auto.
       - rewrite Ho. cbn [load_members]. rewrite Hn', L1. cbn [res_bind cont_init cont_append]. rewrite Hnn.
         assert (set_mem (l_mem s1) s1 = s1) as -> by (by destruct s1). rewrite M1. cbn [res_bind]. by destruct s2.
       - by rewrite M3.
       - by destruct M2; apply grown_refl.
       - by rewrite M3. }
  assert (e_order E a [(str "data", b)] = [(str "data", b)]) as ->.
  { apply Permutation_length_1_inv, Permutation_sym, (ok_order E HE). }
  exists s1, (SList [l]), (l_mem s1), l. split_and!; auto.
  - cbn [load_members]. rewrite Hn', L1. cbn [res_bind cont_init cont_append]. by destruct s1.
  - by destruct L2; apply grown_refl.
Qed.

Lemma dict4 fu kvs as_ bs a ms s at_ :
  Permutation ms (zip (map (fun kv => key_name4 E (fst kv)) kvs) as_) ->
  Forall (fun kv => key_ok4 (fst kv)) kvs -> items4 E f 0 (map fst kvs) as_ bs -> Forall2 (fun kv b => stored4 E f (snd kv) b) kvs bs -> sgood s ->
  (forall k x b s', (k, x) ∈ kvs -> stored4 E f x b -> sgood s' -> gives s' x (load_ fu E L4 f b s')) ->
  exists s1 ps, load_members E (S fu) f (load_ (S fu) E L4 f) KDict (e_order E a ms) (cont_init KDict at_) s = Ok (s1, SDict (map (fun p => SPair (fst p) (snd p)) ps)) /\
    sgood s1 /\ m_heap (l_mem s) ⊆ m_heap (l_mem s1) /\
    Forall2 (fun kv p => key_shows (m_heap (l_mem s1)) (fst kv) (fst p) /\ shows (m_heap (l_mem s1)) (snd kv) (snd p)) kvs ps.
Proof.
  intros Hp Hks Hit Ha Hs IH. apply items4_lookup in Hit as (La & Lb & Hit). rewrite map_length in La, Lb.
  set (P := fun (done : list (pystr * addr)) cs s' => sgood s' /\ m_heap (l_mem s) ⊆ m_heap (l_mem s') /\
    exists sl, cs = SDict sl /\ (length sl <= length kvs)%nat /\
      (forall i kv a, kvs !! i = Some kv -> as_ !! i = Some a -> a ∈ map snd done ->
         exists lk lv, sl !! i = Some (SPair lk lv) /\ key_shows (m_heap (l_mem s')) (fst kv) lk /\ shows (m_heap (l_mem s')) (snd kv) lv) /\
      (forall i a y, as_ !! i = Some a -> a ∉ map snd done -> sl !! i = Some y -> y = SHole)).
  assert (Permutation (e_order E a ms) (zip (map (fun kv => key_name4 E (fst kv)) kvs) as_)) as Hp'. { rewrite <-Hp. apply (ok_order E HE). }
  assert (map snd (zip (map (fun kv => key_name4 E (fst kv)) kvs) as_) = as_) as Hsnd.
  { apply snd_zip. rewrite map_length. lia. }
  assert (forall i kv, kvs !! i = Some kv -> exists x b, as_ !! i = Some x /\ bs !! i = Some b /\ item4 E f (N.of_nat i) (fst kv) b x /\ stored4 E f (snd kv) b) as Hat.
  { intros i kv Hkv. destruct (Forall2_lookup_l _ _ _ _ _ Ha Hkv) as (b & Hb & Hxs).
    destruct (lookup_lt_is_Some_2 as_ i) as [x Hx]. { rewrite La. by eapply lookup_lt_Some. }
    exists x, b. split; [done|]. split; [done|]. split; [|done].
    apply (Hit i (fst kv) x b); auto. by rewrite list_lookup_fmap, Hkv. }
  assert (NoDup as_) as Hnd.
  { apply NoDup_alt. intros i j x Hi Hj.
    destruct (lookup_lt_is_Some_2 kvs i) as [kv1 H1]. { rewrite <-La. by eapply lookup_lt_Some. }
    destruct (lookup_lt_is_Some_2 kvs j) as [kv2 H2]. { rewrite <-La. by eapply lookup_lt_Some. }
    destruct (Hat i kv1 H1) as (x1 & b1 & A1 & _ & I1 & _). destruct (Hat j kv2 H2) as (x2 & b2 & A2 & _ & I2 & _).
    assert (x1 = x) as -> by congruence. assert (x2 = x) as -> by congruence.
    destruct (item4_det _ _ _ _ _ _ _ _ _ I1 I2) as [He _]. apply item_attrs_det in He as [_ He]. lia. }
  destruct (members_inv (S fu) (load_ (S fu) E L4 f) KDict P (e_order E a ms)) with (cs := cont_init KDict at_) (s := s)
    as (s1 & cs & H1 & Hg & Hh & sl & -> & Hlen & Hdone & _).
  - intros done nm b r cs s' Hms (Hg & Hh & sl & -> & Hlen & Hdone & Hopen).
    assert ((nm, b) ∈ zip (map (fun kv => key_name4 E (fst kv)) kvs) as_) as Hin. { rewrite <-Hp', Hms. apply elem_of_app. right. constructor. }
    apply elem_of_list_lookup in Hin as [j Hj]. rewrite lookup_zip_with in Hj.
    destruct (map (fun kv => key_name4 E (fst kv)) kvs !! j) as [nm'|] eqn:Ej; [|done]. cbn in Hj.
    destruct (as_ !! j) as [b'|] eqn:Eb; [|done]. cbn in Hj. injection Hj as -> ->.
    apply list_lookup_fmap_inv in Ej as (kv & -> & Ekv).
    destruct (Hat j kv Ekv) as (x' & bv & X1 & X2 & Hi & Hv). assert (x' = b) as -> by congruence. clear X1.
    destruct kv as [k x]. cbn [fst snd] in *.
    destruct (item_load fu _ k bv b x s' Hi Hv Hg) as (s1 & l & L1 & L2 & L3 & L4').
    { intros s'' Hs''. apply (IH k x); auto. by eapply elem_of_list_lookup_2. }
    assert (b ∉ map snd done) as Hnew.
    { pose proof Hnd as Hnd'. rewrite <-Hsnd, <-Hp', Hms, map_app in Hnd'.
      apply NoDup_app in Hnd' as (_ & Hnd' & _). intros Hc. apply (Hnd' _ Hc). constructor. }
    pose proof Hi as (mmi & [nmi Hni] & _).
    assert (key_ok4 k) as Hk. { exact (Forall_lookup_1 _ _ _ _ Hks Ekv). }
    destruct (alloc (key_obj k) (l_mem s1)) as [m2 lk] eqn:Eal.
    destruct (alloc_grown _ _ _ _ (proj1 L2) Eal) as (G & Hlk & _).
    destruct (set_slot_ok SHole slot_is_hole j (SPair lk l) sl) as (sl' & S1 & S2 & S3 & S4 & S5); [done| |].
    { intros y Hy. rewrite (Hopen j b y Eb Hnew Hy). done. }
    exists (Node nmi (item_attrs k (N.of_nat j)) (BGroup mmi)), s1, l, m2, (SDict sl'). split; [done|]. split; [done|]. split.
    { cbn [cont_append nd_attrs]. unfold dict_append.
      assert (item_attrs k (N.of_nat j) !! a_key_base_type = Some (AStr (cls_name (key_cls k)))) as ->.
      { unfold item_attrs. rewrite attrs4_more by done. simpl. by rewrite lookup_insert. }
      assert (item_attrs k (N.of_nat j) !! a_key_idx = Some (AInt (Z.of_N (N.of_nat j)))) as ->.
      { unfold item_attrs. rewrite attrs4_more by done. simpl. rewrite !(lookup_insert_ne _ _ a_key_idx) by done. by rewrite lookup_insert. }
      rewrite (key_recovered4 k Hk). cbn [res_bind]. rewrite Eal. cbn [index_of].
      assert ((Z.of_N (N.of_nat j) <? 0)%Z = false) as -> by lia. cbn [res_bind].
      replace (Z.to_nat (Z.of_N (N.of_nat j))) with j by lia. rewrite S1. done. }
    assert (length sl' <= length kvs)%nat as Hlen'. { apply lookup_lt_Some in Ekv. lia. }
    unfold P. split; [by apply set_mem_good|]. cbn [set_mem l_mem]. split; [etrans; [exact Hh|]; etrans; [exact L3|apply G]|].
    exists sl'. split; [done|]. split; [done|]. split.
    + intros i kv y Hkv Hy Hyd. destruct (decide (i = j)) as [-> |Hij].
      * rewrite Ekv in Hkv. injection Hkv as <-. exists lk, l. split; [done|]. split; [by apply key_obj_shows|].
        eapply shows_mono; [apply G|exact L4'].
      * rewrite map_app in Hyd. apply elem_of_app in Hyd as [Hyd|Hyd].
        -- destruct (Hdone i kv y Hkv Hy Hyd) as (lk' & lv' & Hsl & K1 & K2). exists lk', lv'. split; [by apply S5|].
           split; [eapply key_shows_mono; [|exact K1]|eapply shows_mono; [|exact K2]]; (etrans; [exact L3|apply G]).
        -- exfalso. cbn [map snd] in Hyd. apply elem_of_list_singleton in Hyd. subst y. apply Hij.
           by apply (NoDup_lookup as_ i j b).
    + intros i y z Hy Hyd Hz. destruct (decide (i = j)) as [-> |Hij].
      * exfalso. apply Hyd. rewrite map_app. apply elem_of_app. right. assert (y = b) as -> by congruence. constructor.
      * destruct (S4 i z Hij Hz) as [Hz'|Hz']; [|done]. apply (Hopen i y z Hy); [|done].
        intros Hc. apply Hyd. rewrite map_app. apply elem_of_app. by left.
  - cbn [cont_init]. split; [done|]. split; [done|]. exists []. split; [done|]. split; [cbn; lia|]. split.
    + intros i kv y _ _ Hi. by apply elem_of_nil in Hi.
    + intros i y l _ _ Hl. done.
  - assert (forall i kv, kvs !! i = Some kv -> exists lk lv, sl !! i = Some (SPair lk lv) /\ key_shows (m_heap (l_mem s1)) (fst kv) lk /\ shows (m_heap (l_mem s1)) (snd kv) lv) as Hall.
    { intros i kv Hkv. destruct (Hat i kv Hkv) as (x & b & X1 & X2 & _). apply (Hdone i kv x Hkv X1).
      rewrite Hp', Hsnd. by eapply elem_of_list_lookup_2. }
    assert (length sl = length kvs) as Hls.
    { destruct (decide (length sl = length kvs)) as [->|Hne]; [done|exfalso].
      destruct (lookup_lt_is_Some_2 kvs (length sl)) as [kv Hkv]; [lia|].
      destruct (Hall _ _ Hkv) as (? & ? & Hl & _). apply lookup_lt_Some in Hl. lia. }
    assert (exists ps, sl = map (fun p => SPair (fst p) (snd p)) ps /\
      Forall2 (fun kv p => key_shows (m_heap (l_mem s1)) (fst kv) (fst p) /\ shows (m_heap (l_mem s1)) (snd kv) (snd p)) kvs ps) as (ps & -> & Hps).
    { clear -Hall Hls. revert sl Hall Hls. induction kvs as [|kv r IH]; intros [|y sl] Hall Hls; try done.
      - exists []. split; [done|constructor].
      - destruct (Hall O kv eq_refl) as (lk & lv & [= ->] & K1 & K2).
        destruct (IH sl) as (ps & -> & Hps). { intros i kv' Hkv. exact (Hall (S i) kv' Hkv). } { by injection Hls. }
        exists ((lk, lv) :: ps). split; [done|]. by constructor. }
    exists s1, ps. by split_and!.
Qed.
Lemma dict_made fu kvs ps c m : c = CDict \/ c = COrderedDict -> mgood m ->
  Forall (fun kv => key_ok4 (fst kv)) kvs -> NoDup (map (fun kv => key_form (fst kv)) kvs) ->
  Forall2 (fun kv p => key_shows (m_heap m) (fst kv) (fst p) /\ shows (m_heap m) (snd kv) (snd p)) kvs ps ->
  exists m' l, dict_convert (S fu) c (map (fun p => SPair (fst p) (snd p)) ps) m = Ok (m', l) /\ grown m m' /\
    m_heap m' !! l = Some (Obj c (VDict ps)).
Proof.
  intros Hc Hm Hks Hnd Hps.
  assert (res_mapM (slot_pair (m_heap m)) (map (fun p => SPair (fst p) (snd p)) ps) = Ok ps) as Hsl.
  { apply res_mapM_ok. apply Forall2_fmap_l. clear. induction ps as [|[]]; constructor; auto. }
  assert (dict_of (S fu) (m_heap m) [] ps = Ok (zip (map (fun kv => key_form (fst kv)) kvs) ps)) as Hd.
  { change (zip (map (fun kv => key_form (fst kv)) kvs) ps) with ([] ++ zip (map (fun kv => key_form (fst kv)) kvs) ps).
    apply dict_of_distinct; [|done]. clear -Hks Hps. induction Hps as [|kv p kvs ps [K1 _] _ IH]; [constructor|].
    apply Forall_cons_1 in Hks as [Hk Hks]. cbn [map]. constructor; [|by apply IH]. by apply key_hashes. }
  destruct (alloc (Obj c (VDict ps)) m) as [m' l] eqn:Ea. destruct (alloc_grown _ _ _ _ Hm Ea) as (G & Hl & _).
  exists m', l. split; [|by split].
  assert (map snd (zip (map (fun kv => key_form (fst kv)) kvs) ps) = ps) as Hz.
  { apply snd_zip. rewrite map_length. apply Forall2_length in Hps. lia. }
  destruct Hc as [-> | ->]; unfold dict_convert; cbn [base_cls]; rewrite Hsl; cbn [res_bind]; rewrite Hd; cbn [res_map]; by rewrite Hz, Ea.
Qed.

(** *** Arrays *)
Lemma dtype_name_parse d : named_dtype (dtype_name d) = Some d.
Proof. destruct d as [|[]|[]|[]|[]]; vm_compute; reflexivity. Qed.
Lemma adtype_name d : parse_adtype (dtype_name d) = Ok (ADNum d).
Proof. unfold parse_adtype. by rewrite dtype_name_parse. Qed.
Lemma attrs4_dtype t b s : attr_dtype (attrs4 t b [(a_np_dtype, AStr s)]) = Ok s.
Proof. unfold attr_dtype. rewrite attrs4_more by done. simpl. by rewrite lookup_insert. Qed.
Lemma cast_all d vs : Forall (fun n => cast d n = Ok n) vs -> res_mapM (cast d) vs = Ok vs.
Proof. intros H. apply res_mapM_ok. induction H; constructor; auto. Qed.
Lemma ascii_all vs : Forall ascii_text vs -> res_mapM ascii_decode vs = Ok vs.
Proof.
  intros H. apply res_mapM_ok. induction H as [|s vs Hs _ IH]; constructor; auto.
  unfold ascii_decode. assert (forallb (fun c => c <? 128) s = true) as ->; [|done].
  apply forallb_forall. intros c Hc. unfold ascii_text in Hs. rewrite list.Forall_forall in Hs.
  apply elem_of_list_In in Hc. specialize (Hs c Hc). lia.
Qed.
Lemma utf8_ascii s : ascii_text s -> utf8_decode s = Ok s.
Proof.
  induction 1 as [|c s Hc _ IH]; [done|]. cbn [utf8_decode].
  assert (c <? 0x80 = true) as -> by lia. by rewrite IH.
Qed.
Lemma single_discover h x l : single4 x = true -> shows h x l -> discover 32 h l = [] /\ awkward h l = false.
Proof.
  unfold awkward. destruct x; cbn [single4 shows]; try done; intros _.
  - intros H. split; [cbn [discover]|]; by rewrite H.
  - intros H. split; [cbn [discover]|]; by rewrite H.
  - intros H. split; [cbn [discover]|]; by rewrite H.
  - intros H. split; [cbn [discover]|]; by rewrite H.
  - intros (ps & H & _). split; [cbn [discover]|]; by rewrite H.
  - intros H. split; [cbn [discover]|]; by rewrite H.
Qed.

Lemma one_each vs : Forall (fun s => length s = 1%nat) vs -> map (fun c => [c]) (one_byte_each vs) = vs.
Proof.
  unfold one_byte_each. induction 1 as [|s vs Hs _ IH]; [done|]. cbn [map]. rewrite IH.
  destruct s as [|c [|]]; done.
Qed.
Lemma one_each_ascii vs : Forall ascii_text vs -> ascii_text (one_byte_each vs).
Proof.
  unfold one_byte_each. induction 1 as [|s vs Hs _ IH]; [constructor|]. cbn [map].
  apply Coq.Lists.List.Forall_cons; [|done]. destruct Hs as [|c s Hc _]; [reflexivity|exact Hc].
Qed.
Lemma shows_seq h c xs l ls : h !! l = Some (Obj c (VSeq ls)) -> Forall2 (shows h) xs ls -> shows h (QSeq c xs) l.
Proof. intros H1 H2. exists ls. split; [done|]. left. by apply all2_Forall2. Qed.
Lemma shows_list_mono h h' xs ls : h ⊆ h' -> Forall2 (shows h) xs ls -> Forall2 (shows h') xs ls.
Proof. intros Hh H. eapply Forall2_impl; [exact H|]. intros x l. by apply shows_mono. Qed.

(** A list or tuple made of new objects. *)
Lemma made_seq fu c os xs m : c = CList \/ c = CTuple -> mgood m ->
  (forall m' ls, Forall2 (fun o l => m_heap m' !! l = Some o) os ls ->
     Forall2 (shows (m_heap m')) xs ls \/ exists d, Forall2 (elem_shows (m_heap m') d) xs ls) ->
  exists m' l, (let '(m1, ls) := alloc_list os m in construct_seq fu c ls m1) = Ok (m', l) /\ grown m m' /\ shows (m_heap m') (QSeq c xs) l.
Proof.
  intros Hc Hm Hx. destruct (alloc_list os m) as [m1 ls] eqn:Ea. destruct (alloc_list_grown os m m1 ls Hm Ea) as [G1 H1].
  destruct (construct_ok fu c ls m1 Hc (proj1 G1)) as (m2 & l & -> & G2 & Hl).
  exists m2, l. split; [done|]. split; [by eapply grown_trans|]. exists ls. split; [done|].
  destruct (Hx m1 ls H1) as [H|[d H]]; [left|right; exists d]; apply all2_Forall2; (eapply Forall2_impl; [exact H|]); intros x y.
  - apply shows_mono, G2.
  - apply elem_shows_mono, G2.
Qed.

Lemma list_max_le x xs : x ∈ xs -> (x <= list_max xs)%nat.
Proof.
  intros H. assert (list_max xs <= list_max xs)%nat as X by done. apply list_max_le in X.
  rewrite List.Forall_forall in X. apply X. by apply elem_of_list_In.
Qed.


Ltac memb := apply (bool_decide_unpack _); vm_compute; exact I.
Ltac made Hm := match goal with |- context [alloc ?o ?m] =>
    let m' := fresh "m'" in let l := fresh "l" in let Ea := fresh "Ea" in let G := fresh "G" in let Hl := fresh "Hl" in
    destruct (alloc o m) as [m' l] eqn:Ea; destruct (alloc_grown _ _ _ _ Hm Ea) as (G & Hl & _);
    exists m', l; split; [reflexivity|]; split; [exact G|] end.

(** *** Masked arrays *)
Lemma mask_found a dims n mask : has_mask f a dims n mask -> exists d, mask_data f a = Ok (Some d) /\ mask_data4 dims n mask d.
Proof.
  intros (p & nm & pn & b & d & Hp & Hin & Hu & Hb & [nb Hmk] & Hd). exists d. split; [|done].
  assert (parent_link f a = Some (pn, nm)) as Hl.
  { unfold parent_link. set (F := fun '(_, n) => option_map (fun '(nm, _) => (n, nm)) (head (List.filter (fun '(_, b) => b =? a) (links n)))).
    destruct (omap F (map_to_list (f_nodes f))) as [|[pn' nm'] r] eqn:Eo.
    - exfalso. assert (exists y, F (p, pn) = Some y) as [y Hy].
      { unfold F. destruct (List.filter _ (links pn)) as [|[k c] r] eqn:Ef; [|by eexists].
        exfalso. apply elem_of_list_In in Hin. assert (In (nm, a) (List.filter (fun '(_, b) => b =? a) (links pn))) as Hx.
        { apply filter_In. split; [done|]. lia. } by rewrite Ef in Hx. }
      assert (y ∈ omap F (map_to_list (f_nodes f))) as Hx. { apply elem_of_list_omap. exists (p, pn). split; [|done]. by apply elem_of_map_to_list. }
      rewrite Eo in Hx. by apply elem_of_nil in Hx.
    - assert ((pn', nm') ∈ omap F (map_to_list (f_nodes f))) as Hx. { rewrite Eo. constructor. }
      apply elem_of_list_omap in Hx as ([p' n'] & Hx & HF). apply elem_of_map_to_list in Hx. unfold F in HF.
      destruct (List.filter _ (links n')) as [|[k c] r'] eqn:Ef; [done|]. cbn [head option_map] in HF. injection HF as <- <-.
      assert (In (k, c) (List.filter (fun '(_, b) => b =? a) (links n'))) as Hi. { rewrite Ef. by left. }
      apply filter_In in Hi as [Hi Hc]. assert (c = a) as -> by lia. apply elem_of_list_In in Hi.
      destruct (Hu p' k) as [-> ->]; [by exists n'|]. cbn [head]. unfold get_node in Hp. congruence. }
  unfold mask_data. rewrite Hl. unfold mask_name. rewrite Hb, Hmk. done.
Qed.
Lemma cast_bools mask : res_mapM (cast DBool) (map NB mask) = Ok (map NB mask).
Proof. induction mask as [|b mask IH]; [done|]. cbn [map res_mapM]. rewrite IH. by destruct b. Qed.
Lemma mask_fits dims n mask d : mask_data4 dims n mask d ->
  exists sh ms, dataset_numbers d = Ok (sh, ms) /\ res_bind (res_mapM (cast DBool) ms) (fit_mask n) = Ok (map NB mask).
Proof.
  intros [Hl [-> |(b & -> & ->)]].
  - exists dims, (map NB mask). split; [done|]. rewrite cast_bools. cbn [res_bind]. destruct mask as [|b [|b' mask]].
    + subst n. done.
    + subst n. done.
    + unfold fit_mask. cbn [map]. rewrite bool_decide_eq_true_2; [done|]. cbn [length]. by rewrite map_length.
  - exists [], [NB b]. split; [done|]. change [NB b] with (map NB [b]). rewrite cast_bools. cbn [res_bind map fit_mask]. f_equal. clear. induction n as [|n IH]; [done|]. cbn [repeat map]. by f_equal.
Qed.

(** *** Sparse matrices *)
Definition part_cls (nm : pystr) : cls := if bool_decide (nm = str "shape") then CTuple else CNdarray.
Lemma redirect_part k nm dt : nm ∈ part_names ->
  exists p, redirect nm dt (part_attrs k nm) = Ok (Some p) /\ px_node p = part_attrs k nm /\
    px_own p !! a_type = Some (APickle (part_cls nm)) /\ px_own p !! a_base_type = Some (ABytes (cls_name (part_cls nm))) /\
    px_own p !! a_str_type = None /\ (nm <> str "shape" -> px_own p !! a_np_dtype = Some (ABytes dt)).
Proof.
  intros Hn. pose proof (part_type k nm Hn) as Ht. pose proof (part_base k nm Hn) as Hb.
  assert (part_attrs k nm !! a_np_dtype = None) as Hd. { unfold part_attrs. case_bool_decide; by rewrite attrs4_more by done. }
  unfold redirect. cbv zeta. unfold px_get, wrap, px_put. cbn [px_own px_node]. rewrite !lookup_empty, Ht, Hb, Hd.
  unfold part_names in Hn. repeat (apply elem_of_cons in Hn as [->|Hn]; [|]); [..|by apply elem_of_nil in Hn].
  - rewrite (bool_decide_eq_true_2 (str "data" = str "data")) by done. rewrite (bool_decide_eq_false_2 (str "data" = str "shape")) by done.
    cbn [px_own px_node]. rewrite !(lookup_insert_ne _ _ a_np_dtype) by done. rewrite lookup_insert.
    eexists. split; [reflexivity|]. cbn [px_own px_node]. split_and!; [done|..|intros _].
    + rewrite !(lookup_insert_ne _ _ a_type) by done. by rewrite lookup_insert.
    + by rewrite lookup_insert.
    + rewrite !(lookup_insert_ne _ _ a_str_type) by done. by rewrite lookup_empty.
    + rewrite !(lookup_insert_ne _ _ a_np_dtype) by done. by rewrite lookup_insert.
  - rewrite (bool_decide_eq_false_2 (str "indices" = str "data")) by done. rewrite (bool_decide_eq_false_2 (str "indices" = str "shape")) by done.
    change (sparse_index (str "indices")) with (Some 1%nat). cbv iota.
    cbn [px_own px_node]. rewrite !(lookup_insert_ne _ _ a_np_dtype) by done. rewrite lookup_empty.
    eexists. split; [reflexivity|]. cbn [px_own px_node]. split_and!; [done|..|intros _].
    + rewrite !(lookup_insert_ne _ _ a_type) by done. by rewrite lookup_insert.
    + rewrite !(lookup_insert_ne _ _ a_base_type) by done. by rewrite lookup_insert.
    + rewrite !(lookup_insert_ne _ _ a_str_type) by done. by rewrite lookup_empty.
    + by rewrite lookup_insert.
  - rewrite (bool_decide_eq_false_2 (str "indptr" = str "data")) by done. rewrite (bool_decide_eq_false_2 (str "indptr" = str "shape")) by done.
    change (sparse_index (str "indptr")) with (Some 2%nat). cbv iota.
    cbn [px_own px_node]. rewrite !(lookup_insert_ne _ _ a_np_dtype) by done. rewrite lookup_empty.
    eexists. split; [reflexivity|]. cbn [px_own px_node]. split_and!; [done|..|intros _].
    + rewrite !(lookup_insert_ne _ _ a_type) by done. by rewrite lookup_insert.
    + rewrite !(lookup_insert_ne _ _ a_base_type) by done. by rewrite lookup_insert.
    + rewrite !(lookup_insert_ne _ _ a_str_type) by done. by rewrite lookup_empty.
    + by rewrite lookup_insert.
  - rewrite (bool_decide_eq_false_2 (str "shape" = str "data")) by done. rewrite (bool_decide_eq_true_2 (str "shape" = str "shape")) by done.
    change (sparse_index (str "shape")) with (Some 3%nat). cbv iota.
    eexists. split; [reflexivity|]. cbn [px_own px_node]. split_and!; [done|..|done].
    + rewrite !(lookup_insert_ne _ _ a_type) by done. by rewrite lookup_insert.
    + by rewrite lookup_insert.
    + rewrite !(lookup_insert_ne _ _ a_str_type) by done. by rewrite lookup_empty.
Qed.

(** One of the members is loaded as array or tuple. *)
Lemma part_loaded fu k nm d dims vs a p n s : part4 f k nm d dims vs a -> sgood s ->
  (nm = str "shape" -> dims = [N.of_nat (length vs)]) ->
  redirect nm (dtype_str d) (part_attrs k nm) = Ok (Some p) ->
  exists s1 l, load_redirected E fu L4 f a n (DArray d dims vs) (px_own p ∪ px_node p) s = Ok (s1, l) /\
    sgood s1 /\ m_heap (l_mem s) ⊆ m_heap (l_mem s1) /\ part_shows (m_heap (l_mem s1)) nm d dims vs l.
Proof.
  intros Hp Hs Hdim Hr. pose proof Hp as (Hnm & Hcast & Hn). pose proof Hs as [Hm Hmemo].
  unfold load_redirected. destruct (l_memo s !! a) as [l|] eqn:Em.
  { exists s, l. split_and!; auto. destruct (Hmemo a l Em) as (_ & _ & D & _). by apply (D k). }
  destruct (redirect_part k nm (dtype_str d) Hnm) as (p' & Hr' & P0 & P1 & P2 & P3 & P4). rewrite Hr in Hr'. injection Hr' as <-.
  set (at_ := px_own p ∪ px_node p).
  assert (forall key v, px_own p !! key = Some v -> at_ !! key = Some v) as Hl. { intros key v Hk. by apply lookup_union_Some_l. }
  assert (at_ !! a_str_type = None) as Hst.
  { unfold at_. rewrite lookup_union_r by done. rewrite P0. unfold part_attrs. case_bool_decide; by rewrite attrs4_more by done. }
  assert (part_cls nm ∈ [CTuple; CNdarray]) as Hc. { unfold part_cls. case_bool_decide; memb. }
  destruct (importable (part_cls nm)) as [Hf Hi]. { left. unfold part_cls. case_bool_decide; memb. }
  destruct (l4_load (part_cls nm) (cls_name (part_cls nm))) as [memo Hld]. { unfold part_cls. case_bool_decide; memb. }
  assert (resolve_type E true f (Node (nd_name n) at_ (BData (DArray d dims vs))) = Ok (Resolved (part_cls nm) (cls_name (part_cls nm)) (cls_name (part_cls nm)) false)) as Hrt.
  { unfold resolve_type. cbn [nd_attrs]. rewrite (Hl _ _ P1). rewrite bool_decide_eq_false_2 by done. rewrite Hi. cbv zeta. unfold base_attr. by rewrite (Hl _ _ P2). }
  rewrite l4_legacy, Hrt. cbn [res_bind r_cls r_base r_orig]. rewrite Hld. cbn [res_bind].
  assert (exists m' l, load_dataset E fu f a (default LRecover (ld_types L4 (cls_name (part_cls nm)))) at_ (DArray d dims vs) (cls_name (part_cls nm)) (part_cls nm) (l_mem s) = Ok (m', l) /\
    grown (l_mem s) m' /\ part_shows (m_heap m') nm d dims vs l) as (m' & l & H1 & G & Hsh).
  { unfold part_cls, part_shows in *. destruct (bool_decide (nm = str "shape")) eqn:Eb.
    - apply bool_decide_eq_true in Eb. rewrite (l4_type (cls_name CTuple) LList) by memb.
      change (default LRecover (Some LList)) with LList. cbn [load_dataset load_fn]. unfold load_list.
      rewrite (Hdim Eb).
      destruct (alloc_list (map (fun v => Obj (CNp d) (VNum v)) vs) (l_mem s)) as [m1 ls] eqn:Ea.
      destruct (alloc_list_grown _ _ _ _ Hm Ea) as [G1 Hls].
      destruct (construct_ok fu CTuple ls m1 (or_intror eq_refl) (proj1 G1)) as (m2 & l & C1 & G2 & Hl').
      exists m2, l. split; [exact C1|]. split; [by eapply grown_trans|]. exists ls. split; [done|].
      apply all2_Forall2. apply Forall2_fmap_l in Hls. eapply Forall2_impl; [exact Hls|]. intros n' x Hx. exact (lookup_weaken _ _ _ _ Hx (proj2 G2)).
    - apply bool_decide_eq_false in Eb. rewrite (l4_type (cls_name CNdarray) LNdarray) by memb.
      change (default LRecover (Some LNdarray)) with LNdarray. cbn [load_dataset load_fn]. unfold load_ndarray, attr_dtype.
      rewrite (Hl _ _ (P4 Eb)). cbn [res_bind]. rewrite parse_adtype_num. cbn [res_bind]. rewrite (cast_all _ _ Hcast). cbn [res_map].
      change (arr_cls CNdarray) with CNdarray. made Hm. exact Hl0. }
  rewrite H1. cbn [res_map]. eexists _, l. split; [reflexivity|]. rewrite put_heap. cbn [set_mem l_mem]. split; [|split; [apply G|done]].
  apply put_good; [by apply set_mem_good|..]; cbv beta.
  - intros v Hv. by destruct (part_no_stored _ _ _ _ _ _ _ Hp Hv).
  - intros i ky b v Hi' _. by destruct (part_no_item _ _ _ _ _ _ _ _ _ Hp Hi').
  - intros k' nm' d' dims' vs' Hp'. by destruct (part4_det _ _ _ _ _ _ _ _ _ _ _ _ Hp Hp') as (_ & <- & <- & <- & <-).
  - intros d' Hmk. by destruct (mask_no_part _ _ _ _ _ _ _ Hmk Hp).
Qed.

(** The loop over the members. *)
Lemma redirect_inv fuel (P : list (pystr * addr) -> cls -> cstate -> lst -> Prop) ms :
  (forall done nm a r pt cs s, ms = done ++ (nm, a) :: r -> P done pt cs s ->
     exists k d dims vs p pt' s1 l m cs', part4 f k nm d dims vs a /\
       redirect nm (dtype_str d) (part_attrs k nm) = Ok (Some p) /\
       (if bool_decide (nm = str "data") then matrix_class E (part_attrs k nm) else Ok pt) = Ok pt' /\
       (forall n, load_redirected E fuel L4 f a n (DArray d dims vs) (px_own p ∪ px_node p) s = Ok (s1, l)) /\
       cont_append E fuel KSparse nm l (px_own p ∪ px_node p) cs (l_mem s1) = Ok (m, cs') /\
       P (done ++ [(nm, a)]) pt' cs' (set_mem m s1)) ->
  forall pt cs s, P [] pt cs s -> exists s' cs' pt', redirect_members E fuel L4 f ms pt cs s = Ok (s', cs', pt') /\ P ms pt' cs' s'.
Proof.
  intros Hst. assert (forall r done pt cs s, ms = done ++ r -> P done pt cs s ->
    exists s' cs' pt', redirect_members E fuel L4 f r pt cs s = Ok (s', cs', pt') /\ P ms pt' cs' s') as X; [|intros; by apply (X ms [])].
  induction r as [|[nm a] r IH]; intros done pt cs s Hms HP.
  - rewrite app_nil_r in Hms. subst. exists s, cs, pt. by split.
  - destruct (Hst done nm a r pt cs s Hms HP) as (k & d & dims & vs & p & pt' & s1 & l & m & cs' & (_ & _ & [nn Hn]) & H2 & H3 & H4 & H5 & H6).
    cbn [redirect_members]. rewrite Hn. cbn [nd_body nd_attrs]. cbv zeta. rewrite H2. cbn [res_bind].
    rewrite H3. cbn [res_bind]. rewrite H4. cbn [res_bind]. rewrite H5. cbn [res_bind].
    apply (IH (done ++ [(nm, a)])); [|done]. by rewrite <-app_assoc.
Qed.
Lemma sparse_index_inj nm nm' i : sparse_index nm = Some i -> sparse_index nm' = Some i -> nm = nm'.
Proof.
  unfold sparse_index. repeat case_bool_decide; try discriminate; intros [= <-]; try discriminate; congruence.
Qed.
Lemma part_index nm : nm ∈ part_names -> exists i, sparse_index nm = Some i /\ (i < 4)%nat.
Proof.
  intros Hn. unfold part_names in Hn. repeat (apply elem_of_cons in Hn as [->|Hn]; [eexists; split; [reflexivity|lia]|]). by apply elem_of_nil in Hn.
Qed.

Lemma sparse4 fu k d dims vs ix ip sh a1 a2 a3 a4 a l s at_ :
  e_imports E (CSparse k) = true ->
  Permutation l [(str "data", a1); (str "indices", a2); (str "indptr", a3); (str "shape", a4)] ->
  part4 f k (str "data") d dims vs a1 -> vector4 f k (str "indices") ix a2 -> vector4 f k (str "indptr") ip a3 -> vector4 f k (str "shape") sh a4 ->
  sgood s ->
  exists s1 ld li lp ls, redirect_members E fu L4 f (e_order E a l) return_first (cont_init KSparse at_) s =
      Ok (s1, SSlots [Some ld; Some li; Some lp; Some ls], CSparse k) /\
    sgood s1 /\ m_heap (l_mem s) ⊆ m_heap (l_mem s1) /\
    m_heap (l_mem s1) !! ld = Some (Obj CNdarray (VArr d dims vs)) /\ vector_shows (m_heap (l_mem s1)) ix li /\
    vector_shows (m_heap (l_mem s1)) ip lp /\ size_shows (m_heap (l_mem s1)) (fst sh) (snd sh) ls.
Proof.
  intros Himk Hp D1 D2 D3 D4 Hs.
  set (M := [(str "data", a1); (str "indices", a2); (str "indptr", a3); (str "shape", a4)]) in *.
  assert (Permutation (e_order E a l) M) as Hp'. { rewrite <-Hp. apply (ok_order E HE). }
  assert (forall nm b, (nm, b) ∈ M -> exists d dims vs, part4 f k nm d dims vs b /\ (nm = str "shape" -> dims = [N.of_nat (length vs)])) as HM.
  { intros nm b Hin. unfold M in Hin. unfold vector4 in *.
    repeat (apply elem_of_cons in Hin as [[= -> ->]|Hin]; [eexists _, _, _; split; [eassumption|done]|]). by apply elem_of_nil in Hin. }
  assert (NoDup (map fst M)) as Hnd. { apply (bool_decide_unpack _). vm_compute. exact I. }
  set (P := fun (done : list (pystr * addr)) pt cs s' => sgood s' /\ m_heap (l_mem s) ⊆ m_heap (l_mem s') /\
    (str "data" ∈ map fst done -> pt = CSparse k) /\
    exists xs, cs = SSlots xs /\ length xs = 4%nat /\
      forall nm b i d dims vs, sparse_index nm = Some i -> (nm, b) ∈ done -> part4 f k nm d dims vs b ->
        exists l, xs !! i = Some (Some l) /\ part_shows (m_heap (l_mem s')) nm d dims vs l).
  destruct (redirect_inv fu P (e_order E a l)) with (pt := return_first) (cs := cont_init KSparse at_) (s := s)
    as (s1 & cs & pt & H1 & Hg & Hh & Hpt & xs & -> & Hlen & Hdone).
  - intros done nm b r pt cs s' Hms (Hg & Hh & Hpt & xs & -> & Hlen & Hdone).
    assert ((nm, b) ∈ M) as Hin. { rewrite <-Hp', Hms. apply elem_of_app. right. constructor. }
    destruct (HM nm b Hin) as (d' & dims' & vs' & Hpart & Hdim). pose proof Hpart as (Hnm & _ & _).
    destruct (redirect_part k nm (dtype_str d') Hnm) as (p & Hr & _).
    destruct (part_index nm Hnm) as (i & Hi & Hi4).
    assert (exists s1 l, (forall n, load_redirected E fu L4 f b n (DArray d' dims' vs') (px_own p ∪ px_node p) s' = Ok (s1, l)) /\
      sgood s1 /\ m_heap (l_mem s') ⊆ m_heap (l_mem s1) /\ part_shows (m_heap (l_mem s1)) nm d' dims' vs' l) as (s1 & lo & L1 & L2 & L3 & L4').
    { destruct (part_loaded fu k nm d' dims' vs' b p (Node [] ∅ (BGroup [])) s' Hpart Hg Hdim Hr) as (s1 & lo & X1 & X2 & X3 & X4).
      exists s1, lo. split; [|by split_and!]. intros n. exact X1. }
    exists k, d', dims', vs', p, (if bool_decide (nm = str "data") then CSparse k else pt), s1, lo, (l_mem s1), (SSlots (<[i := Some lo]> xs)).
    split; [done|]. split; [done|]. split.
    { case_bool_decide; [|done]. subst nm. unfold matrix_class. rewrite (part_type k (str "data") Hnm), bool_decide_eq_true_2 by done. cbn [base_cls]. by rewrite Himk. }
    split; [done|]. split. { cbn [cont_append]. by rewrite Hi. }
    assert (nm ∉ map fst done) as Hnew.
    { pose proof Hnd as X. rewrite <-Hp', Hms, map_app in X. apply NoDup_app in X as (_ & X & _). intros Hc. apply (X _ Hc). constructor. }
    destruct s1 as [m1 memo1]. cbn [set_mem l_mem l_memo] in *. unfold P. split; [done|]. split; [by etrans|]. split.
    { intros Hd. case_bool_decide as Hx; [done|]. apply Hpt. rewrite map_app in Hd. apply elem_of_app in Hd as [Hd|Hd]; [done|].
      cbn [map fst] in Hd. apply elem_of_list_singleton in Hd. by destruct Hx. }
    exists (<[i := Some lo]> xs). split; [done|]. split; [by rewrite insert_length|].
    intros nm2 b2 i2 d2 dims2 vs2 Hi2 Hin2 Hpart2. apply elem_of_app in Hin2 as [Hin2|Hin2].
    + destruct (decide (i2 = i)) as [-> |Hne].
      { exfalso. apply Hnew. rewrite (sparse_index_inj nm nm2 i Hi Hi2). apply elem_of_list_fmap. by exists (nm2, b2). }
      destruct (Hdone nm2 b2 i2 d2 dims2 vs2 Hi2 Hin2 Hpart2) as (l2 & X1 & X2). exists l2. rewrite list_lookup_insert_ne by done. split; [done|].
      by eapply part_shows_mono.
    + apply elem_of_list_singleton in Hin2. injection Hin2 as -> ->. rewrite Hi in Hi2. injection Hi2 as <-.
      destruct (part4_det _ _ _ _ _ _ _ _ _ _ _ _ Hpart Hpart2) as (_ & _ & <- & <- & <-).
      exists lo. split; [|done]. apply list_lookup_insert. lia.
  - cbn [cont_init]. unfold P. split; [done|]. split; [done|]. split; [by intros ?%elem_of_nil|]. exists (repeat None 4). split; [done|]. split; [done|].
    intros nm b i d' dims' vs' _ Hin. by apply elem_of_nil in Hin.
  - assert (forall nm b, (nm, b) ∈ M -> (nm, b) ∈ e_order E a l) as Hin. { intros nm b Hin. by rewrite Hp'. }
    unfold vector4, M in *.
    destruct (Hdone (str "data") a1 0%nat d dims vs) as (ld & X1 & Y1); [done|apply Hin; constructor|done|].
    destruct (fun X Y => Hdone (str "indices") a2 1%nat _ _ _ X Y D2) as (li & X2 & Y2); [done|apply Hin; repeat first [apply elem_of_list_here|apply elem_of_list_further]|].
    destruct (fun X Y => Hdone (str "indptr") a3 2%nat _ _ _ X Y D3) as (lp & X3 & Y3); [done|apply Hin; repeat first [apply elem_of_list_here|apply elem_of_list_further]|].
    destruct (fun X Y => Hdone (str "shape") a4 3%nat _ _ _ X Y D4) as (ls & X4 & Y4); [done|apply Hin; repeat first [apply elem_of_list_here|apply elem_of_list_further]|].
    destruct xs as [|x1 [|x2 [|x3 [|x4 [|]]]]]; try discriminate Hlen. injection X1 as ->. injection X2 as ->. injection X3 as ->. injection X4 as ->.
    exists s1, ld, li, lp, ls. rewrite H1, Hpt.
    2: { apply elem_of_list_fmap. exists (str "data", a1). split; [done|]. apply Hin. constructor. }
    split; [done|]. split; [done|]. split; [done|]. split; [exact Y1|]. split; [exact Y2|]. split; [exact Y3|exact Y4].
Qed.

Lemma load4 v : forall fuel a s, (height4 v <= fuel)%nat -> stored4 E f v a -> sgood s -> gives s v (load_ fuel E L4 f a s).
Proof.
  induction v as [|c n|t|b|c xs IH|c kvs IH|d sh vs|w sh vs|x IH|c k n|k d dims vs ix ip sh|d dims vs mk] using val4_ind'; intros fuel a s Hh Hv Hs;
    (destruct fuel as [|fu]; [cbn [height4] in Hh; lia|]); pose proof Hs as [Hm _]; pose proof Hv as Hv0; cbn [stored4] in Hv.
  - destruct Hv as [d Hn]. eapply (leaf4 _ _ _ _ _ _ _ _ LNone Hn Hv0 Hs); [left; memb|done|memb|].
    cbn [load_fn]. unfold load_none. made Hm. exact Hl.
  - destruct c; try (destruct Hv as [Hv _]; destruct n; done).
    5: { destruct Hv as [Hc Hn]. eapply (leaf4 _ _ _ _ _ _ _ _ LNpScalar Hn Hv0 Hs); [right; by eexists|done|memb|].
         cbn [load_fn]. unfold load_np_scalar. rewrite attrs4_dtype. cbn [res_bind]. rewrite dtype_name_parse, Hc. cbn [res_map].
         made Hm. exact Hl. }
    all: destruct Hv as [Hc [d Hn]]; destruct n; try done;
      (eapply (leaf4 _ _ _ _ _ _ _ _ LScalar Hn Hv0 Hs); [left; memb|done|memb|]);
      cbn [load_fn]; unfold load_scalar; cbn [base_cls num_convert truthy float_of_num res_map];
      made Hm; exact Hl.
  - destruct Hv as (b & Hb & Hn). eapply (leaf4 _ _ _ _ _ _ _ _ L4xString Hn Hv0 Hs); [left; memb|done|memb|].
    cbn [load_fn]. unfold load_4x_string. rewrite attrs4_more by done. cbn [list_to_map]. change ((list_to_map [] : attrs) !! a_str_type) with (@None attrv).
    cbv iota. rewrite bool_decide_eq_true_2 by done. rewrite (utf8_decode_encode _ _ Hb). cbn [res_map]. made Hm. exact Hl.
  - eapply (leaf4 _ _ _ _ _ _ _ _ LList Hv Hv0 Hs); [left; memb|done|memb|].
    cbn [load_fn]. unfold load_list. rewrite attrs4_more by done. change ((list_to_map [] : attrs) !! a_str_type) with (@None attrv).
    cbn [attr_is base_cls]. made Hm. exact Hl.
  - destruct Hv as [Hc Hv].
    assert (c ∈ [CNoneType; CBool; CInt; CFloat; CComplex; CStr; CBytes; CList; CTuple; CDict; COrderedDict; CNdarray]) as Hc'.
    { destruct Hc as [-> | ->]; memb. }
    assert ((cls_name c, LList) ∈ l4_types) as Ht. { destruct Hc as [-> | ->]; memb. }
    destruct Hv as [(as_ & xt & l & Hn & Hnd & Hp & Hxt & Ha)|[(-> & Hn)|[(k & d & vs & -> & Hk & Hn)|[(w & ss & -> & Hss & Hw & Hn)|(w & bs & -> & Hn)]]]].
    + apply all2_Forall2 in Ha. destruct Hn as [nm Hn]. destruct (importable c) as [Hf Hi]; [by left|].
      destruct (l4_load c (cls_name c)) as [memo Hl]. { destruct Hc as [-> | ->]; memb. }
      destruct (list4 fu xs as_ xt a l s (attrs4 (Some c) (cls_name c) [])) as (s1 & ls & L1 & L2 & L3 & L4'); auto.
      { intros x b s' Hx Hb Hs'. rewrite list.Forall_forall in IH. apply IH; auto. cbn [height4] in Hh.
        pose proof (list_max_le (height4 x) (map height4 xs)) as X.
        assert (height4 x ∈ map height4 xs) as Y by (apply elem_of_list_fmap; by eexists). specialize (X Y). lia. }
      eapply (group4 fu a (Some c) (cls_name c) [] l _ s KList c memo nm Hn); [by apply resolve_typed|exact Hl|by left|done| |reflexivity|].
      { destruct Hc as [-> | ->]; memb. }
      destruct (construct_ok fu c ls (l_mem s1) Hc (proj1 L2)) as (m2 & lo & C1 & C2 & C3).
      assert (exists m2 lo, cont_convert fu KList (attrs4 (Some c) (cls_name c) []) (cls_name c) c (SList ls) (l_mem s1) = Ok (m2, lo) /\ grown (l_mem s1) m2 /\ m_heap m2 !! lo = Some (Obj c (VSeq ls))) as (m3 & lo' & D1 & D2 & D3).
      { cbn [cont_convert]. case_bool_decide as Hcl; [|by eauto]. subst c. made (proj1 L2). done. }
      exists s1, (SList ls), m3, lo'. split_and!; auto. eapply shows_seq; [exact D3|]. eapply shows_list_mono; [apply D2|done].
    + eapply (leaf4 _ _ _ _ _ _ _ _ LList Hn Hv0 Hs); [by left|done|done|]. cbn [load_fn]. unfold load_list.
      destruct (construct_ok fu c [] (l_mem s) Hc Hm) as (m2 & lo & C1 & C2 & C3).
      exists m2, lo. split; [destruct Hc as [-> | ->]; exact C1|]. split; [done|]. eapply shows_seq; [exact C3|constructor].
    + eapply (leaf4 _ _ _ _ _ _ _ _ LList Hn Hv0 Hs); [by left|done|done|]. cbn [load_fn]. unfold load_list.
      apply made_seq; [done|done|]. intros m' ls Hls. right. exists d. apply Forall2_fmap_l. apply Forall2_fmap_l in Hls.
      eapply Forall2_impl; [exact Hls|]. intros n l Hl. exact Hl.
    + eapply (leaf4 _ _ _ _ _ _ _ _ LList Hn Hv0 Hs); [by left|done|done|]. cbn [load_fn]. unfold load_list.
      assert (attrs4 (Some c) (cls_name c) [(a_str_type, AStr (str "str"))] !! a_str_type = Some (AStr (str "str"))) as ->.
      { rewrite attrs4_more by done. simpl. by rewrite lookup_insert. }
      cbn [attr_is]. rewrite bool_decide_eq_true_2 by done.
      assert ((if 1 <? w then res_mapM ascii_decode ss else res_map (map (fun c => [c])) (utf8_decode (one_byte_each ss))) = Ok ss) as ->.
      { destruct Hw as [Hw|[-> H1]].
        - assert (1 <? w = true) as -> by lia. by apply ascii_all.
        - cbn. rewrite utf8_ascii by (by apply one_each_ascii). cbn [res_map]. by rewrite one_each. }
      cbn [res_bind]. apply made_seq; [done|done|]. intros m' ls Hls. left. apply Forall2_fmap_l. apply Forall2_fmap_l in Hls.
      eapply Forall2_impl; [exact Hls|]. intros n l Hl. exact Hl.
    + eapply (leaf4 _ _ _ _ _ _ _ _ LList Hn Hv0 Hs); [by left|done|done|]. cbn [load_fn]. unfold load_list.
      assert (attrs4 (Some c) (cls_name c) [(a_str_type, AStr (str "bytes"))] !! a_str_type = Some (AStr (str "bytes"))) as ->.
      { rewrite attrs4_more by done. simpl. by rewrite lookup_insert. }
      cbn [attr_is]. rewrite bool_decide_eq_false_2 by done.
      apply made_seq; [done|done|]. intros m' ls Hls. right. exists DBool. apply Forall2_fmap_l. apply Forall2_fmap_l in Hls.
      eapply Forall2_impl; [exact Hls|]. intros n l Hl. exact Hl.
  - destruct Hv as (Hc & Hks & Hnd & as_ & bs & l & [nm Hn] & Hp & Hit & Ha).
    destruct fu as [|fu]; [cbn [height4] in Hh; lia|].
    assert (Forall2 (fun kv b => stored4 E f (snd kv) b) kvs bs) as Ha'.
    { apply all2_Forall2 in Ha. eapply Forall2_impl; [exact Ha|]. by intros []. }
    destruct (importable c) as [Hf Hi]. { left. destruct Hc as [-> | ->]; memb. }
    destruct (l4_load c (str "dict")) as [memo Hl]. { destruct Hc as [-> | ->]; memb. }
    destruct (dict4 fu kvs as_ bs a l s (attrs4 (Some c) (str "dict") [])) as (s1 & ps & L1 & L2 & L3 & L4'); auto.
    { intros k x b s' Hx Hb Hs'. rewrite list.Forall_forall in IH. apply (IH (k, x)); auto. cbn [height4] in Hh.
      pose proof (list_max_le (height4 x) (map (fun kv => match kv with (_, x) => height4 x end) kvs)) as X.
      assert (height4 x ∈ map (fun kv : key4 * val4 => match kv with (_, x) => height4 x end) kvs) as Y.
      { apply elem_of_list_fmap. by exists (k, x). } specialize (X Y). cbn [snd]. lia. }
    eapply (group4 (S fu) a (Some c) (str "dict") [] l _ s KDict c memo nm Hn); [by apply resolve_typed|exact Hl|by left|done|memb|reflexivity|].
    destruct (dict_made fu kvs ps c (l_mem s1) Hc (proj1 L2) Hks Hnd L4') as (m2 & lo & C1 & C2 & C3).
    eexists s1, _, m2, lo. split; [exact L1|]. split; [exact C1|]. split_and!; auto.
    exists ps. split; [done|]. apply all2_Forall2. eapply Forall2_impl; [exact L4'|].
    intros [k x] p [K1 K2]. split; [eapply key_shows_mono; [apply C2|exact K1]|eapply shows_mono; [apply C2|exact K2]].
  - unfold array_attrs in Hv. destruct Hv as [Hcast [Hn|(n & -> & -> & Hn)]];
      (eapply (leaf4 _ _ _ _ _ _ _ _ LNdarray Hn Hv0 Hs); [left; memb|done|memb|]); cbn [load_fn]; unfold load_ndarray;
      rewrite attrs4_dtype; cbn [res_bind]; rewrite adtype_name; cbn [res_bind].
    + rewrite (cast_all _ _ Hcast). cbn [res_map]. change (arr_cls CNdarray) with CNdarray. made Hm. exact Hl.
    + apply Forall_cons_1 in Hcast as [Hcast _]. rewrite Hcast. cbn [res_map]. change (arr_cls CNdarray) with CNdarray. made Hm. exact Hl.
  - unfold array_attrs in Hv. destruct Hv as (k & Hk & Hw & Hvs & Hn).
    eapply (leaf4 _ _ _ _ _ _ _ _ LNdarray Hn Hv0 Hs); [left; memb|done|memb|]. cbn [load_fn]; unfold load_ndarray.
    rewrite attrs4_dtype. cbn [res_bind]. change (str "<U" ++ N_dec w) with (str_dtype w). rewrite (parse_str_dtype w) by lia. cbn [res_bind].
    assert (map (np_clip w) vs = vs) as Hclip.
    { clear -Hvs. induction Hvs as [|s vs Hs _ IH]; [done|]. cbn [map]. rewrite IH. f_equal. apply np_clip_id. apply Hs. }
    destruct Hk as [Hk|(-> & -> & Hlen & H1)].
    + assert (1 <? k = true) as -> by lia. rewrite ascii_all. 2: { eapply list.Forall_impl; [exact Hvs|]. by intros ? []. }
      cbn [res_map]. rewrite Hclip. made Hm. exact Hl.
    + assert (1 <? 1 = false) as -> by done. destruct vs as [|t [|]]; try done. apply Forall_cons_1 in H1 as [H1 _]. apply Forall_cons_1 in Hvs as [(A1 & A2 & A3) _].
      destruct t as [|ch [|]]; try done. unfold one_byte_each. cbn [map head from_option].
      change (id ch) with ch. rewrite utf8_ascii by done. cbn [res_map]. injection Hclip as Hclip. rewrite Hclip. made Hm. exact Hl.
  - destruct Hv as (Hsg & b & [nm Hn] & Hb). cbn [height4] in Hh.
    destruct (l4_load moc_lambda (str "ndarray")) as [memo Hl]; [memb|].
    eapply (group4 fu a (Some CFunction) (str "ndarray") _ _ _ s KNDArray moc_lambda memo nm Hn); [|exact Hl|by left|done|memb|reflexivity|].
    { unfold resolve_type. cbn [nd_attrs]. rewrite attrs4_type by reflexivity. cbn [option_map]. rewrite bool_decide_eq_true_2 by done. cbv zeta. by rewrite base_attr4. }
    assert (e_order E a [(str "data", b)] = [(str "data", b)]) as ->.
    { apply Permutation_length_1_inv, Permutation_sym, (ok_order E HE). }
    destruct (IH fu b s) as (s1 & lx & L1 & L2 & L3 & L4'); [lia|done|done|].
    destruct (stored4_node x b Hb) as [n Hn'].
    destruct (single_discover _ _ _ Hsg L4') as [D1 D2].
    destruct (alloc (Obj CNdarray (VObjArr [] [lx])) (l_mem s1)) as [m2 lo] eqn:Ea. destruct (alloc_grown _ _ _ _ (proj1 L2) Ea) as (G & Hlo & _).
    exists s1, (SNd lx), m2, lo. split.
    { cbn [load_members]. rewrite Hn', L1. cbn [res_bind cont_append]. unfold nd_append. rewrite (bool_decide_eq_true_2 (str "data" = str "data")) by done.
      rewrite orb_true_r. cbn [res_map res_bind]. by destruct s1. }
    split; [|split_and!; auto; exists lx; split; [done|]; eapply shows_mono; [apply G|done]].
    cbn [cont_convert]. unfold nd_convert. rewrite attrs4_dtype. cbn [res_bind].
    change (parse_adtype (str "object")) with (Ok ADObj). cbn [res_bind]. rewrite D1. cbn [length leaves existsb]. rewrite D2. cbn [orb].
    rewrite orb_true_r. by rewrite Ea.
  - destruct Hv as [Hi [nm Hn]].
    destruct (l4_load CObject (str "pickle")) as [memo Hl]; [memb|].
    eapply load_step; [exact Hn| |exact Hl|by left|done|].
    { unfold resolve_type. cbn [nd_attrs nd_body]. rewrite attrs4_type by reflexivity. done. }
    unfold inner. assert (ld_types L4 (str "pickle") = Some LPickled) as -> by (apply l4_type; memb).
    change (default LRecover (Some LPickled)) with LPickled. cbn [load_dataset load_fn load_pickled]. rewrite Hi. cbn [res_map].
    destruct (alloc _ _) as [m' l] eqn:Ea. destruct (alloc_grown _ _ _ _ Hm Ea) as (G & Hl' & _).
    eexists _, l. split; [reflexivity|]. split; [by apply set_mem_good|]. split; [apply G|]. exact Hl'.
  - destruct Hv as (Hik & Hir & a1 & a2 & a3 & a4 & l & [nm Hn] & Hp & D1 & D2 & D3 & D4).
    destruct (l4_load return_first (cls_name (CSparse k))) as [memo Hl]; [memb|].
    destruct (sparse4 fu k d dims vs ix ip sh a1 a2 a3 a4 a l s (attrs4 (Some return_first) (cls_name (CSparse k)) []) Hik Hp D1 D2 D3 D4 Hs)
      as (s1 & ld & li & lp & ls & L1 & L2 & L3 & S1 & S2 & S3 & S4).
    eapply load_step; [exact Hn|by apply resolve_typed|exact Hl|by left|done|].
    assert (ld_conts L4 (cls_name (CSparse k)) = Some KSparse) as Hk by (apply l4_cont; destruct k; memb).
    unfold inner. rewrite Hk. change (default KRecover (Some KSparse)) with KSparse. cbv zeta. cbn [members nd_body res_bind].
    change (redirected KSparse return_first) with true. cbv iota. rewrite L1. cbn [res_bind cont_convert sparse_convert].
    destruct (alloc (Obj (CSparse k) (VSparse ld li lp ls)) (l_mem s1)) as [m2 lo] eqn:Ea. destruct (alloc_grown _ _ _ _ (proj1 L2) Ea) as (G & Hlo & _).
    cbn [res_map]. eexists _, lo. split; [reflexivity|]. cbn [set_mem l_mem]. split; [by apply set_mem_good|].
    split; [etrans; [exact L3|apply G]|]. exists ld, li, lp, ls. unfold vector_shows in *.
    split; [done|]. split; [exact (lookup_weaken _ _ _ _ S1 (proj2 G))|]. split; [exact (lookup_weaken _ _ _ _ S2 (proj2 G))|].
    split; [exact (lookup_weaken _ _ _ _ S3 (proj2 G))|]. exact (size_shows_mono _ _ _ _ _ (proj2 G) S4).
  - destruct Hv as (Him & Hc & Hmk & hd & Hd & [nm Hn]).
    destruct (mask_found _ _ _ _ Hmk) as (md & Hm1 & Hm2). destruct (mask_fits _ _ _ _ Hm2) as (sh & ms & Hm3 & Hm4).
    destruct (l4_load CMasked (str "ndarray_masked_data")) as [memo Hl]; [memb|].
    eapply load_step; [exact Hn|by apply resolve_typed|exact Hl|by left|done|].
    unfold inner. assert (ld_types L4 (str "ndarray_masked_data") = Some LNdarrayMasked) as -> by (apply l4_type; memb).
    change (default LRecover (Some LNdarrayMasked)) with LNdarrayMasked. cbn [load_dataset]. rewrite Hm1. cbn [res_bind]. unfold load_ndarray_masked.
    assert (dataset_numbers hd = Ok (dims, vs)) as ->. { by destruct Hd as [-> |(n & -> & -> & ->)]. }
    cbn [res_bind]. rewrite Hm3. cbn [res_bind]. rewrite attrs4_dtype. cbn [res_bind]. rewrite adtype_name. cbn [res_bind].
    rewrite cast_all by done. cbn [res_bind]. rewrite Hm4. cbn [res_bind].
    destruct (alloc (Obj CNdarray (VArr d dims vs)) _) as [m1 ld] eqn:E1. destruct (alloc_grown _ _ _ _ Hm E1) as (G1 & H1 & _).
    destruct (alloc (Obj CNdarray (VArr DBool dims _)) m1) as [m2 lm] eqn:E2. destruct (alloc_grown _ _ _ _ (proj1 G1) E2) as (G2 & H2 & _).
    destruct (alloc (Obj CMasked _) m2) as [m3 lo] eqn:E3. destruct (alloc_grown _ _ _ _ (proj1 G2) E3) as (G3 & H3 & _).
    cbn [res_map]. eexists _, lo. split; [reflexivity|]. cbn [set_mem l_mem].
    pose proof (proj2 G1) as I1. pose proof (proj2 G2) as I2. pose proof (proj2 G3) as I3.
    split; [apply set_mem_good; [done|]|]. { split; [apply G3|]. etrans; [exact I1|]. by etrans; [exact I2|]. }
    split; [etrans; [exact I1|]; by etrans; [exact I2|]|].
    exists ld, lm. split; [done|]. split; [|exact (lookup_weaken _ _ _ _ H2 I3)].
    exact (lookup_weaken _ _ _ _ (lookup_weaken _ _ _ _ H1 I2) I3).
Qed.
End Main.

(** ** The members of a given file *)
Definition only_link (f : file) (a p : addr) (nm : pystr) : bool :=
  forallb (fun '(q, n) => forallb (fun '(k, b) => negb (b =? a) || ((q =? p) && bool_decide (k = nm))) (links n)) (map_to_list (f_nodes f)).
Lemma only_link_spec f a p nm : only_link f a p nm = true -> forall p' nm', member_of f p' nm' a -> p' = p /\ nm' = nm.
Proof.
  unfold only_link. rewrite forallb_forall. intros H p' nm' (n & Hn & Hin).
  assert (In (p', n) (map_to_list (f_nodes f))) as Hx. { apply elem_of_list_In. by apply elem_of_map_to_list. }
  specialize (H _ Hx). cbv beta iota in H. rewrite forallb_forall in H. apply elem_of_list_In in Hin. specialize (H _ Hin). cbv beta iota in H.
  apply orb_true_iff in H as [H|H]; [lia|]. apply andb_true_iff in H as [H1 H2]. apply bool_decide_eq_true in H2. split; [lia|done].
Qed.

(** ** The table hickle 5 adds to a writable file leaves the value as it is *)
Record kept (f f' : file) : Prop := {
  kept_node : forall x n, get_node f x = Some n -> is_Some (nd_attrs n !! a_base_type) -> get_node f' x = Some n;
  kept_links : forall p pn, get_node f p = Some pn -> exists pn', get_node f' p = Some pn' /\
    (forall m, m ∈ links pn -> m ∈ links pn') /\ (forall nm b, alist_get nm (links pn) = Some b -> alist_get nm (links pn') = Some b);
  kept_member : forall p nm a, member_of f' p nm a -> is_Some (get_node f a) -> member_of f p nm a }.
Lemma kept_refl f : kept f f.
Proof. split; [done| |done]. intros p pn Hp. by exists pn. Qed.
Lemma node4_keep f f' a t b more bd :
  (forall x n, get_node f x = Some n -> is_Some (nd_attrs n !! a_base_type) -> get_node f' x = Some n) ->
  node4 f a (attrs4 t b more) bd -> node4 f' a (attrs4 t b more) bd.
Proof. intros H [nm Hn]. exists nm. apply H; [done|]. cbn [nd_attrs]. rewrite attrs4_base. by eexists. Qed.
Lemma items4_keep E f f' i ks as_ bs :
  (forall x n, get_node f x = Some n -> is_Some (nd_attrs n !! a_base_type) -> get_node f' x = Some n) ->
  items4 E f i ks as_ bs -> items4 E f' i ks as_ bs.
Proof.
  intros H. revert i as_ bs. induction ks as [|k ks IH]; intros i [|a as_] [|b bs]; cbn [items4]; try done.
  intros [H1 H2]. split; [|by apply IH]. destruct H1 as (l & Hn & Hl). exists l. unfold item_attrs in *. split; [by apply (node4_keep f f')|].
  destruct Hl as [-> |(c & d & Hc & Hp)]; [by left|right]. exists c, d. split; [|done]. by apply (node4_keep f f').
Qed.
Lemma has_mask_keep f f' a dims n mask : kept f f' -> is_Some (get_node f a) -> has_mask f a dims n mask -> has_mask f' a dims n mask.
Proof.
  intros [K1 K2 K3] Ha (p & nm & pn & b & d & Hp & Hin & Hu & Hb & Hm & Hd).
  destruct (K2 _ _ Hp) as (pn' & Hp' & H1 & H2). exists p, nm, pn', b, d. split; [done|]. split; [by apply H1|]. split; [|split; [by apply H2|split; [|done]]].
  - intros p' nm' Hx. by apply Hu, K3.
  - by apply (node4_keep f f').
Qed.
Lemma stored4_keep E f f' v :
  kept f f' -> forall a, stored4 E f v a -> stored4 E f' v a.
Proof.
  intros HK. pose proof (kept_node _ _ HK) as H. pose proof (fun a t b more bd => node4_keep f f' a t b more bd H) as Hk.
  induction v as [|c n|t|b|c xs IH|c kvs IH|d sh vs|w sh vs|x IH|c k n|k d dims vs ix ip sh|d dims vs mk] using val4_ind'; intros a; cbn [stored4]; unfold array_attrs.
  - intros [d Hn]. eauto.
  - destruct c; try (intros [H1 [d Hn]]; by eauto). intros [H1 Hn]. eauto.
  - intros (b & Hb & Hn). eauto.
  - apply Hk.
  - intros [Hc Hv]. split; [done|].
    destruct Hv as [(as_ & ms & l & Hn & Hnd & Hp & Hms & Ha)|[(-> & Hn)|[(k & d & vs & -> & K & Hn)|[(w & ss & -> & Hss & Hw & Hn)|(w & bs & -> & Hn)]]]].
    + left. exists as_, ms, l. split; [by apply Hk|]. split; [done|]. split; [done|]. split.
      { eapply list.Forall_impl; [exact Hms|]. intros m (i & d & Hi & He & Hm). exists i, d. split; [done|]. split; [done|]. by apply Hk. }
      apply all2_Forall2 in Ha. apply all2_Forall2.
      clear -IH Ha. revert as_ Ha. induction IH as [|x xs Hx _ IHxs]; intros as_ Ha; inversion Ha; subst; constructor; auto.
    + right. left. eauto.
    + right. right. left. exists k, d, vs. eauto.
    + right. right. right. left. exists w, ss. eauto 10.
    + right. right. right. right. exists w, bs. eauto.
  - intros (Hc & Hks & Hnd & as_ & bs & l & Hn & Hp & Hit & Ha). split_and!; [done|done|done|].
    exists as_, bs, l. split; [by apply Hk|]. split; [done|]. split; [by eapply items4_keep|].
    apply all2_Forall2 in Ha. apply all2_Forall2.
    clear -IH Ha. revert bs Ha. induction IH as [|[k x] xs Hx _ IHxs]; intros as_ Ha; inversion Ha; subst; constructor; auto.
  - intros [Hc [Hn|(n & -> & -> & Hn)]]; (split; [done|]); [left|right]; eauto.
  - intros (k & Hw & H0 & Hvs & Hn). exists k. split_and!; eauto.
  - intros (Hs & b & Hn & Hb). split; [done|]. exists b. split; [by apply Hk|by apply IH].
  - intros [Hi Hn]. split; [done|by apply Hk].
  - assert (forall nm d dims vs a, part4 f k nm d dims vs a -> part4 f' k nm d dims vs a) as Hpt.
    { intros nm d' dims' vs' a' (P1 & P2 & P3). split; [done|]. split; [done|]. revert P3. unfold part_attrs. case_bool_decide; apply Hk. }
    intros (H1 & H2 & a1 & a2 & a3 & a4 & l & Hn & Hp & D1 & D2 & D3 & D4). unfold vector4 in *. split; [done|]. split; [done|].
    exists a1, a2, a3, a4, l. split_and!; auto.
  - intros (H1 & H2 & H3 & hd & H4 & H5). split; [done|]. split; [done|]. split; [|by eauto].
    apply (has_mask_keep f f'); [done| |done]. destruct H5 as [nm H5]. by eexists.
Qed.

(** ** load *)
Lemma mem_good m : mem_ok m -> mgood m.
Proof.
  intros [H1 H2]. split; [done|]. split; [|done]. destruct (N.lt_ge_cases nobody (m_next m)) as [H|H]; [done|].
  apply H1 in H. congruence.
Qed.
Definition attrs_of_4 (ver pv : pystr) : attrs := list_to_map [(str "HICKLE_VERSION", AStr ver); (str "HICKLE_PYTHON_VERSION", AStr pv)].
Lemma version_4 rest : rest = [] \/ head rest = Some 46 -> head (split_char 46 (str "4" ++ rest)) = Some (str "4").
Proof.
  intros [-> |Hr]; [reflexivity|]. destruct rest as [|c r]; [done|]. injection Hr as ->.
  change (str "4") with [52]. cbn [app split_char]. cbn. reflexivity.
Qed.
Lemma detect_4 fa rest pv : forallb (attr_set fa) v3_attrs = false -> rest = [] \/ head rest = Some 46 -> pv <> [] ->
  detect fa (attrs_of_4 (str "4" ++ rest) pv) = Ok V4.
Proof.
  intros Hfa Hr Hp. unfold detect. rewrite Hfa.
  assert (attrs_of_4 (str "4" ++ rest) pv !! a_version = Some (AStr (str "4" ++ rest))) as Hv.
  { unfold attrs_of_4. simpl. by rewrite lookup_insert. }
  assert (attrs_of_4 (str "4" ++ rest) pv !! a_pyversion = Some (AStr pv)) as Hpv.
  { unfold attrs_of_4. simpl. rewrite lookup_insert_ne by done. by rewrite lookup_insert. }
  assert (forallb (attr_set (attrs_of_4 (str "4" ++ rest) pv)) v4_attrs = true) as ->.
  { unfold v4_attrs. cbn [forallb]. unfold attr_set. rewrite Hv, Hpv. cbn. by destruct pv. }
  rewrite Hv. rewrite version_4 by done. reflexivity.
Qed.
Lemma options_4 ver pv : load_options true (attr_items (attrs_of_4 ver pv)) = Ok [opt_4x; None].
Proof.
  unfold load_options. rewrite omap_none; [done|]. rewrite list.Forall_forall. intros [nm v] Hin.
  unfold attr_items in Hin. apply elem_of_map_to_list in Hin. unfold attrs_of_4 in Hin. simpl in Hin.
  rewrite !lookup_insert_Some in Hin. destruct Hin as [[<- <-]|[_ [[<- <-]|[_ Hin]]]].
  - by destruct (attr_true _).
  - by destruct (attr_true _).
  - done.
Qed.

Lemma load_4 C w f p root m v :
  env_ok (c_env C) -> c_world C = std_world ->
  (forall c, cls_module c ∈ [str "numpy"; str "collections"] -> e_imports (c_env C) c = true) ->
  not_v3 f -> (w = true -> get_node f (f_next f) = None) -> mem_ok m ->
  get_path f p = Some root -> dumped4 (c_env C) f root v -> (height4 v <= c_fuel C)%nat ->
  exists f' m' l b, load_file C w f p m = (f', Ok (m', l), b) /\ m_heap m ⊆ m_heap m' /\ shows (m_heap m') v l /\
    (w = false -> f' = f) /\
    (forall x n, get_node f x = Some n -> is_Some (nd_attrs n !! a_base_type) -> get_node f' x = Some n).
Proof.
  intros HE HW Himp Hv3 Hfr Hm Hp (a & (nm & l & ver & pv & rest & Hn & -> & Hr & Hpv & Hd & Ht) & Hv) Hh.
  fold (attrs_of_4 (str "4" ++ rest) pv) in Hn.
  assert (forall f', kept f f' ->
    child f' root n_data = Some a ->
    exists m' l, load_data C [opt_4x; None] true f' root m = Ok (m', l) /\ m_heap m ⊆ m_heap m' /\ shows (m_heap m') v l) as Hload.
  { intros f' Hf' Hc. unfold load_data. rewrite Hc, HW, l4_of.
    destruct (load4 (c_env C) HE f' Himp v (c_fuel C) a (Lst m ∅) Hh) as (s' & lo & L1 & L2 & L3 & L4').
    { by apply (stored4_keep _ f f'). }
    { split; [by apply mem_good|]. intros x y Hx. cbn [l_memo] in Hx. by rewrite lookup_empty in Hx. }
    rewrite L1. cbn [res_map]. by eauto. }
  assert (node_attrs f root = attrs_of_4 (str "4" ++ rest) pv) as Hna. { unfold node_attrs. by rewrite Hn. }
  assert (child f root n_table = None) as Hct. { unfold child. rewrite Hn. exact Ht. }
  assert (child f root n_data = Some a) as Hcd. { unfold child. rewrite Hn. exact Hd. }
  unfold load_file. rewrite Hp, Hn. cbn [is_group nd_body nd_attrs]. change (is_group (Node nm (attrs_of_4 (str "4" ++ rest) pv) (BGroup l))) with true. cbv iota.
  rewrite detect_4 by done. unfold load_root. rewrite Hna, detect_4 by done. cbv zeta. unfold options_of. rewrite Hna, options_4.
  unfold load_table. rewrite Hct. destruct w.
  - unfold create_node. rewrite Hn. change (is_group (Node nm (attrs_of_4 (str "4" ++ rest) pv) (BGroup l))) with true. cbv iota.
    change (name_ok n_table) with (Ok tt). cbn [res_bind]. change (links (Node nm (attrs_of_4 (str "4" ++ rest) pv) (BGroup l))) with l.
    change (str "hickle_types_table") with n_table in Ht. rewrite Ht. cbv zeta.
    set (f' := File (<[root := add_link n_table (f_next f) (Node nm (attrs_of_4 (str "4" ++ rest) pv) (BGroup l))]> (<[f_next f := Node n_table ∅ (BGroup [])]> (f_nodes f))) (f_next f + 1)).
    specialize (Hfr eq_refl).
    assert (forall x, x <> root -> x <> f_next f -> get_node f' x = get_node f x) as Hoth.
    { intros x Hx1 Hx2. unfold get_node, f'. cbn [f_nodes]. by rewrite lookup_insert_ne, lookup_insert_ne. }
    assert (get_node f' root = Some (Node nm (attrs_of_4 (str "4" ++ rest) pv) (BGroup (l ++ [(n_table, f_next f)])))) as Hroot.
    { unfold get_node, f'. cbn [f_nodes]. rewrite lookup_insert. done. }
    assert (forall x n, get_node f x = Some n -> is_Some (nd_attrs n !! a_base_type) -> get_node f' x = Some n) as Hf'.
    { intros x n Hx Hb. unfold get_node, f'. cbn [f_nodes].
      rewrite lookup_insert_ne, lookup_insert_ne; [exact Hx| |].
      - intros <-. congruence.
      - intros <-. rewrite Hn in Hx. injection Hx as <-. cbn [nd_attrs] in Hb. by destruct Hb. }
    assert (kept f f') as HK.
    { split; [exact Hf'| |].
      - intros x pn Hx. destruct (decide (x = root)) as [-> |Hne].
        + rewrite Hn in Hx. injection Hx as <-. eexists. split; [exact Hroot|]. cbn [links nd_body]. split.
          * intros y Hy. apply elem_of_app. by left.
          * intros k b. clear. induction l as [|[k' x] l IH]; [done|]. cbn [app alist_get] in *. destruct (decide (k = k')); auto.
        + exists pn. split; [|done]. rewrite Hoth; [done|done|]. intros ->. congruence.
      - intros x k b (pn & Hx & Hin) [nb Hb]. destruct (decide (x = root)) as [-> |Hne].
        + rewrite Hroot in Hx. injection Hx as <-. cbn [links nd_body] in Hin. apply elem_of_app in Hin as [Hin|Hin].
          * eexists. split; [exact Hn|done].
          * apply elem_of_list_singleton in Hin. injection Hin as -> ->. congruence.
        + destruct (decide (x = f_next f)) as [-> |Hne'].
          * unfold get_node, f' in Hx. cbn [f_nodes] in Hx. rewrite lookup_insert_ne, lookup_insert in Hx by done. injection Hx as <-. by apply elem_of_nil in Hin.
          * rewrite Hoth in Hx by done. by exists pn. }
    destruct (Hload f' HK) as (m' & lo & L1 & L2 & L3).
    { unfold child, get_node, f'. cbn [f_nodes]. rewrite lookup_insert. unfold add_link. cbn [nd_body nd_name nd_attrs links].
      change (str "data") with n_data in Hd. clear -Hd. induction l as [|[k x] l IH]; [done|]. cbn [app alist_get] in *. destruct (decide (n_data = k)); auto. }
    rewrite L1. exists f', m', lo, false. split_and!; auto. done.
  - destruct (Hload f) as (m' & lo & L1 & L2 & L3); [apply kept_refl|done|]. rewrite L1. exists f, m', lo, true. by split_and!.
Qed.
