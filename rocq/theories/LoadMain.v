(** * LoadMain: loading what was dumped gives back the same object graph *)
From stdpp Require Import relations.
From Verif Require Import Base Utf8 Utf8Proofs Dec DecProofs Num NumProofs PyObj H5 Env Create Dump
  LoadFns LoadModel Registry DumpProofs DumpStored RegistryStd Spec PartSpec LoadBase ArrayProofs Damage Recover LoadInv LoadLeaf LoadCont.
From Coq Require Import Lia ZifyBool ZifyN.
Local Open Scope N_scope.
Local Open Scope list_scope.
Local Opaque std_loader std_dump.

Lemma NoDup_middle {A} (l1 l2 : list A) x : NoDup (l1 ++ x :: l2) -> x ∉ l1.
Proof. intros Hn Hx. apply NoDup_app in Hn as (_ & Hn & _). apply (Hn _ Hx). by left. Qed.
Lemma index_of_int i : index_of (Some (AInt (Z.of_N i))) = Ok (Some (N.to_nat i)).
Proof. unfold index_of. destruct (Z.of_N i <? 0)%Z eqn:Ei; [lia|]. do 2 f_equal. lia. Qed.

Lemma repeat_lookup {A} (x : A) n i : (i < n)%nat -> repeat x n !! i = Some x.
Proof. revert i. induction n as [|n IH]; intros [|i] Hi; simpl; try lia; [done|]. apply IH. lia. Qed.

Section Load.
Context (E : env) (HE : env_ok E) (tbl lo : addr) (s : dst).
Context (Hw : wfs std_dump tbl s).
Context (Hst : forall y a, d_memo s !! y = Some a -> stored E std_dump lo s y a).

Notation H := (d_heap s).
Notation F := (d_file s).
Notation inv := (inv E s).
Notation rel := (rel E s).
Notation loaded := (loaded E s).
Notation loads := (loads E s).
Notation loads_at := (loads_at E s).

(** Appending the loaded members in any order and converting gives the object. *)
Definition fold_ok {A : Type} (fu : nat) (k : contk) (at0 : attrs) (base : bytes) (pt : cls) (y : loc)
    (f : A -> sub) (as_ : list A) : Prop :=
  forall as', Permutation as' as_ -> exists I : list A -> cstate -> lst -> Prop,
    (forall st, inv st -> I [] (cont_init k at0) st) /\
    (forall dn p rest cs st v m0,
       as' = dn ++ p :: rest -> I dn cs st -> inv st -> rel st (snd (fst (f p))) v ->
       m0 !! a_base_type = None ->
       exists m cs', cont_append E fu k (fst (fst (f p))) v (attrs_update (snd (f p)) m0) cs (l_mem st) = Ok (m, cs') /\
         inv (set_mem m st) /\ ext st (set_mem m st) /\ I (dn ++ [p]) cs' (set_mem m st)) /\
    (forall dn cs st st', I dn cs st -> inv st -> inv st' -> ext st st' -> I dn cs st') /\
    (forall cs st, I as' cs st -> inv st ->
       exists m v, cont_convert fu k at0 base pt cs (l_mem st) = Ok (m, v) /\ loaded st y m v).

(** ** list and tuple *)
Definition list_sub (p : N * loc) : sub := (data_name (fst p), snd p, [(a_item_index, AInt (Z.of_N (fst p)))]).

(** Members numbered by [item_index]. *)
Lemma slots_fold fu k y pt xs at0 base :
  k = KList \/ k = KNDArray ->
  at0 !! a_num_items = Some (AInt (Z.of_nat (length xs))) ->
  (forall st ys, inv st -> Forall2 (rel st) xs ys ->
     exists m v, cont_convert fu k at0 base pt (SList ys) (l_mem st) = Ok (m, v) /\ loaded st y m v) ->
  fold_ok fu k at0 base pt y list_sub (enum_from 0 xs).
Proof.
  intros Hk Hat Hconv as' Hp.
  assert (cont_init k at0 = SList (repeat nobody (num_items at0))) as Hinit. { by destruct Hk as [-> | ->]. }
  assert (forall (i : N) x v m0 ys m, m0 !! a_base_type = None ->
    cont_append E fu k (fst (fst (list_sub (i, x)))) v (attrs_update (snd (list_sub (i, x))) m0) (SList ys) m =
    res_map (fun ys => (m, SList ys)) (list_append (data_name i) v (attrs_update [(a_item_index, AInt (Z.of_N i))] m0) ys)) as Happ.
  { intros i x v m0 ys m Hm0. destruct Hk as [-> | ->]; simpl; [done|]. unfold nd_append.
    rewrite lookup_insert_ne, Hm0 by done.
    rewrite (bool_decide_eq_false_2 (None = _)) by done.
    rewrite bool_decide_eq_false_2; [simpl; by destruct (list_append _ _ _ _)|].
    unfold data_name. intros He. rewrite <- (app_nil_r (str "data")) in He at 2. apply app_inv_head in He.
    by apply N_dec_nonempty in He. }
  assert (forall i x, (i, x) ∈ as' -> xs !! N.to_nat i = Some x) as Hix.
  { intros i x Hin. rewrite Hp in Hin. apply elem_of_list_lookup in Hin as [j Hj]. rewrite enum_from_lookup in Hj.
    destruct (xs !! j) as [x'|] eqn:Ej; [|done]. simpl in Hj. inversion Hj; subst.
    rewrite N.add_0_l, Nat2N.id. done. }
  assert (forall j x, xs !! j = Some x -> (N.of_nat j, x) ∈ as') as Hall.
  { intros j x Hj. rewrite Hp. apply (elem_of_list_lookup_2 _ j). rewrite enum_from_lookup, Hj. simpl. done. }
  assert (NoDup (map fst as')) as Hnd.
  { rewrite (Permutation_map fst Hp). apply enum_from_fst. }
  exists (fun dn cs st => exists ys, cs = SList ys /\ length ys = length xs /\
    (forall i x, (i, x) ∈ dn -> exists v, ys !! N.to_nat i = Some v /\ rel st x v) /\
    (forall i, (N.to_nat i < length xs)%nat -> i ∉ map fst dn -> ys !! N.to_nat i = Some nobody)).
  split_and!.
  - intros st _. exists (repeat nobody (length xs)). rewrite Hinit. unfold num_items. rewrite Hat, Nat2Z.id.
    split_and!; auto using repeat_length.
    + intros i x Hin. inversion Hin.
    + intros i Hi _. by apply repeat_lookup.
  - intros dn [i x] rest cs st v m0 Has (ys & -> & Hlen & Hdn & Hrest) Hi Hr Hm0. simpl in Hr.
    assert (xs !! N.to_nat i = Some x) as Hx. { apply Hix. rewrite Has. apply elem_of_app. right. left. }
    assert (N.to_nat i < length xs)%nat as Hlt by (by eapply lookup_lt_Some).
    assert (i ∉ map fst dn) as Hni.
    { rewrite Has, map_app in Hnd. by eapply NoDup_middle. }
    exists (l_mem st), (SList (<[N.to_nat i := v]> ys)). rewrite set_mem_id.
    split_and!; auto using ext_refl.
    + rewrite (Happ _ _ _ _ _ _ Hm0). unfold list_append. simpl snd. simpl fst. unfold attrs_update. simpl foldl.
      rewrite lookup_insert, index_of_int. cbn [res_bind]. unfold set_slot.
      replace (N.to_nat i + 1 - length ys)%nat with O by lia. simpl repeat. rewrite app_nil_r, (Hrest _ Hlt Hni). simpl. done.
    + eexists. split; [done|]. split_and!.
      * by rewrite insert_length.
      * intros i' x' [Hin|Hin]%elem_of_app.
        -- assert (i' <> i) as Hne. { intros ->. apply Hni. apply elem_of_list_fmap. by exists (i, x'). }
           rewrite list_lookup_insert_ne by lia. by apply Hdn.
        -- apply elem_of_list_singleton in Hin as [= -> ->]. exists v. split; [|done].
           apply list_lookup_insert. lia.
      * intros i' Hi' Hn. rewrite map_app in Hn.
        assert (i' <> i) as Hne. { intros ->. apply Hn. apply elem_of_app. right. by left. }
        rewrite list_lookup_insert_ne by lia. apply Hrest; [done|]. intros Hin. apply Hn. apply elem_of_app. by left.
  - intros dn cs st st' (ys & -> & Hlen & Hdn & Hrest) _ _ Hext. exists ys. split_and!; auto.
    intros i x Hin. destruct (Hdn _ _ Hin) as (v & ? & ?). exists v. split; [done|]. by eapply rel_mono.
  - intros cs st (ys & -> & Hlen & Hdn & _) Hi. apply Hconv; [done|].
    apply Forall2_same_length_lookup. split; [done|]. intros j x v Hjx Hjv.
    destruct (Hdn _ _ (Hall _ _ Hjx)) as (v' & Hv' & Hr). rewrite Nat2N.id in Hv'. rewrite Hjv in Hv'.
    by inversion Hv'; subst.
Qed.

Lemma list_fold fu y c xs at0 base :
  e_imports E c = true -> H !! y = Some (Obj c (VSeq xs)) -> (base_cls c = CList \/ base_cls c = CTuple) ->
  at0 !! a_num_items = Some (AInt (Z.of_nat (length xs))) ->
  fold_ok fu KList at0 base c y list_sub (enum_from 0 xs).
Proof.
  intros Hg Hy Hb Hat. apply slots_fold; [by left|done|]. intros st ys Hi Hsi.
  destruct (construct_seq_ok E lo s Hst st fu y c xs ys Hi Hg Hy) as (m & v & C1 & C2); [by left|by left|].
  exists m, v. split; [|done]. simpl. case_bool_decide as Hc; [|done]. subst c. unfold construct_seq in C1. simpl in C1. done.
Qed.

(** ** Arrays of strings and objects *)
Definition alike (st : lst) (x v : loc) : Prop := rel st x v \/ same_number H (m_heap (l_mem st)) x v.
Lemma alike_mono st st' x v : alike st x v -> ext st st' -> alike st' x v.
Proof. intros [Hr|Hn] He; [left; by eapply rel_mono|right; eapply same_number_mono; [done|apply He]]. Qed.
Lemma alike_obj st x v :
  inv st -> imported E H x -> alike st x v -> exists o o', H !! x = Some o /\ m_heap (l_mem st) !! v = Some o' /\
    (same_obj H (m_heap (l_mem st)) (rel st) o o' \/ exists c n c' n', o = Obj c (VNum n) /\ o' = Obj c' (VNum n')).
Proof.
  intros Hi (oi & Hoi & Him) [[Hm|[(o & Ho & Hs & _ & Hv)|(o & o' & c & Ho & _ & Hno & _)]]|(c & n & c' & n' & H1 & H2 & _)].
  - destruct (memo_matched E tbl s Hw _ _ _ Hi Hm) as (o & o' & Ho & Ho' & Hso). exists o, o'. split_and!; auto. left.
    unfold stands_for in Hso. rewrite Ho in Hoi. inversion Hoi; subst oi. by rewrite Him in Hso.
  - exists o, o. split_and!; auto. left. split; [done|]. unfold scalar in Hs. destruct o as [c vv]. simpl in *. by destruct vv.
  - congruence.
  - exists (Obj c (VNum n)), (Obj c' (VNum n')). split_and!; auto. right. eauto 6.
Qed.

Lemma last_rest (n : N) rest (d : N) : rest <> [] -> last (n :: rest) d = last rest d.
Proof. by destruct rest. Qed.
Lemma same_rows_shape h h' (R : loc -> loc -> Prop) shape shape' xs ys :
  last shape' 1 = last shape 1 -> same_rows h h' R shape xs ys -> same_rows h h' R shape' xs ys.
Proof. intros He (rows & rows' & H1 & H2 & H3 & H4). exists rows, rows'. by rewrite He. Qed.
Lemma same_rows_app h h' (R : loc -> loc -> Prop) shape xs ys xs' ys' :
  same_rows h h' R shape xs ys -> same_rows h h' R shape xs' ys' -> same_rows h h' R shape (xs ++ xs') (ys ++ ys').
Proof.
  intros (rows & rows' & -> & -> & H3 & H4) (rows2 & rows2' & -> & -> & H3' & H4'). exists (rows ++ rows2), (rows' ++ rows2').
  rewrite !concat_app. split_and!; auto; [by apply Forall_app|by apply Forall2_app].
Qed.
Lemma one_row h h' (R : loc -> loc -> Prop) n xs ys :
  N.of_nat (length xs) = n -> same_items h h' R xs ys -> same_rows h h' R [n] xs ys.
Proof.
  intros Hn Hs. exists [xs], [ys]. simpl. rewrite !app_nil_r. split; [done|]. split; [done|]. split; [by constructor|].
  constructor; [by left|constructor].
Qed.
Lemma arr_leaves hp lss els : Forall2 (arr_at hp []) lss els -> concat lss = els.
Proof. induction 1 as [|l x lss els Hx Hf IH]; simpl in *; [done|]. by rewrite Hx, IH. Qed.
Lemma arr_loaded st shape : forall ls z v,
  inv st -> arr_at H shape ls z -> alike st z v ->
  exists ls', arr_at (m_heap (l_mem st)) shape ls' v /\ Forall2 (alike st) ls ls' /\
    (shape <> [] -> same_rows H (m_heap (l_mem st)) (rel st) shape ls ls').
Proof.
  induction shape as [|n rest IH]; intros ls z v Hi Ha Hr.
  - simpl in Ha. subst ls. exists [v]. split; [done|]. split; [|done]. by constructor; [|constructor].
  - destruct Ha as (xs & lss & Hz & Hn & -> & Hf).
    assert (imported E H z) as Hiz. { eexists. split; [exact Hz|]. by apply (ok_imports E HE). }
    destruct (alike_obj _ _ _ Hi Hiz Hr) as (o & o' & Ho & Ho' & Hso). rewrite Hz in Ho. inversion Ho; subst o. clear Ho.
    assert (exists ys, o' = Obj CList (VSeq ys) /\ same_items H (m_heap (l_mem st)) (rel st) xs ys /\ Forall2 (alike st) xs ys) as (ys & -> & Hsi & Hxy).
    { destruct Hso as [[Hc Hv]|(? & ? & ? & ? & [=] & _)]. destruct o' as [c' v']. simpl in Hc, Hv. subst c'.
      destruct v'; try (by destruct Hv as [_ [=]]).
      change (isinst CList CSet) with false in Hv. cbv iota in Hv. exists xs0. split; [done|]. split; [done|].
      destruct Hv as [Hv|(_ & Hv & _)]; eapply Forall2_impl; try exact Hv; [by left|by right]. }
    assert (exists lss', Forall2 (arr_at (m_heap (l_mem st)) rest) lss' ys /\ Forall2 (alike st) (concat lss) (concat lss') /\
      (rest <> [] -> same_rows H (m_heap (l_mem st)) (rel st) (n :: rest) (concat lss) (concat lss'))) as (lss' & A1 & A2 & A3).
    { clear -Hf Hxy IH Hi HE. revert ys Hxy. induction Hf as [|l x lss xs Hx Hf IHf]; intros ys Hxy; inversion Hxy as [|? y ? ys' H1 H2]; subst.
      - exists []. split; [constructor|]. split; [constructor|]. intros _. by exists [], [].
      - destruct (IHf _ H2) as (lss' & A1 & A2 & A3). destruct (IH _ _ _ Hi Hx H1) as (l' & B1 & B2 & B3).
        exists (l' :: lss'). split; [by constructor|]. split; [simpl; by apply Forall2_app|].
        intros Hne. simpl. apply same_rows_app; [|by apply A3]. eapply same_rows_shape; [by apply last_rest|by apply B3]. }
    exists (concat lss'). split; [exists ys, lss'; split_and!; auto; by rewrite <- (Forall2_length _ _ _ Hxy)|]. split; [done|].
    intros _. destruct rest as [|k rest]; [|by apply A3].
    rewrite (arr_leaves _ _ _ Hf), (arr_leaves _ _ _ A1). by apply one_row.
Qed.
Lemma alike_outer st x v : inv st -> imported E H x -> alike st x v -> outer_len (m_heap (l_mem st)) v = outer_len H x.
Proof.
  intros Hi Him Hr. destruct (alike_obj _ _ _ Hi Him Hr) as (o & o' & Ho & Ho' & Hso). unfold outer_len. rewrite Ho, Ho'.
  destruct Hso as [[Hc Hv]|(? & ? & ? & ? & -> & ->)]; [|done].
  destruct o as [c vo], o' as [c' vo']. simpl in Hc, Hv. subst c'.
  destruct vo, vo'; try done; try (by destruct Hv as [_ [=]]); try (by destruct Hv as [_ [= -> -> ->]]).
  - destruct (_ || _) eqn:El; [|done]. destruct (isinst c CSet).
    + destruct Hv as (ys & P1 & P2). rewrite P1. f_equal. f_equal. symmetry. by destruct P2 as [P2|(_ & P2 & _)]; eapply Forall2_length.
    + f_equal. f_equal. symmetry. by destruct Hv as [P2|(_ & P2 & _)]; eapply Forall2_length.
  - by destruct Hv as [-> _].
Qed.
Lemma alike_element st x v : inv st -> imported E H x -> alike st x v -> element_ok H x -> awkward (m_heap (l_mem st)) v = false.
Proof.
  intros Hi Him Hr. destruct (alike_obj _ _ _ Hi Him Hr) as (o & o' & Ho & Ho' & Hso). unfold element_ok, awkward. rewrite Ho, Ho'.
  destruct Hso as [[Hc Hv]|(? & ? & ? & ? & -> & ->)]; [|done].
  destruct o as [c vo], o' as [c' vo']. simpl in Hc, Hv. subst c'.
  destruct vo, vo'; try done; try (by destruct Hv as [_ [=]]); try (destruct Hv as [_ [= -> -> ->]]); try (by destruct shape).
  destruct Hv as [-> _]. by destruct shape.
Qed.
Lemma alike_uniform st ls ls' : inv st -> Forall (imported E H) ls -> Forall2 (alike st) ls ls' -> not_uniform H ls -> not_uniform (m_heap (l_mem st)) ls'.
Proof.
  intros Hi Him Hf [-> |(x & y & Hx & Hy & Hxy)]; [left; by inversion Hf|right]. rewrite list.Forall_forall in Him.
  pose proof (Him x Hx) as Ix. pose proof (Him y Hy) as Iy.
  apply elem_of_list_lookup in Hx as [i Hx]. apply elem_of_list_lookup in Hy as [j Hy].
  destruct (Forall2_lookup_l _ _ _ _ _ Hf Hx) as (v & Hv & Rv). destruct (Forall2_lookup_l _ _ _ _ _ Hf Hy) as (w & Hw' & Rw).
  exists v, w. split; [by eapply elem_of_list_lookup_2|]. split; [by eapply elem_of_list_lookup_2|].
  by rewrite (alike_outer _ _ _ Hi Ix Rv), (alike_outer _ _ _ Hi Iy Rw).
Qed.

(** What [np.array] makes of the list of the loaded members. *)
Lemma nd_content st n rest lss els ys :
  inv st -> shape_ok (n :: rest) -> N.of_nat (length els) = n -> Forall2 (arr_at H rest) lss els ->
  Forall (imported E H) (concat lss) -> not_uniform H (concat lss) -> Forall (element_ok H) (concat lss) -> Forall2 (rel st) els ys ->
  exists m1 l ls', alloc (Obj CList (VSeq ys)) (l_mem st) = (m1, l) /\
    inv (set_mem m1 st) /\ ext st (set_mem m1 st) /\
    discover 32 (m_heap m1) l = n :: rest /\ leaves (length (n :: rest)) (m_heap m1) l = Some ls' /\
    existsb (awkward (m_heap m1)) ls' = false /\ Forall2 (alike (set_mem m1 st)) (concat lss) ls' /\
    same_rows H (m_heap m1) (rel (set_mem m1 st)) (n :: rest) (concat lss) ls'.
Proof.
  intros Hi Hsh Hn Hf Him Hnu Hel Hxy.
  destruct (inv_alloc E lo s Hst st (Obj CList (VSeq ys)) Hi) as (A1 & A2 & A3 & _).
  destruct (alloc (Obj CList (VSeq ys)) (l_mem st)) as [m1 l]. simpl in A1, A2, A3.
  set (st1 := set_mem m1 st) in *.
  assert (exists lss', Forall2 (arr_at (m_heap m1) rest) lss' ys /\ Forall2 (alike st1) (concat lss) (concat lss') /\
    (rest <> [] -> same_rows H (m_heap m1) (rel st1) (n :: rest) (concat lss) (concat lss'))) as (lss' & B1 & B2 & B3).
  { clear -Hf Hxy A1 A2 Hw Hst HE. revert ys Hxy. induction Hf as [|ll x lss els Hx Hf IHf]; intros ys Hxy; inversion Hxy as [|? y ? ys' H1 H2]; subst.
    - exists []. split; [constructor|]. split; [constructor|]. intros _. by exists [], [].
    - destruct (IHf _ H2) as (lss' & C1 & C2 & C3). destruct (arr_loaded st1 rest ll x y A1 Hx) as (l' & D1 & D2 & D3).
      { left. by eapply rel_mono. }
      exists (l' :: lss'). split; [by constructor|]. simpl. split; [by apply Forall2_app|].
      intros Hne. apply same_rows_app; [|by apply C3]. eapply same_rows_shape; [by apply last_rest|by apply D3]. }
  assert (arr_at (m_heap m1) (n :: rest) (concat lss') l) as Hat.
  { exists ys, lss'. split_and!; auto. by rewrite <- (Forall2_length _ _ _ Hxy). }
  exists m1, l, (concat lss'). split_and!; auto.
  - eapply shape_found; [exact Hat|done|]. by apply (alike_uniform st1 (concat lss)).
  - by apply leaves_arr.
  - apply not_true_is_false. intros He. apply existsb_exists in He as (v & Hv & He).
    apply elem_of_list_In, elem_of_list_lookup in Hv as [i Hv].
    destruct (Forall2_lookup_r _ _ _ _ _ B2 Hv) as (x & Hx & Rx).
    rewrite list.Forall_forall in Hel, Him.
    pose proof (alike_element st1 x v A1 (Him x ltac:(by eapply elem_of_list_lookup_2)) Rx) as Hk.
    cbn in Hk. rewrite Hk in He; [done|]. apply Hel. by eapply elem_of_list_lookup_2.
  - destruct rest as [|k rest]; [|by apply B3]. rewrite (arr_leaves _ _ _ Hf), (arr_leaves _ _ _ B1). apply one_row; [done|].
    left. eapply Forall2_impl; [exact Hxy|]. intros a b Hab. by eapply rel_mono.
Qed.

Lemma strarr_fold fu y w shape vs els ls lss at0 base :
  e_imports E CNdarray = true -> H !! y = Some (Obj CNdarray (VStrArr w shape vs)) ->
  shape <> [] -> shape_ok shape -> 1 <= w -> Forall (fits_width w) vs ->
  N.of_nat (length els) = hd 0 shape -> ls = concat lss -> Forall2 (arr_at H (tail shape)) lss els ->
  Forall2 (fun l t => H !! l = Some (Obj CStr (VStr t))) ls vs ->
  at0 !! a_num_items = Some (AInt (Z.of_nat (length els))) -> at0 !! a_np_dtype = Some (ABytes (str_dtype w)) ->
  fold_ok fu KNDArray at0 base CNdarray y list_sub (enum_from 0 els).
Proof.
  intros Him Hy Hne Hsh Hw1 Hvs Hlen -> Hf Hstr Hat Hdt. apply slots_fold; [by right|done|]. intros st ys Hi Hxy.
  destruct shape as [|n rest]; [done|]. cbn [hd tail] in *.
  destruct (nd_content st n rest lss els ys Hi Hsh Hlen Hf) as (m1 & l & ls' & E1 & A1 & A2 & E2 & E3 & E4 & A3 & A4); auto.
  { apply list.Forall_forall. intros x Hx. apply elem_of_list_lookup in Hx as [i Hx].
    destruct (Forall2_lookup_l _ _ _ _ _ Hstr Hx) as (t & _ & Ht). eexists. split; [exact Ht|]. by apply (ok_imports E HE). }
  { destruct (concat lss) as [|x0 r0] eqn:El; [by left|right]. exists x0, x0. split; [left|]. split; [left|]. left.
    inversion Hstr as [|? t ? ? Hx]; subst. unfold outer_len. by rewrite Hx. }
  { apply list.Forall_forall. intros x Hx. apply elem_of_list_lookup in Hx as [i Hx].
    destruct (Forall2_lookup_l _ _ _ _ _ Hstr Hx) as (t & _ & Ht). unfold element_ok. by rewrite Ht. }
  assert (res_mapM (str_of (m_heap m1)) ls' = Ok vs) as Hss.
  { apply res_mapM_ok. clear -Hstr A3 A1 Hw HE. revert vs Hstr. induction A3 as [|x v ls ls' Hx A3 IH]; intros vs Hstr; inversion Hstr as [|? t ? ts Ht Hts]; subst; [done|].
    constructor; [|by apply IH].
    assert (imported E H x) as Hix. { eexists. split; [exact Ht|]. by apply (ok_imports E HE). }
    destruct (alike_obj _ _ _ A1 Hix Hx) as (o & o' & Ho & Ho' & Hso). rewrite Ht in Ho. inversion Ho; subst o.
    destruct Hso as [[Hc Hv]|(? & ? & ? & ? & [=] & _)]. destruct o' as [c' v']. simpl in Hc, Hv, Ho'. subst c'.
    unfold str_of. rewrite Ho'. destruct Hv as [_ ->]. done. }
  cbn [cont_convert]. unfold nd_convert, attr_dtype. rewrite E1, Hdt. cbn [res_bind]. rewrite parse_str_dtype by done. cbn [res_bind].
  rewrite E2, E3, E4, Hss. cbn [res_bind]. rewrite bool_decide_eq_true_2 by done.
  assert (map (np_clip w) vs = vs) as ->.
  { clear -Hvs. induction Hvs; simpl; [done|]. rewrite np_clip_id by done. by f_equal. }
  eexists _, _. split; [done|].
  apply (loaded_trans E lo s Hst st (set_mem m1 st)); [done|done|done|].
  apply (loaded_same E lo s Hst (set_mem m1 st) y); done.
Qed.

Lemma objarr_fold fu y shape xs els lss at0 base :
  e_imports E CNdarray = true -> Forall (imported E H) xs -> H !! y = Some (Obj CNdarray (VObjArr shape xs)) ->
  shape <> [] -> shape_ok shape -> Forall (element_ok H) xs -> not_uniform H xs ->
  N.of_nat (length els) = hd 0 shape -> xs = concat lss -> Forall2 (arr_at H (tail shape)) lss els ->
  at0 !! a_num_items = Some (AInt (Z.of_nat (length els))) -> at0 !! a_np_dtype = Some (ABytes obj_dtype) ->
  fold_ok fu KNDArray at0 base CNdarray y list_sub (enum_from 0 els).
Proof.
  intros Him Himx Hy Hne Hsh Hel Hnu Hlen -> Hf Hat Hdt. apply slots_fold; [by right|done|]. intros st ys Hi Hxy.
  destruct shape as [|n rest]; [done|]. cbn [hd tail] in *.
  destruct (nd_content st n rest lss els ys Hi Hsh Hlen Hf) as (m1 & l & ls' & E1 & A1 & A2 & E2 & E3 & E4 & A3 & A4); auto.
  cbn [cont_convert]. unfold nd_convert, attr_dtype. rewrite E1, Hdt. cbn [res_bind]. rewrite parse_obj_dtype. cbn [res_bind].
  rewrite E2, E3, E4, bool_decide_eq_true_2 by done.
  eexists _, _. split; [done|].
  apply (loaded_trans E lo s Hst st (set_mem m1 st)); [done|done|done|].
  apply (loaded_alloc E lo s Hst (set_mem m1 st) y _ _ A1 Hy Him).
  intros st' He. split; [done|]. cbn [oval]. split; [done|]. eapply same_rows_mono; [exact A4|apply He|]. intros x v Hx. by eapply rel_mono.
Qed.

(** An array of one object without dimensions. *)
Definition sole_sub (l : loc) : sub := (str "data", l, []).
Lemma sole_fold fu y x at0 base :
  e_imports E CNdarray = true -> imported E H x -> H !! y = Some (Obj CNdarray (VObjArr [] [x])) -> element_ok H x -> not_uniform H [x] ->
  at0 !! a_np_dtype = Some (ABytes obj_dtype) ->
  fold_ok fu KNDArray at0 base CNdarray y sole_sub [x].
Proof.
  intros Him Himx Hy Hel Hnu Hdt as' Hp. apply Permutation_singleton_r in Hp. subst as'.
  exists (fun dn cs st => dn = [] /\ cs = cont_init KNDArray at0 \/ exists v, dn = [x] /\ cs = SNd v /\ rel st x v).
  split_and!.
  - intros st _. by left.
  - intros dn p rest cs st v m0 Has HI Hi Hr Hm0. simpl in Hr.
    assert (dn = [] /\ p = x) as [-> ->].
    { destruct dn as [|d dn]; [by inversion Has|]. inversion Has as [[Hd Hd']]. by destruct dn. }
    exists (l_mem st), (SNd v). rewrite set_mem_id. split_and!; auto using ext_refl.
    + simpl. unfold nd_append. rewrite (bool_decide_eq_true_2 (str "data" = str "data")) by done. by rewrite orb_true_r.
    + right. by exists v.
  - intros dn cs st st' [[-> ->]|(v & -> & -> & Hr)] _ _ He; [by left|right]. exists v. split_and!; auto. by eapply rel_mono.
  - intros cs st [[[=] _]|(v & _ & -> & Hr)] Hi.
    assert (alike st x v) as Hax by (by left).
    assert (discover 32 (m_heap (l_mem st)) v = []) as Hd.
    { apply (shape_found _ [] [v]); [done|split_and!; [simpl; lia|constructor|done]|].
      apply (alike_uniform st [x]); auto. }
    cbn [cont_convert]. unfold nd_convert, attr_dtype. rewrite Hdt. cbn [res_bind]. rewrite parse_obj_dtype. cbn [res_bind].
    rewrite Hd. cbn [length leaves]. cbn [existsb]. rewrite (alike_element st x v Hi Himx Hax Hel). cbn [orb].
    rewrite bool_decide_eq_true_2 by done.
    eexists _, _. split; [done|].
    apply (loaded_alloc E lo s Hst st y _ _ Hi Hy Him).
    intros st' He. split; [done|]. cbn [oval]. split; [done|]. exists [[x]], [[v]]. split_and!; [done|done|by constructor|]. constructor; [|constructor].
    left. left. constructor; [|constructor]. by eapply rel_mono.
Qed.

(** ** set *)
Lemma hval_kmatch st fu d y v k :
  inv st -> graph_ok E H y -> rel st y v -> hval d H y = Ok k -> (d <= fu)%nat ->
  exists k', hval fu (m_heap (l_mem st)) v = Ok k' /\ kmatch s st k k'.
Proof.
  intros Hi Hg Hr Hk Hd. destruct (hval_rel E tbl s Hw st d y v k Hi Hg Hr Hk) as (k' & K1 & K2).
  exists k'. split; [|done]. eapply hval_mono; eauto.
Qed.

Definition set_sub (p : N * loc * hv) : sub := list_sub (fst p).
Lemma set_fold d fu y c xs ks at0 base :
  e_imports E c = true -> (forall z, z ∈ xs -> graph_ok E H z) -> H !! y = Some (Obj c (VSeq xs)) -> base_cls c = CSet ->
  Forall2 (fun x k => hval d H x = Ok k) xs ks -> NoDup (map coarse ks) -> (d <= fu)%nat ->
  fold_ok fu KSet at0 base c y set_sub (zip (enum_from 0 xs) ks).
Proof.
  intros Him Hch Hy Hb Hks Hnd Hfu as' Hp.
  assert (length (enum_from 0 xs) = length ks) as Hlen.
  { rewrite enum_from_length. by eapply Forall2_length. }
  assert (forall i x k, (i, x, k) ∈ as' -> x ∈ xs /\ hval d H x = Ok k) as Hin'.
  { intros i x k Hin. rewrite Hp in Hin. apply elem_of_list_lookup in Hin as [j Hj].
    apply lookup_zip_with_Some in Hj as (p & k' & Heq & Hj1 & Hj2). inversion Heq; subst.
    rewrite enum_from_lookup in Hj1. destruct (xs !! j) as [x'|] eqn:Ej; [|done]. inversion Hj1; subst.
    split; [by eapply elem_of_list_lookup_2|]. exact (Forall2_lookup_lr _ _ _ _ _ _ Hks Ej Hj2). }
  assert (NoDup (map coarse (map snd as'))) as Hnd'.
  { rewrite (Permutation_map _ (Permutation_map _ Hp)). rewrite snd_zip by lia. done. }
  set (R := fun st (p : N * loc * hv) (q : hv * loc) =>
       rel st (snd (fst p)) (snd q) /\ hval fu (m_heap (l_mem st)) (snd q) = Ok (fst q) /\ kmatch s st (snd p) (fst q)).
  exists (fun dn cs st => exists acc, cs = SSet acc /\ Forall2 (R st) dn acc).
  split_and!.
  - intros st _. by exists [].
  - intros dn [[i x] k] rest cs st v m0 Has (acc & -> & Hacc) Hi Hr Hm0. simpl in Hr.
    destruct (Hin' i x k) as [Hxin Hxk]. { rewrite Has. apply elem_of_app. right. left. }
    destruct (hval_kmatch st fu d x v k Hi (Hch _ Hxin) Hr Hxk Hfu) as (k' & K1 & K2).
    exists (l_mem st), (SSet (acc ++ [(k', v)])). rewrite set_mem_id. split_and!; auto using ext_refl.
    + simpl. unfold set_add. rewrite K1. simpl.
      replace (has_key k' acc) with false; [done|]. symmetry. apply not_true_is_false. intros Hk.
      apply has_key_in in Hk. apply elem_of_list_fmap in Hk as ([k2 v2] & -> & Hin2).
      apply elem_of_list_lookup in Hin2 as [j Hj]. destruct (Forall2_lookup_r _ _ _ _ _ Hacc Hj) as (p & Hpj & _ & _ & K3).
      simpl in K2, K3. pose proof (kmatch_inj E tbl s Hw st _ _ _ Hi K2 K3) as Hco.
      rewrite Has, !map_app in Hnd'. simpl in Hnd'. apply NoDup_middle in Hnd'. apply Hnd'.
      rewrite Hco. apply elem_of_list_fmap. exists (snd p). split; [done|]. apply elem_of_list_fmap. exists p. split; [done|].
      by eapply elem_of_list_lookup_2.
    + eexists. split; [done|]. apply Forall2_app; [done|]. constructor; [|constructor]. done.
  - intros dn cs st st' (acc & -> & Hacc) _ _ He. exists acc. split; [done|].
    eapply Forall2_impl; [exact Hacc|]. intros p q (A1 & A2 & A3). split_and!.
    + by eapply rel_mono.
    + eapply hval_mono; [exact A2|lia|apply He].
    + eapply kmatch_mono; [exact A3|apply He].
  - intros cs st (acc & -> & Hacc) Hi.
    destruct (Forall2_permute _ _ _ Hp _ Hacc) as (acc' & Pa & Hacc').
    assert (same_items H (m_heap (l_mem st)) (rel st) xs (map snd acc')) as Hsi.
    { left. clear -Hacc' Hlen. generalize 0 Hlen Hacc'. clear Hlen Hacc'. intros i Hlen Hacc'.
      revert i ks acc' Hlen Hacc'. induction xs as [|x xs IH]; intros i ks acc' Hlen Hacc'; simpl in Hacc'.
      - inversion Hacc'; subst. constructor.
      - destruct ks as [|k ks]; [done|]. simpl in Hacc'. inversion Hacc' as [|? q ? acc'' Hq Hacc'']; subst.
        simpl. constructor; [apply Hq|]. eapply IH; [|exact Hacc'']. simpl in Hlen. lia. }
    assert (NoDup (map fst acc)) as Hnk.
    { eapply (distinct_loaded E tbl s Hw st (map snd as')); [done| |done].
      clear -Hacc. induction Hacc as [|p q dn acc (_ & _ & Hq) Hacc IH]; simpl; constructor; auto. }
    destruct (construct_seq_perm E lo s Hst st fu y c xs (map snd acc) (map snd acc') Hi Him Hy) as (m & v & C1 & C2).
    + by apply Permutation_map.
    + intros Hns. rewrite isinst_base, Hb in Hns by done. done.
    + exact Hsi.
    + right. split; [done|]. exists (map fst acc). split; [|done].
      clear -Hacc. induction Hacc as [|p q dn acc (_ & Hq & _) Hacc IH]; simpl; constructor; auto.
    + exists m, v. split; [|done]. simpl. case_bool_decide as Hc; [|done]. subst c.
      unfold construct_seq in C1. simpl in C1.
      assert (set_of fu (m_heap (l_mem st)) [] (map snd acc) = Ok acc) as Hso.
      { rewrite (set_of_distinct _ _ _ (map fst acc)).
        - simpl. f_equal. clear. induction acc as [|[a b] acc IH]; simpl; [done|]. by rewrite IH.
        - clear -Hacc. induction Hacc as [|p q dn acc (_ & Hq & _) Hacc IH]; simpl; constructor; auto.
        - done. }
      rewrite Hso in C1. simpl in C1. done.
Qed.

(** ** masked arrays and sparse matrices *)
Definition name_sub (p : pystr * loc) : sub := (fst p, snd p, []).
Lemma alist_get_set_eq {V} k (v : V) (l : list (pystr * V)) : alist_get k (alist_set k v l) = Some v.
Proof.
  induction l as [|[k' v'] l IH]; simpl; [by rewrite decide_True|].
  destruct (decide (k = k')); simpl; [by rewrite decide_True|by rewrite decide_False].
Qed.
Lemma alist_get_set_ne {V} k k' (v : V) (l : list (pystr * V)) : k <> k' -> alist_get k (alist_set k' v l) = alist_get k l.
Proof.
  intros Hne. induction l as [|[k0 v0] l IH]; simpl; [by rewrite decide_False|].
  destruct (decide (k' = k0)); simpl.
  - subst. by rewrite !decide_False.
  - by rewrite IH.
Qed.

Lemma masked_fold fu y c d m at0 base :
  e_imports E c = true -> H !! y = Some (Obj c (VMasked d m)) ->
  fold_ok fu KMasked at0 base c y name_sub [(str "data", d); (str "mask", m)].
Proof.
  intros Him Hy as' Hp.
  assert (NoDup (map fst as')) as Hnd.
  { rewrite (Permutation_map fst Hp). simpl. apply (bool_decide_unpack _). vm_compute. exact I. }
  exists (fun dn cs st => exists kvs, cs = SNamed kvs /\
     forall nm x, (nm, x) ∈ dn -> exists v, alist_get nm kvs = Some v /\ rel st x v).
  split_and!.
  - intros st _. exists []. split; [done|]. intros nm x Hin. inversion Hin.
  - intros dn [nm x] rest cs st v m0 Has (kvs & -> & Hd) Hi Hr Hm0. simpl in Hr.
    exists (l_mem st), (SNamed (alist_set nm v kvs)). rewrite set_mem_id. split_and!; auto using ext_refl.
    eexists. split; [done|]. intros nm' x' [Hin|Hin]%elem_of_app.
    + assert (nm' <> nm) as Hne.
      { intros ->. rewrite Has, map_app in Hnd. simpl in Hnd. apply NoDup_middle in Hnd. apply Hnd.
        apply elem_of_list_fmap. by exists (nm, x'). }
      rewrite alist_get_set_ne by done. by apply Hd.
    + apply elem_of_list_singleton in Hin as [= -> ->]. exists v. split; [apply alist_get_set_eq|done].
  - intros dn cs st st' (kvs & -> & Hd) _ _ He. exists kvs. split; [done|]. intros nm x Hin.
    destruct (Hd _ _ Hin) as (v & ? & ?). exists v. split; [done|]. by eapply rel_mono.
  - intros cs st (kvs & -> & Hd) Hi.
    destruct (Hd (str "data") d) as (vd & D1 & D2). { rewrite Hp. by left. }
    destruct (Hd (str "mask") m) as (vm & M1 & M2). { rewrite Hp. right. by left. }
    simpl. unfold masked_convert. rewrite D1, M1. eexists _, _. split; [done|].
    apply (loaded_alloc E lo s Hst st y (Obj c (VMasked d m)) (Obj c (VMasked vd vm)) Hi Hy Him).
    intros st' He. split; [done|]. simpl. split; by eapply rel_mono.
Qed.

Lemma sparse_fold fu y c d i p sh at0 base :
  e_imports E c = true -> H !! y = Some (Obj c (VSparse d i p sh)) ->
  fold_ok fu KSparse at0 base c y name_sub [(str "data", d); (str "indices", i); (str "indptr", p); (str "shape", sh)].
Proof.
  intros Him Hy as' Hp.
  assert (NoDup (map (fun q => sparse_index (fst q)) as')) as Hnd.
  { rewrite (Permutation_map _ Hp). simpl. apply (bool_decide_unpack _). vm_compute. exact I. }
  assert (forall nm x, (nm, x) ∈ as' -> exists j, sparse_index nm = Some j /\ (j < 4)%nat) as Hj.
  { intros nm x Hin. rewrite Hp in Hin. 
    repeat (apply elem_of_cons in Hin as [[= -> ->]|Hin]; [eexists; split; [vm_compute; reflexivity|lia]|]). inversion Hin. }
  exists (fun dn cs st => exists xs, cs = SSlots xs /\ length xs = 4%nat /\
     forall nm x j, (nm, x) ∈ dn -> sparse_index nm = Some j -> exists v, xs !! j = Some (Some v) /\ rel st x v).
  split_and!.
  - intros st _. exists (repeat None 4). split_and!; auto. intros nm x j Hin. inversion Hin.
  - intros dn [nm x] rest cs st v m0 Has (xs & -> & Hlen & Hd) Hi Hr Hm0. simpl in Hr.
    destruct (Hj nm x) as (j & Ej & Hlt). { rewrite Has. apply elem_of_app. right. left. }
    exists (l_mem st), (SSlots (<[j := Some v]> xs)). rewrite set_mem_id. split_and!; auto using ext_refl.
    + simpl. by rewrite Ej.
    + eexists. split; [done|]. split; [by rewrite insert_length|]. intros nm' x' j' [Hin|Hin]%elem_of_app Ej'.
      * assert (j' <> j) as Hne.
        { intros ->. rewrite Has, map_app in Hnd. simpl in Hnd. apply NoDup_middle in Hnd. apply Hnd.
          apply elem_of_list_fmap. exists (nm', x'). simpl. by rewrite Ej, Ej'. }
        rewrite list_lookup_insert_ne by done. by eapply Hd.
      * apply elem_of_list_singleton in Hin as [= -> ->]. rewrite Ej in Ej'. inversion Ej'; subst j'.
        exists v. split; [|done]. apply list_lookup_insert. lia.
  - intros dn cs st st' (xs & -> & Hlen & Hd) _ _ He. exists xs. split_and!; auto. intros nm x j Hin Ej.
    destruct (Hd _ _ _ Hin Ej) as (v & ? & ?). exists v. split; [done|]. by eapply rel_mono.
  - intros cs st (xs & -> & Hlen & Hd) Hi.
    destruct (Hd (str "data") d 0%nat) as (v1 & A1 & A2); [rewrite Hp; set_solver|done|].
    destruct (Hd (str "indices") i 1%nat) as (v2 & B1 & B2); [rewrite Hp; set_solver|done|].
    destruct (Hd (str "indptr") p 2%nat) as (v3 & C1 & C2); [rewrite Hp; set_solver|done|].
    destruct (Hd (str "shape") sh 3%nat) as (v4 & D1 & D2); [rewrite Hp; set_solver|done|].
    destruct xs as [|x1 [|x2 [|x3 [|x4 [|]]]]]; try done. simpl in A1, B1, C1, D1.
    inversion A1; inversion B1; inversion C1; inversion D1; subst.
    simpl. eexists _, _. split; [done|].
    apply (loaded_alloc E lo s Hst st y (Obj c (VSparse d i p sh)) (Obj c (VSparse v1 v2 v3 v4)) Hi Hy Him).
    intros st' He. split; [done|]. simpl. split_and!; by eapply rel_mono.
Qed.

(** ** Groups of classes that cannot be imported *)

(** A member as the group shows it. *)
Definition part {A : Type} (f : A -> sub) (st : lst) (p : A) (nm : pystr) (v : loc) (oa : option attrs) : Prop :=
  nm = fst (fst (f p)) /\ rel st (snd (fst (f p))) v /\
  forall a, oa = Some a -> exists m0, a = rec_attrs (attrs_update (snd (f p)) m0).
Lemma recover_fold {A : Type} fu y o (f : A -> sub) as_ at0 orig pt :
  H !! y = Some o -> e_imports E (ocls o) = false -> NoDup (map (fun p => fst (fst (f p))) as_) ->
  kind_kept o (rec_attrs (<[a_base_type := ABytes orig]> at0)) ->
  (forall st items, inv st -> has_members items as_ (part f st) -> group_kept H (m_heap (l_mem st)) (rel st) o items) ->
  fold_ok fu KRecover at0 orig pt y f as_.
Proof.
  intros Hy Him Hnd Hkk Hgk as' Hp.
  set (P := fun st p (it : pystr * (loc * option attrs)) => part f st p (fst it) (fst (snd it)) (snd (snd it)) /\ with_attrs (m_heap (l_mem st)) it).
  assert (NoDup (map (fun p => fst (fst (f p))) as')) as Hnd'. { by rewrite (Permutation_map _ Hp). }
  assert (forall st dn items, Forall2 (P st) dn items -> map fst items = map (fun p => fst (fst (f p))) dn) as Hnames.
  { intros st dn items Hf. induction Hf as [|p it dn items ((Hq & _) & _) Hf IH]; simpl; [done|]. by rewrite IH, Hq. }
  exists (fun dn cs st => exists items, cs = SRec items /\ Forall2 (P st) dn items).
  split_and!.
  - intros st _. by exists [].
  - intros dn p rest cs st v m0 Has (items & -> & Hf) Hi Hr Hm0.
    set (oa := if is_recovered (l_mem st) v then None else Some (rec_attrs (attrs_update (snd (f p)) m0))).
    exists (l_mem st), (SRec (items ++ [(fst (fst (f p)), (v, oa))])). rewrite set_mem_id. split_and!; auto using ext_refl.
    + cbn [cont_append]. rewrite alist_set_new; [done|]. rewrite (Hnames _ _ _ Hf).
      rewrite Has, map_app in Hnd'. simpl in Hnd'. by eapply NoDup_middle.
    + eexists. split; [done|]. apply Forall2_app; [done|]. constructor; [|constructor]. unfold P, part. cbn [fst snd].
      split.
      * split_and!; auto. intros a Ha. unfold oa in Ha. destruct (is_recovered (l_mem st) v); [discriminate|]. injection Ha as <-. by exists m0.
      * assert (exists o', m_heap (l_mem st) !! v = Some o') as [o' Ho'].
        { destruct Hr as [Hmr|[(ob & _ & _ & _ & Hv)|(ob & ob' & ? & _ & _ & _ & _ & _ & Hv & _)]]; [|by eexists..].
          destruct (memo_matched E tbl s Hw _ _ _ Hi Hmr) as (ob & ob' & _ & Hob' & _). by eexists. }
        exists o'. cbn [fst snd]. split; [done|]. unfold oa, is_recovered. rewrite Ho'. by destruct (isinst (ocls o') CRecoverCustom).
  - intros dn cs st st' (items & -> & Hf) _ _ He. exists items. split; [done|].
    eapply Forall2_impl; [exact Hf|]. intros p it ((H1 & H2 & H3) & (ob & Hob & Ha)). split.
    + split_and!; auto. by eapply rel_mono.
    + exists ob. split; [|done]. eapply lookup_weaken; [exact Hob|apply He].
  - intros cs st (items & -> & Hf) Hi. cbn [cont_convert].
    eexists _, _. split; [done|].
    assert (group_kept H (m_heap (l_mem st)) (rel st) o items) as Hg.
    { apply Hgk; [done|]. exists (map (fun p => fst (fst (f p))) as_). split; [done|]. split.
      - rewrite (Hnames _ _ _ Hf). by rewrite (Permutation_map _ Hp).
      - apply Forall2_fmap_r, list.Forall_Forall2_diag, list.Forall_forall. intros p Hin. rewrite <- Hp in Hin.
        apply elem_of_list_lookup in Hin as [i Hin]. destruct (Forall2_lookup_l _ _ _ _ _ Hf Hin) as ([nm [v oa]] & Hit & Hpt).
        exists v, oa. destruct Hpt as [Hpt _]. pose proof (proj1 Hpt) as Hnm. cbn in Hnm. subst nm. split; [by eapply elem_of_list_lookup_2|exact Hpt]. }
    destruct (inv_alloc E lo s Hst st (Obj CRecoveredGroup (VRecG items (rec_attrs (<[a_base_type := ABytes orig]> at0)))) Hi)
      as (A1 & A2 & A3 & A4).
    split; [exact A1|]. split; [exact A2|]. split; [|left; exact A4].
    exists o. eexists. split; [done|]. split; [exact A3|]. unfold stands_for. rewrite Him. right.
    eexists _, _. split; [done|]. split; [done|]. split.
    { eapply group_kept_mono; [exact Hg|apply A2|]. intros. by eapply rel_mono. }
    apply list.Forall_forall. intros it Hit. apply elem_of_list_lookup in Hit as [i Hit].
    destruct (Forall2_lookup_r _ _ _ _ _ Hf Hit) as (p & _ & _ & (ob & Hob & Ha)). exists ob. split; [|done].
    eapply lookup_weaken; [exact Hob|apply A2].
Qed.
End Load.
