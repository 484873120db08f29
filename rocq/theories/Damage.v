(** * Damage: groups with missing members or with indices that occur twice *)
From Verif Require Import Base Utf8 Dec Num PyObj H5 Env Create LoadFns LoadModel.
From Coq Require Import Lia ZifyBool ZifyN.
Local Open Scope N_scope.
Local Open Scope list_scope.

(** ** Specification *)

(** The place in the sequence a member says it has: its attribute item_index, or, if there
    is none (hickle 4), the number its name ends with. *)
Definition seq_place (nm : pystr) (n : node) : option nat :=
  match nd_attrs n !! a_item_index with
  | Some (AInt z) => if (z <? 0)%Z then None else Some (Z.to_nat z)
  | Some _ => None
  | None => option_map N.to_nat (trailing_int nm)
  end.
(** The place in the dict. *)
Definition dict_place (n : node) : option nat :=
  match nd_attrs n !! a_key_idx with
  | Some (AInt z) => if (z <? 0)%Z then None else Some (Z.to_nat z)
  | _ => None
  end.

Section Load.
Context (E : env) (HO : forall a l, Permutation (e_order E a l) l) (LD : loader) (f : file).

(** The class and the base_type a node is loaded with. *)
Definition loads_as (n : node) (pt : cls) (b : bytes) (cont : bool) : Prop :=
  exists r memo, resolve_type E (ld_legacy LD) f n = Ok r /\ ld_load LD (r_cls r) (r_base r) = Ok (pt, memo) /\
    r_base r = b /\ r_cont r = cont.

(** A node that does not stand for an empty tuple: its class is not a tuple class and it
    is no reference to another node. *)
Definition no_empty_tuple (n : node) : Prop :=
  exists pt b cont, loads_as n pt b cont /\ base_cls pt <> CTuple /\
    (if cont : bool then ld_conts LD b <> Some KExpand /\ ld_conts LD b <> Some KFirst
     else ld_types LD b <> Some LNothing).

(** A list or tuple group two members of which say they have the same place. *)
Definition place_twice (a : addr) : Prop :=
  exists n pt b nm1 a1 n1 nm2 a2 n2 i,
    get_node f a = Some n /\ loads_as n pt b true /\ ld_conts LD b = Some KList /\
    (nm1, a1) ∈ links n /\ get_node f a1 = Some n1 /\
    (nm2, a2) ∈ links n /\ get_node f a2 = Some n2 /\ nm1 <> nm2 /\
    seq_place nm1 n1 = Some i /\ seq_place nm2 n2 = Some i /\
    no_empty_tuple n1 /\ no_empty_tuple n2.

(** A dict group with two members for one place, or with nothing for a place before that
    of another member. *)
Definition dict_twice (a : addr) : Prop :=
  exists n pt b nm1 a1 n1 nm2 a2 n2 i,
    get_node f a = Some n /\ loads_as n pt b true /\ ld_conts LD b = Some KDict /\
    (nm1, a1) ∈ links n /\ get_node f a1 = Some n1 /\
    (nm2, a2) ∈ links n /\ get_node f a2 = Some n2 /\ nm1 <> nm2 /\
    dict_place n1 = Some i /\ dict_place n2 = Some i /\
    no_empty_tuple n1 /\ no_empty_tuple n2.
Definition dict_gap (a : addr) : Prop :=
  exists n pt b nm1 a1 n1 i j,
    get_node f a = Some n /\ loads_as n pt b true /\ ld_conts LD b = Some KDict /\
    (base_cls pt = CDict \/ base_cls pt = COrderedDict) /\
    (nm1, a1) ∈ links n /\ get_node f a1 = Some n1 /\ dict_place n1 = Some j /\ (i < j)%nat /\
    (forall nm2 a2 n2, (nm2, a2) ∈ links n -> get_node f a2 = Some n2 -> dict_place n2 <> Some i).

(** A group with the property [P], a group it is in, or a reference to one. *)
Inductive inside (P : addr -> Prop) : addr -> Prop :=
| inside_self a : P a -> inside P a
| inside_member a n pt b nm a' :
    get_node f a = Some n -> loads_as n pt b true -> (nm, a') ∈ links n -> inside P a' -> inside P a
| inside_ref a n pt b t :
    get_node f a = Some n -> loads_as n pt b true -> nd_body n = BData (DRefTo t) -> inside P t -> inside P a.

(** All of it together. *)
Inductive contains_damage : addr -> Prop :=
| damage_list a : place_twice a -> contains_damage a
| damage_dict a : dict_twice a -> contains_damage a
| damage_gap a : dict_gap a -> contains_damage a
| damage_member a n pt b nm a' :
    get_node f a = Some n -> loads_as n pt b true -> (nm, a') ∈ links n -> contains_damage a' -> contains_damage a
| damage_ref a n pt b t :
    get_node f a = Some n -> loads_as n pt b true -> nd_body n = BData (DRefTo t) -> contains_damage t ->
    contains_damage a.

Lemma inside_damage (P : addr -> Prop) : (forall a, P a -> place_twice a \/ dict_twice a \/ dict_gap a) ->
  forall a, inside P a -> contains_damage a.
Proof.
  intros HP a. induction 1 as [a H|a n pt b nm a' Hn Hl Hi _ IH|a n pt b t Hn Hl Hb _ IH].
  - destruct (HP a H) as [?|[?|?]]; [by apply damage_list|by apply damage_dict|by apply damage_gap].
  - by eapply damage_member.
  - by eapply damage_ref.
Qed.

(** ** Memory only grows, new objects are not the empty tuple

    [b]: a condition under which the result is a new object. *)
Definition fine (m : mem) (b : Prop) (r : res (mem * loc)) : Prop :=
  forall m' l, r = Ok (m', l) -> m_next m <= m_next m' /\ (b -> m_next m <= l).

Lemma fine_alloc m0 b o m : m_next m0 <= m_next m -> fine m0 b (Ok (alloc o m)).
Proof. intros H m' l [= <- <-]. simpl. lia. Qed.
Lemma fine_err m0 b e : fine m0 b (Err e).
Proof. intros m' l [=]. Qed.
Lemma fine_bind {A} m0 b (r : res A) g : (forall x, fine m0 b (g x)) -> fine m0 b (res_bind r g).
Proof. intros H. destruct r; [apply H|apply fine_err]. Qed.
Lemma fine_map {A} m0 b (r : res A) g : (forall x, fine m0 b (Ok (g x))) -> fine m0 b (res_map g r).
Proof. intros H. destruct r; [apply H|apply fine_err]. Qed.
Lemma fine_weaken m0 (b b' : Prop) r : (b' -> b) -> fine m0 b r -> fine m0 b' r.
Proof. intros H F m' l Er. destruct (F _ _ Er). split; auto. Qed.

Lemma alloc_list_next os : forall m m' ls, alloc_list os m = (m', ls) -> m_next m <= m_next m'.
Proof.
  induction os as [|o os IH]; intros m m' ls; simpl; [intros [= <- <-]; lia|].
  destruct (alloc_list os _) as [m2 l2] eqn:E2. intros [= <- <-]. apply IH in E2. simpl in E2. lia.
Qed.

Lemma construct_seq_fine fuel pt xs m m0 : m_next m0 <= m_next m ->
  fine m0 (base_cls pt <> CTuple) (construct_seq fuel pt xs m).
Proof.
  intros Hm. unfold construct_seq.
  destruct (base_cls pt) eqn:Ep; try apply fine_err; try (by apply fine_alloc).
  - destruct (_ && _); [|by apply fine_alloc]. intros m' l [= <- <-]. split; [done|]. by intros H.
  - apply fine_map. intros x. by apply fine_alloc.
  - destruct (_ =? 1); [|apply fine_err]. simpl. apply fine_alloc. simpl. lia.
Qed.

Ltac fine_go :=
  repeat match goal with
  | |- fine _ _ (Err _) => apply fine_err
  | |- fine _ _ (Ok (alloc _ _)) => apply fine_alloc; simpl in *; lia
  | |- fine _ _ (res_map _ _) => apply fine_map; intros ?
  | |- fine _ _ (res_bind _ _) => apply fine_bind; intros ?
  | |- fine _ _ (construct_seq _ _ _ _) => eapply fine_weaken; [|apply construct_seq_fine; simpl in *; lia]
  | |- fine _ _ (match ?x with _ => _ end) => destruct x eqn:?
  | H : alloc_list _ _ = _ |- _ => apply alloc_list_next in H
  | H : alloc _ _ = (_, _) |- _ => injection H as <- <-
  end; try done; try (intros; intuition congruence).

Lemma load_list_fine fuel a d pt m : fine m (base_cls pt <> CTuple) (load_list fuel a d pt m).
Proof. unfold load_list. fine_go. Qed.
Lemma load_fn_fine fuel fn a d orig pt m :
  fine m (base_cls pt <> CTuple /\ fn <> LNothing) (load_fn E fuel fn a d orig pt m).
Proof.
  destruct fn; cbn [load_fn].
  - unfold load_scalar. fine_go.
  - unfold load_none. fine_go.
  - eapply fine_weaken; [|apply load_list_fine]. tauto.
  - unfold load_4x_string. destruct d; try (eapply fine_weaken; [|apply load_list_fine]; tauto). fine_go.
  - unfold load_pickled. fine_go.
  - intros m' l [= <- <-]. split; [lia|]. intros [_ H]. done.
  - unfold recover_dataset. fine_go.
  - unfold load_np_scalar. fine_go.
  - unfold load_np_dtype. fine_go.
  - unfold load_ndarray. fine_go.
  - apply fine_err.
Qed.

Lemma count_slots_next fuel slots : forall d m m' d', count_slots fuel slots d m = Ok (m', d') -> m_next m <= m_next m'.
Proof.
  induction slots as [|sl slots IH]; intros d m m' d'; cbn [count_slots]; [intros [= <- <-]; lia|].
  destruct sl as [|k v|l].
  - destruct (hval _ _ _); [|done]. cbn [res_bind]. apply IH.
  - destruct (alloc _ m) as [m1 l] eqn:Ea. injection Ea as <- <-.
    destruct (hval _ _ _); [|done]. cbn [res_bind]. intros H. apply IH in H. simpl in H. lia.
  - destruct (hval _ _ _); [|done]. cbn [res_bind]. apply IH.
Qed.
Lemma nd_convert_fine a pt cs m b : fine m b (nd_convert a pt cs m).
Proof.
  unfold nd_convert. set (p := match cs with SNd l => (m, l) | _ => _ end).
  assert (m_next m <= m_next (fst p)) as Hp by (unfold p; destruct cs; simpl; lia).
  destruct p as [m1 l]. simpl in Hp. apply fine_bind. intros s. apply fine_bind. intros ad.
  cbv zeta. destruct (leaves _ _ _) as [ls|]; [|apply fine_err].
  destruct (existsb _ _); [apply fine_err|].
  assert (forall v, fine m b (if bool_decide (pt = CNdarray) || bool_decide (pt = moc_lambda) then Ok (alloc (Obj CNdarray v) m1) else Err Unmodelled)) as Hb.
  { intros v. destruct (_ || _); [by apply fine_alloc|apply fine_err]. }
  destruct ad; [apply fine_err| |apply Hb]. apply fine_bind. intros ss. apply Hb.
Qed.
Lemma cont_convert_fine fuel k a orig pt cs m :
  fine m (base_cls pt <> CTuple /\ k <> KExpand /\ k <> KFirst) (cont_convert fuel k a orig pt cs m).
Proof.
  unfold cont_convert. destruct k; destruct cs; try apply fine_err; try (apply fine_alloc; lia).
  - fine_go.
  - fine_go.
  - unfold dict_convert. destruct (base_cls pt); try apply fine_err.
    + fine_go.
    + fine_go.
    + destruct (count_slots _ _ _ _) as [[m1 d]|] eqn:Ec; [|apply fine_err]. cbn [res_map].
      apply count_slots_next in Ec. destruct (alloc_list _ _) as [m2 vs] eqn:El. apply alloc_list_next in El.
      apply fine_alloc. lia.
  - destruct xs; [apply fine_err|]. intros m' l [= <- <-]. split; [lia|]. intros (_ & H & _). done.
  - destruct xs; [apply fine_err|]. intros m' l [= <- <-]. split; [lia|]. intros (_ & _ & H). done.
  - apply nd_convert_fine.
  - apply nd_convert_fine.
  - apply nd_convert_fine.
  - apply nd_convert_fine.
  - apply nd_convert_fine.
  - apply nd_convert_fine.
  - apply nd_convert_fine.
  - unfold masked_convert. fine_go.
  - unfold sparse_convert. fine_go.
Qed.
Lemma cont_append_next fuel k nm l a cs m m' cs' :
  cont_append E fuel k nm l a cs m = Ok (m', cs') -> m_next m <= m_next m'.
Proof.
  unfold cont_append. destruct k; destruct cs; try discriminate;
    try (destruct (list_append _ _ _ _); intros [= <- <-]; lia);
    try (destruct (set_add _ _ _ _); intros [= <- <-]; lia);
    try (destruct (nd_append _ _ _ _); intros [= <- <-]; lia);
    try (intros [= <- <-]; lia).
  - destruct (dict_append _ _ _ _ _ _) as [[m1 s1]|] eqn:Ed; [|discriminate]. intros [= <- <-].
    revert Ed. unfold dict_append. destruct (dict_key _ _ _) as [[o|]|]; cbn [res_bind]; [| |discriminate];
      cbn [alloc]; destruct (index_of _) as [[i|]|]; cbn [res_bind]; try discriminate.
    + destruct (set_slot _ _ _ _ _); intros [= <- <-]; simpl; lia.
    + destruct (_ =? _); intros [= <- <-]; simpl; lia.
    + destruct (set_slot _ _ _ _ _); intros [= <- <-]; simpl; lia.
  - destruct (sparse_index nm); intros [= <- <-]; lia.
Qed.

(** ** Slots *)
Lemma set_slot_spec {A} (hole : A) (is_hole : A -> bool) i x xs xs' :
  set_slot hole is_hole i x xs = Ok xs' ->
  xs' !! i = Some x /\
  (forall j y, j <> i -> xs !! j = Some y -> xs' !! j = Some y) /\
  (forall y, xs !! i = Some y -> is_hole y = true) /\
  (forall j, j <> i -> xs !! j = None -> xs' !! j = None \/ xs' !! j = Some hole) /\
  (length xs <= length xs')%nat.
Proof.
  unfold set_slot. set (ys := xs ++ repeat hole (i + 1 - length xs)).
  assert (length xs <= length ys)%nat as Hl by (unfold ys; rewrite app_length; lia).
  destruct (ys !! i) as [y|] eqn:Ei; [|discriminate]. destruct (is_hole y) eqn:Eh; intros [= <-].
  apply lookup_lt_Some in Ei as Hi. split; [by apply list_lookup_insert|].
  split; [intros j z Hj Hz; rewrite list_lookup_insert_ne by done; unfold ys; by apply lookup_app_l_Some|].
  split.
  { intros z Hz. assert (ys !! i = Some z) as Ez by (unfold ys; by apply lookup_app_l_Some). congruence. }
  split.
  { intros j Hj Hn. rewrite list_lookup_insert_ne by done. apply lookup_ge_None in Hn.
    unfold ys. rewrite lookup_app_r by done. destruct (repeat hole _ !! _) as [z|] eqn:Ez; [|by left].
    right. f_equal. apply elem_of_list_lookup_2, elem_of_list_In, repeat_spec in Ez. done. }
  rewrite insert_length. exact Hl.
Qed.

Lemma seq_place_index nm n oi : index_of (nd_attrs n !! a_item_index) = Ok oi ->
  seq_place nm n = match oi with Some i => Some i | None => option_map N.to_nat (trailing_int nm) end.
Proof.
  unfold index_of, seq_place. destruct (nd_attrs n !! a_item_index) as [[| | | | |]|]; try discriminate.
  - destruct (z <? 0)%Z; intros [= <-]. done.
  - by intros [= <-].
Qed.
Lemma list_append_spec nm item n xs xs' :
  list_append nm item (nd_attrs n) xs = Ok xs' ->
  (forall i, seq_place nm n = Some i -> xs' !! i = Some item) /\
  (forall j y, y <> nobody -> xs !! j = Some y -> xs' !! j = Some y /\ seq_place nm n <> Some j).
Proof.
  unfold list_append. destruct (index_of _) as [oi|] eqn:Ei; [|discriminate]. cbn [res_bind].
  rewrite (seq_place_index nm n oi Ei).
  assert (forall i, set_slot nobody (N.eqb nobody) i item xs = Ok xs' ->
    (forall i', Some i = Some i' -> xs' !! i' = Some item) /\
    (forall j y, y <> nobody -> xs !! j = Some y -> xs' !! j = Some y /\ Some i <> Some j)) as Hs.
  { intros i Hs. apply set_slot_spec in Hs as (H1 & H2 & H3 & _). split; [by intros i' [= <-]|].
    intros j y Hy Hj. assert (j <> i) as N.
    { intros ->. apply H3 in Hj. apply N.eqb_eq in Hj. congruence. }
    split; [by apply H2|congruence]. }
  destruct oi as [i|]; [apply Hs|]. destruct (trailing_int nm) as [i|]; cbn [option_map]; [apply Hs|].
  destruct (item =? nobody); intros [= <-]. split; [done|]. done.
Qed.

Lemma dict_place_index n oi : index_of (nd_attrs n !! a_key_idx) = Ok oi -> dict_place n = oi.
Proof.
  unfold index_of, dict_place. destruct (nd_attrs n !! a_key_idx) as [[| | | | |]|]; try discriminate.
  - destruct (z <? 0)%Z; intros [= <-]. done.
  - by intros [= <-].
Qed.
Lemma dict_append_spec nm item n xs m m' xs' :
  dict_append E nm item (nd_attrs n) xs m = Ok (m', xs') ->
  (forall i, dict_place n = Some i -> exists y, xs' !! i = Some y /\ (item <> nobody -> slot_is_hole y = false)) /\
  (forall j y, slot_is_hole y = false -> xs !! j = Some y -> xs' !! j = Some y /\ dict_place n <> Some j) /\
  (forall j, dict_place n <> Some j ->
     (xs !! j = Some SHole -> xs' !! j = Some SHole) /\
     (xs !! j = None -> xs' !! j = None \/ xs' !! j = Some SHole)).
Proof.
  unfold dict_append. destruct (dict_key E nm _) as [ok|]; [|discriminate]. cbn [res_bind].
  set (ms := match ok with Some o => _ | None => _ end).
  assert (snd ms = SItem item \/ exists l, snd ms = SPair l item) as Hms.
  { unfold ms. destruct ok; simpl; [right; by eexists|by left]. }
  destruct ms as [m1 slot]. simpl in Hms.
  destruct (index_of _) as [oi|] eqn:Ei; [|discriminate]. cbn [res_bind].
  rewrite (dict_place_index n oi Ei). destruct oi as [i|].
  - destruct (set_slot _ _ _ _ _) as [ys|] eqn:Es; [|discriminate]. intros [= <- <-].
    apply set_slot_spec in Es as (H1 & H2 & H3 & H4 & _). split; [|split].
    + intros i' [= <-]. exists slot. split; [done|]. intros Hi.
      destruct Hms as [-> |[l ->]]; simpl; [by apply N.eqb_neq|done].
    + intros j y Hy Hj. assert (j <> i) as N.
      { intros ->. apply H3 in Hj. congruence. }
      split; [by apply H2|congruence].
    + intros j Hj. assert (j <> i) as N by congruence. split; [by apply H2|by apply H4].
  - destruct slot; try discriminate. destruct (_ =? _); intros [= <- <-].
    split; [done|]. split; [by intros j y|]. intros j _. split; [done|by left].
Qed.

Lemma dict_append_length nm item n xs m m' xs' :
  dict_append E nm item (nd_attrs n) xs m = Ok (m', xs') -> (length xs <= length xs')%nat.
Proof.
  unfold dict_append. destruct (dict_key E nm _) as [ok|]; [|discriminate]. cbn [res_bind].
  destruct (match ok with Some o => _ | None => _ end) as [m1 slot].
  destruct (index_of _) as [[i|]|]; cbn [res_bind]; [| |discriminate].
  - destruct (set_slot _ _ _ _ _) as [ys|] eqn:Es; [|discriminate]. intros [= <- <-].
    by apply set_slot_spec in Es as (_ & _ & _ & _ & H).
  - destruct slot; try discriminate. destruct (_ =? _); intros [= <- <-]. lia.
Qed.

(** ** Loading the members of a group *)
Record tidy (s : lst) : Prop := Tidy {
  ti_next : 0 < m_next (l_mem s);
  ti_empty : forall a n, l_memo s !! a = Some nobody -> get_node f a = Some n -> ~ no_empty_tuple n;
  ti_damage : forall a, contains_damage a -> l_memo s !! a = None
}.
Definition rec_ok (rec : addr -> lst -> res (lst * loc)) : Prop :=
  forall a s s' l, tidy s -> rec a s = Ok (s', l) ->
    tidy s' /\ ~ contains_damage a /\ (forall n, get_node f a = Some n -> no_empty_tuple n -> l <> nobody).

Lemma tidy_set_mem m s : tidy s -> m_next (l_mem s) <= m_next m -> tidy (set_mem m s).
Proof. intros [H1 H2 H3] Hm. split; simpl; [lia|done|done]. Qed.

(** One member. *)
Lemma load_members_cons fuel rec k nm a ms cs s s' cs' :
  load_members E fuel f rec k ((nm, a) :: ms) cs s = Ok (s', cs') ->
  exists n s1 l m1 cs1, get_node f a = Some n /\ rec a s = Ok (s1, l) /\
    cont_append E fuel k nm l (nd_attrs n) cs (l_mem s1) = Ok (m1, cs1) /\
    load_members E fuel f rec k ms cs1 (set_mem m1 s1) = Ok (s', cs').
Proof.
  cbn [load_members]. destruct (get_node f a) as [n|]; [|discriminate].
  destruct (rec a s) as [[s1 l]|]; [|discriminate]. cbn [res_bind].
  destruct (cont_append _ _ _ _ _ _ _ _) as [[m1 cs1]|] eqn:Ea; [|discriminate]. cbn [res_bind]. intros H.
  exists n, s1, l, m1, cs1. done.
Qed.
Lemma load_members_tidy fuel rec k ms : rec_ok rec -> forall cs s s' cs', tidy s ->
  load_members E fuel f rec k ms cs s = Ok (s', cs') ->
  tidy s' /\ (forall nm a, (nm, a) ∈ ms -> ~ contains_damage a).
Proof.
  intros Hrec. induction ms as [|[nm a] ms IH]; intros cs s s' cs' Ht H.
  - injection H as <- <-. split; [done|]. intros nm a Hi. by apply elem_of_nil in Hi.
  - apply load_members_cons in H as (n & s1 & l & m1 & cs1 & _ & Hr & Ha & H).
    destruct (Hrec _ _ _ _ Ht Hr) as (Ht1 & Hd & _). apply cont_append_next in Ha.
    destruct (IH _ _ _ _ (tidy_set_mem m1 s1 Ht1 Ha) H) as [Ht' Hn]. split; [done|].
    intros nm' a' Hi. apply elem_of_cons in Hi as [[= -> ->]|Hi]; [done|by eapply Hn].
Qed.

(** *** Lists *)
Lemma list_members_free fuel rec ms : forall xs s s' cs',
  load_members E fuel f rec KList ms (SList xs) s = Ok (s', cs') ->
  forall nm a n i y, (nm, a) ∈ ms -> get_node f a = Some n -> seq_place nm n = Some i -> xs !! i = Some y -> y = nobody.
Proof.
  induction ms as [|[nm a] ms IH]; intros xs s s' cs' H nm' a' n' i y Hi Hn Hp Hy.
  - by apply elem_of_nil in Hi.
  - apply load_members_cons in H as (n & s1 & l & m1 & cs1 & Hn1 & _ & Ha & H). cbn [cont_append] in Ha.
    destruct (list_append _ _ _ _) as [xs1|] eqn:El; [|discriminate]. injection Ha as <- <-.
    apply list_append_spec in El as [_ El]. destruct (decide (y = nobody)) as [|N]; [done|].
    destruct (El i y N Hy) as [H1 H2]. apply elem_of_cons in Hi as [[= -> ->]|Hi]; [congruence|].
    exfalso. apply N. by eapply IH.
Qed.
Lemma list_members_twice fuel rec ms : rec_ok rec -> forall xs s s' cs', tidy s ->
  load_members E fuel f rec KList ms (SList xs) s = Ok (s', cs') ->
  forall nm1 a1 n1 nm2 a2 n2 i, (nm1, a1) ∈ ms -> (nm2, a2) ∈ ms -> nm1 <> nm2 ->
    get_node f a1 = Some n1 -> get_node f a2 = Some n2 -> no_empty_tuple n1 -> no_empty_tuple n2 ->
    seq_place nm1 n1 = Some i -> seq_place nm2 n2 = Some i -> False.
Proof.
  intros Hrec. induction ms as [|[nm a] ms IH]; intros xs s s' cs' Ht H nm1 a1 n1 nm2 a2 n2 i H1 H2 Hne G1 G2 S1 S2 P1 P2.
  - by apply elem_of_nil in H1.
  - apply load_members_cons in H as (n & s1 & l & m1 & cs1 & Hn1 & Hr & Ha & H).
    pose proof Ha as Ha'. apply cont_append_next in Ha'. cbn [cont_append] in Ha.
    destruct (list_append _ _ _ _) as [xs1|] eqn:El; [|discriminate]. injection Ha as <- <-.
    destruct (Hrec _ _ _ _ Ht Hr) as (Ht1 & _ & Hl).
    apply list_append_spec in El as [El _].
    assert (forall nm' a' n', (nm', a') ∈ ms -> get_node f a' = Some n' -> no_empty_tuple n -> seq_place nm n = Some i ->
              seq_place nm' n' = Some i -> False) as Hhead.
    { intros nm' a' n' Hi Hn' Hs Hp Hp'. apply (Hl n Hn1 Hs).
      by eapply (list_members_free _ _ _ _ _ _ _ H nm' a' n' i l Hi Hn' Hp'), El. }
    pose proof H2 as Hc2. apply elem_of_cons in H1 as [[= -> ->]|H1].
    + apply elem_of_cons in Hc2 as [[= ? ?]|Hc2]; [congruence|].
      assert (n = n1) as -> by congruence. by eapply (Hhead nm2 a2 n2).
    + apply elem_of_cons in Hc2 as [[= -> ->]|Hc2].
      * assert (n = n2) as -> by congruence. by eapply (Hhead nm1 a1 n1).
      * by eapply (IH _ _ _ _ (tidy_set_mem _ _ Ht1 Ha') H nm1 a1 n1 nm2 a2 n2 i).
Qed.

(** *** Dicts *)
Lemma dict_step fuel nm l n xs m m1 cs1 :
  cont_append E fuel KDict nm l (nd_attrs n) (SDict xs) m = Ok (m1, cs1) ->
  exists xs1, cs1 = SDict xs1 /\ dict_append E nm l (nd_attrs n) xs m = Ok (m1, xs1).
Proof.
  cbn [cont_append]. destruct (dict_append _ _ _ _ _ _) as [[m2 xs1]|]; [|discriminate].
  cbn [res_map]. intros [= <- <-]. by exists xs1.
Qed.
Lemma dict_members_free fuel rec ms : forall xs s s' cs',
  load_members E fuel f rec KDict ms (SDict xs) s = Ok (s', cs') ->
  forall nm a n i y, (nm, a) ∈ ms -> get_node f a = Some n -> dict_place n = Some i -> xs !! i = Some y ->
    slot_is_hole y = true.
Proof.
  induction ms as [|[nm a] ms IH]; intros xs s s' cs' H nm' a' n' i y Hi Hn Hp Hy.
  - by apply elem_of_nil in Hi.
  - apply load_members_cons in H as (n & s1 & l & m1 & cs1 & Hn1 & _ & Ha & H).
    apply dict_step in Ha as (xs1 & -> & Ha). apply dict_append_spec in Ha as (_ & El & _).
    destruct (slot_is_hole y) eqn:Eh; [done|].
    destruct (El i y Eh Hy) as [H1 H2]. apply elem_of_cons in Hi as [[= -> ->]|Hi]; [congruence|].
    rewrite <- Eh. by eapply IH.
Qed.
Lemma dict_members_twice fuel rec ms : rec_ok rec -> forall xs s s' cs', tidy s ->
  load_members E fuel f rec KDict ms (SDict xs) s = Ok (s', cs') ->
  forall nm1 a1 n1 nm2 a2 n2 i, (nm1, a1) ∈ ms -> (nm2, a2) ∈ ms -> nm1 <> nm2 ->
    get_node f a1 = Some n1 -> get_node f a2 = Some n2 -> no_empty_tuple n1 -> no_empty_tuple n2 ->
    dict_place n1 = Some i -> dict_place n2 = Some i -> False.
Proof.
  intros Hrec. induction ms as [|[nm a] ms IH]; intros xs s s' cs' Ht H nm1 a1 n1 nm2 a2 n2 i H1 H2 Hne G1 G2 S1 S2 P1 P2.
  - by apply elem_of_nil in H1.
  - apply load_members_cons in H as (n & s1 & l & m1 & cs1 & Hn1 & Hr & Ha & H).
    pose proof Ha as Ha'. apply cont_append_next in Ha'.
    apply dict_step in Ha as (xs1 & -> & Ha). apply dict_append_spec in Ha as (El & _ & _).
    destruct (Hrec _ _ _ _ Ht Hr) as (Ht1 & _ & Hl).
    assert (forall nm' a' n', (nm', a') ∈ ms -> get_node f a' = Some n' -> no_empty_tuple n -> dict_place n = Some i ->
              dict_place n' = Some i -> False) as Hhead.
    { intros nm' a' n' Hi Hn' Hs Hp Hp'. destruct (El i Hp) as (y & Hy & Hh).
      pose proof (dict_members_free _ _ _ _ _ _ _ H nm' a' n' i y Hi Hn' Hp' Hy) as Hy'.
      rewrite (Hh (Hl n Hn1 Hs)) in Hy'. discriminate. }
    pose proof H2 as Hc2. apply elem_of_cons in H1 as [[= -> ->]|H1].
    + apply elem_of_cons in Hc2 as [[= ? ?]|Hc2]; [congruence|].
      assert (n = n1) as -> by congruence. by eapply (Hhead nm2 a2 n2).
    + apply elem_of_cons in Hc2 as [[= -> ->]|Hc2].
      * assert (n = n2) as -> by congruence. by eapply (Hhead nm1 a1 n1).
      * by eapply (IH _ _ _ _ (tidy_set_mem _ _ Ht1 Ha') H nm1 a1 n1 nm2 a2 n2 i).
Qed.
Lemma dict_members_gap fuel rec ms i : forall xs s s' cs',
  load_members E fuel f rec KDict ms (SDict xs) s = Ok (s', cs') ->
  (forall nm a n, (nm, a) ∈ ms -> get_node f a = Some n -> dict_place n <> Some i) ->
  exists xs', cs' = SDict xs' /\
    (xs !! i = Some SHole -> xs' !! i = Some SHole) /\
    (xs !! i = None -> xs' !! i = None \/ xs' !! i = Some SHole) /\
    (length xs <= length xs')%nat /\
    (forall nm a n j, (nm, a) ∈ ms -> get_node f a = Some n -> dict_place n = Some j -> (j < length xs')%nat).
Proof.
  induction ms as [|[nm a] ms IH]; intros xs s s' cs' H Hno.
  - injection H as <- <-. exists xs. do 4 (split; [auto|]). intros nm a n j Hi. by apply elem_of_nil in Hi.
  - apply load_members_cons in H as (n & s1 & l & m1 & cs1 & Hn1 & _ & Ha & H).
    apply dict_step in Ha as (xs1 & -> & Ha). pose proof (dict_append_length _ _ _ _ _ _ _ Ha) as Hlen.
    apply dict_append_spec in Ha as (Ep & _ & Eh).
    destruct (Eh i (Hno nm a n (elem_of_list_here _ _) Hn1)) as [E1 E2].
    destruct (IH _ _ _ _ H) as (xs' & -> & I1 & I2 & I3 & I4).
    { intros nm' a' n' Hi. apply (Hno nm'). by apply elem_of_list_further. }
    exists xs'. split; [done|]. split; [auto|]. split.
    { intros Hx. destruct (E2 Hx) as [Hx1|Hx1]; [auto|right; auto]. }
    split; [lia|]. intros nm' a' n' j Hi Hn' Hp. apply elem_of_cons in Hi as [[= -> ->]|Hi]; [|by eapply I4].
    assert (n' = n) as -> by congruence. destruct (Ep j Hp) as (y & Hy & _). apply lookup_lt_Some in Hy. lia.
Qed.
Lemma dict_convert_hole fuel pt xs m i m' l :
  base_cls pt = CDict \/ base_cls pt = COrderedDict -> xs !! i = Some SHole ->
  dict_convert fuel pt xs m <> Ok (m', l).
Proof.
  intros Hp Hi. assert (forall ps, res_mapM (slot_pair (m_heap m)) xs <> Ok ps) as Hn.
  { clear -Hi. revert i Hi. induction xs as [|x xs IH]; intros i Hi ps; [done|]. cbn [res_mapM].
    destruct i as [|i].
    - injection Hi as ->. by cbn [slot_pair res_bind].
    - destruct (slot_pair _ x); cbn [res_bind]; [|done].
      destruct (res_mapM _ xs) as [ps'|] eqn:Es; [|done]. exfalso. by eapply (IH i Hi ps'). }
  unfold dict_convert. destruct (res_mapM _ xs) as [ps|] eqn:Es; [exfalso; by eapply Hn|].
  destruct Hp as [-> | ->]; done.
Qed.

(** ** Where the items of a list go

    Every member with a place is found there, unless it is the empty tuple; places nobody
    claims hold the empty tuple. *)
Definition items_in_place (rec : addr -> lst -> res (lst * loc)) (ms : list (pystr * addr)) (xs : list loc) : Prop :=
  (forall nm a n i, (nm, a) ∈ ms -> get_node f a = Some n -> seq_place nm n = Some i ->
     exists s1 s2 v, rec a s1 = Ok (s2, v) /\ is_Some (xs !! i) /\ (v = nobody \/ xs !! i = Some v)) /\
  (forall i y, xs !! i = Some y -> y <> nobody ->
     exists nm a n s1 s2, (nm, a) ∈ ms /\ get_node f a = Some n /\ seq_place nm n = Some i /\ rec a s1 = Ok (s2, y)).

Lemma list_append_keeps nm item n xs xs' :
  list_append nm item (nd_attrs n) xs = Ok xs' ->
  forall j y, xs' !! j = Some y ->
    (seq_place nm n = Some j /\ y = item) \/ xs !! j = Some y \/ (xs !! j = None /\ y = nobody).
Proof.
  unfold list_append. destruct (index_of _) as [oi|] eqn:Ei; [|discriminate]. cbn [res_bind].
  rewrite (seq_place_index nm n oi Ei).
  assert (forall i, set_slot nobody (N.eqb nobody) i item xs = Ok xs' -> forall j y, xs' !! j = Some y ->
    (Some i = Some j /\ y = item) \/ xs !! j = Some y \/ (xs !! j = None /\ y = nobody)) as Hs.
  { intros i Hs j y Hy. apply set_slot_spec in Hs as (H1 & H2 & _ & H4 & _).
    destruct (decide (j = i)) as [-> |N]; [left; split; [done|congruence]|]. right.
    destruct (xs !! j) as [z|] eqn:Ez; [left; rewrite <- Hy; symmetry; by apply H2|].
    right. split; [done|]. destruct (H4 j N Ez); congruence. }
  destruct oi as [i|]; [apply Hs|]. destruct (trailing_int nm) as [i|]; cbn [option_map]; [apply Hs|].
  destruct (item =? nobody); intros [= <-]. auto.
Qed.
Lemma list_append_length nm item n xs xs' :
  list_append nm item (nd_attrs n) xs = Ok xs' -> (length xs <= length xs')%nat.
Proof.
  unfold list_append. destruct (index_of _) as [oi|]; [|discriminate]. cbn [res_bind].
  assert (forall i, set_slot nobody (N.eqb nobody) i item xs = Ok xs' -> (length xs <= length xs')%nat) as Hs.
  { intros i Hs. by apply set_slot_spec in Hs as (_ & _ & _ & _ & H). }
  destruct oi as [i|]; [apply Hs|]. destruct (trailing_int nm) as [i|]; [apply Hs|].
  destruct (item =? nobody); intros [= <-]. lia.
Qed.
Lemma list_members_fill fuel rec ms : forall xs s s' cs',
  load_members E fuel f rec KList ms (SList xs) s = Ok (s', cs') ->
  exists xs', cs' = SList xs' /\ (length xs <= length xs')%nat /\
    (forall i y, xs !! i = Some y -> y <> nobody -> xs' !! i = Some y) /\
    (forall nm a n i, (nm, a) ∈ ms -> get_node f a = Some n -> seq_place nm n = Some i ->
       exists s1 s2 v, rec a s1 = Ok (s2, v) /\ is_Some (xs' !! i) /\ (v = nobody \/ xs' !! i = Some v)) /\
    (forall i y, xs' !! i = Some y -> y <> nobody -> xs !! i = Some y \/
       exists nm a n s1 s2, (nm, a) ∈ ms /\ get_node f a = Some n /\ seq_place nm n = Some i /\ rec a s1 = Ok (s2, y)).
Proof.
  induction ms as [|[nm a] ms IH]; intros xs s s' cs' H.
  - injection H as <- <-. exists xs. split; [done|]. split; [done|]. split; [done|]. split; [|auto].
    intros ? ? ? ? Hi. by apply elem_of_nil in Hi.
  - apply load_members_cons in H as (n & s1 & l & m1 & cs1 & Hn1 & Hr & Ha & H). cbn [cont_append] in Ha.
    destruct (list_append _ _ _ _) as [xs1|] eqn:El; [|discriminate]. injection Ha as <- <-.
    pose proof (list_append_length _ _ _ _ _ El) as Hlen. pose proof (list_append_keeps _ _ _ _ _ El) as Hk.
    apply list_append_spec in El as [El1 El2].
    destruct (IH _ _ _ _ H) as (xs' & -> & L & K & F & B). exists xs'. split; [done|]. split; [lia|]. split; [|split].
    + intros i y Hy Hn. apply K; [|done]. by apply (El2 i y Hn Hy).
    + intros nm' a' n' i Hi Hn' Hp. apply elem_of_cons in Hi as [[= -> ->]|Hi]; [|by eapply F].
      assert (n' = n) as -> by congruence. exists s, s1, l. split; [done|]. pose proof (El1 i Hp) as H1.
      split; [apply lookup_lt_is_Some; apply lookup_lt_Some in H1; lia|].
      destruct (decide (l = nobody)) as [Hl|Hl]; [by left|right; by apply K].
    + intros i y Hy Hn. destruct (B i y Hy Hn) as [Hx|(nm' & a' & n' & t1 & t2 & Hi & Hrest)].
      * destruct (Hk i y Hx) as [[Hp ->]|[Hx'|[_ Hx']]]; [|by left|done].
        right. exists nm, a, n, s, s1. split; [left|]. done.
      * right. exists nm', a', n', t1, t2. split; [by right|done].
Qed.

(** The list that comes out of a list group. *)
Lemma load_list_in_place fuel a n pt b s s' l :
  get_node f a = Some n -> loads_as n pt b true -> ld_conts LD b = Some KList -> base_cls pt = CList ->
  l_memo s !! a = None -> load_ (S fuel) E LD f a s = Ok (s', l) ->
  exists xs, m_heap (l_mem s') !! l = Some (Obj pt (VSeq xs)) /\ items_in_place (load_ fuel E LD f) (links n) xs.
Proof.
  intros En (r & memo & Er & El & <- & Ec) Hk Hpt Hm H. cbn [load_] in H.
  rewrite Hm, En, Er in H. cbn [res_bind] in H. rewrite El in H. cbn [res_bind] in H. rewrite Ec, Hk in H. cbn [default id] in H.
  destruct (members E f KList a n) as [ms|] eqn:Ems; [|discriminate]. cbn [res_bind] in H.
  assert (ms ≡ₚ links n) as Hperm.
  { unfold members, links in *. destruct (nd_body n); [|discriminate]. injection Ems as <-. apply HO. }
  change (redirected KList pt) with false in H. cbv iota in H.
  destruct (load_members _ _ _ _ _ _ _ _) as [[s2 cs]|] eqn:Elm; [|discriminate]. cbn [res_bind] in H.
  destruct (list_members_fill _ _ _ _ _ _ _ Elm) as (xs & -> & _ & _ & F & B).
  assert (cont_convert fuel KList (nd_attrs n) (r_orig r) pt (SList xs) (l_mem s2) = Ok (alloc (Obj pt (VSeq xs)) (l_mem s2))) as Hc.
  { cbn [cont_convert]. case_bool_decide as Hp; [by rewrite Hp|]. unfold construct_seq. by rewrite Hpt. }
  rewrite Hc in H. cbn [res_map alloc] in H. injection H as <- <-. exists xs. split.
  - destruct memo; simpl; apply lookup_insert.
  - split.
    + intros nm a' n' i Hi. apply (F nm). by rewrite Hperm.
    + intros i y Hy Hn. destruct (B i y Hy Hn) as [Hx|(nm & a' & n' & t1 & t2 & Hi & Hrest)].
      { apply elem_of_list_lookup_2, elem_of_list_In, repeat_spec in Hx. done. }
      exists nm, a', n', t1, t2. split; [by rewrite <- Hperm|done].
Qed.
(** ** The whole load

    The members of sparse matrices written by hickle 4 are loaded with other types. *)
Context (HM : ld_legacy LD = true -> forall a n pt b c, get_node f a = Some n -> loads_as n pt b c -> pt <> return_first).
Lemma load_dataset_fine fuel a fn at_ d orig pt m :
  fine m (base_cls pt <> CTuple /\ fn <> LNothing) (load_dataset E fuel f a fn at_ d orig pt m).
Proof.
  destruct fn; try apply load_fn_fine. cbn [load_dataset]. destruct (mask_data f a) as [mk|]; [|done]. cbn [res_bind].
  unfold load_ndarray_masked. fine_go.
Qed.
Lemma load_ok fuel : rec_ok (load_ fuel E LD f).
Proof.
  induction fuel as [|fu IH]; [intros a s s' l Ht [=]|].
  intros a s s' l Ht H. cbn [load_] in H.
  destruct (l_memo s !! a) as [l0|] eqn:Em.
  { injection H as <- <-. split; [done|]. split.
    - intros Hd. apply (ti_damage _ Ht) in Hd. congruence.
    - intros n Hn Hs ->. by apply (ti_empty _ Ht a n Em Hn). }
  destruct (get_node f a) as [n|] eqn:En; [|discriminate].
  destruct (resolve_type _ _ _ _) as [r|] eqn:Er; [|discriminate]. cbn [res_bind] in H.
  destruct (ld_load LD _ _) as [[pt memoise]|] eqn:El; [|discriminate]. cbn [res_bind] in H.
  set (X := if r_cont r then _ else _) in H.
  destruct X as [[s1 l1]|] eqn:EX; [|discriminate]. cbn [res_map] in H. injection H as Hs' <-.
  assert (forall pt' b c, loads_as n pt' b c -> pt' = pt /\ b = r_base r /\ c = r_cont r) as Hsame.
  { intros pt' b c (r' & memo' & Hr' & Hl' & <- & <-). rewrite Er in Hr'. injection Hr' as <-.
    rewrite El in Hl'. by injection Hl' as <- _. }
  assert (tidy s1 /\ ~ contains_damage a /\ (no_empty_tuple n -> l1 <> nobody)) as (Ht1 & Hd & Hl1).
  { unfold X in EX. destruct (r_cont r) eqn:Ec.
    - set (k := default KRecover (ld_conts LD (r_base r))) in EX.
      destruct (members E f k a n) as [ms|] eqn:Ems; [|discriminate]. cbn [res_bind] in EX.
      destruct (redirected k pt) eqn:Hre.
      { destruct (ld_legacy LD) eqn:Hle; [|done]. exfalso. unfold redirected in Hre. apply andb_true_iff in Hre as [_ Hpt].
        apply bool_decide_eq_true in Hpt. refine (HM eq_refl a n pt (r_base r) true En _ Hpt). unfold loads_as. rewrite Hle. by exists r, memoise. }
      destruct (load_members _ _ _ _ _ _ _ _) as [[s2 cs]|] eqn:Elm; [|discriminate]. cbn [res_bind] in EX.
      destruct (cont_convert _ _ _ _ _ _ _) as [[m2 l2]|] eqn:Ecc; [|discriminate].
      cbn [res_map] in EX. injection EX as <- <-.
      destruct (load_members_tidy _ _ _ _ IH _ _ _ _ Ht Elm) as [Ht2 Hmem].
      destruct (cont_convert_fine _ _ _ _ _ _ _ _ _ Ecc) as [Hm2 Hfresh].
      split; [by apply tidy_set_mem|]. split.
      + assert (forall k', ld_conts LD (r_base r) = Some k' -> k = k') as Hk.
        { intros k' Hk'. unfold k. by rewrite Hk'. }
        assert (k <> KExpand -> forall nm a', (nm, a') ∈ links n -> (nm, a') ∈ ms) as Hlinks.
        { intros Hne nm a' Hi. unfold members, links in *. destruct (nd_body n) as [lk|d]; [|by apply elem_of_nil in Hi].
          destruct k; try done; injection Ems as <-; by rewrite HO. }
        assert (k <> KExpand -> forall nm a', (nm, a') ∈ ms -> (nm, a') ∈ links n) as Hlinks'.
        { intros Hne nm a' Hi. unfold members, links in *. destruct (nd_body n) as [lk|d].
          - destruct k; try done; injection Ems as <-; by rewrite HO in Hi.
          - by destruct k. }
        intros Hd. inversion Hd as [a0 Hp Ea|a0 Hp Ea|a0 Hp Ea|a0 n0 pt0 b0 nm a' Hn0 Hl0 Hi Hd' Ea
                                   |a0 n0 pt0 b0 t Hn0 Hl0 Hb Hd' Ea]; clear Hd; subst a0.
        * destruct Hp as (n0 & pt0 & b0 & nm1 & a1 & n1 & nm2 & a2 & n2 & i & Hn0 & Hl0 & Hk0 & I1 & G1 & I2 & G2 & Hne & P1 & P2 & S1 & S2).
          rewrite En in Hn0. injection Hn0 as <-. destruct (Hsame _ _ _ Hl0) as (-> & -> & _).
          apply Hk in Hk0. rewrite Hk0 in *. cbn [cont_init] in Elm.
          by eapply (list_members_twice _ _ _ IH _ _ _ _ Ht Elm nm1 a1 n1 nm2 a2 n2 i); auto.
        * destruct Hp as (n0 & pt0 & b0 & nm1 & a1 & n1 & nm2 & a2 & n2 & i & Hn0 & Hl0 & Hk0 & I1 & G1 & I2 & G2 & Hne & P1 & P2 & S1 & S2).
          rewrite En in Hn0. injection Hn0 as <-. destruct (Hsame _ _ _ Hl0) as (-> & -> & _).
          apply Hk in Hk0. rewrite Hk0 in *. cbn [cont_init] in Elm.
          by eapply (dict_members_twice _ _ _ IH _ _ _ _ Ht Elm nm1 a1 n1 nm2 a2 n2 i); auto.
        * destruct Hp as (n0 & pt0 & b0 & nm1 & a1 & n1 & i & j & Hn0 & Hl0 & Hk0 & Hpt & I1 & G1 & P1 & Hij & Hno).
          rewrite En in Hn0. injection Hn0 as <-. destruct (Hsame _ _ _ Hl0) as (-> & -> & _).
          apply Hk in Hk0. rewrite Hk0 in *. cbn [cont_init] in Elm.
          destruct (dict_members_gap _ _ _ i _ _ _ _ Elm) as (xs' & -> & _ & H2 & _ & H4).
          { intros nm a' n' Hi. apply (Hno nm). by apply Hlinks'. }
          destruct (H2 eq_refl) as [H2' |H2'].
          -- apply lookup_ge_None in H2'. specialize (H4 nm1 a1 n1 j ltac:(by apply Hlinks) G1 P1). lia.
          -- cbn [cont_convert] in Ecc. by eapply dict_convert_hole.
        * rewrite En in Hn0. injection Hn0 as <-. destruct (Hsame _ _ _ Hl0) as (-> & -> & _).
          destruct (decide (k = KExpand)) as [Hx|Hx].
          -- rewrite Hx in Ems. unfold members, links in *. by destruct (nd_body n) as [lk|d]; [|apply elem_of_nil in Hi].
          -- by apply (Hmem nm a' (Hlinks Hx _ _ Hi)).
        * rewrite En in Hn0. injection Hn0 as <-.
          unfold members in Ems. rewrite Hb in Ems. destruct k; try discriminate.
          destruct (get_node f t) as [tn|]; [|discriminate]. injection Ems as <-.
          by apply (Hmem (nd_name tn) t (elem_of_list_here _ _)).
      + intros (pt0 & b0 & c0 & Hl0 & Hpt & Hc). destruct (Hsame _ _ _ Hl0) as (-> & -> & ->). cbn in Hc.
        pose proof (ti_next _ Ht2). assert (m_next (l_mem s2) <= l2) as Hl2.
        { apply Hfresh. split; [done|]. unfold k. destruct (ld_conts LD (r_base r)) as [k'|]; simpl; [|done].
          destruct Hc. split; congruence. }
        unfold nobody. lia.
    - destruct (nd_body n) as [|d] eqn:Eb; [discriminate|].
      destruct (load_dataset _ _ _ _ _ _ _ _ _ _) as [[m2 l2]|] eqn:Elf; [|discriminate].
      cbn [res_map] in EX. injection EX as <- <-.
      destruct (load_dataset_fine _ _ _ _ _ _ _ _ _ _ Elf) as [Hm2 Hfresh].
      split; [by apply tidy_set_mem|]. split.
      + intros Hd. assert (exists pt0 b0, loads_as n pt0 b0 true) as (pt0 & b0 & Hl0).
        { inversion Hd as [a0 Hp Ea|a0 Hp Ea|a0 Hp Ea|a0 n0 pt0 b0 nm a' Hn0 Hl0 Hi Hd' Ea
                                   |a0 n0 pt0 b0 t Hn0 Hl0 Hb Hd' Ea]; clear Hd; subst a0.
          - destruct Hp as (n0 & pt0 & b0 & ? & ? & ? & ? & ? & ? & ? & Hn0 & Hl0 & _).
            rewrite En in Hn0. injection Hn0 as <-. by exists pt0, b0.
          - destruct Hp as (n0 & pt0 & b0 & ? & ? & ? & ? & ? & ? & ? & Hn0 & Hl0 & _).
            rewrite En in Hn0. injection Hn0 as <-. by exists pt0, b0.
          - destruct Hp as (n0 & pt0 & b0 & ? & ? & ? & ? & ? & Hn0 & Hl0 & _).
            rewrite En in Hn0. injection Hn0 as <-. by exists pt0, b0.
          - rewrite En in Hn0. injection Hn0 as <-. by exists pt0, b0.
          - rewrite En in Hn0. injection Hn0 as <-. by exists pt0, b0. }
        by destruct (Hsame _ _ _ Hl0) as (_ & _ & ?).
      + intros (pt0 & b0 & c0 & Hl0 & Hpt & Hc). destruct (Hsame _ _ _ Hl0) as (-> & -> & ->). cbn in Hc.
        pose proof (ti_next _ Ht). assert (m_next (l_mem s) <= l2) as Hl2.
        { apply Hfresh. split; [done|]. destruct (ld_types LD (r_base r)); simpl; congruence. }
        unfold nobody. lia. }
  split; [|split; [done|]].
  - destruct memoise; [|by subst]. subst s'. destruct Ht1 as [T1 T2 T3]. split; simpl; [done| |].
    + intros a' n' Hm Hn'. destruct (decide (a' = a)) as [-> |N].
      * rewrite lookup_insert in Hm. injection Hm as Hm. intros Hs. apply Hl1; [|done]. congruence.
      * rewrite lookup_insert_ne in Hm by done. by eapply T2.
    + intros a' Hd'. destruct (decide (a' = a)) as [-> |N]; [done|]. rewrite lookup_insert_ne by done. auto.
  - intros n' Hn' Hs. apply Hl1. congruence.
Qed.

End Load.
