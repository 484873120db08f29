(** * LoadBase: lemmas used by the proof that loading inverts dumping *)
From Verif Require Import Base Utf8 Utf8Proofs Dec DecProofs Num NumProofs PyObj H5 Env Create Dump
  LoadFns LoadModel Registry DumpProofs DumpStored RegistryStd Spec.
From Coq Require Import Lia ZifyBool ZifyN.

(** ** Classes *)
Lemma outside_foreign c : outside_hickle c -> foreign c = true.
Proof.
  intros H. unfold foreign. apply forallb_forall. intros k Hk. apply elem_of_list_In in Hk.
  destruct (std_item k); [done|]. unfold in_hickle. rewrite bool_decide_eq_false_2; [done|by apply H].
Qed.
Lemma mro_self c : c ∈ mro c.
Proof. destruct c; simpl; try set_solver. destruct d as [| | |[]|[]]; set_solver. Qed.
Lemma first_item_base c : first_item (mro c) = first_item (mro (base_cls c)).
Proof. induction c; simpl; done. Qed.
Lemma isinst_base c k : (forall m n b, k <> CSub m n b) -> isinst c k = isinst (base_cls c) k.
Proof.
  intros Hk. induction c; try done. simpl. rewrite <- IHc. unfold isinst. apply bool_decide_ext. simpl.
  rewrite elem_of_cons. split; [|by right]. intros [->|]; [|done]. by destruct (Hk m n c).
Qed.
Lemma base_cls_idem c : forall m n b, base_cls c <> CSub m n b.
Proof. induction c; simpl; try done. Qed.
Lemma base_cls_fix c : base_cls (base_cls c) = base_cls c.
Proof. induction c; simpl; done. Qed.
Lemma np_dtype_sub m n b : np_dtype_of_cls (CSub m n b) = match np_generic_dtype b with Some d => d | None => PObject end.
Proof. done. Qed.
Lemma np_generic_base c : np_generic_dtype c = np_generic_dtype (base_cls c).
Proof. induction c; simpl; done. Qed.

(** ** Attributes of a stored node *)
Lemma attrs_update_other at_ m k :
  at_form at_ -> k <> a_item_index -> k <> a_key_idx -> k <> a_key_base_type ->
  attrs_update at_ m !! k = m !! k.
Proof.
  intros H H1 H2 H3. destruct H; simpl; rewrite ?lookup_insert_ne by congruence; done.
Qed.

Section Node.
Context (E : env) (tbl : addr) (s : dst).

(** What a stored node looks like to the loading side. *)
Lemma placed_view x a at_ pl memo ls :
  placed E std_dump s x a at_ pl memo ls -> at_form at_ ->
  exists o h0 nx pt fn base n,
    h0 ⊆ d_heap s /\ d_heap s !! x = Some o /\
    std_dump (ocls o) = Ok (pt, (fn, base, memo)) /\ create E fn h0 nx o = Ok pl /\ p_fail pl = None /\
    (forall i t, p_temps pl !! i = Some t -> d_heap s !! (nx + N.of_nat i) = Some t) /\
    getn s a = Some n /\
    nd_body n = match plan_body pl with BGroup l => BGroup (l ++ ls) | b => b end /\
    (forall k, k <> a_item_index -> k <> a_key_idx -> k <> a_key_base_type -> k <> a_type ->
       nd_attrs n !! k = attrs_update (p_attrs pl) ∅ !! k) /\
    (pt = CObject /\ nd_attrs n !! a_type = attrs_update (p_attrs pl) ∅ !! a_type \/
     pt <> CObject /\ exists e, nd_attrs n !! a_type = Some (ARef e) /\ entry_ok std_dump s pt e).
Proof.
  intros (o & h0 & nx & pt & fn & base & te & nm & H1 & H2 & H3 & H4 & H5 & H6 & H7 & H8) Hat.
  exists o, h0, nx, pt, fn, base. eexists. split_and!; eauto.
  - simpl. destruct te; done.
  - intros k K1 K2 K3 K4. simpl. rewrite attrs_update_other by done.
    destruct te; simpl; [by rewrite lookup_insert_ne by congruence|done].
  - destruct te as [e|]; simpl in *.
    + right. destruct H8 as [H8 H9]. split; [done|]. exists e. split; [|done].
      rewrite attrs_update_other by done. by rewrite lookup_insert.
    + left. split; [done|]. by rewrite attrs_update_other by done.
Qed.

Lemma entry_resolve pt e n :
  entry_ok std_dump s pt e -> nd_attrs n !! a_type = Some (ARef e) -> e_imports E pt = true ->
  exists fn base m, std_dump pt = Ok (pt, (fn, base, m)) /\
  resolve_type E false (d_file s) n = Ok (Resolved pt base base (is_group n)).
Proof.
  intros (en & b & bn & base & fn & m & H1 & H2 & H3 & H4 & H5 & H6 & H7 & H8 & H9) Ha Hi.
  exists fn, base, m. split; [done|]. unfold resolve_type. rewrite Ha. unfold getn in *. rewrite H1.
  unfold entry_base. rewrite H3, H4, H6, H7. cbn [res_bind]. by rewrite H2, Hi.
Qed.
End Node.

(** ** Numbers in one array *)
Definition num_kind (d : dtype) (n : num) : Prop :=
  match d, n with
  | DBool, NB _ | DInt _, NZ _ | DUInt _, NZ _ | DFloat _, NF _ | DComplex _, NC _ _ => True
  | _, _ => False
  end.

Lemma check_rest_spec E h d0 items d :
  check_rest E h d0 items = Ok (Some (PNum d)) ->
  exists d1, d0 = PNum d1 /\ dle d1 d /\
    (forall x, x ∈ items -> exists o d', h !! x = Some o /\ np_dtype_of_cls (ocls o) = PNum d' /\ dle d' d) /\
    (forall P : dtype -> Prop, (forall a b, P a -> P b -> P (promote a b)) -> P d1 ->
       (forall x o d', x ∈ items -> h !! x = Some o -> np_dtype_of_cls (ocls o) = PNum d' -> P d') -> P d).
Proof.
  revert d0. induction items as [|l items IH]; intros d0; simpl.
  { intros [= ->]. exists d. split_and!; auto using dle_refl. intros x Hx. by apply elem_of_nil in Hx. }
  destruct (h !! l) as [o|] eqn:Eo; [|done].
  destruct (has_dims E h l o) as [[]|]; simpl; try done.
  destruct (result_type (np_dtype_of_cls (ocls o)) d0) as [x| | |] eqn:Er; try done.
  - intros H. destruct (IH _ H) as (d1 & [= <-] & Hd & Hx & HP).
    destruct (np_dtype_of_cls (ocls o)) as [y| | |] eqn:Ey, d0 as [z| | |]; simpl in Er; try done.
    injection Er as <-. exists z. split_and!; auto.
    + eapply dle_trans; [apply dle_promote_r|exact Hd].
    + intros x Hin. apply elem_of_cons in Hin as [->|Hin]; [|by apply Hx].
      exists o, y. split_and!; auto. eapply dle_trans; [apply dle_promote_l|exact Hd].
    + intros P Pc Pz Pi. apply HP; auto.
      * apply Pc; [|done]. eapply Pi; eauto. constructor.
      * intros. eapply Pi; eauto. by constructor.
  - destruct (oval o); try done; destruct (1 <? _); try done; intros H;
      destruct (IH _ H) as (? & [=] & _).
Qed.

Lemma check_iterable_spec E h x0 items d :
  check_iterable_item_type E h x0 items = Ok (Some (PNum d)) ->
  (forall x, x ∈ x0 :: items -> exists o d', h !! x = Some o /\ np_dtype_of_cls (ocls o) = PNum d' /\ dle d' d) /\
  (forall P : dtype -> Prop, (forall a b, P a -> P b -> P (promote a b)) ->
     (forall x o d', x ∈ x0 :: items -> h !! x = Some o -> np_dtype_of_cls (ocls o) = PNum d' -> P d') -> P d).
Proof.
  unfold check_iterable_item_type. destruct (h !! x0) as [o|] eqn:Eo; [|done].
  destruct (_ || _); [done|]. destruct (has_dims E h x0 o) as [[]|]; simpl; try done.
  destruct (np_dtype_of_cls (ocls o)) as [y| | |] eqn:Ey; try done.
  2: { intros H. apply check_rest_spec in H as (? & [=] & _). }
  intros H. apply check_rest_spec in H as (d1 & [= <-] & Hd & Hx & HP). split.
  - intros x Hin. apply elem_of_cons in Hin as [->|Hin]; [|by apply Hx]. by exists o, y.
  - intros P Pc Pi. apply HP; auto.
    + eapply Pi; eauto. constructor.
    + intros. eapply Pi; eauto. by constructor.
Qed.

Lemma write_items_spec h d items vs :
  write_items h d items = (vs, None) ->
  Forall2 (fun x m => exists c n, h !! x = Some (Obj c (VNum n)) /\ cast d n = Ok m) items vs.
Proof.
  revert vs. induction items as [|x items IH]; intros vs; simpl; [by intros [= <-]|].
  destruct (h !! x) as [[c []]|] eqn:Eo; try done.
  destruct (cast d n) as [m|] eqn:Ec; [|done].
  destruct (write_items h d items) as [ms e] eqn:Ew. intros [= <- ->].
  constructor; [by eauto|by apply IH].
Qed.

Lemma cast_dle_exact d' d n m :
  num_kind d' n -> dle d' d -> cast d n = Ok m -> (d = d' \/ int53 n) -> num_val m = num_val n.
Proof.
  intros Hk Hd Hc Ho. destruct d as [|w|w|w|w].
  - unfold dle in Hd. destruct d' as [|[]|[]|[]|[]]; try discriminate Hd. destruct n; try done.
    cbn in Hc. injection Hc as <-. done.
  - by eapply cast_int_exact.
  - by eapply cast_uint_exact.
  - destruct Ho as [<-|Hi]; [|by eapply cast_float_exact]. destruct n; try done. cbn in Hc. by injection Hc as <-.
  - destruct Ho as [<-|Hi]; [|by eapply cast_complex_exact]. destruct n; try done. cbn in Hc. by injection Hc as <-.
Qed.

Lemma number_ok_kind c n d : number_ok c n -> np_dtype_of_cls c = PNum d -> num_kind d n.
Proof.
  unfold number_ok. destruct (base_cls c) eqn:Eb; try done.
  - destruct n; try done. destruct c; simpl in Eb; try discriminate; simpl; try (intros _ [= <-]; done).
    rewrite np_generic_base, Eb. done.
  - destruct n; try done. destruct c; simpl in Eb; try discriminate; simpl; try (intros _ [= <-]; done).
    rewrite np_generic_base, Eb. done.
  - destruct n; try done. destruct c; simpl in Eb; try discriminate; simpl; try (intros _ [= <-]; done).
    rewrite np_generic_base, Eb. done.
  - destruct n; try done. destruct c; simpl in Eb; try discriminate; simpl; try (intros _ [= <-]; done).
    rewrite np_generic_base, Eb. done.
  - intros [-> H]. simpl. intros [= <-]. destruct d0, n; done.
Qed.

(** Only numbers are made an array, of the class of the items if there is only one. *)
Lemma number_array_cls E h x0 items d vs :
  check_iterable_item_type E h x0 items = Ok (Some (PNum d)) ->
  write_items h d (x0 :: items) = (vs, None) ->
  all_numbers h (x0 :: items) /\ forall d', of_dtype h d' (x0 :: items) -> d' = d.
Proof.
  intros Hc Hw. apply check_iterable_spec in Hc as [Hx HP]. apply write_items_spec in Hw. split.
  - intros x Hin. destruct (Hx x Hin) as (o & d' & Eo & Ed & _).
    destruct (proj1 (elem_of_list_lookup _ _) Hin) as [i Hi].
    destruct (Forall2_lookup_l _ _ _ _ _ Hw Hi) as (m & _ & c & n & Eo' & _). simplify_eq.
    by exists c, n, d'.
  - intros d' Hd. symmetry. apply (HP (fun d => d = d')); [intros ? ? -> ->; apply promote_idem|].
    intros x o d'' Hin Ho Hdt. destruct (Hd x Hin) as (c & n & Hn & Hc). rewrite Hn in Ho. inversion Ho; subst o.
    cbn [ocls] in Hdt. rewrite Hc in Hdt. by inversion Hdt.
Qed.

Lemma number_dtype c n d : number_ok c n -> np_dtype_of_cls c = PNum d ->
  (forall z, c = CInt -> n = NZ z -> (- 2 ^ 63 <= z < 2 ^ 63)%Z) -> num_of_dtype d n = true.
Proof.
  unfold number_ok. intros Hn Hd Hz.
  destruct c; simpl in Hn; try done; simpl in Hd.
  - destruct n; try done. by inversion Hd.
  - destruct n as [|z| |]; try done. inversion Hd. specialize (Hz z eq_refl eq_refl). simpl. unfold int_range. cbn. lia.
  - destruct n; try done. by inversion Hd.
  - destruct n; try done. inversion Hd. simpl. apply andb_true_iff. apply Hn.
  - inversion Hd; subst. apply Hn.
  - rewrite np_generic_base in Hd. destruct (base_cls c); try done; destruct n; try done; by destruct Hn as [Hn _].
Qed.
Lemma cast_number c n d' d m :
  number_ok c n -> np_dtype_of_cls c = PNum d' -> dle d' d -> cast d n = Ok m ->
  (forall z, c = CInt -> n = NZ z -> (Z.abs z <= 2 ^ 53)%Z \/ d = DBool \/ exists w, d = DInt w) ->
  num_of_dtype d m = true.
Proof.
  intros Hn Hd Hle Hc Hz.
  assert ((forall z, c = CInt -> n = NZ z -> (Z.abs z <= 2 ^ 53)%Z) -> num_of_dtype d m = true) as Hsmall.
  { intros H. eapply cast_fits; [|exact Hle|exact Hc]. eapply number_dtype; eauto. intros z E1 E2. specialize (H z E1 E2). lia. }
  destruct d as [|w|w|w|w].
  - simpl in Hc. by injection Hc as <-.
  - cbn in Hc. destruct (Z_of_num n) as [z|]; [|done]. destruct (int_range w z) eqn:Er; [|done]. by injection Hc as <-.
  - cbn in Hc. destruct (Z_of_num n) as [z|]; [|done]. destruct (uint_range w z) eqn:Er; [|done]. by injection Hc as <-.
  - apply Hsmall. intros z E1 E2. destruct (Hz z E1 E2) as [?|[[=]|[? [=]]]]. done.
  - apply Hsmall. intros z E1 E2. destruct (Hz z E1 E2) as [?|[[=]|[? [=]]]]. done.
Qed.

(** The values of an array made from a container of numbers are the numbers. *)
Lemma number_array E h x0 items d vs :
  check_iterable_item_type E h x0 items = Ok (Some (PNum d)) ->
  write_items h d (x0 :: items) = (vs, None) ->
  (forall x c n, x ∈ x0 :: items -> h !! x = Some (Obj c (VNum n)) -> number_ok c n) ->
  (all_numbers h (x0 :: items) -> lossless h (x0 :: items)) ->
  Forall2 (fun x m => exists c n, h !! x = Some (Obj c (VNum n)) /\ num_val m = num_val n /\ num_of_dtype d m = true) (x0 :: items) vs.
Proof.
  intros Hc Hw Hk Hl. apply check_iterable_spec in Hc as [Hx HP]. apply write_items_spec in Hw.
  assert (all_numbers h (x0 :: items)) as Ha.
  { intros x Hin. destruct (Hx x Hin) as (o & d' & Eo & Ed & _).
    destruct (proj1 (elem_of_list_lookup _ _) Hin) as [i Hi].
    destruct (Forall2_lookup_l _ _ _ _ _ Hw Hi) as (m & _ & c & n & Eo' & _). simplify_eq.
    by exists c, n, d'. }
  specialize (Hl Ha).
  apply Forall2_same_length_lookup. split; [by eapply Forall2_length|]. intros i x m Hi Hm.
  destruct (Forall2_lookup_lr _ _ _ _ _ _ Hw Hi Hm) as (c & n & Eo & Hcast).
  exists c, n. split; [done|]. assert (x ∈ x0 :: items) as Hin by (by eapply elem_of_list_lookup_2).
  destruct (Hx x Hin) as (o & d' & Eo' & Ed & Hdle). simplify_eq. simpl in Ed.
  pose proof (number_ok_kind _ _ _ (Hk _ _ _ Hin Eo) Ed) as Hkind.
  split; [|eapply (cast_number c n d'); eauto; intros z -> ->; destruct Hl as [Hl|[Hl|[d1 Hl]]]].
  2: { left. eauto. }
  2: { right. apply (HP (fun d => d = DBool \/ exists w, d = DInt w)).
       - intros a b [->|[v ->]] [->|[w ->]]; simpl; eauto.
       - intros x' [c' v'] d'' Hin' Eo' Ed'. destruct (Ha _ Hin') as (c1 & n1 & d1 & E1 & E2). simplify_eq. simpl in Ed'. eauto. }
  2: { right. right. exists W8. specialize (Hl _ _ _ Hin Eo) as Hd1. simpl in Hd1. injection Hd1 as <-.
       apply (HP (fun d => d = DInt W8)); [intros ? ? -> ->; apply promote_idem|].
       intros x' [c' v'] d'' Hin' Eo' Ed'. destruct (Ha _ Hin') as (c1 & n1 & d2 & E1 & E2). simplify_eq. simpl in Ed'.
       specialize (Hl _ _ _ Hin' Eo'). congruence. }
  destruct Hl as [Hl|[Hl|[d1 Hl]]].
  - eapply cast_dle_exact; eauto. right. destruct n; try done. simpl. eauto.
  - assert (d = DBool \/ exists w, d = DInt w) as [->|[w ->]].
    { apply (HP (fun d => d = DBool \/ exists w, d = DInt w)).
      - intros a b [->|[v ->]] [->|[w ->]]; simpl; eauto.
      - intros x' [c' v'] d'' Hin' Eo' Ed'. destruct (Ha _ Hin') as (c1 & n1 & d1 & E1 & E2). simplify_eq. simpl in Ed'. eauto. }
    + eapply cast_dle_exact; eauto. left. unfold dle in Hdle. by destruct d' as [|[]|[]|[]|[]].
    + by eapply cast_int_exact.
  - assert (d = d1) as ->.
    { apply (HP (fun d => d = d1)); [intros ? ? -> ->; apply promote_idem|].
      intros x' [c' v'] d'' Hin' Eo' Ed'. destruct (Ha _ Hin') as (c1 & n1 & d2 & E1 & E2). simplify_eq. simpl in Ed'.
      specialize (Hl _ _ _ Hin' Eo'). congruence. }
    specialize (Hl _ _ _ Hin Eo). eapply cast_dle_exact; eauto. left. congruence.
Qed.
