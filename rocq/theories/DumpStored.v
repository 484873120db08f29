(** * DumpStored: frame and result of [_dump] *)
From Verif Require Import Base Utf8 Dec Num PyObj H5 Env Create Dump LoadFns LoadModel DumpProofs.
From Coq Require Import Lia ZifyBool ZifyN.

Section Stored.
Context (E : env) (L : dump_loader) (kw : kwargs) (tbl : addr).
Context (HL : loader_ok E L).

(** ** What it means that an object is stored *)
Definition type_ok (s : dst) (pt : cls) (te : option addr) : Prop :=
  match te with
  | None => pt = CObject
  | Some e => pt <> CObject /\ entry_ok L s pt e
  end.

(** The node [a] of object [x], without its sub items; [ls] its links. *)
Definition placed (s : dst) (x : loc) (a : addr) (at_ : list (pystr * attrv)) (pl : plan)
    (memo : bool) (ls : list (pystr * addr)) : Prop :=
  exists o h0 nx pt fn base te nm,
    h0 ⊆ d_heap s /\ d_heap s !! x = Some o /\
    L (ocls o) = Ok (pt, (fn, base, memo)) /\ create E fn h0 nx o = Ok pl /\ p_fail pl = None /\
    (forall i t, p_temps pl !! i = Some t -> d_heap s !! (nx + N.of_nat i) = Some t) /\
    getn s a = Some (extend (set_attrs at_ (with_type te (Node nm (attrs_update (p_attrs pl) ∅) (plan_body pl)))) ls) /\
    type_ok s pt te.

Definition child_ok (lo : addr) (s : dst) (sb : sub) (lk : pystr * addr) : Prop :=
  let '(nm, y, at_) := sb in
  fst lk = nm /\ lo <= snd lk /\ snd lk < f_next (d_file s) /\ at_form at_ /\
  ((exists t, d_memo s !! y = Some t /\
      ((snd lk = t /\ exists n m0, getn s t = Some n /\ nd_attrs n = attrs_update at_ m0) \/
       getn s (snd lk) = Some (Node nm (attrs_update at_ ∅) (BData (DRefTo t))))) \/
   (exists pl, placed s y (snd lk) at_ pl false [] /\ p_subs pl = [] /\ p_data pl <> None)).

Definition stored (lo : addr) (s : dst) (x : loc) (a : addr) : Prop :=
  lo <= a /\ a < f_next (d_file s) /\
  exists at_ pl ls, at_form at_ /\ placed s x a at_ pl true ls /\ Forall2 (child_ok lo s) (p_subs pl) ls.

(** ** Monotonicity *)
Section Mono.
  Context (s s' : dst) (lo : addr) (p : addr -> Prop).
  Context (Hw : wfs L tbl s) (Hg : grows tbl p s s').
  Context (Hlo : forall a, p a -> a < lo) (Htbl : tbl < lo).
  Context (Hgrp : forall a n, p a -> getn s a = Some n -> is_group n = true).

  Lemma type_ok_mono pt te : type_ok s pt te -> type_ok s' pt te.
  Proof. destruct te; [|done]. intros [? ?]. split; [done|]. by eapply entry_ok_grows. Qed.
  Lemma getn_mono a n : lo <= a -> getn s a = Some n -> getn s' a = Some n.
  Proof. intros Ha Hn. eapply gr_node; eauto. - intros Hp. specialize (Hlo _ Hp). lia. - lia. Qed.
  Lemma placed_mono x a at_ pl memo ls :
    lo <= a -> placed s x a at_ pl memo ls -> placed s' x a at_ pl memo ls.
  Proof.
    intros Ha (o & h0 & nx & pt & fn & base & te & nm & H1 & H2 & H3 & H4 & H5 & H6 & H7 & H8).
    exists o, h0, nx, pt, fn, base, te, nm.
    pose proof (gr_heap _ _ _ _ Hg) as Hh.
    split_and!; eauto using type_ok_mono, getn_mono, lookup_weaken. by etrans.
  Qed.
  Lemma child_ok_mono sb lk : child_ok lo s sb lk -> child_ok lo s' sb lk.
  Proof.
    destruct sb as [[nm y] at_]. intros (H1 & H2 & H3 & H4 & H5). split_and!; auto.
    { pose proof (gr_fnext _ _ _ _ Hg). lia. }
    destruct H5 as [(t & Ht & H5)|(pl & Hpl & Hs & Hd)]; [left|right].
    - exists t. split; [eapply lookup_weaken; [exact Ht|apply Hg]|].
      destruct H5 as [(Heq & n & m0 & Hn & Ha)|Hn]; [left; subst t|right].
      + split; [done|]. exists n, m0. split; [|done]. by apply getn_mono.
      + by apply getn_mono.
    - exists pl. split_and!; [by apply placed_mono|done..].
  Qed.
  Lemma stored_mono x a : stored lo s x a -> stored lo s' x a.
  Proof.
    intros (H1 & H2 & at_ & pl & ls & H3 & H4 & H5). split; [done|]. split.
    { pose proof (gr_fnext _ _ _ _ Hg). lia. }
    exists at_, pl, ls. split_and!; auto using placed_mono.
    eapply Forall2_impl; [exact H5|]. apply child_ok_mono.
  Qed.
End Mono.

Lemma child_ok_lo lo lo' s sb lk : child_ok lo s sb lk -> lo' <= lo -> child_ok lo' s sb lk.
Proof. destruct sb as [[nm y] at_]. intros (H1 & H2 & H3 & H4 & H5) Hle. split_and!; auto. lia. Qed.
Lemma stored_lo lo lo' s x a : stored lo s x a -> lo' <= lo -> stored lo' s x a.
Proof.
  intros (H1 & H2 & at_ & pl & ls & H3 & H4 & H5) Hle. split; [lia|]. split; [done|].
  exists at_, pl, ls. split_and!; auto. eapply Forall2_impl; [exact H5|].
  intros sb lk H. by eapply child_ok_lo.
Qed.

(** ** create never asks for pickling by NotHicklable except for such a function *)
Lemma create_nothick fn h nx o : create E fn h nx o = Err NotHicklable -> fn = FNotHicklable.
Proof.
  assert (forall h0 d items, check_rest E h0 d items <> Err NotHicklable) as H1.
  { intros h0 d items. revert d. induction items as [|l items IH]; intros d; simpl; [done|].
    destruct (h0 !! l) as [oo|]; [|done]. unfold has_dims.
    destruct (oval oo); try (destruct (isinst _ _ || isinst _ _); [destruct (e_ragged _ _ _)|]);
      simpl; try done; try (destruct shape; simpl; [|done]);
      repeat (case_match; simpl; try done); try apply IH. }
  assert (forall h0 f items, check_iterable_item_type E h0 f items <> Err NotHicklable) as H2.
  { intros h0 f items. unfold check_iterable_item_type. destruct (h0 !! f) as [oo|]; [|done].
    destruct (_ || _); [done|]. unfold has_dims.
    destruct (oval oo); try (destruct (isinst _ _ || isinst _ _); [destruct (e_ragged _ _ _)|]);
      simpl; try done; try (destruct shape; simpl; [|done]);
      repeat (case_match; simpl; try done); try apply H1. }
  assert (forall h0 items, create_list_items E h0 items <> Err NotHicklable) as H3.
  { intros h0 [|x items]; unfold create_list_items; [done|].
    destruct (check_iterable_item_type E h0 x items) as [[[]|]|e] eqn:Ec; cbn [res_bind]; try done.
    - destruct (write_items _ _ _). done.
    - intros [= ->]. by eapply H2. }
  assert (forall s, utf8_encode s <> Err NotHicklable) as H4.
  { intros s. induction s as [|c s IH]; simpl; [done|].
    destruct (utf8_char c); [|done]. destruct (utf8_encode s); simpl; [done|congruence]. }
  assert (forall f h0 ts a, res_map (with_temps ts a) (create_list_items E h0 f) <> Err NotHicklable) as H5.
  { intros. destruct (create_list_items E h0 f) eqn:Ec; simpl; [done|]. intros [= ->]. by eapply H3. }
  assert (forall o, create_text o <> Err NotHicklable) as H6.
  { intros [c v]. unfold create_text. simpl. destruct v; simpl; try done.
    destruct (utf8_encode s) eqn:Eu; simpl; [done|]. intros [= ->]. by eapply H4. }
  assert (forall h0 o, create_listlike E h0 o <> Err NotHicklable) as H7.
  { intros h0 [c v]. unfold create_listlike. destruct (_ || _); [apply H6|]. destruct v; simpl; done. }
  assert (forall h0 kvs nx idx, dict_subs E h0 nx idx kvs <> Err NotHicklable) as H8.
  { intros h0 kvs. induction kvs as [|[k v] kvs IH]; intros nx0 idx; simpl; [done|].
    destruct (h0 !! k) as [ko|]; [|done].
    destruct (key_name E ko) as [onm|e] eqn:Ek; simpl.
    - destruct onm.
      + destruct (utf8_encode _) as [kb|e] eqn:Eu; simpl.
        * destruct (dict_subs _ _ _ _ _) eqn:Ed; simpl; [by destruct a|]. intros [= ->]. by eapply IH.
        * intros [= ->]. by eapply H4.
      + destruct (dict_subs _ _ _ _ _) eqn:Ed; simpl; [by destruct a|]. intros [= ->]. by eapply IH.
    - intros [= ->]. unfold key_name in Ek. unfold scalar_repr in Ek.
      repeat (case_match; simpl in *; try done). }
  destruct fn; simpl; try done.
  - unfold create_scalar. repeat (case_match; try done).
  - intros ?. by destruct (H7 h o).
  - unfold create_setlike. destruct (oval o); try done. intros ?. by destruct (H3 h xs).
  - unfold create_dictlike. destruct (oval o); try done.
    destruct (dict_subs E h nx 0 kvs) as [[? ?]|] eqn:Ed; simpl; [done|]. intros [= ->]. by destruct (H8 h kvs nx 0).
  - unfold create_pickled. repeat (case_match; try done).
  - unfold create_np_scalar. repeat (case_match; try done).
  - unfold create_np_dtype. repeat (case_match; try done).
  - unfold create_np_array. destruct (oval o); try done.
    + repeat (case_match; try done).
    + destruct shape; [destruct vs as [|s0 []]; try done|].
      * destruct (utf8_encode s0) eqn:Eu; simpl; [done|]. intros [= ->]. by destruct (H4 s0).
      * destruct (tolist _ _ _) as [ts els]. intros Hx. by destruct (H5 els (temps_heap h nx (map (λ s : list N, Obj CStr (VStr s)) vs ++ ts)) (map (λ s : list N, Obj CStr (VStr s)) vs ++ ts) [(a_np_dtype, ABytes (str_dtype width))]).
    + destruct shape; [destruct vs as [|l0 []]; try done|].
      * destruct (h !! l0) as [io|]; [|done]. destruct (isinst _ _); [|done].
        destruct (create_listlike E h io) eqn:Ec; simpl; [done|]. intros [= ->]. by destruct (H7 h io).
      * destruct (tolist _ _ _) as [ts els]. intros Hx. by destruct (H5 els (temps_heap h nx ts) ts [(a_np_dtype, ABytes obj_dtype)]).
  - unfold create_np_masked. repeat (case_match; try done).
  - unfold create_sparse. repeat (case_match; try done).
Qed.

(** ** Attributes of the sub items of a plan *)
Definition sub_at (sb : sub) : list (pystr * attrv) := snd sb.
Lemma list_subs_at items : Forall (fun sb => at_form (sub_at sb)) (list_subs items).
Proof.
  unfold list_subs. apply list.Forall_forall. intros sb Hin. apply elem_of_list_fmap in Hin as ([i l] & -> & _).
  constructor.
Qed.
Lemma create_list_items_at h items pl :
  create_list_items E h items = Ok pl -> Forall (fun sb => at_form (sub_at sb)) (p_subs pl).
Proof.
  destruct items as [|x items]; unfold create_list_items; [by intros [= <-]; constructor|].
  destruct (check_iterable_item_type E h x items) as [[[]|]|e]; cbn [res_bind]; try done.
  - destruct (write_items _ _ _). intros [= <-]. constructor.
  - intros [= <-]. apply list_subs_at.
Qed.
Lemma dict_subs_at h kvs : forall nx idx ts ss,
  dict_subs E h nx idx kvs = Ok (ts, ss) -> Forall (fun sb => at_form (sub_at sb)) ss.
Proof.
  induction kvs as [|[k v] kvs IH]; intros nx idx ts ss; simpl; [by intros [= <- <-]|].
  destruct (h !! k) as [ko|]; [|done].
  destruct (key_name E ko) as [[nm|]|]; simpl; [|..|done].
  - destruct (utf8_encode _); simpl; [|done].
    destruct (dict_subs E h nx (idx + 1) kvs) as [[ts0 ss0]|] eqn:Ed; simpl; [|done].
    intros [= <- <-]. constructor; [constructor|eauto].
  - destruct (dict_subs E h (nx + 1) (idx + 1) kvs) as [[ts0 ss0]|] eqn:Ed; simpl; [|done].
    intros [= <- <-]. constructor; [constructor|eauto].
Qed.
Lemma create_text_at o pl : create_text o = Ok pl -> p_subs pl = [].
Proof.
  unfold create_text. destruct (oval o); simpl; try done.
  - destruct (utf8_encode s); simpl; [|done]. destruct (ascii_encode _); by intros [= <-].
  - destruct (ascii_encode _); by intros [= <-].
Qed.
Lemma create_listlike_at h o pl :
  create_listlike E h o = Ok pl -> Forall (fun sb => at_form (sub_at sb)) (p_subs pl).
Proof.
  unfold create_listlike. destruct (_ || _).
  - intros H. by rewrite (create_text_at _ _ H).
  - destruct (oval o); try done. apply create_list_items_at.
Qed.
Lemma create_at fn h nx o pl :
  create E fn h nx o = Ok pl -> Forall (fun sb => at_form (sub_at sb)) (p_subs pl).
Proof.
  destruct fn; simpl; try done.
  - unfold create_scalar. destruct (oval o); try done. destruct n; [|destruct (_ && _)|..]; intros [= <-]; constructor.
  - intros [= <-]. constructor.
  - apply create_listlike_at.
  - unfold create_setlike. destruct (oval o); try done. apply create_list_items_at.
  - unfold create_dictlike. destruct (oval o); try done.
    destruct (dict_subs E h nx 0 kvs) as [[ts ss]|] eqn:Ed; simpl; [|done]. intros [= <-].
    by eapply dict_subs_at.
  - unfold create_pickled. destruct (oval o); try done. destruct (e_pickles _ _ _); intros [= <-]; constructor.
  - unfold create_np_scalar. destruct (oval o); try done. destruct (np_dtype_of_cls _); try done. intros [= <-]; constructor.
  - unfold create_np_dtype. destruct (oval o); try done. intros [= <-]; constructor.
  - unfold create_np_array. destruct (oval o); try done.
    + destruct shape; [destruct vs as [|? []]; try done|]; intros [= <-]; constructor.
    + destruct shape.
      * destruct vs as [|s0 []]; try done. destruct (utf8_encode s0); simpl; [|done]. intros [= <-]; constructor.
      * destruct (tolist _ _ _) as [ts els].
        destruct (create_list_items _ _ _) eqn:Ec; simpl; [|done]. intros [= <-]. simpl.
        by eapply create_list_items_at.
    + destruct shape.
      * destruct vs as [|l0 []]; try done. destruct (h !! l0); [|done].
        destruct (isinst _ _).
        -- destruct (create_listlike E h o0) eqn:Ec; simpl; [|done]. intros [= <-]. simpl. by eapply create_listlike_at.
        -- intros [= <-]. repeat constructor.
      * destruct (tolist _ _ _) as [ts els].
        destruct (create_list_items _ _ _) eqn:Ec; simpl; [|done]. intros [= <-]. simpl.
        by eapply create_list_items_at.
  - unfold create_np_masked. destruct (oval o); try done. destruct (h !! data); [|done].
    destruct (arr_dtype_str _); [|done]. intros [= <-]. repeat constructor.
  - unfold create_sparse. destruct (oval o); try done. intros [= <-]. repeat constructor.
Qed.

(** ** dump_node *)
Lemma dump_node_spec o parent nm at_ s s' r :
  wfs L tbl s -> parent <> tbl -> dump_node E L kw tbl o parent nm at_ s = (s', r) ->
  wfs L tbl s' /\ grows tbl (eq parent) s s' /\ d_memo s' = d_memo s /\
  (forall pn, getn s parent = Some pn -> exists ls, getn s' parent = Some (extend pn ls) /\ (length ls <= 1)%nat) /\
  match r with
  | Err _ => True
  | Ok (a, memo, subs) =>
      a = f_next (d_file s) /\ a < f_next (d_file s') /\ tbl < a /\
      exists pt fn base pl te,
        L (ocls o) = Ok (pt, (fn, base, memo)) /\ create E fn (d_heap s) (d_next s) o = Ok pl /\
        p_fail pl = None /\ p_subs pl = subs /\ d_heap s' = d_heap (put_temps (p_temps pl) s) /\
        getn s' a = Some (set_attrs (without_type at_)
          (with_type te (Node nm (attrs_update (p_attrs pl) ∅) (plan_body pl)))) /\
        type_ok s' pt te /\ (forall e, te = Some e -> alist_get pt (d_types s') = Some e) /\
        exists pn, getn s parent = Some pn /\ is_group pn = true /\
                   getn s' parent = Some (extend pn [(nm, a)])
  end.
Proof.
  intros Hw Hpt. unfold dump_node.
  assert (forall e : exn, (s, @Err (addr * bool * list sub) e) = (s', r) ->
    wfs L tbl s' /\ grows tbl (eq parent) s s' /\ d_memo s' = d_memo s /\
    (forall pn, getn s parent = Some pn -> exists ls, getn s' parent = Some (extend pn ls) /\ (length ls <= 1)%nat) /\
    r = Err e) as Hsame.
  { intros e [= <- <-]. split_and!; auto using grows_refl. intros pn Hpn. exists [].
    rewrite extend_nil. split; [done|simpl; lia]. }
  destruct (L (ocls o)) as [[pt [[fn base] memo]]|e0] eqn:EL.
  2: { intros H. destruct (Hsame _ H) as (?&?&?&?&->). done. }
  destruct (create E fn (d_heap s) (d_next s) o) as [pl|e0] eqn:Ecr.
  2: { destruct e0; try (intros H; destruct (Hsame _ H) as (?&?&?&?&->); done).
       apply create_nothick in Ecr. by destruct (lo_fn _ _ HL _ _ _ _ _ EL). }
  destruct (run_plan kw parent nm pl s) as [s1 r1] eqn:Erp.
  destruct (run_plan_spec _ _ _ _ _ _ _ _ _ Hw Hpt Erp) as (W1 & G1 & M1 & H1 & X1 & P1 & R1).
  destruct r1 as [a|e].
  2: { intros [= <- <-]. done. }
  destruct R1 as (-> & Ha & Htb & Hpf & Hn & pn & Hpn & Hpg & Hpn').
  set (a := f_next (d_file s)) in *.
  assert (tbl < a) as Hta.
  { destruct (ws_tbl _ _ _ Hw) as (tn & Etn & _). by eapply Hw. }
  destruct (store_type E tbl kw a pt base s1) as [s2 r2] eqn:Est.
  assert (a <> tbl) as Hat by lia.
  destruct (store_type_spec _ _ _ _ _ _ _ _ _ _ _ _ _ _ HL W1 EL Hn Htb Hat Est)
    as (W2 & G2 & M2 & H2 & X2 & S2 & _).
  assert (parent < a) as Hpa. { by eapply Hw. }
  assert (getn s2 parent = Some (extend pn [(nm, a)])) as Hp2. { eapply gr_node; eauto. simpl. lia. }
  assert (grows tbl (eq parent) s s2) as G12.
  { eapply grows_weaken; [|eapply grows_trans; [exact G1|exact G2]].
    simpl. intros x n Hx [?|Hxa]; [done|]. rewrite Hxa in Hx. pose proof (ws_file _ _ _ Hw _ _ Hx). lia. }
  destruct r2 as [[]|e].
  2: { intros [= <- <-]. split_and!; auto; try congruence.
       intros pn0 Hpn0. exists [(nm, a)]. simplify_eq. split; [done|simpl; lia]. }
  destruct (S2 eq_refl) as (te & Hn2 & Hte & Hne).
  destruct (step_attrs L tbl s2 a (set_attrs (without_type at_)) _ W2 Hn2 Hat (fun _ => eq_refl)
    (proj1 Hne) (proj2 Hne)) as (W3 & G3 & N3).
  destruct (upd_node_same a (set_attrs (without_type at_)) s2) as (U1 & U2 & U3 & U4 & U5 & U6).
  assert (getn (upd_node a (set_attrs (without_type at_)) s2) parent = Some (extend pn [(nm, a)])) as Hp3.
  { rewrite (getn_upd _ _ _ _ parent Hn2). rewrite decide_False by lia. done. }
  intros [= <- <-]. split_and!; auto; try congruence.
  - eapply grows_weaken; [|eapply grows_trans; [exact G12|exact G3]].
    simpl. intros x n Hx [?|Hxa]; [done|]. subst x. pose proof (ws_file _ _ _ Hw _ _ Hx). lia.
  - intros pn0 Hpn0. exists [(nm, a)]. simplify_eq. split; [done|simpl; lia].
  - pose proof (gr_fnext _ _ _ _ G2). rewrite U6. lia.
  - exists pt, fn, base, pl, te. split_and!; auto; try congruence.
    + destruct te as [e|]; simpl in *; [|done]. destruct Hte as [Hne' Hen]. split; [done|].
      apply (ws_types _ _ _ W3). by rewrite U4.
    + intros e ->. rewrite U4. apply Hte.
    + exists pn. done.
Qed.

(** ** The frame of [_dump]: whatever happens, nothing but the parent group (which gains at
    most one link) and the type table changes among the nodes there before. *)
Definition frame (parent : addr) (s s' : dst) : Prop :=
  wfs L tbl s' /\ grows tbl (eq parent) s s' /\
  (forall pn, getn s parent = Some pn -> exists ls, getn s' parent = Some (extend pn ls) /\ (length ls <= 1)%nat).

Lemma set_memo_wfs x a s :
  wfs L tbl s -> is_Some (d_heap s !! x) -> a < f_next (d_file s) -> d_memo s !! x = None ->
  (forall y, d_memo s !! y <> Some a) ->
  wfs L tbl (set_memo x a s) /\ grows tbl (fun _ => False) s (set_memo x a s).
Proof.
  intros Hw Hx Ha Hn Hfr. split.
  - split; simpl; try apply Hw.
    + intros y b. destruct (decide (y = x)) as [->|].
      * rewrite lookup_insert. by intros [= <-].
      * rewrite lookup_insert_ne by done. apply Hw.
    + intros y z b. destruct (decide (y = x)) as [->|], (decide (z = x)) as [->|];
        rewrite ?lookup_insert, ?lookup_insert_ne by done; try done.
      * intros [= <-] Hz. by destruct (Hfr z).
      * intros Hz [= <-]. by destruct (Hfr y).
      * apply Hw.
    + intros y b. destruct (decide (y = x)) as [->|].
      * rewrite lookup_insert. by intros [= <-].
      * rewrite lookup_insert_ne by done. apply Hw.
  - split; simpl; try done; try lia.
    + by apply insert_subseteq.
    + intros n Hn' _. exists []. by rewrite extend_nil.
Qed.

Lemma dump_subs_frame rec a subs s s' r :
  (forall y nm at_ s s' r, wfs L tbl s -> at_form at_ -> rec y nm at_ s = (s', r) ->
     wfs L tbl s' /\ grows tbl (eq a) s s') ->
  wfs L tbl s -> Forall (fun sb => at_form (sub_at sb)) subs ->
  dump_subs rec subs s = (s', r) -> wfs L tbl s' /\ grows tbl (eq a) s s'.
Proof.
  intros Hrec. revert s. induction subs as [|[[nm y] at_] subs IH]; intros s Hw Hf; simpl.
  { intros [= <- <-]. split; [done|apply grows_refl]. }
  inversion Hf; subst. destruct (rec y nm at_ s) as [s1 [[]|e]] eqn:Er; intros Hs.
  - destruct (Hrec _ _ _ _ _ _ Hw H1 Er) as [W1 G1]. destruct (IH _ W1 H2 Hs) as [W2 G2]. split; [done|].
    eapply grows_weaken; [|eapply grows_trans; eauto]. naive_solver.
  - inversion Hs; subst. eapply Hrec; eauto.
Qed.

Lemma dump_frame fuel : forall x parent nm at_ s s' r,
  wfs L tbl s -> parent <> tbl -> at_form at_ -> dump_ fuel E L kw tbl x parent nm at_ s = (s', r) ->
  frame parent s s'.
Proof.
  induction fuel as [|fuel IH]; intros x parent nm at_ s s' r Hw Hpt Hat; simpl.
  { intros [= <- <-]. split_and!; auto using grows_refl. intros pn Hpn. exists [].
    rewrite extend_nil. split; [done|simpl; lia]. }
  destruct (d_memo s !! x) as [t|] eqn:Em.
  { intros H. destruct (dump_ref_spec _ _ _ _ _ _ _ _ _ Hw Hpt H) as (?&?&?&?&?&?&?). done. }
  destruct (d_heap s !! x) as [o|] eqn:Eo.
  2: { intros [= <- <-]. split_and!; auto using grows_refl. intros pn Hpn. exists [].
    rewrite extend_nil. split; [done|simpl; lia]. }
  destruct (dump_node E L kw tbl o parent nm at_ s) as [s1 [[[a memo] subs]|e]] eqn:Ed.
  2: { intros [= <- <-]. destruct (dump_node_spec _ _ _ _ _ _ _ Hw Hpt Ed) as (?&?&?&?&?). done. }
  destruct (dump_node_spec _ _ _ _ _ _ _ Hw Hpt Ed)
    as (W1 & G1 & M1 & P1 & -> & Ha & Hta & pt & fn & base & pl & te & EL & Ecr & Hpf & <- & Hh & Hn & Hte & Hta' & pn & Hpn & Hpg & Hpn').
  set (a := f_next (d_file s)) in *.
  set (s2 := if memo then set_memo x a s1 else s1).
  assert (wfs L tbl s2 /\ grows tbl (fun _ => False) s1 s2) as [W2 G2].
  { unfold s2. destruct memo; [|split; [done|apply grows_refl]].
    apply set_memo_wfs; auto.
    - exists o. eapply lookup_weaken; [exact Eo|apply G1].
    - congruence.
    - intros y Hy. rewrite M1 in Hy. pose proof (ws_memo_lt _ _ _ Hw _ _ Hy). lia. }
  intros Hs.
  destruct (dump_subs_frame (fun y nm at_ => dump_ fuel E L kw tbl y a nm at_) a (p_subs pl) s2 s' r) as [W3 G3]; auto.
  { intros y nm' at' t t' r' Wt Hat' Hd. edestruct (IH y a nm' at') as (A & B & C); eauto. lia. }
  { by eapply create_at. }
  assert (parent < a) as Hpa. { by eapply Hw. }
  split_and!; auto.
  - eapply grows_weaken; [|eapply grows_trans; [exact G1|eapply grows_trans; [exact G2|exact G3]]].
    simpl. intros c n Hc [?|[[]|<-]]; [done|]. pose proof (ws_file _ _ _ Hw _ _ Hc). lia.
  - intros pn0 Hpn0. simplify_eq. exists [(nm, a)]. split; [|simpl; lia].
    eapply (gr_node _ _ _ _ G3); [|lia|done]. unfold s2. destruct memo; done.
Qed.

(** ** A successful dump stores everything *)
Definition new_stored (lo : addr) (s s' : dst) : Prop :=
  forall y b, d_memo s' !! y = Some b -> d_memo s !! y = Some b \/ stored lo s' y b.

Lemma dump_subs_stored rec a lo subs : forall s s',
  lo = a + 1 -> tbl < a ->
  (forall y nm at_ s s', wfs L tbl s -> at_form at_ -> lo <= f_next (d_file s) ->
     rec y nm at_ s = (s', Ok tt) ->
     wfs L tbl s' /\ grows tbl (eq a) s s' /\ new_stored lo s s' /\
     exists c pn, child_ok lo s' (nm, y, at_) (nm, c) /\
       getn s a = Some pn /\ is_group pn = true /\ getn s' a = Some (extend pn [(nm, c)])) ->
  wfs L tbl s -> lo <= f_next (d_file s) -> is_Some (getn s a) ->
  Forall (fun sb => at_form (sub_at sb)) subs ->
  dump_subs rec subs s = (s', Ok tt) ->
  wfs L tbl s' /\ grows tbl (eq a) s s' /\ new_stored lo s s' /\
  exists pn ls, getn s a = Some pn /\ getn s' a = Some (extend pn ls) /\ Forall2 (child_ok lo s') subs ls.
Proof.
  intros s s' Hlo Hta Hrec. revert s. induction subs as [|[[nm y] at_] subs IH]; intros s Hw Hnx [pn0 Hpn0] Hf; simpl.
  { intros [= <-]. split_and!; auto using grows_refl.
    - intros ? ? ?. by left.
    - exists pn0, []. rewrite extend_nil. done. }
  inversion Hf as [|? ? F1 F2]; subst. destruct (rec y nm at_ s) as [s1 [[]|e]] eqn:Er; [|done]. intros Hs.
  destruct (Hrec _ _ _ _ _ Hw F1 Hnx Er) as (W1 & G1 & N1 & c & pn & C1 & P1 & P2 & P3).
  pose proof (gr_fnext _ _ _ _ G1) as Hfn.
  destruct (IH s1) as (W2 & G2 & N2 & pn' & ls & Q1 & Q2 & Q3); auto; try lia.
  assert (forall b, a = b -> b < a + 1) as Hl by (intros; lia).
  assert (forall b n, a = b -> getn s1 b = Some n -> is_group n = true) as Hgr.
  { intros b n <- Hn. simplify_eq. by rewrite extend_group. }
  split_and!; auto.
  - eapply grows_weaken; [|eapply grows_trans; [exact G1|exact G2]]. naive_solver.
  - intros z b Hz. destruct (N2 _ _ Hz) as [Hz1|Hz1]; [|by right].
    destruct (N1 _ _ Hz1) as [Hz2|Hz2]; [by left|right].
    eapply (stored_mono s1 s' (a + 1) (eq a)); eauto; lia.
  - exists pn, ((nm, c) :: ls). split_and!; auto.
    + simplify_eq. rewrite Q2, extend_app. done.
    + constructor; [|done]. eapply (child_ok_mono s1 s' (a + 1) (eq a)); eauto; lia.
Qed.

(** Sub items only under groups. *)
Lemma dump_stored fuel : forall x parent nm at_ s s' lo,
  wfs L tbl s -> parent <> tbl -> at_form at_ -> lo <= f_next (d_file s) -> tbl < lo -> parent < lo ->
  dump_ fuel E L kw tbl x parent nm at_ s = (s', Ok tt) ->
  wfs L tbl s' /\ grows tbl (eq parent) s s' /\ new_stored lo s s' /\
  exists c pn, child_ok lo s' (nm, x, at_) (nm, c) /\
    getn s parent = Some pn /\ is_group pn = true /\ getn s' parent = Some (extend pn [(nm, c)]).
Proof.
  induction fuel as [|fuel IH]; intros x parent nm at_ s s' lo Hw Hpt Hat Hlo Htlo Hplo; [done|].
  intros Hd. destruct (dump_frame _ _ _ _ _ _ _ _ Hw Hpt Hat Hd) as (W' & G' & P').
  split; [done|]. split; [done|]. revert Hd. simpl.
  destruct (d_memo s !! x) as [t|] eqn:Em.
  { intros H. destruct (dump_ref_spec _ _ _ _ _ _ _ _ _ Hw Hpt H) as (W1 & G1 & M1 & H1 & X1 & P1 & R1).
    destruct (R1 eq_refl) as (c & C1 & C2 & C3 & pn & C4 & C5 & C6).
    split. { intros y b Hy. left. congruence. }
    exists c, pn. split_and!; auto; simpl; try lia.
    left. exists t. split; [congruence|]. by right. }
  destruct (d_heap s !! x) as [o|] eqn:Eo; [|done].
  destruct (dump_node E L kw tbl o parent nm at_ s) as [s1 [[[a memo] subs]|e]] eqn:Ed; [|done].
  destruct (dump_node_spec _ _ _ _ _ _ _ Hw Hpt Ed)
    as (W1 & G1 & M1 & P1 & -> & Ha & Hta & pt & fn & base & pl & te & EL & Ecr & Hpf & <- & Hh & Hn & Hte & Hta' & pn & Hpn & Hpg & Hpn').
  set (a := f_next (d_file s)) in *.
  set (s2 := if memo then set_memo x a s1 else s1).
  assert (wfs L tbl s2 /\ grows tbl (fun _ => False) s1 s2) as [W2 G2].
  { unfold s2. destruct memo; [|split; [done|apply grows_refl]].
    apply set_memo_wfs; auto.
    - exists o. eapply lookup_weaken; [exact Eo|apply G1].
    - congruence.
    - intros y Hy. rewrite M1 in Hy. pose proof (ws_memo_lt _ _ _ Hw _ _ Hy). lia. }
  intros Hs. rewrite (at_form_without _ Hat) in Hn.
  assert (forall b, getn s2 b = getn s1 b) as Hg2 by (intros; unfold s2; by destruct memo).
  assert (parent < a) as Hpa. { by eapply Hw. }
  set (n0 := set_attrs at_ (with_type te (Node nm (attrs_update (p_attrs pl) ∅) (plan_body pl)))) in *.
  edestruct (dump_subs_stored (fun y nm at_ => dump_ fuel E L kw tbl y a nm at_) a (a + 1) (p_subs pl) s2 s')
    as (W3 & G3 & N3 & pn3 & ls & Q1 & Q2 & Q3); auto.
  { intros y nm' at' t t' Wt Hat' Hlt Hd. edestruct (IH y a nm' at' t t' (a + 1)) as (A & B & C & D); eauto; lia. }
  { unfold s2. destruct memo; simpl; lia. }
  { rewrite Hg2, Hn. by eexists. }
  { by eapply create_at. }
  rewrite Hg2, Hn in Q1. inversion Q1; subst pn3. clear Q1.
  assert (lo <= a) as Hloa by lia.
  assert (d_heap s1 ⊆ d_heap s') as Hhs.
  { etrans; [apply (gr_heap _ _ _ _ G2)|apply G3]. }
  assert (d_types s1 = d_types s2) as Hty. { unfold s2. by destruct memo. }
  assert (type_ok s' pt te) as Hte'.
  { destruct te as [e|]; [|done]. destruct Hte as [Hte1 Hte2]. split; [done|].
    apply (ws_types _ _ _ W'), (gr_types _ _ _ _ G3), (gr_types _ _ _ _ G2). by apply Hta'. }
  assert (placed s' x a at_ pl memo ls) as Hpl.
  { exists o, (d_heap s), (d_next s), pt, fn, base, te, nm. split_and!; auto.
    - apply G'.
    - eapply lookup_weaken; [exact Eo|apply G'].
    - intros i t Hi. eapply lookup_weaken; [|exact Hhs]. rewrite Hh.
      destruct (put_temps_spec L tbl s (p_temps pl) Hw) as (_ & _ & T). by apply T. }
  assert (a < f_next (d_file s')) as Haf.
  { pose proof (gr_fnext _ _ _ _ G2). pose proof (gr_fnext _ _ _ _ G3). lia. }
  split.
  - intros y b Hy. destruct (N3 _ _ Hy) as [H3|H3].
    + unfold s2 in H3. destruct memo; [|left; congruence]. simpl in H3.
      destruct (decide (y = x)) as [->|Hne].
      * rewrite lookup_insert in H3. inversion H3; subst b. right.
        split_and!; auto. exists at_, pl, ls. split_and!; auto.
        eapply Forall2_impl; [exact Q3|]. intros. eapply child_ok_lo; [done|lia].
      * rewrite lookup_insert_ne in H3 by done. left. congruence.
    + right. eapply stored_lo; [exact H3|lia].
  - exists a, pn. split_and!; auto.
    + destruct memo.
      * left. exists a. split.
        -- eapply lookup_weaken; [|apply G3]. unfold s2. simpl. by rewrite lookup_insert.
        -- left. split; [done|]. eexists _, _. split; [exact Q2|]. done.
      * right. exists pl. destruct (lo_leaf _ _ HL _ _ _ _ _ _ _ _ EL Ecr) as [L1 L2].
        rewrite L2 in Q3. inversion Q3; subst ls. split_and!; auto.
    + eapply (gr_node _ _ _ _ G3); [rewrite Hg2; done|lia|done].
Qed.

(** An object not met before gets the new node. *)
Lemma dump_first fuel x parent nm at_ s s' :
  wfs L tbl s -> parent <> tbl -> at_form at_ -> d_memo s !! x = None ->
  dump_ fuel E L kw tbl x parent nm at_ s = (s', Ok tt) ->
  exists o pt fn base memo pn, d_heap s !! x = Some o /\ L (ocls o) = Ok (pt, (fn, base, memo)) /\
    getn s parent = Some pn /\ is_group pn = true /\ getn s' parent = Some (extend pn [(nm, f_next (d_file s))]) /\
    (memo = true -> d_memo s' !! x = Some (f_next (d_file s))).
Proof.
  destruct fuel as [|fuel]; [done|]. intros Hw Hpt Hat Em. simpl. rewrite Em.
  destruct (d_heap s !! x) as [o|] eqn:Eo; [|done].
  destruct (dump_node E L kw tbl o parent nm at_ s) as [s1 [[[a memo] subs]|e]] eqn:Ed; [|done].
  destruct (dump_node_spec _ _ _ _ _ _ _ Hw Hpt Ed)
    as (W1 & G1 & M1 & P1 & -> & Ha & Hta & pt & fn & base & pl & te & EL & Ecr & Hpf & <- & Hh & Hn & Hte & Hta' & pn & Hpn & Hpg & Hpn').
  set (a := f_next (d_file s)) in *.
  set (s2 := if memo then set_memo x a s1 else s1).
  assert (wfs L tbl s2 /\ grows tbl (fun _ => False) s1 s2) as [W2 G2].
  { unfold s2. destruct memo; [|split; [done|apply grows_refl]].
    apply set_memo_wfs; auto.
    - exists o. eapply lookup_weaken; [exact Eo|apply G1].
    - congruence.
    - intros y Hy. rewrite M1 in Hy. pose proof (ws_memo_lt _ _ _ Hw _ _ Hy). lia. }
  intros Hs.
  destruct (dump_subs_frame (fun y nm at_ => dump_ fuel E L kw tbl y a nm at_) a (p_subs pl) s2 s' (Ok tt)) as [W3 G3]; auto.
  { intros y nm' at' t t' r' Wt Hat' Hd. edestruct (dump_frame fuel y a nm' at') as (A & B & C); eauto. lia. }
  { by eapply create_at. }
  assert (parent < a) as Hpa. { by eapply Hw. }
  exists o, pt, fn, base, memo, pn. split_and!; auto.
  - eapply (gr_node _ _ _ _ G3); [|lia|done]. unfold s2. destruct memo; done.
  - intros ->. eapply lookup_weaken; [|apply G3]. unfold s2. simpl. by rewrite lookup_insert.
Qed.
End Stored.
