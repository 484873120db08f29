(** * DumpCycle: object graphs with cycles are dumped to files that cannot be loaded *)
From stdpp Require Import relations.
From Verif Require Import Base Utf8 Dec Num PyObj H5 Env Create Dump LoadFns LoadModel Registry RegistryStd Spec
  DumpProofs DumpStored LoadBase ArrayProofs LoadLeaf LoadDict Api DumpClosed ApiProofs FileProofs Table Layout LoadCycle.
From Coq Require Import Lia ZifyBool ZifyN.
Local Open Scope N_scope.
Local Open Scope list_scope.
Local Opaque std_loader std_dump dump_loader_of loader_of.

(** ** Specification *)

(** A list, tuple, set or dict, an array of objects, a masked array or a sparse matrix, or
    an instance of a class derived from one of them outside hickle. *)
Definition container (o : obj) : Prop :=
  outside_hickle (ocls o) /\
  match oval o with
  | VSeq _ => base_cls (ocls o) = CList \/ base_cls (ocls o) = CTuple \/ base_cls (ocls o) = CSet
  | VDict _ => base_cls (ocls o) = CDict \/ base_cls (ocls o) = COrderedDict
  | VObjArr shape xs => base_cls (ocls o) = CNdarray /\ N.of_nat (length xs) = size_of shape
  | VMasked _ _ => base_cls (ocls o) = CMasked
  | VSparse _ _ _ _ => exists k, base_cls (ocls o) = CSparse k
  | _ => False
  end.
(** The container [x] has [y] among its items, keys, values or parts. *)
Definition holds (h : heap) (x y : loc) : Prop := exists o, h !! x = Some o /\ container o /\ y ∈ refs o.

(** From [x] one comes to a container that contains itself, directly or not. *)
Definition cyclic (h : heap) (x : loc) : Prop := exists y, rtc (holds h) x y /\ tc (holds h) y y.

(** ** What is stored for a container *)
Definition fine_at (h : heap) (x : loc) : Prop := Acc (fun a b => holds h b a) x.
Definition inert (h : heap) (x : loc) : Prop := forall o, h !! x = Some o -> ~ container o.
Lemma inert_fine h x : inert h x -> fine_at h x.
Proof. intros Hi. constructor. intros y (o & Ho & Hc & _). exfalso. by eapply Hi. Qed.

Lemma container_object o : container o -> np_dtype_of_cls (ocls o) = PObject.
Proof.
  intros [_ Hc]. assert (np_generic_dtype (ocls o) = None /\ base_cls (ocls o) ∉ [CBool; CInt; CFloat; CComplex; CStr; CBytes]) as [Hg Hn].
  { destruct o as [c v]. cbn [ocls oval] in *.
    assert (base_cls c = CList \/ base_cls c = CTuple \/ base_cls c = CSet \/ base_cls c = CDict \/ base_cls c = COrderedDict \/
            base_cls c = CNdarray \/ base_cls c = CMasked \/ exists k, base_cls c = CSparse k) as Hb.
    { destruct v; try done; naive_solver. }
    clear Hc. split.
    - induction c; cbn [np_generic_dtype base_cls] in *; try done; [naive_solver..|by apply IHc].
    - intros Hin. repeat (apply elem_of_cons in Hin as [Hin|Hin]; [rewrite Hin in Hb; naive_solver|]). by apply elem_of_nil in Hin. }
  unfold np_dtype_of_cls. rewrite Hg. destruct (ocls o); try done; exfalso; apply Hn; cbn [base_cls]; set_solver.
Qed.

Lemma std_dump_container o : container o ->
  exists fn base, std_dump (ocls o) = Ok (ocls o, (fn, base, true)) /\
    match oval o with VSeq _ => fn = FList \/ fn = FSet | VDict _ => fn = FDict | VObjArr _ _ => fn = FNpArray | VMasked _ _ => fn = FNpMasked | VSparse _ _ _ _ => fn = FSparse | _ => False end /\
    (fn = FList -> isinst (ocls o) CStr || isinst (ocls o) CBytes = false).
Proof.
  intros [Ho Hc]. rewrite (std_dump_base _ _ Ho eq_refl).
  rewrite (isinst_base (ocls o) CStr), (isinst_base (ocls o) CBytes) by done.
  destruct (oval o); try done.
  - destruct Hc as [Hb|[Hb|Hb]]; rewrite Hb; vm_compute first_item; eexists _, _; (split; [reflexivity|]); auto.
  - destruct Hc as [Hb|Hb]; rewrite Hb; vm_compute first_item; eexists _, _; (split; [reflexivity|]); auto.
  - destruct Hc as [Hb _]; rewrite Hb; vm_compute first_item; eexists _, _; (split; [reflexivity|]); auto.
  - rewrite Hc; vm_compute first_item; eexists _, _; (split; [reflexivity|]); auto.
  - destruct Hc as [[] Hb]; rewrite Hb; vm_compute first_item; eexists _, _; (split; [reflexivity|]); auto.
Qed.

Lemma enumerate_elem {A} (l : list A) x : x ∈ l -> exists i, (i, x) ∈ enumerate l.
Proof.
  unfold enumerate. generalize 0. induction l as [|y l IH]; intros k Hin; [by apply elem_of_nil in Hin|].
  apply elem_of_cons in Hin as [-> |Hin].
  - exists k. by left.
  - destruct (IH (k + 1) Hin) as [i Hi]. exists i. by right.
Qed.

Lemma list_container xs : container (Obj CList (VSeq xs)).
Proof.
  split; [|by left]. intros q Hq. cbn in Hq. repeat (apply elem_of_cons in Hq as [-> |Hq]; [by vm_compute|]). by apply elem_of_nil in Hq.
Qed.
Lemma list_instance o : container o -> isinst (ocls o) CList = true ->
  exists xs, oval o = VSeq xs /\ isinst (ocls o) CStr || isinst (ocls o) CBytes = false.
Proof.
  intros [Ho Hc] Hi. rewrite (isinst_base (ocls o) CStr), (isinst_base (ocls o) CBytes) by done. rewrite isinst_base in Hi by done.
  destruct (oval o) as [| | | | |xs| | | | | | | | |]; try done.
  - destruct Hc as [Hb|[Hb|Hb]]; rewrite Hb in *; [by exists xs|discriminate Hi..].
  - destruct Hc as [Hb|Hb]; rewrite Hb in Hi; discriminate Hi.
  - destruct Hc as [Hb _]; rewrite Hb in Hi; discriminate Hi.
  - rewrite Hc in Hi; discriminate Hi.
  - destruct Hc as [[] Hb]; rewrite Hb in Hi; discriminate Hi.
Qed.
Lemma fine_reach h x y : rtc (holds h) x y -> fine_at h x -> fine_at h y.
Proof. induction 1 as [|x y z Hs _ IH]; intros Ha; [done|]. apply IH. by apply (Acc_inv Ha). Qed.

(** Every element of an array is reached from the lists made of it. *)
Lemma tolist_reach h shape : forall ls nx ts els x,
  shape <> [] -> N.of_nat (length ls) = prodN shape -> tolist shape ls nx = (ts, els) -> placed_at h nx ts ->
  x ∈ ls -> exists e, e ∈ els /\ rtc (holds h) e x.
Proof.
  induction shape as [|n rest IH]; intros ls nx ts els x Hne Hlen Ht Hp Hx; [done|].
  destruct rest as [|m rest].
  - simpl in Ht. inversion Ht; subst. exists x. split; [done|apply rtc_refl].
  - clear Hne.
    assert (length ls = (N.to_nat n * N.to_nat (prodN (m :: rest)))%nat) as Hlen'.
    { change (prodN (n :: m :: rest)) with (n * prodN (m :: rest)) in Hlen. lia. }
    pose proof (chunks_concat _ _ _ Hlen') as Hcc. pose proof (chunks_each _ _ _ Hlen') as Hce.
    assert (forall cs nx ts els,
      (fix go (cs : list (list loc)) (nx : loc) : list obj * list loc :=
         match cs with
         | [] => ([], [])
         | c :: cs' =>
             let '(ts, els) := tolist (m :: rest) c nx in
             let me := nx + N.of_nat (length ts) in
             let '(ts', ls) := go cs' (me + 1) in
             (ts ++ Obj CList (VSeq els) :: ts', me :: ls)
         end) cs nx = (ts, els) -> placed_at h nx ts -> Forall (fun c => length c = N.to_nat (prodN (m :: rest))) cs ->
      x ∈ concat cs -> exists e, e ∈ els /\ rtc (holds h) e x) as Hgo.
    { clear -IH. induction cs as [|c cs IHc]; intros nx ts els Hg Hp Hl Hx.
      - by apply elem_of_nil in Hx.
      - destruct (tolist (m :: rest) c nx) as [ts1 els1] eqn:E1.
        cbv zeta in Hg. match type of Hg with (let '(_, _) := ?g in _) = _ => destruct g as [ts2 ls2] eqn:E2 end.
        inversion Hg; subst ts els. clear Hg.
        apply placed_at_app in Hp as [Hp1 Hp2]. apply placed_at_cons in Hp2 as [Hp2 Hp3].
        inversion Hl as [|? ? Hl1 Hl2]; subst. cbn [concat] in Hx. apply elem_of_app in Hx as [Hx|Hx].
        + destruct (IH c nx ts1 els1 x) as (e & He & Hr); auto. { rewrite Hl1. lia. }
          eexists. split; [by left|]. eapply rtc_l; [|exact Hr]. eexists. split; [exact Hp2|]. split; [apply list_container|done].
        + destruct (IHc _ _ _ E2 Hp3 Hl2 Hx) as (e & He & Hr). exists e. split; [by right|done]. }
    change (tolist (n :: m :: rest) ls nx) with
      ((fix go (cs : list (list loc)) (nx : loc) : list obj * list loc :=
         match cs with
         | [] => ([], [])
         | c :: cs' =>
             let '(ts, els) := tolist (m :: rest) c nx in
             let me := nx + N.of_nat (length ts) in
             let '(ts', ls) := go cs' (me + 1) in
             (ts ++ Obj CList (VSeq els) :: ts', me :: ls)
         end) (chunks (N.to_nat n) (N.to_nat (prodN (m :: rest))) ls) nx) in Ht.
    apply (Hgo _ _ _ _ Ht Hp Hce). by rewrite Hcc.
Qed.

Section Cover.
Context (E : env).

Lemma list_cover h xs pl z : create_list_items E h xs = Ok pl -> p_fail pl = None -> z ∈ xs ->
  (exists o, h !! z = Some o /\ np_dtype_of_cls (ocls o) <> PObject) \/ exists nm at_, (nm, z, at_) ∈ p_subs pl.
Proof.
  unfold create_list_items. destruct xs as [|x xs]; [by intros _ _ ?%elem_of_nil|].
  destruct (check_iterable_item_type E h x xs) as [od|e] eqn:Ec; cbn [res_bind]; [|discriminate].
  destruct od as [[d| | |]|]; try discriminate.
  - destruct (write_items _ _ _) as [vs e]. intros _ _ Hin. left.
    apply check_iterable_spec in Ec as [Hx _]. destruct (Hx z Hin) as (o & d' & Ho & Hd & _). exists o. split; [done|]. by rewrite Hd.
  - intros H _ Hin. inversion H; subst pl. right. destruct (enumerate_elem _ _ Hin) as [i Hi].
    exists (data_name i), [(a_item_index, AInt (Z.of_N i))]. cbn [p_subs plan_group]. unfold list_subs.
    apply elem_of_list_fmap. by exists (i, z).
Qed.

Lemma list_no_data h xs pl nm z at_ : create_list_items E h xs = Ok pl -> (nm, z, at_) ∈ p_subs pl -> p_data pl = None.
Proof.
  unfold create_list_items. destruct xs as [|x xs]; [by intros [= <-] ?%elem_of_nil|].
  destruct (check_iterable_item_type E h x xs) as [[[d| | |]|]|e]; cbn [res_bind]; try discriminate.
  - destruct (write_items _ _ _). intros [= <-] Hin. by apply elem_of_nil in Hin.
  - by intros [= <-].
Qed.

Lemma key_name_inert o nm : key_name E o = Ok (Some nm) -> refs o = [].
Proof.
  unfold key_name, scalar_repr, refs. destruct (isinst (ocls o) CStr); [by destruct (oval o)|].
  destruct (isinst (ocls o) CBytes); [by destruct (oval o)|]. case_bool_decide; [|discriminate]. by destruct (oval o).
Qed.

Lemma dict_cover h nx c kvs pl z : create_dictlike E h nx (Obj c (VDict kvs)) = Ok pl -> z ∈ map fst kvs ++ map snd kvs ->
  (exists o, h !! z = Some o /\ refs o = []) \/
  (exists nm at_, (nm, z, at_) ∈ p_subs pl) \/
  (exists nm j k v at_, (nm, nx + N.of_nat j, at_) ∈ p_subs pl /\ p_temps pl !! j = Some (Obj CTuple (VSeq [k; v])) /\ z ∈ [k; v]).
Proof.
  unfold create_dictlike. cbn [oval]. destruct (dict_subs E h nx 0 kvs) as [[ts ss]|e] eqn:Ed; cbn [res_map]; [|discriminate].
  intros H Hin. inversion H; subst pl. cbn [p_subs p_temps].
  destruct (dict_subs_spec _ _ _ _ _ _ _ Ed) as (es & -> & _ & <- & He). clear H Ed.
  assert (exists e, e ∈ es /\ (z = de_key e \/ z = de_val e)) as (e & Hes & Hz).
  { rewrite !map_map in Hin. cbn in Hin. apply elem_of_app in Hin as [Hin|Hin]; apply elem_of_list_fmap in Hin as (e & -> & Hes); eauto. }
  specialize (He e Hes). destruct (de_name e) as [[nm kb]|] eqn:En.
  - destruct He as (Hv & ko & Hk & Hn & _). destruct Hz as [-> | ->].
    + left. exists ko. split; [done|]. by eapply key_name_inert.
    + right. left. rewrite <- Hv. eexists _, _. apply elem_of_list_fmap. exists e. split; [reflexivity|done].
  - destruct He as ((j & Hj & Hv) & _). right. right. exists (data_name (de_idx e)), j, (de_key e), (de_val e).
    eexists. split; [|split; [exact Hj|]].
    + apply elem_of_list_fmap. exists e. split; [|done]. unfold dict_sub. rewrite En, Hv. reflexivity.
    + destruct Hz as [-> | ->]; [by left|right; by left].
Qed.
End Cover.

(** ** From the file back to the objects *)
Section Back.
Context (E : env) (lo : addr) (s : dst).
Context (Hst : forall y b, d_memo s !! y = Some b -> stored E std_dump lo s y b).

Definition stands_for (a : addr) (y : loc) : Prop :=
  d_memo s !! y = Some a \/
  exists n t, getn s a = Some n /\ nd_attrs n !! a_type = None /\ nd_body n = BData (DRefTo t) /\ d_memo s !! y = Some t.

Lemma child_stands nm y at_ lk : child_ok E std_dump lo s (nm, y, at_) lk -> stands_for (snd lk) y \/ inert (d_heap s) y.
Proof.
  intros (_ & _ & _ & Hat & [(t & Ht & Hc)|(pl & Hp & _)]).
  - left. destruct Hc as [[-> _]|Hn]; [by left|right].
    eexists _, t. split; [exact Hn|]. cbn [nd_attrs nd_body]. split; [|done].
    by rewrite attrs_update_other.
  - right. destruct Hp as (o & h0 & nx & pt & fn & base & te & nm' & _ & H2 & H3 & _).
    intros o' Ho' Hc. rewrite Ho' in H2. inversion H2; subst o'. destruct (std_dump_container o Hc) as (fn' & base' & Hs & _). congruence.
Qed.

(** None of the nodes written for a container is marked as a sparse matrix of hickle 4. *)
Lemma container_not_old y a at_ pl ls o n : placed E std_dump s y a at_ pl true ls -> at_form at_ ->
  d_heap s !! y = Some o -> container o -> getn s a = Some n -> ~ old_matrix (d_file s) n.
Proof.
  intros Hp Hat Ho Hc Hn Hold.
  destruct (placed_view E s y a at_ pl true ls Hp Hat)
    as (o' & h0 & nx & pt & fn & base & n' & _ & Ho' & Ha & _ & _ & _ & Hn' & _ & _ & Hty).
  rewrite Ho in Ho'. injection Ho' as <-. rewrite Hn in Hn'. injection Hn' as <-.
  destruct (std_dump_container o Hc) as (fn' & base' & Hs & Hfn & _). rewrite Hs in Ha. injection Ha as <- _ _.
  destruct Hc as [Hout _]. destruct Hty as [[Hob _]|[_ (e & He & (en & b & bn & base2 & fn2 & m2 & E1 & E2 & _))]].
  - rewrite Hob in Hs. clear -Hs Hfn. vm_compute in Hs. injection Hs as <- _. destruct (oval o); try done. by destruct Hfn.
  - destruct Hold as [Hold|(e' & en' & F1 & F2 & F3)]; [by rewrite He in Hold|].
    rewrite He in F1. injection F1 as <-. unfold getn in E1. rewrite E1 in F2. injection F2 as <-. rewrite E2 in F3. injection F3 as F3.
    rewrite F3 in Hout. apply (Hout return_first); [by left|]. reflexivity.
Qed.

Lemma grounded_fine old a : grounded old (d_file s) a -> forall y, stands_for a y -> fine_at (d_heap s) y.
Proof.
  intros Ha. induction Ha as [a _ IH]; intros y [Hy|(n & t & H1 & H2 & H3 & H4)].
  2: { apply (IH t); [|by left]. by eapply leads_target. }
  constructor. intros z (o & Ho & Hc & Hz).
  destruct (Hst y a Hy) as (_ & _ & at_ & pl & ls & Hat & Hp & Hf).
  pose proof (fun n => container_not_old y a at_ pl ls o n Hp Hat Ho Hc) as Hnot.
  destruct Hp as (o' & h0 & nx & pt & fn & base & te & nm & P1 & P2 & P3 & P4 & P5 & P6 & P7 & P8).
  rewrite Ho in P2. inversion P2; subst o'. clear P2.
  assert (forall nm' w at', (nm', w, at') ∈ p_subs pl -> p_data pl = None -> fine_at (d_heap s) w) as Hsub.
  { intros nm' w at' Hin Hpd. apply elem_of_list_lookup in Hin as [i Hi].
    destruct (Forall2_lookup_l _ _ _ _ _ Hf Hi) as ([nm2 b] & Hi' & Hch).
    destruct (child_stands _ _ _ _ Hch) as [Hs|Hi2]; [|by apply inert_fine].
    apply (IH b); [|exact Hs]. eapply leads_member with (nm := nm2); [exact P7| |intros _; by apply Hnot].
    assert (links (extend (set_attrs at_ (with_type te (Node nm (attrs_update (p_attrs pl) ∅) (plan_body pl)))) ls) = ls) as ->.
    { unfold links, extend, plan_body. simpl. rewrite Hpd. destruct te; done. }
    by eapply elem_of_list_lookup_2. }
  destruct (std_dump_container o Hc) as (fn' & base' & Hsd & Hfn & His). rewrite Hsd in P3. inversion P3; subst pt fn' base'. clear P3 Hsd.
  destruct o as [c v]. cbn [ocls oval] in *. destruct v eqn:Ev; try (exfalso; exact Hfn); subst v.
  - assert (create_list_items E h0 xs = Ok pl) as Hli.
    { destruct Hfn as [-> | ->]; cbn [create] in P4; [|exact P4]. unfold create_listlike in P4. cbn [ocls oval] in P4. by rewrite His in P4. }
    cbn [refs oval] in Hz. destruct (list_cover _ _ _ _ _ Hli P5 Hz) as [(oz & Hoz & Hd)|(nm' & at' & Hin)].
    + apply inert_fine. intros o2 Ho2 Hc2. rewrite (lookup_weaken _ _ _ _ Hoz P1) in Ho2. inversion Ho2; subst o2.
      by apply container_object in Hc2.
    + apply (Hsub _ _ _ Hin). by eapply list_no_data.
  - subst fn. cbn [create] in P4. cbn [refs oval] in Hz.
    assert (p_data pl = None) as Hpd.
    { unfold create_dictlike in P4. cbn [oval] in P4. destruct (dict_subs _ _ _ _ _) as [[ts ss]|e]; [|discriminate]. by inversion P4. }
    destruct (dict_cover _ _ _ _ _ _ _ P4 Hz) as [(oz & Hoz & Hd)|[(nm' & at' & Hin)|(nm' & j & k & w & at' & Hin & Ht & Hzz)]].
    + constructor. intros y2 (o2 & Ho2 & _ & Hy2). rewrite (lookup_weaken _ _ _ _ Hoz P1) in Ho2. inversion Ho2; subst o2.
      rewrite Hd in Hy2. by apply elem_of_nil in Hy2.
    + by apply (Hsub _ _ _ Hin).
    + pose proof (Hsub _ _ _ Hin Hpd) as Hacc. apply (Acc_inv Hacc).
      exists (Obj CTuple (VSeq [k; w])). split; [by apply P6|]. split; [|done]. split; [|cbn; auto].
      intros q Hq. cbn in Hq. repeat (apply elem_of_cons in Hq as [-> |Hq]; [by vm_compute|]). by apply elem_of_nil in Hq.
  - subst fn. cbn [create] in P4. cbn [refs oval] in Hz. unfold create_np_array in P4. cbn [oval] in P4.
    destruct Hc as [_ [_ Hlen]]. cbn [oval] in Hlen. destruct shape as [|n shape].
    + destruct vs as [|l [|]]; try discriminate P4. apply elem_of_list_singleton in Hz as ->.
      destruct (h0 !! l) as [io|] eqn:Eio; [|discriminate P4].
      destruct (isinst (ocls io) CList) eqn:Eis.
      * destruct (create_listlike E h0 io) as [pl0|e] eqn:Ecl; cbn [res_map] in P4; [|discriminate P4]. inversion P4; subst pl.
        cbn [with_temps p_subs p_data p_fail] in Hsub, P5.
        constructor. intros w (o2 & Ho2 & Hc2 & Hw). rewrite (lookup_weaken _ _ _ _ Eio P1) in Ho2. inversion Ho2; subst o2.
        destruct (list_instance io Hc2 Eis) as (xs & Hxs & Hns). unfold create_listlike in Ecl. rewrite Hns, Hxs in Ecl.
        unfold refs in Hw. rewrite Hxs in Hw.
        destruct (list_cover _ _ _ _ _ Ecl P5 Hw) as [(oz & Hoz & Hd)|(nm' & at' & Hin)].
        -- apply inert_fine. intros o2 Ho3 Hc3. rewrite (lookup_weaken _ _ _ _ Hoz P1) in Ho3. inversion Ho3; subst o2.
           by apply container_object in Hc3.
        -- apply (Hsub _ _ _ Hin). by eapply list_no_data.
      * inversion P4; subst pl. eapply Hsub; [by left|done].
    + destruct (tolist (n :: shape) vs nx) as [ts els] eqn:Et.
      destruct (create_list_items E (temps_heap h0 nx ts) els) as [pl0|e] eqn:Ecl; cbn [res_map] in P4; [|discriminate P4]. inversion P4; subst pl.
      cbn [with_temps p_subs p_data p_fail p_temps] in Hsub, P5, P6.
      assert (placed_at (d_heap s) nx ts) as Hpl.
      { intros i t Ht. apply P6. by apply lookup_app_l_Some. }
      destruct (tolist_reach (d_heap s) (n :: shape) vs nx ts els z ltac:(done) Hlen Et Hpl Hz) as (e & He & Hr).
      apply (fine_reach _ e z Hr).
      destruct (list_cover _ _ _ _ _ Ecl P5 He) as [(oz & Hoz & Hd)|(nm' & at' & Hin)].
      * apply inert_fine. intros o2 Ho3 Hc3.
        rewrite (lookup_weaken _ _ _ _ Hoz (temps_heap_sub _ _ _ P1 _ Hpl)) in Ho3. inversion Ho3; subst o2.
        by apply container_object in Hc3.
      * apply (Hsub _ _ _ Hin). by eapply list_no_data.
  - subst fn. cbn [create] in P4. cbn [refs oval] in Hz. unfold create_np_masked in P4. cbn [oval] in P4.
    destruct (h0 !! data) as [dobj|]; [|discriminate P4]. destruct (arr_dtype_str dobj) as [ds|]; [|discriminate P4]. inversion P4; subst pl.
    cbn [p_subs plan_group p_data] in Hsub.
    apply elem_of_cons in Hz as [-> |Hz]; [eapply Hsub; [by left|done]|].
    apply elem_of_cons in Hz as [-> |Hz]; [eapply Hsub; [right; by left|done]|by apply elem_of_nil in Hz].
  - subst fn. cbn [create] in P4. cbn [refs oval] in Hz. unfold create_sparse in P4. cbn [oval] in P4. inversion P4; subst pl.
    cbn [p_subs plan_group p_data] in Hsub.
    apply elem_of_cons in Hz as [-> |Hz]; [eapply Hsub; [by left|done]|].
    apply elem_of_cons in Hz as [-> |Hz]; [eapply Hsub; [right; by left|done]|].
    apply elem_of_cons in Hz as [-> |Hz]; [eapply Hsub; [right; right; by left|done]|].
    apply elem_of_cons in Hz as [-> |Hz]; [eapply Hsub; [right; right; right; by left|done]|by apply elem_of_nil in Hz].
Qed.
End Back.

Lemma fine_no_cycle h x : fine_at h x -> ~ cyclic h x.
Proof.
  intros Ha (y & Hr & Hc). revert y Hr Hc. induction Ha as [x _ IH]; intros y Hr Hc.
  inversion Hr as [|? x' ? Hs Hr']; subst.
  - inversion Hc as [? ? Hs|? x' ? Hs Ht]; subst.
    + by apply (IH y Hs y).
    + apply (IH x' Hs x'); [apply rtc_refl|]. eapply tc_r; [exact Ht|exact Hs].
  - by apply (IH x' Hs y).
Qed.

Lemma holds_mono h h' x y : h ⊆ h' -> holds h x y -> holds h' x y.
Proof. intros Hs (o & Ho & Hc). exists o. split; [by eapply lookup_weaken|done]. Qed.
Lemma cyclic_mono h h' x : h ⊆ h' -> cyclic h x -> cyclic h' x.
Proof.
  intros Hs (y & Hr & Hc). exists y. split.
  - clear Hc. induction Hr as [|a b c Hh _ IH]; [apply rtc_refl|]. eapply rtc_l; [exact (holds_mono _ _ _ _ Hs Hh)|done].
  - clear Hr. revert Hc. generalize y at 1 3 as y1. intros y1 Hc. induction Hc as [a b Hh|a b c Hh _ IH]; [apply tc_once; exact (holds_mono _ _ _ _ Hs Hh)|]. eapply tc_l; [exact (holds_mono _ _ _ _ Hs Hh)|done].
Qed.

(** The attributes of the file itself do not make it look like one of hickle 3. *)
Lemma dump_not_v3 C kw opts x p m f f' m' r :
  tree f -> world_ok (c_world C) -> free_above m -> not_v3 f -> Forall (fun o => snd o = false) opts ->
  dump_file C kw opts x p m f = (f', m', r) -> not_v3 f'.
Proof.
  intros Ht HW Hm Hv3 Hop Hd. unfold dump_file in Hd.
  destruct (root_for_dump f p) as [f1 r1] eqn:Er.
  destruct (root_for_dump_spec _ _ _ _ Ht Er) as (T1 & S1 & N1 & (q & cs & [Q1 Q2] & Q3 & Q4) & HR).
  destruct (tr_root _ Ht) as (rn & Hrn & _).
  assert (node_attrs f1 root_addr = node_attrs f root_addr) as Ha1.
  { destruct (decide (root_addr = q)) as [<- |Hne].
    - destruct (Q2 _ Hrn) as (ls & L1 & _). unfold node_attrs. by rewrite Hrn, L1.
    - unfold node_attrs. by rewrite (Q1 _ _ Hrn Hne), Hrn. }
  unfold not_v3 in *. rewrite <- Ha1 in Hv3. clear Ha1.
  destruct r1 as [root|e]; [|inversion Hd; subst; exact Hv3].
  destruct (HR root eq_refl) as (P1 & n0 & P2 & P3 & P4 & P5). clear HR.
  unfold dump_root in Hd. destruct (with_options (stamp C f1 root) root opts) as [f2 r2] eqn:Ew.
  destruct (with_options_spec _ _ _ _ _ _ _ P2 Ew) as (S2 & N2 & R2 & O2 & Hr2).
  rewrite options_off in R2, Hr2 by done. simpl in R2, Hr2. subst r2.
  pose proof (fsteps_tree _ _ S2 T1) as T2.
  destruct (dump_into_frame _ _ _ _ _ _ _ _ _ _ _ T2 HW Hm R2 Hd) as (T & S & N & _ & _ & A & (ls & A0 & _)).
  destruct (decide (root_addr = root)) as [<- |Hne].
  - unfold node_attrs. rewrite A0. cbn [nd_attrs extend]. rewrite stamped_v3. unfold node_attrs in Hv3. by rewrite P2 in Hv3.
  - assert (root_addr < f_next f2) as Hr0.
    { destruct (tr_root _ T2) as (r2 & Hr2 & _). by eapply (tr_wf _ T2). }
    unfold node_attrs. rewrite A by done. rewrite O2 by done. exact Hv3.
Qed.

Lemma detect_not_v3 fa ra : forallb (attr_set fa) v3_attrs = false -> detect fa ra <> Ok V3.
Proof.
  intros H. unfold detect. rewrite H. destruct (forallb (attr_set ra) v4_attrs); [|congruence].
  destruct (ra !! a_version) as [[]|]; try congruence. destruct (Z_parse _) as [z|]; cbn [res_map]; [|congruence].
  destruct (z =? 4)%Z; congruence.
Qed.

(** ** The theorem *)
Lemma cyclic_never_loads C kw opts x p m f f' m' :
  tree f -> not_v3 f -> c_world C = std_world -> free_above m -> Forall (fun o => snd o = false) opts ->
  cyclic (m_heap m) x -> dump_file C kw opts x p m f = (f', m', Ok tt) ->
  forall C' w m2 f2 m3 v ov, (forall a l, Permutation (e_order (c_env C') a l) l) ->
    load_file C' w f' p m2 <> (f2, Ok (m3, v), ov).
Proof.
  intros Ht Hv HW Hm Hop Hcy Hd C' w m2 f2 m3 v ov HE Hl.
  assert (world_ok (c_world C)) as HWo by (rewrite HW; apply std_world_ok).
  pose proof (dump_not_v3 _ _ _ _ _ _ _ _ _ _ Ht HWo Hm Hv Hop Hd) as Hv'.
  destruct (dump_file_state C kw opts x p m f f' m' Ht HWo Hm Hd)
    as (chain & s & lo & tbl & root & c & Hf & Hh & Hsub & Ht' & Hw & Hp & _ & Hch & _ & _ & _ & Hst & Hck & _ & Hchain & _).
  rewrite (Hchain Hop), HW, std_dump_eq in *. subst f'.
  assert (grounded (v4_file (d_file s) root) (d_file s) c) as Hg.
  { eapply load_file_grounded; [exact HE|apply Ht'| |exact Hp|exact Hch|exact Hl].
    apply detect_not_v3. exact Hv'. }
  assert (cyclic (d_heap s) x) as Hcy' by (rewrite Hh; by eapply cyclic_mono).
  revert Hcy'. apply fine_no_cycle.
  destruct (child_stands _ _ _ _ _ _ _ Hck) as [Hs|Hi]; [|by apply inert_fine].
  eapply grounded_fine; [exact Hst|exact Hg|exact Hs].
Qed.
