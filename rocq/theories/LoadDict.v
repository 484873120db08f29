(** * LoadDict: dictionaries are loaded back *)
From stdpp Require Import relations.
From Verif Require Import Base Utf8 Utf8Proofs Dec DecProofs Num NumProofs PyObj H5 Env Create Dump
  LoadFns LoadModel Registry DumpProofs DumpStored RegistryStd Spec PartSpec LoadBase LoadInv LoadLeaf LoadCont LoadMain.
From Coq Require Import Lia ZifyBool ZifyN.
Local Open Scope N_scope.
Local Open Scope list_scope.
Local Opaque std_loader std_dump.

(** ** The sub items of a dictionary *)
Record dent := Dent { de_idx : N; de_key : loc; de_val : loc; de_name : option (pystr * bytes); de_obj : loc }.
Definition dict_sub (e : dent) : sub :=
  (match de_name e with Some (nm, _) => nm | None => data_name (de_idx e) end, de_obj e,
   [(a_key_idx, AInt (Z.of_N (de_idx e)));
    (a_key_base_type, ABytes (match de_name e with Some (_, kb) => kb | None => key_value_type end))]).

Lemma dict_subs_spec E h : forall kvs nx idx ts ss,
  dict_subs E h nx idx kvs = Ok (ts, ss) ->
  exists es, ss = map dict_sub es /\ map de_idx es = map fst (enum_from idx kvs) /\
    map (fun e => (de_key e, de_val e)) es = kvs /\
    forall e, e ∈ es ->
      match de_name e with
      | Some (nm, kb) => de_obj e = de_val e /\ exists ko, h !! de_key e = Some ko /\ key_name E ko = Ok (Some nm) /\
                           utf8_encode (cls_name (ocls ko)) = Ok kb
      | None => (exists j, ts !! j = Some (Obj CTuple (VSeq [de_key e; de_val e])) /\ de_obj e = nx + N.of_nat j) /\
                exists ko, h !! de_key e = Some ko /\ key_name E ko = Ok None
      end.
Proof.
  induction kvs as [|[k v] kvs IH]; intros nx idx ts ss Hd; simpl in Hd.
  - inversion Hd; subst. exists []. split_and!; auto. intros e He. inversion He.
  - destruct (h !! k) as [ko|] eqn:Ek; [|done].
    destruct (key_name E ko) as [[nm|]|] eqn:En; cbn [res_bind] in Hd; [| |done].
    + destruct (utf8_encode (cls_name (ocls ko))) as [kb|] eqn:Eu; cbn [res_bind] in Hd; [|done].
      destruct (dict_subs E h nx (idx + 1) kvs) as [[ts' ss']|] eqn:Ed; simpl in Hd; [|done]. inversion Hd; subst.
      destruct (IH _ _ _ _ Ed) as (es & -> & H1 & H2 & H3).
      exists (Dent idx k v (Some (nm, kb)) v :: es). split_and!; simpl; auto; [by rewrite H1|by rewrite H2|].
      intros e [-> |He]%elem_of_cons; simpl; [|by apply H3]. split; [done|]. by exists ko.
    + destruct (dict_subs E h (nx + 1) (idx + 1) kvs) as [[ts' ss']|] eqn:Ed; simpl in Hd; [|done]. inversion Hd; subst.
      destruct (IH _ _ _ _ Ed) as (es & -> & H1 & H2 & H3).
      exists (Dent idx k v None nx :: es). split_and!; simpl; auto; [by rewrite H1|by rewrite H2|].
      intros e [-> |He]%elem_of_cons; simpl.
      * split; [|by exists ko]. exists O. split; [done|]. lia.
      * specialize (H3 e He). destruct (de_name e) as [[nm kb]|]; [done|]. destruct H3 as [(j & Hj & ->) Hk].
        split; [|done]. exists (S j). split; [done|]. lia.
Qed.

(** ** The key is recovered from name and type *)
Lemma swap_plain s : has_char 92 s = false -> swap_slashes s = s.
Proof.
  unfold has_char, swap_slashes. induction s as [|c s IH]; simpl; [done|].
  change ((92 =? c) || existsb (N.eqb 92) s = false -> (if c =? 92 then 47 else c) :: map (fun c0 => if c0 =? 92 then 47 else c0) s = c :: s).
  intros [Hc Hs]%orb_false_iff. rewrite N.eqb_sym in Hc. rewrite Hc, IH; done.
Qed.
Lemma strip_quoted (s : pystr) : strip_ends ([34] ++ s ++ [34]) = s.
Proof. unfold strip_ends. simpl. apply removelast_last. Qed.
Lemma strip_b_quoted (s : pystr) : strip_b ([98; 34] ++ s ++ [34]) = s.
Proof. unfold strip_b. simpl. apply removelast_last. Qed.

Lemma key_recovered E h ko nm kb :
  env_ok E -> storable h ko -> ko <> Obj CBool (VNum (NB false)) ->
  (base_cls (ocls ko) = CBytes -> ocls ko = CBytes) ->
  (cls_name (ocls ko) ∈ map str ["float"; "bool"; "int"; "complex"; "NoneType"]%string ->
     ocls ko ∈ builtin_scalars) ->
  key_name E ko = Ok (Some nm) -> utf8_encode (cls_name (ocls ko)) = Ok kb ->
  dict_key E nm kb = Ok (Some ko) /\ simple (oval ko) = true.
Proof.
  intros HE Hs Hf Hby Hnm Hk Hu. unfold key_name in Hk.
  destruct (isinst (ocls ko) CStr) eqn:Es.
  - assert (exists s, ko = Obj CStr (VStr s)) as [t ->].
    { inversion Hs; subst ko; simpl in Hk; try done. by eexists. }
    simpl in Hk. destruct (str_slashes t) eqn:Esl; inversion Hk; subst nm. vm_compute in Hu. inversion Hu; subst kb.
    split; [|done]. unfold dict_key. rewrite bool_decide_eq_true_2 by done. simpl app. cbv iota beta.
    change (34 :: t ++ [34]) with ([34] ++ t ++ [34]). by rewrite strip_quoted.
  - destruct (isinst (ocls ko) CBytes) eqn:Eb.
    + destruct (oval ko) as [| | |b| | | | | | | | | | |] eqn:Ev; try done.
      destruct (byte_slashes b); [done|]. destruct (utf8_decode b) as [t|] eqn:Ed; [|done]. inversion Hk; subst nm.
      assert (ocls ko = CBytes) as Hc.
      { inversion Hs; subst; simpl in *; try done. by apply Hby. }
      rewrite Hc in Hu. vm_compute in Hu. inversion Hu; subst kb. split; [|done].
      unfold dict_key. rewrite bool_decide_eq_false_2 by done. rewrite bool_decide_eq_true_2 by done.
      simpl app. cbv iota beta. change (98 :: 34 :: t ++ [34]) with ([98; 34] ++ t ++ [34]). rewrite strip_b_quoted.
      rewrite (utf8_encode_decode _ _ Ed). simpl. destruct ko as [c v]. simpl in *. by subst.
    + case_bool_decide as Hin; [|done]. specialize (Hnm Hin). clear Hin.
      assert (exists r, scalar_repr E ko = Ok r) as [r Er]. { destruct (scalar_repr E ko); [by eexists|done]. }
      rewrite Er in Hk. simpl in Hk. destruct (str_slashes r) eqn:Esl; inversion Hk; subst r. clear Hk.
      unfold str_slashes in Esl. apply orb_false_iff in Esl as [_ Esl]. pose proof (swap_plain _ Esl) as Hsw.
      unfold scalar_repr in Er.
      inversion Hs as [|c0 n0 Hn|str0|c0 b0 Hb0 _|c0 xs [Hb0|Hb0] _|c0 xs Hb0 _ _|c0 kvs [Hb0|Hb0] _ _ _|c0 d0 shape vs [Hb0|Hb0] _ _|w0 shape vs _ _ _ _|shape xs _ _ _ _ _|d0|c0 d0 m0 Hb0|c0 k0 d0 i0 p0 s0 Hb0|c0 k0 n0 Hb0]; subst ko; simpl in Er; try done.
      * vm_compute in Hu. inversion Hu; subst kb. split; [|done]. inversion Er; subst nm. vm_compute. done.
      * simpl in Hnm. unfold number_ok in Hn. split; [|done].
        repeat (apply elem_of_cons in Hnm as [-> |Hnm]); [..|inversion Hnm]; simpl in Hn; destruct n0 as [b|z|f|f1 f2]; try done;
          vm_compute in Hu; inversion Hu; subst kb; unfold dict_key;
          do 3 (rewrite bool_decide_eq_false_2 by done); unfold load_key; rewrite Hsw; simpl in Er; inversion Er; subst nm.
        -- rewrite bool_decide_eq_true_2 by done. rewrite (ok_fparse E HE) by done. done.
        -- rewrite bool_decide_eq_false_2 by done. rewrite bool_decide_eq_true_2 by done. destruct b; done.
        -- do 2 (rewrite bool_decide_eq_false_2 by done). rewrite bool_decide_eq_true_2 by done. by rewrite Z_parse_dec.
        -- do 3 (rewrite bool_decide_eq_false_2 by done). rewrite bool_decide_eq_true_2 by done.
           destruct Hn as [Hn1 Hn2]. by rewrite (ok_cparse E HE).
Qed.

(** Numbers of the builtin classes are named by their repr. *)
Lemma key_name_builtin E c n :
  env_ok E -> number_ok c n -> c ∈ builtin_scalars -> key_name E (Obj c (VNum n)) <> Ok None.
Proof.
  intros HE Hn Hin. unfold key_name. cbn [ocls oval].
  assert (isinst c CStr = false /\ isinst c CBytes = false /\ cls_name c ∈ key_type_names) as (-> & -> & Hk).
  { repeat (apply elem_of_cons in Hin as [-> |Hin]; [split; [done|]; split; [done|]; apply (bool_decide_unpack _); vm_compute; exact I|]). inversion Hin. }
  rewrite bool_decide_eq_true_2 by done. unfold scalar_repr. cbn [oval].
  cbn [res_map]. destruct (str_slashes (num_repr E n)) eqn:Es; [|done]. exfalso.
  assert (forallb plain_char (num_repr E n) = true) as Hp.
  { destruct n as [[]|z|f|a b]; cbn [num_repr]; [done|done| |apply (ok_frepr_plain E HE)|apply (ok_crepr_plain E HE)].
    pose proof (Z_dec_chars z) as Hz. induction Hz as [|c0 l Hc _ IH]; [done|]. cbn [forallb]. rewrite IH.
    unfold is_digit in Hc. unfold plain_char, is_scalar, is_surrogate. lia. }
  unfold str_slashes, has_char in Es. apply orb_true_iff in Es. rewrite forallb_forall in Hp.
  destruct Es as [Es|Es]; apply existsb_exists in Es as (x & Hx & He); apply Hp in Hx; unfold plain_char in Hx; apply N.eqb_eq in He; subst; done.
Qed.

Section Load.
Context (E : env) (HE : env_ok E) (tbl lo : addr) (s : dst).
Context (Hw : wfs std_dump tbl s).
Context (Hst : forall y a, d_memo s !! y = Some a -> stored E std_dump lo s y a).

Notation H := (d_heap s).
Notation F := (d_file s).
Notation inv := (inv E s).
Notation rel := (rel E s).
Notation loaded := (loaded E s).
Notation fold_ok := (fold_ok E s).

Definition slot_ok (st : lst) (e : dent) (sl : dslot) : Prop :=
  match de_name e with
  | Some _ => exists kl vl ko, sl = SPair kl vl /\ H !! de_key e = Some ko /\ simple (oval ko) = true /\
                m_heap (l_mem st) !! kl = Some ko /\ rel st (de_val e) vl
  | None => exists l, sl = SItem l /\ rel st (de_obj e) l
  end.
Lemma slot_ok_mono st st' e sl : slot_ok st e sl -> ext st st' -> slot_ok st' e sl.
Proof.
  unfold slot_ok. intros Hs He. destruct (de_name e).
  - destruct Hs as (kl & vl & ko & H1 & H2 & H3 & H4 & H5). exists kl, vl, ko. split_and!; auto.
    + eapply lookup_weaken; [exact H4|apply He].
    + by eapply rel_mono.
  - destruct Hs as (l & H1 & H2). exists l. split; [done|]. by eapply rel_mono.
Qed.

(** The pair taken from a slot. *)
Lemma slot_pair_ok st e sl :
  inv st -> slot_ok st e sl -> graph_ok E H (de_key e) ->
  (de_name e = None -> H !! de_obj e = Some (Obj CTuple (VSeq [de_key e; de_val e])) /\
                       exists ko, H !! de_key e = Some ko /\ key_name E ko = Ok None) ->
  exists p, slot_pair (m_heap (l_mem st)) sl = Ok p /\
    same_pair H (m_heap (l_mem st)) (rel st) (de_key e, de_val e) p /\
    forall d fu k, hval d H (de_key e) = Ok k -> (d <= fu)%nat ->
      exists k', hval fu (m_heap (l_mem st)) (fst p) = Ok k' /\ kmatch s st k k'.
Proof.
  unfold slot_ok. intros Hi Hs Hg Ht. destruct (de_name e).
  - destruct Hs as (kl & vl & ko & -> & Hk & Hsi & Hkl & Hr). exists (kl, vl). split_and!; [done| |].
    + left. split; [|done]. right. exists ko. split_and!; auto. unfold plain. by destruct (oval ko).
    + intros d fu k Hd Hfu. destruct (hval_simple s st d _ _ _ _ Hk Hkl Hsi Hd) as (k' & K1 & K2).
      exists k'. split; [|done]. eapply hval_mono; eauto.
  - destruct Hs as (l & -> & Hr). destruct (Ht eq_refl) as [Ht' (ko & Hko & Hkn)]. clear Ht. rename Ht' into Ht.
    destruct Hr as [Hm|[(o & Ho & Hsc & _)|(o & ? & ? & Ho & Hsc & _)]].
    2, 3: rewrite Ht in Ho; inversion Ho; subst; done.
    destruct (memo_matched E tbl s Hw _ _ _ Hi Hm) as (o & o' & Ho & Ho' & Hso).
    rewrite Ht in Ho. inversion Ho; subst o. unfold stands_for in Hso. cbn [ocls] in Hso.
    rewrite (ok_imports E HE CTuple) in Hso by done. destruct o' as [c' v']. destruct Hso as [Hc Hv]. simpl in Hc, Hv. subst c'.
    destruct v' as [| | | |ys| | | | | | | | | |]; try naive_solver.
    destruct Hv as [Hv|Hvn]; [|pose proof (proj1 (proj2 Hvn)) as Hv].
    + inversion Hv as [|? k' ? ? Hk Hv']; subst. inversion Hv' as [|? v' ? ? Hvv Hv'']; subst. inversion Hv''; subst.
      exists (k', v'). split_and!.
      * simpl. rewrite Ho'. done.
      * left. split; [by left|done].
      * intros d fu k Hd Hfu. by eapply hval_kmatch.
    + inversion Hv as [|? k' ? ? Hk Hv']; subst. inversion Hv' as [|? v' ? ? Hvv Hv'']; subst. inversion Hv''; subst.
      exists (k', v'). split_and!.
      * simpl. rewrite Ho'. done.
      * right. split; [exact Hvn|]. cbn [fst]. intros ob Hob Hin. rewrite Hko in Hob. inversion Hob; subst ob.
        destruct Hk as (c1 & n1 & _ & _ & Hc1 & _). rewrite Hko in Hc1. inversion Hc1; subst ko.
        inversion Hg as [? og Hog Hsg _ _ _ _]; subst. rewrite Hko in Hog. inversion Hog; subst og. inversion Hsg; subst.
        by eapply key_name_builtin.
      * intros d fu k Hd Hfu. destruct (hval_number s st d _ _ _ Hk Hd) as (k2 & K1 & K2).
        exists k2. split; [|done]. eapply hval_mono; eauto.
Qed.

Lemma same_pair_mono h h1 h2 (R R' : loc -> loc -> Prop) p q :
  same_pair h h1 R p q -> h1 ⊆ h2 -> (forall x y, R x y -> R' x y) -> same_pair h h2 R' p q.
Proof.
  intros [[[Hk|Hk] Hv]|[Hk Hv]] Hs HR; [left; split; [left|]; auto|left; split; [right|]; auto|right; split].
  - by eapply same_leaf_mono.
  - by eapply same_numbers_mono.
  - done.
Qed.

Lemma dict_fold d fu y c kvs ks es at0 base :
  e_imports E c = true -> H !! y = Some (Obj c (VDict kvs)) -> (base_cls c = CDict \/ base_cls c = COrderedDict) ->
  Forall2 (fun x k => hval d H x = Ok k) (map fst kvs) ks -> NoDup (map coarse ks) -> (d <= fu)%nat ->
  map de_idx es = map fst (enum_from 0 kvs) -> map (fun e => (de_key e, de_val e)) es = kvs ->
  (forall e, e ∈ es -> graph_ok E H (de_key e) /\
     match de_name e with
     | Some (nm, kb) => de_obj e = de_val e /\ exists ko, H !! de_key e = Some ko /\
                         dict_key E nm kb = Ok (Some ko) /\ simple (oval ko) = true
     | None => H !! de_obj e = Some (Obj CTuple (VSeq [de_key e; de_val e])) /\
               exists ko, H !! de_key e = Some ko /\ key_name E ko = Ok None
     end) ->
  fold_ok fu KDict at0 base c y dict_sub es.
Proof.
  intros Him Hy Hb Hks Hnd Hfu Hidx Hkv Hes as' Hp.
  assert (length es = length kvs) as Hlen.
  { rewrite <- Hkv. by rewrite map_length. }
  assert (NoDup (map de_idx as')) as Hndi.
  { rewrite (Permutation_map _ Hp), Hidx. apply enum_from_fst. }
  assert (forall j e, es !! j = Some e -> de_idx e = N.of_nat j) as Hji.
  { intros j e Hj. assert (map de_idx es !! j = Some (de_idx e)) as Hj'. { by rewrite list_lookup_fmap, Hj. }
    rewrite Hidx, list_lookup_fmap, enum_from_lookup in Hj'. destruct (kvs !! j); [|done]. simpl in Hj'.
    inversion Hj'. lia. }
  assert (forall e, e ∈ as' -> (N.to_nat (de_idx e) < length es)%nat) as Hlt.
  { intros e He. rewrite Hp in He. apply elem_of_list_lookup in He as [j Hj]. rewrite (Hji _ _ Hj), Nat2N.id.
    by eapply lookup_lt_Some. }
  exists (fun dn cs st => exists slots, cs = SDict slots /\ (length slots <= length es)%nat /\
    (forall e, e ∈ dn -> exists sl, slots !! N.to_nat (de_idx e) = Some sl /\ slot_ok st e sl) /\
    (forall j sl, slots !! j = Some sl -> N.of_nat j ∉ map de_idx dn -> sl = SHole)).
  split_and!.
  - intros st _. exists []. split_and!; [done|simpl; lia|intros e He; inversion He|done].
  - intros dn e rest cs st v m0 Has (slots & -> & Hl & Hdn & Hho) Hi Hr. simpl in Hr.
    assert (e ∈ as') as Hin. { rewrite Has. apply elem_of_app. right. left. }
    pose proof (Hlt _ Hin) as Hle.
    assert (e ∈ es) as Hin' by (by rewrite <- Hp).
    destruct (Hes e Hin') as [Hgk Hn].
    assert (de_idx e ∉ map de_idx dn) as Hni. { rewrite Has, map_app in Hndi. by eapply NoDup_middle. }
    set (i := N.to_nat (de_idx e)) in *.
    assert (forall sl, exists slots', set_slot SHole slot_is_hole i sl slots = Ok slots' /\
              (length slots' <= length es)%nat /\ slots' !! i = Some sl /\
              (forall j sl', slots !! j = Some sl' -> j <> i -> slots' !! j = Some sl') /\
              (forall j sl', slots' !! j = Some sl' -> j <> i -> slots !! j = Some sl' \/ sl' = SHole)) as Hset.
    { intros sl. unfold set_slot.
      set (ex := slots ++ repeat SHole (i + 1 - length slots)).
      assert (i < length ex)%nat as Hiex. { unfold ex. rewrite app_length, repeat_length. lia. }
      assert (ex !! i = Some SHole) as ->.
      { unfold ex. destruct (decide (i < length slots)%nat) as [Hil|Hil].
        - rewrite lookup_app_l by done. destruct (lookup_lt_is_Some_2 _ _ Hil) as [sl' Hsl'].
          rewrite Hsl'. f_equal. apply (Hho _ _ Hsl'). unfold i. by rewrite N2Nat.id.
        - rewrite lookup_app_r by lia. apply repeat_lookup. lia. }
      simpl. eexists. split; [done|]. split_and!.
      - rewrite insert_length. unfold ex. rewrite app_length, repeat_length. lia.
      - by apply list_lookup_insert.
      - intros j sl' Hj Hne. rewrite list_lookup_insert_ne by done. unfold ex. by apply lookup_app_l_Some.
      - intros j sl' Hj Hne. rewrite list_lookup_insert_ne in Hj by done. unfold ex in Hj.
        apply lookup_app_Some in Hj as [Hj|[Hj1 Hj2]]; [by left|right].
        apply elem_of_list_lookup_2, elem_of_list_In, repeat_spec in Hj2. done. }
    assert (forall sl slots' st', ext st st' -> slot_ok st' e sl ->
              (length slots' <= length es)%nat -> slots' !! i = Some sl ->
              (forall j sl', slots !! j = Some sl' -> j <> i -> slots' !! j = Some sl') ->
              (forall j sl', slots' !! j = Some sl' -> j <> i -> slots !! j = Some sl' \/ sl' = SHole) ->
              exists slots'', SDict slots' = SDict slots'' /\ (length slots'' <= length es)%nat /\
                (forall e', e' ∈ dn ++ [e] -> exists sl, slots'' !! N.to_nat (de_idx e') = Some sl /\ slot_ok st' e' sl) /\
                (forall j sl, slots'' !! j = Some sl -> N.of_nat j ∉ map de_idx (dn ++ [e]) -> sl = SHole)) as Hnext.
    { intros sl slots' st' He Hso Hl' Hi' Hk1 Hk2. exists slots'. split_and!; auto.
      - intros e' [He'|He']%elem_of_app.
        + destruct (Hdn _ He') as (sl' & Hsl' & Hok). exists sl'. split; [|by eapply slot_ok_mono].
          apply Hk1; [done|]. intros Heq. apply Hni. apply elem_of_list_fmap. exists e'. split; [|done]. unfold i in Heq. lia.
        + apply elem_of_list_singleton in He' as ->. by exists sl.
      - intros j sl' Hj Hnj. rewrite map_app in Hnj.
        assert (j <> i) as Hne. { intros ->. apply Hnj. apply elem_of_app. right. simpl. unfold i. rewrite N2Nat.id. by left. }
        destruct (Hk2 _ _ Hj Hne) as [Hj'|?]; [|done]. apply (Hho _ _ Hj'). intros Hin2. apply Hnj. apply elem_of_app. by left. }
    assert (forall kb, attrs_update [(a_key_idx, AInt (Z.of_N (de_idx e))); (a_key_base_type, ABytes kb)] m0 !! a_key_base_type = Some (ABytes kb)) as Ha1.
    { intros kb. unfold attrs_update. simpl foldl. by rewrite lookup_insert. }
    assert (forall kb, attrs_update [(a_key_idx, AInt (Z.of_N (de_idx e))); (a_key_base_type, ABytes kb)] m0 !! a_key_idx = Some (AInt (Z.of_N (de_idx e)))) as Ha2.
    { intros kb. unfold attrs_update. simpl foldl. rewrite lookup_insert_ne by done. by rewrite lookup_insert. }
    unfold dict_sub in *. unfold slot_ok at 1 in Hnext. cbn [fst snd] in *. destruct (de_name e) as [[nm kb]|].
    + destruct Hn as (Ho & ko & Hk & Hdk & Hsi). rewrite Ho in Hr.
      destruct (inv_alloc E lo s Hst st ko Hi) as (A1 & A2 & A3 & A4).
      destruct (Hset (SPair (snd (alloc ko (l_mem st))) v)) as (slots' & S1 & S2 & S3 & S4 & S5).
      exists (fst (alloc ko (l_mem st))), (SDict slots'). split_and!; auto.
      * cbn [cont_append]. unfold dict_append. rewrite Ha1, Ha2, Hdk. cbn [res_bind].
        rewrite index_of_int. cbn [res_bind]. fold i.
        rewrite (surjective_pairing (alloc ko (l_mem st))). cbv iota beta. rewrite S1. done.
      * eapply Hnext; eauto. exists (snd (alloc ko (l_mem st))), v, ko. split_and!; auto. by eapply rel_mono.
    + destruct (Hset (SItem v)) as (slots' & S1 & S2 & S3 & S4 & S5).
      exists (l_mem st), (SDict slots'). rewrite set_mem_id. split_and!; auto using ext_refl.
      * cbn [cont_append]. unfold dict_append. rewrite Ha1, Ha2.
        assert (dict_key E (data_name (de_idx e)) key_value_type = Ok None) as ->.
        { unfold dict_key. rewrite !bool_decide_eq_false_2 by done. by rewrite bool_decide_eq_true_2. }
        cbn [res_bind]. rewrite index_of_int. cbn [res_bind]. fold i. rewrite S1. done.
      * eapply Hnext; eauto using ext_refl.
  - intros dn cs st st' (slots & -> & Hl & Hdn & Hho) _ _ He. exists slots. split_and!; auto.
    intros e Hin. destruct (Hdn _ Hin) as (sl & ? & ?). exists sl. split; [done|]. by eapply slot_ok_mono.
  - intros cs st (slots & -> & Hl & Hdn & Hho) Hi.
    assert (Forall2 (slot_ok st) es slots) as Hf.
    { apply Forall2_same_length_lookup. split.
      - apply Nat.le_antisymm; [|done].
        destruct (decide (length es <= length slots)%nat) as [|Hgt]; [done|].
        destruct (lookup_lt_is_Some_2 es (length slots)) as [e He]; [lia|].
        destruct (Hdn e) as (sl & Hsl & _). { rewrite Hp. by eapply elem_of_list_lookup_2. }
        rewrite (Hji _ _ He), Nat2N.id in Hsl. apply lookup_lt_Some in Hsl. lia.
      - intros j e sl He Hsl. destruct (Hdn e) as (sl' & Hsl' & Hok). { rewrite Hp. by eapply elem_of_list_lookup_2. }
        rewrite (Hji _ _ He), Nat2N.id, Hsl in Hsl'. by inversion Hsl'; subst. }
    assert (exists ps ks', res_mapM (slot_pair (m_heap (l_mem st))) slots = Ok ps /\
              Forall2 (same_pair H (m_heap (l_mem st)) (rel st)) kvs ps /\
              Forall2 (fun p k => hval fu (m_heap (l_mem st)) (fst p) = Ok k) ps ks' /\
              Forall2 (kmatch s st) ks ks') as (ps & ks' & P1 & P2 & P3 & P4).
    { subst kvs. clear -Hf Hes Hks Hi Hfu Hw HE. revert ks Hks. induction Hf as [|e sl es slots Hsl Hf IH]; intros ks Hks; simpl in *.
      - inversion Hks; subst. exists [], []. split_and!; constructor.
      - inversion Hks as [|? k ? ks0 Hk Hks']; subst.
        destruct (Hes e) as [Hgk Hn]. { by left. }
        destruct (slot_pair_ok st e sl Hi Hsl Hgk) as (p & S1 & S2 & S3).
        { intros Hno. by rewrite Hno in Hn. }
        destruct (S3 d fu k Hk Hfu) as (k' & K1 & K2).
        destruct (IH (fun e' He' => Hes e' (elem_of_list_further _ _ _ He')) ks0 Hks') as (ps & ks' & P1 & P2 & P3 & P4).
        exists (p :: ps), (k' :: ks'). split_and!; [|constructor; done..].
        rewrite S1. cbn [res_bind]. by rewrite P1. }
    pose proof (distinct_loaded E tbl s Hw st ks ks' Hi P4 Hnd) as Hndk.
    assert (dict_of fu (m_heap (l_mem st)) [] ps = Ok (zip ks' ps)) as Hdo.
    { rewrite (dict_of_distinct _ _ _ ks'); done. }
    assert (map snd (zip ks' ps) = ps) as Hzip.
    { apply snd_zip. by rewrite (Forall2_length _ _ _ P3). }
    destruct (loaded_alloc E lo s Hst st y (Obj c (VDict kvs)) (Obj c (VDict ps)) Hi Hy Him) as [L1 _].
    { intros st' He. split; [done|]. simpl. eapply Forall2_impl; [exact P2|]. intros p q Hpq.
      eapply same_pair_mono; [exact Hpq|apply He|]. intros. by eapply rel_mono. }
    eexists _, _. split; [|exact L1]. cbn [cont_convert]. unfold dict_convert.
    destruct Hb as [-> | ->]; rewrite P1; cbn [res_bind]; rewrite Hdo; cbn [res_map]; rewrite Hzip; done.
Qed.
End Load.
