(** * FailedDump: what a dump that raised leaves at the place of the data *)
From stdpp Require Import relations.
From Verif Require Import Base Utf8 Dec Num PyObj H5 Env Create Dump LoadFns LoadModel Registry DumpProofs DumpStored RegistryStd Spec Accept
  LoadBase DumpOk Api DumpClosed ApiProofs DumpCycle DumpAccept Count Crash CrashProofs ApiTop.
From Coq Require Import Lia ZifyBool ZifyN.
Local Open Scope N_scope.
Local Open Scope list_scope.
Local Opaque std_loader std_dump dump_loader_of loader_of.

(** ** Plans *)
Lemma list_plan_fail E h xs pl : create_list_items E h xs = Ok pl ->
  p_attrs pl !! 0%nat = None \/ p_fail pl = None.
Proof.
  unfold create_list_items. destruct xs as [|x xs]; [intros [= <-]; by right|].
  destruct (check_iterable_item_type E h x xs) as [[[d| | |]|]|e]; cbn [res_bind]; try discriminate.
  - destruct (write_items _ _ _). intros [= <-]. by left.
  - intros [= <-]. by right.
Qed.
Lemma list_plan_data E h xs pl : create_list_items E h xs = Ok pl -> p_subs pl = [] \/ p_data pl = None.
Proof.
  intros H. destruct (p_subs pl) as [|[[nm z] at_] r] eqn:Es; [by left|right]. eapply (list_no_data E); [exact H|]. rewrite Es. constructor.
Qed.
Lemma text_plan o pl : ascii_name (ocls o) -> create_text o = Ok pl -> p_subs pl = [] /\ p_fail pl = None.
Proof.
  intros Ha. unfold create_text.
  assert (ascii_encode (cls_name (ocls o)) = Ok (cls_name (ocls o))) as ->.
  { unfold ascii_encode. assert (forallb (fun c => c <? 128) (cls_name (ocls o)) = true) as ->; [|done].
    apply forallb_forall. intros c Hc. unfold ascii_name in Ha. rewrite list.Forall_forall in Ha. specialize (Ha c). rewrite elem_of_list_In in Ha. specialize (Ha Hc). lia. }
  destruct (oval o); cbn [res_map]; try discriminate; [destruct (utf8_encode s); cbn [res_map]; [|discriminate]|]; by intros [= <-].
Qed.
(** Items are dumped into groups only; a plan that fails later makes an array of the items. *)
Lemma create_plan E fn h nx o pl : ascii_name (ocls o) -> create E fn h nx o = Ok pl ->
  (p_subs pl = [] \/ p_data pl = None) /\
  (p_fail pl = None \/ ((plain_obj o -> refs o <> []) /\ Forall (fun kv => fst kv <> a_type) (p_attrs pl))).
Proof.
  intros Ha Hc.
  assert (forall h xs pl, create_list_items E h xs = Ok pl -> p_fail pl = None \/ (xs <> [] /\ p_attrs pl = [])) as Hl.
  { intros h' xs pl' H. destruct (list_plan_fail _ _ _ _ H) as [Hn|Hn]; [|by left]. destruct xs as [|x xs]; [left; by injection H as <-|].
    right. split; [done|]. by destruct (p_attrs pl'). }
  assert (forall pl, create_listlike E h o = Ok pl -> (p_subs pl = [] \/ p_data pl = None) /\
    (p_fail pl = None \/ ((plain_obj o -> refs o <> []) /\ Forall (fun kv => fst kv <> a_type) (p_attrs pl)))) as Hll.
  { intros pl' H. unfold create_listlike in H. destruct (_ || _).
    { destruct (text_plan _ _ Ha H) as [-> ->]. by split; left. }
    destruct (oval o) eqn:Ev; try discriminate H. split; [by eapply list_plan_data|].
    destruct (Hl _ _ _ H) as [-> |[Hx ->]]; [by left|right]. split; [|constructor]. intros _. unfold refs. by rewrite Ev. }
  destruct fn; cbn [create] in Hc; try discriminate Hc.
  - unfold create_scalar in Hc. destruct (oval o); try done. destruct n; [|destruct (_ && _)|..]; injection Hc as <-; by split; left.
  - injection Hc as <-. by split; left.
  - by apply Hll.
  - unfold create_setlike in Hc. destruct (oval o) eqn:Ev; try discriminate Hc. split; [by eapply list_plan_data|].
    destruct (Hl _ _ _ Hc) as [-> |[Hx ->]]; [by left|right]. split; [|constructor]. intros _. unfold refs. by rewrite Ev.
  - unfold create_dictlike in Hc. destruct (oval o); try discriminate Hc. destruct (dict_subs _ _ _ _ _) as [[ts ss]|]; [|discriminate Hc].
    injection Hc as <-. split; [by right|by left].
  - destruct (pickled_plain _ _ _ Hc) as [_ ->]. unfold create_pickled in Hc. destruct (oval o); try discriminate Hc. destruct (e_pickles _ _ _); [|discriminate Hc].
    injection Hc as <-. by split; left.
  - unfold create_np_scalar in Hc. destruct (oval o); try discriminate Hc. destruct (np_dtype_of_cls _); try discriminate Hc. injection Hc as <-. by split; left.
  - unfold create_np_dtype in Hc. destruct (oval o); try discriminate Hc. injection Hc as <-. by split; left.
  - unfold create_np_array in Hc.
    assert (forall a ts pl', p_fail pl' = None \/ p_attrs pl' = [] -> Forall (fun kv => fst kv <> a_type) a ->
      p_fail (with_temps ts a pl') = None \/ Forall (fun kv => fst kv <> a_type) (p_attrs (with_temps ts a pl'))) as Hw.
    { intros a ts pl' [H1|H1] H2; [by left|right]. cbn [with_temps p_attrs]. by rewrite H1. }
    assert (Forall (fun kv : pystr * attrv => fst kv <> a_type) [(a_np_dtype, ABytes obj_dtype)]) as Ho by (by repeat constructor).
    destruct (oval o) as [| | | | | |d shape vs|w shape vs|shape ls| | | | | |] eqn:Ev; try discriminate Hc.
    + destruct shape, vs as [|? [|? ?]]; try discriminate Hc; injection Hc as <-; by split; left.
    + assert (~ plain_obj o) as Hnp. { unfold plain_obj. rewrite Ev. intros []. }
      assert (forall d : list obj * list loc, let '(ts, els) := d in
         res_map (with_temps (map (fun s => Obj CStr (VStr s)) vs ++ ts) [(a_np_dtype, ABytes (str_dtype w))])
            (create_list_items E (temps_heap h nx (map (fun s => Obj CStr (VStr s)) vs ++ ts)) els) = Ok pl ->
         (p_subs pl = [] \/ p_data pl = None) /\
         (p_fail pl = None \/ ((plain_obj o -> refs o <> []) /\ Forall (fun kv => fst kv <> a_type) (p_attrs pl)))) as Hgo.
      { intros [ts els] H. destruct (create_list_items _ _ els) as [pl'|] eqn:Ei; [|discriminate H]. injection H as <-. split.
        - cbn [with_temps p_subs p_data]. by eapply list_plan_data.
        - destruct (Hw [(a_np_dtype, ABytes (str_dtype w))] (map (fun s => Obj CStr (VStr s)) vs ++ ts) pl') as [H|H]; [| |by left|by right].
          + destruct (Hl _ _ _ Ei) as [H|[_ H]]; auto.
          + by repeat constructor. }
      destruct shape as [|n shape].
      * destruct vs as [|s [|? ?]]; try discriminate Hc. destruct (utf8_encode s); [|discriminate Hc]. injection Hc as <-. by split; left.
      * destruct (tolist (n :: shape) _ _) as [ts els] eqn:Et. exact (Hgo (ts, els) Hc).
    + assert (~ plain_obj o) as Hnp. { unfold plain_obj. rewrite Ev. intros []. }
      destruct shape as [|n shape].
      * destruct ls as [|l [|? ?]]; try discriminate Hc. destruct (h !! l) as [io|] eqn:El; [|discriminate Hc].
        destruct (isinst (ocls io) CList) eqn:Ei; [|injection Hc as <-; split; [by right|by left]].
        destruct (create_listlike E h io) as [pl'|] eqn:Eio; [|discriminate Hc]. injection Hc as <-. cbn [with_temps p_subs p_data p_fail p_attrs].
        unfold create_listlike in Eio. destruct (_ || _).
        -- unfold create_text in Eio. destruct (oval io); cbn [res_map] in Eio; try discriminate Eio; [destruct (utf8_encode s); cbn [res_map] in Eio; [|discriminate Eio]|];
             destruct (ascii_encode _); injection Eio as <-; cbn; (split; [by left|]); by (left + right).
        -- destruct (oval io); try discriminate Eio. split; [by eapply list_plan_data|].
           destruct (Hl _ _ _ Eio) as [-> |[_ ->]]; [by left|right]. split; [done|exact Ho].
      * destruct (tolist (n :: shape) ls nx) as [ts els]. destruct (create_list_items _ _ els) as [pl'|] eqn:Ei; [|discriminate Hc]. injection Hc as <-. split.
        -- cbn [with_temps p_subs p_data]. by eapply list_plan_data.
        -- destruct (Hw [(a_np_dtype, ABytes obj_dtype)] ts pl') as [H|H]; [|done|by left|by right].
           destruct (Hl _ _ _ Ei) as [H|[_ H]]; auto.
  - unfold create_np_masked in Hc. destruct (oval o); try discriminate Hc. destruct (h !! data); [|discriminate Hc]. destruct (arr_dtype_str _); [|discriminate Hc].
    injection Hc as <-. split; [by right|by left].
  - unfold create_sparse in Hc. destruct (oval o); try discriminate Hc. injection Hc as <-. split; [by right|by left].
Qed.

(** ** Files *)
Lemma no_type_update kvs : Forall (fun kv => fst kv <> a_type) kvs -> attrs_update kvs ∅ !! a_type = None.
Proof.
  intros H. unfold attrs_update. assert ((∅ : attrs) !! a_type = None) as Hm by apply lookup_empty. revert Hm. generalize (∅ : attrs).
  induction H as [|[k v] kvs Hk _ IH]; intros m Hm; [done|]. cbn [foldl]. apply IH. cbn [fst] in Hk. by rewrite lookup_insert_ne.
Qed.
Lemma fsteps_group_stays f f' a n : fsteps f f' -> wf_file f -> get_node f a = Some n -> is_group n = true ->
  exists n', get_node f' a = Some n' /\ is_group n' = true.
Proof.
  intros H. revert n. induction H as [f|f f1 f2 Hs _ IH]; intros n Hw Hn Hg; [by exists n|].
  destruct (fsteps_wf f f1 (rtc_once _ _ Hs) Hw) as [W1 _].
  assert (exists n1, get_node f1 a = Some n1 /\ is_group n1 = true) as (n1 & H1 & H2); [|by eapply IH].
  destruct Hs as [f0 p nm b f1 c Hc _|f0 c n0 at_ Hn0].
  - destruct (create_node_spec _ _ _ _ _ _ Hw Hc) as (pn & P1 & P2 & P3 & P4 & P5 & P6 & P7 & P8).
    destruct (decide (a = p)) as [-> |Hne].
    + exists (extend pn [(nm, c)]). split; [done|]. by rewrite extend_group.
    + exists n. split; [|done]. rewrite P8; [done|done|]. intros ->. pose proof (Hw _ _ Hn). lia.
  - unfold get_node, put_node in *. cbn [f_nodes]. destruct (decide (a = c)) as [-> |Hne].
    + rewrite lookup_insert. eexists. split; [reflexivity|]. rewrite Hn in Hn0. injection Hn0 as <-. by destruct n as [? ? []].
    + rewrite lookup_insert_ne by done. by exists n.
Qed.
Lemma dump_subs_fsteps rec : (forall y nm at_ s, fsteps (d_file s) (d_file (fst (rec y nm at_ s : dst * res unit)))) ->
  forall subs s, fsteps (d_file s) (d_file (fst (dump_subs rec subs s))).
Proof.
  intros H. induction subs as [|[[nm y] at_] subs IH]; intros s; cbn [dump_subs]; [done|].
  specialize (H y nm at_ s). destruct (rec y nm at_ s) as [s1 [u|e]]; [|done]. etrans; [exact H|apply IH].
Qed.

(** ** The node of the dumped object *)
Section Top.
Context (E : env) (HL : loader_ok E std_dump) (kw : kwargs) (tbl : addr).

Lemma child_extend (f : file) a n nm b : get_node f a = Some (extend n [(nm, b)]) -> is_group n = true -> alist_get nm (links n) = None ->
  child f a nm = Some b.
Proof. intros Hn Hg Hl. unfold child. rewrite Hn, extend_links by done. rewrite alist_get_app_none by done. cbn. by rewrite decide_True. Qed.

Lemma dump_top fuel x root s s' e o pn :
  wfs std_dump tbl s -> tinv tbl s -> root <> tbl -> d_memo s = ∅ -> getn s root = Some pn -> is_group pn = true -> child (d_file s) root n_data = None ->
  d_heap s !! x = Some o -> outside_hickle (ocls o) -> e_pickles_cls E (ocls o) = true -> ascii_name (ocls o) ->
  dump_ fuel E std_dump kw tbl x root n_data [] s = (s', Err e) ->
  child (d_file s') root n_data = None \/
  ((plain_obj o -> refs o <> []) /\ exists a n, child (d_file s') root n_data = Some a /\ get_node (d_file s') a = Some n /\
     (is_group n = true \/ nd_attrs n !! a_type = None)).
Proof.
  intros Hw Ht Hrt Hme Hpn Hg Hch Ho Hout Hpk Hasc. assert (alist_get n_data (links pn) = None) as Hlk. { unfold child in Hch. unfold getn in Hpn. by rewrite Hpn in Hch. }
  destruct fuel as [|fuel]; cbn [dump_]; [intros [= <- _]; by left|]. rewrite Hme, lookup_empty, Ho.
  unfold dump_node. rewrite std_dump_answer by (by apply outside_foreign).
  assert (exists pt fn base memo, std_answer (ocls o) = (pt, (fn, base, memo)) /\ (pt = CObject \/ (pt = ocls o /\ base_name base))) as (pt & fn & base & memo & Hans & Hpt).
  { unfold std_answer. destruct (first_item (mro (ocls o))) as [[[fn base] memo]|] eqn:Ef.
    - exists (ocls o), fn, base, memo. split; [done|]. right. split; [done|]. exact (first_item_name _ _ Ef).
    - eexists _, _, _, _. split; [reflexivity|by left]. }
  rewrite Hans.
  assert (std_dump (ocls o) = Ok (pt, (fn, base, memo))) as HLc. { rewrite std_dump_answer by (by apply outside_foreign). by rewrite Hans. }
  assert (forall pl s1 x0, run_plan kw root n_data pl s = (s1, Err x0) ->
    child (d_file s1) root n_data = None \/
    (p_fail pl <> None /\ exists a n, child (d_file s1) root n_data = Some a /\ get_node (d_file s1) a = Some n /\ nd_attrs n = attrs_update (p_attrs pl) ∅)) as Hrun.
  { intros pl s1 x0. unfold run_plan.
    set (r := match p_data pl with Some d => _ | None => _ end).
    assert (forall f a, r = Ok (f, a) -> create_node (d_file s) root n_data (plan_body pl) = Ok (f, a)) as Hr.
    { intros f a. unfold r, plan_body. destruct (p_data pl); [apply create_dataset_node|done]. }
    destruct r as [[f a]|]; [|intros [= <- _]; by left]. specialize (Hr f a eq_refl).
    destruct (p_fail pl) as [y|]; [|discriminate]. intros [= <- _]. right. split; [done|].
    destruct (create_node_spec _ _ _ _ _ _ (ws_file _ _ _ Hw) Hr) as (pn' & P1 & P2 & P3 & P4 & P5 & P6 & P7 & P8).
    unfold getn in Hpn. rewrite Hpn in P1. injection P1 as <-.
    exists a. eexists. assert (d_file (upd_node a (set_attrs (p_attrs pl)) (set_file f (put_temps (p_temps pl) s))) = update_node f a (set_attrs (p_attrs pl))) as -> by apply d_file_upd.
    split.
    - eapply child_extend; [|exact Hg|exact Hlk]. rewrite (update_node_get _ _ _ _ _ P5), decide_False by done. exact P6.
    - split; [rewrite (update_node_get _ _ _ _ _ P5), decide_True by done; reflexivity|]. done. }
  destruct (create E fn (d_heap s) (d_next s) o) as [pl|x0] eqn:Ec.
  - destruct (create_plan _ _ _ _ _ _ Hasc Ec) as [Hsubs Hfail].
    destruct (run_plan kw root n_data pl s) as [s1 [a|x0]] eqn:Er.
    2: { intros [= <- _]. destruct (Hrun _ _ _ Er) as [H|(Hf & a & n & H1 & H2 & H3)]; [by left|right].
         destruct Hfail as [?|[Hr Hty]]; [done|]. split; [done|]. exists a, n. split; [done|]. split; [done|]. right. rewrite H3. clear -Hty.
         apply no_type_update. done. }
    destruct (run_plan_spec std_dump tbl _ _ _ _ _ _ _ Hw Hrt Er) as (W1 & G1 & M1 & Hh1 & X1 & P1 & -> & Ha & Htb & Hpf & Hn & pn' & Q1 & Q2 & Q3).
    rewrite Hpn in Q1. injection Q1 as <-. set (a := f_next (d_file s)) in *.
    assert (a <> tbl) as Hat. { destruct (ws_tbl _ _ _ Hw) as (tn & Etn & _). pose proof (ws_file _ _ _ Hw _ _ Etn). lia. }
    assert (tinv tbl s1) as Ht1.
    { destruct Ht as (tn & T1 & T2 & T3). unfold run_plan in Er.
      set (r := match p_data pl with Some d => _ | None => _ end) in Er.
      assert (forall f b, r = Ok (f, b) -> create_node (d_file s) root n_data (plan_body pl) = Ok (f, b)) as Hr.
      { intros f b. unfold r, plan_body. destruct (p_data pl); [apply create_dataset_node|done]. }
      destruct r as [[f b]|]; [|discriminate Er]. specialize (Hr f b eq_refl). rewrite Hpf in Er. injection Er as <- ->.
      destruct (create_node_spec _ _ _ _ _ _ (ws_file _ _ _ Hw) Hr) as (pn' & R1 & R2 & R3 & R4 & R5 & R6 & R7 & R8).
      eapply tinv_same; [| |by exists tn].
      - erewrite getn_upd by exact R5. rewrite decide_False by done. unfold getn. cbn. by rewrite R8 by done.
      - by rewrite (proj1 (proj2 (proj2 (proj2 (proj2 (upd_node_same _ _ _)))))). }
    destruct (store_type_ok E kw tbl a _ pt base s1 (ws_file _ _ _ W1) Ht1 Hat Hn) as (s2 & Hst & Ht2).
    { destruct Hpt as [-> |[-> Hb]]; [by left|by right]. }
    rewrite Hst. destruct Hsubs as [Hsubs|Hdat]; [rewrite Hsubs; discriminate|].
    intros Hs. right. split.
    { intros Hpl Href. destruct (create_subs_length _ _ _ _ _ _ Hpl Ec) as [Hlen _]. rewrite Href in Hlen. destruct (p_subs pl); [discriminate Hs|cbn in Hlen; lia]. }
    destruct (store_type_spec _ _ _ _ _ _ _ _ _ _ _ _ _ _ HL W1 HLc Hn Htb Hat Hst) as (W2 & G2 & M2 & Hh2 & X2 & S2 & _).
    destruct (S2 eq_refl) as (te & Hn2 & _).
    set (s3 := if memo then set_memo x a (upd_node a (set_attrs (without_type [])) s2) else upd_node a (set_attrs (without_type [])) s2) in Hs.
    assert (d_file s3 = update_node (d_file s2) a (set_attrs (without_type []))) as Hf3. { unfold s3. destruct memo; cbn; apply d_file_upd. }
    assert (fsteps (d_file s1) (d_file s3)) as F13.
    { rewrite Hf3. etrans; [|apply update_node_fsteps; intros n0; by eexists].
      pose proof (store_type_fsteps E tbl kw a pt base s1) as F. by rewrite Hst in F. }
    assert (fsteps (d_file s3) (d_file s')) as F3.
    { pose proof (dump_subs_fsteps (fun y nm at_ => dump_ fuel E std_dump kw tbl y a nm at_) (fun y nm at_ t => dump_fsteps E std_dump kw tbl fuel y a nm at_ t) (p_subs pl) s3) as F.
      by rewrite Hs in F. }
    assert (fsteps (d_file s1) (d_file s')) as F1 by (by etrans).
    assert (is_group (Node n_data (attrs_update (p_attrs pl) ∅) (plan_body pl)) = true) as Hgn. { unfold plan_body. by rewrite Hdat. }
    destruct (fsteps_group_stays _ _ _ _ F1 (ws_file _ _ _ W1) Hn Hgn) as (n' & Hn' & Hg').
    exists a, n'. split; [|by split; [|left]].
    eapply child_keeps; [exact (fsteps_keeps _ _ F1 (ws_file _ _ _ W1))|]. by eapply child_extend.
  - destruct x0; try (intros [= <- _]; by left).
    destruct (create_pickled E o) as [pl|] eqn:Ep; [|intros [= <- _]; by left].
    destruct (pickled_plain _ _ _ Ep) as [_ Hs0].
    destruct (run_plan kw root n_data pl s) as [s1 [a|x0]] eqn:Er; [rewrite Hs0; discriminate|].
    intros [= <- _]. destruct (Hrun _ _ _ Er) as [H|(Hf & _)]; [by left|].
    destruct Hf. unfold create_pickled in Ep. destruct (oval o); try discriminate Ep. destruct (e_pickles _ _ _); [|discriminate Ep]. by injection Ep as <-.
Qed.
End Top.

(** ** dump *)
Lemma make_groups_fails cs : forall f a f' e, tree f -> walk f a cs = None -> make_groups f a cs = (f', Err e) ->
  walk f' a cs = None.
Proof.
  induction cs as [|c cs IH]; intros f a f' e Ht Hw Hm; [discriminate Hw|]. cbn [walk] in Hw |- *. cbn [make_groups] in Hm.
  destruct (child f a c) as [b|] eqn:Hc.
  - destruct cs as [|c' cs]; [discriminate Hw|].
    destruct (get_node f a) as [an|] eqn:Ha; [|unfold child in Hc; by rewrite Ha in Hc].
    assert (is_Some (get_node f b)) as Hb. { eapply (walk_some f [c] a b Ht); [by eexists|]. cbn [walk]. by rewrite Hc. }
    destruct (make_groups_spec f (c' :: cs) b f' (Err e) Ht Hb Hw Hm) as (_ & S & _).
    rewrite (child_keeps _ _ _ _ _ (fsteps_keeps _ _ S (tr_wf _ Ht)) Hc). by eapply IH.
  - destruct (create_node f a c (BGroup [])) as [[f1 b]|x] eqn:Ec; [|assert (f' = f) as -> by (destruct x; by injection Hm as <- _); by rewrite Hc].
    destruct cs as [|c' cs]; [discriminate Hm|].
    pose proof (fsteps_group _ _ _ _ _ Ec) as S1. pose proof (fsteps_tree _ _ S1 Ht) as T1.
    destruct (create_node_spec _ _ _ _ _ _ (tr_wf _ Ht) Ec) as (pn & P1 & P2 & P3 & P4 & P5 & P6 & P7 & P8).
    assert (walk f1 b (c' :: cs) = None) as Hw1. { cbn [walk]. unfold child at 1. rewrite P5. done. }
    destruct (make_groups_spec f1 (c' :: cs) b f' (Err e) T1 ltac:(by eexists) Hw1 Hm) as (_ & S & _).
    assert (child f1 a c = Some b) as Hc1. { eapply child_extend; [exact P6|done|]. unfold child in Hc. by rewrite P1 in Hc. }
    rewrite (child_keeps _ _ _ _ _ (fsteps_keeps _ _ S (tr_wf _ T1)) Hc1). by eapply IH.
Qed.

Lemma failed_dump C kw opts x p m f f' m' e o :
  tree f -> c_world C = std_world -> Forall (fun o => snd o = false) opts -> free_above m ->
  content f (components p ++ [n_data]) = None ->
  m_heap m !! x = Some o -> outside_hickle (ocls o) -> e_pickles_cls (c_env C) (ocls o) = true -> ascii_name (ocls o) ->
  dump_file C kw opts x p m f = (f', m', Err e) ->
  walk f' root_addr (components p ++ [n_data]) = None \/
  ((plain_obj o -> refs o <> []) /\ exists at_ b, content f' (components p ++ [n_data]) = Some (at_, b) /\
     ((exists l, b = BGroup l) \/ at_ !! a_type = None)).
Proof.
  intros Ht HW Hop Hm Hcon Ho Hout Hpk Hasc Hd.
  assert (walk f root_addr (components p ++ [n_data]) = None) as Hwf.
  { destruct (walk f root_addr (components p ++ [n_data])) as [a|] eqn:Hw; [|done]. unfold content in Hcon. rewrite Hw in Hcon.
    destruct (tr_root _ Ht) as (rn & Hrn & _). destruct (walk_some f _ root_addr a Ht ltac:(by eexists) Hw) as [n Hn]. by rewrite Hn in Hcon. }
  unfold dump_file in Hd. destruct (root_for_dump f p) as [f1 [root|x0]] eqn:Er.
  2: { injection Hd as <- _ _. left. unfold root_for_dump in Er. destruct (get_path f p) as [a|] eqn:Hp.
       - destruct (get_node f a) as [n|]; [|injection Er as <- _; done]. destruct (nd_body n) as [[|]|]; first [discriminate Er|injection Er as <- _; done].
       - unfold create_group in Er. rewrite walk_app. by rewrite (make_groups_fails _ _ _ _ _ Ht Hp Er). }
  destruct (root_for_dump_spec _ _ _ _ Ht Er) as (T1 & S1 & N1 & _ & HR).
  destruct (HR root eq_refl) as (P1 & n0 & P2 & P3 & P4 & _). clear HR.
  unfold dump_root in Hd. destruct (with_options (stamp C f1 root) root opts) as [f2 r2] eqn:Ew.
  destruct (with_options_spec _ _ _ _ _ _ _ P2 Ew) as (S2 & N2 & R2 & O2 & Hr2).
  rewrite options_off in R2, Hr2 by done. cbn [fst snd] in R2, Hr2. subst r2.
  pose proof (fsteps_tree _ _ S2 T1) as T2. set (n2 := Node (nd_name n0) (stamped C (nd_attrs n0)) (nd_body n0)) in *.
  assert (links n2 = [] /\ is_group n2 = true) as [L2 G2]. { split; [exact P4|exact P3]. }
  assert (forall g, fsteps f1 g -> get_path g p = Some root) as Hpath.
  { intros g Hg. exact (walk_keeps _ _ _ _ _ (fsteps_keeps _ _ Hg (tr_wf _ T1)) P1). }
  unfold dump_into in Hd. destruct (create_node f2 root n_table (BGroup [])) as [[f3 tbl]|x0] eqn:Ec.
  2: { injection Hd as <- _ _. left. rewrite walk_app. pose proof (Hpath _ S2) as Hp2. unfold get_path in Hp2. rewrite Hp2. cbn [walk]. unfold child. rewrite R2, L2. done. }
  pose proof (fsteps_group _ _ _ _ _ Ec) as S3. pose proof (fsteps_tree _ _ S3 T2) as T3.
  destruct (create_node_spec _ _ _ _ _ _ (tr_wf _ T2) Ec) as (pn & Q1 & Q2 & Q3 & Q4 & Q5 & Q6 & Q7 & Q8).
  rewrite R2 in Q1. injection Q1 as <-.
  rewrite HW, std_dump_eq in Hd.
  destruct (dump_ (c_fuel C) (c_env C) std_dump kw tbl x root n_data [] (Dst (m_heap m) (m_next m) f3 ∅ [] [])) as [s' r'] eqn:Ed.
  injection Hd as <- _ ->.
  pose proof (dump_fsteps (c_env C) std_dump kw tbl (c_fuel C) x root n_data [] (Dst (m_heap m) (m_next m) f3 ∅ [] [])) as S4. rewrite Ed in S4. cbn [fst d_file] in S4.
  assert (get_path (d_file s') p = Some root) as Hp'. { apply Hpath. etrans; [exact S2|]. by etrans. }
  unfold get_path in Hp'.
  destruct (dump_top (c_env C) (std_dump_ok (c_env C)) kw tbl (c_fuel C) x root (Dst (m_heap m) (m_next m) f3 ∅ [] []) s' e o (extend n2 [(n_table, tbl)])) as [H|(Hr & a & n & H1 & H2 & H3)]; try done.
  - eapply start_wfs; [apply T3|done|exact Q5|done].
  - exists (Node n_table ∅ (BGroup [])). split; [exact Q5|]. split; [done|]. intros nm a Hx. discriminate Hx.
  - by rewrite extend_group.
  - unfold child. cbn [d_file]. rewrite Q6, extend_links by done. rewrite L2. reflexivity.
  - left. rewrite walk_app, Hp'. cbn [walk]. by rewrite H.
  - right. split; [done|]. exists (nd_attrs n), (nd_body n). split.
    + unfold content. rewrite walk_app, Hp'. cbn [walk]. by rewrite H1, H2.
    + destruct H3 as [H3|H3]; [left|by right]. unfold is_group in H3. destruct (nd_body n); [by eexists|done].
Qed.
