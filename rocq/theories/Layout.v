(** * Layout: what a successful dump leaves in the file *)
From stdpp Require Import relations.
From Verif Require Import Base Utf8 Utf8Proofs Dec Num PyObj H5 Env Create Dump LoadFns LoadModel Registry RegistryStd Spec
  DumpProofs DumpStored LoadBase LoadLeaf Api DumpClosed ApiProofs Accept DumpOk Count Table.
From Coq Require Import Lia ZifyBool ZifyN.
Local Open Scope N_scope.
Local Open Scope list_scope.
Local Opaque std_loader std_dump dump_loader_of loader_of.

(** ** Specification *)

(** [b] is [a] or inside the group [a]. *)
Inductive below (f : file) : addr -> addr -> Prop :=
| below_refl a : below f a a
| below_link a n nm b c : below f a b -> get_node f b = Some n -> (nm, c) ∈ links n -> below f a c.

(** A node holding an object of class [c] handled by the loader for [base]; in the type
    table the class of objects without a loader is [object]. *)
Definition reads_as (f : file) (n : node) (c : cls) (base : bytes) : Prop :=
  forall E, e_imports E c = true -> resolve_type E false f n = Ok (Resolved c base base (is_group n)).

(** [place]: where the tracked objects are; [h]: the heap. *)
Inductive role (D : dump_loader) (h : heap) (f : file) (place : gmap N addr) (a : addr) : Prop :=
| role_object n y o pt fn base :
    get_node f a = Some n -> place !! y = Some a -> h !! y = Some o -> D (ocls o) = Ok (pt, (fn, base, true)) ->
    reads_as f n pt base -> role D h f place a
| role_scalar n y o pt fn base :
    get_node f a = Some n -> links n = [] -> h !! y = Some o -> D (ocls o) = Ok (pt, (fn, base, false)) ->
    reads_as f n pt base -> role D h f place a
| role_reference n y t :
    get_node f a = Some n -> links n = [] -> nd_body n = BData (DRefTo t) -> nd_attrs n !! a_type = None ->
    place !! y = Some t -> role D h f place a.

(** ** The final state of a dump *)
Lemma make_groups_next cs : forall f a f' r, make_groups f a cs = (f', r) -> f_next f' <= f_next f + N.of_nat (length cs).
Proof.
  induction cs as [|c cs IH]; intros f a f' r; cbn [make_groups length]; [intros [= <- _]; lia|].
  destruct (child f a c) as [b|].
  - destruct cs; [intros [= <- _]; lia|]. intros H. apply IH in H. lia.
  - destruct (create_node f a c (BGroup [])) as [[f1 b]|e] eqn:Ec.
    + apply create_node_next in Ec. destruct cs; [intros [= <- _]; lia|]. intros H. apply IH in H. lia.
    + destruct e; intros [= <- _]; lia.
Qed.
Lemma root_for_dump_next f p f' r : root_for_dump f p = (f', r) -> f_next f' <= f_next f + N.of_nat (length (components p)).
Proof.
  unfold root_for_dump. destruct (get_path f p); [|apply make_groups_next].
  destruct (get_node f n) as [nd|]; [destruct (nd_body nd) as [[|]|]|]; intros [= <- _]; lia.
Qed.

Lemma dump_file_state C kw opts x p m f f' m' :
  tree f -> world_ok (c_world C) -> free_above m -> dump_file C kw opts x p m f = (f', m', Ok tt) ->
  exists chain s lo tbl root c,
    let D := dump_loader_of (c_world C) chain in
    d_file s = f' /\ d_heap s = m_heap m' /\ m_heap m ⊆ m_heap m' /\ tree f' /\ wfs D tbl s /\
    get_path f' p = Some root /\ child f' root n_table = Some tbl /\ child f' root n_data = Some c /\
    f_next f <= tbl /\ tbl < lo /\ root < lo /\
    (forall y b, d_memo s !! y = Some b -> stored (c_env C) D lo s y b) /\
    child_ok (c_env C) D lo s (n_data, x, []) (n_data, c) /\
    (forall o pt fn base, m_heap m !! x = Some o -> D (ocls o) = Ok (pt, (fn, base, true)) -> d_memo s !! x = Some c) /\
    (Forall (fun o => snd o = false) opts -> chain = [None]) /\
    (plain_heap (m_heap m) -> f_next f' <= f_next f + N.of_nat (length (components p)) + 4 + 3 * N.of_nat (edges (m_heap m') (d_memo s))) /\
    once tbl s.
Proof.
  intros Ht HW Hm Hd. unfold dump_file in Hd.
  destruct (root_for_dump f p) as [f1 [root|e]] eqn:Er; [|done].
  pose proof (root_for_dump_next _ _ _ _ Er) as Hcnt.
  destruct (root_for_dump_spec _ _ _ _ Ht Er) as (T1 & S1 & N1 & _ & HR).
  destruct (HR root eq_refl) as (P1 & n0 & P2 & P3 & P4 & P5). clear HR.
  unfold dump_root in Hd. destruct (with_options (stamp C f1 root) root opts) as [f2 r2] eqn:Ew.
  destruct (with_options_spec _ _ _ _ _ _ _ P2 Ew) as (S2 & N2 & R2 & O2 & Hr2).
  destruct r2 as [chain|e]; [|done]. pose proof (fsteps_tree _ _ S2 T1) as T2.
  assert (Forall (fun o => snd o = false) opts -> chain = [None]) as Hchain.
  { intros Hop. rewrite options_off in Hr2 by done. simpl in Hr2. by inversion Hr2. }
  unfold dump_into in Hd.
  destruct (create_node f2 root n_table (BGroup [])) as [[f3 tbl]|e] eqn:Ec; [|done].
  assert (wf_file f2) as Hwf by apply T2.
  apply fsteps_group in Ec as S3. pose proof (fsteps_tree _ _ S3 T2) as T3.
  destruct (create_node_spec _ _ _ _ _ _ Hwf Ec) as (pn & Hp & Hg & -> & Hnx & Hna & Hnp & Hne & Hoth).
  rewrite R2 in Hp. inversion Hp; subst pn. clear Hp.
  set (D := dump_loader_of (c_world C) chain) in *.
  set (s := Dst (m_heap m) (m_next m) f3 ∅ [] []) in *. set (tbl := f_next f2) in *.
  destruct (dump_ (c_fuel C) (c_env C) D kw tbl x root n_data [] s) as [s' r'] eqn:Ed.
  inversion Hd; subst f' m' r'. clear Hd.
  assert (wfs D tbl s) as Hws. { eapply start_wfs; [apply T3|done|exact Hna|done]. }
  pose proof (dump_loader_ok (c_env C) (c_world C) chain HW) as HL.
  assert (root < f_next f3) as Hrl. { pose proof (Hwf _ _ R2). lia. }
  destruct (dump_stored (c_env C) D kw tbl HL (c_fuel C) x root n_data [] s s' (f_next f3) Hws Hne at_none ltac:(simpl; lia) ltac:(lia) Hrl Ed)
    as (W & G & NS & c & pn & C1 & C2 & C3 & C4).
  destruct (dump_first (c_env C) D kw tbl HL (c_fuel C) x root n_data [] s s' Hws Hne at_none ltac:(simpl; apply lookup_empty) Ed)
    as (o & pt & fn & base & memo & pn' & F1 & F2 & F3 & F4 & F5 & F6).
  assert (c = f_next f3) as Hcf.
  { rewrite C2 in F3. inversion F3; subst pn'. rewrite C4 in F5. unfold extend in F5. unfold is_group in C3. destruct (nd_body pn); [|done].
    inversion F5 as [He]. apply app_inv_head in He. by inversion He. }
  pose proof (dump_fsteps (c_env C) D kw tbl (c_fuel C) x root n_data [] s) as S4. rewrite Ed in S4. simpl in S4.
  pose proof (fsteps_tree _ _ S4 T3) as T4.
  assert (nd_body n0 = BGroup []) as Hb0. { unfold links, is_group in *. destruct (nd_body n0); [by subst|done]. }
  exists chain, s', (f_next f3), tbl, root, c. cbn zeta. split_and!.
  - done.
  - done.
  - apply (gr_heap _ _ _ _ G).
  - done.
  - done.
  - apply (walk_keeps f1); [|exact P1]. apply fsteps_keeps; [|apply T1]. etrans; [exact S2|]. etrans; [exact S3|exact S4].
  - unfold getn in C2, C4. simpl in C2. rewrite Hnp in C2. inversion C2; subst pn. unfold child. rewrite C4.
    unfold links, extend. simpl. rewrite Hb0. done.
  - unfold getn in C2, C4. simpl in C2. rewrite Hnp in C2. inversion C2; subst pn. unfold child. rewrite C4.
    unfold links, extend. simpl. rewrite Hb0. done.
  - lia.
  - lia.
  - done.
  - intros y b Hy. destruct (NS y b Hy) as [H|H]; [|done]. simpl in H. by rewrite lookup_empty in H.
  - done.
  - intros o' pt' fn' base' Ho Hl. simpl in F1. rewrite Ho in F1. inversion F1; subst o'. unfold D in F2. rewrite Hl in F2. inversion F2; subst pt' fn' base' memo. rewrite Hcf. by apply F6.
  - done.
  - intros Hpl. destruct (dump_count (c_env C) D kw tbl HL (c_fuel C) x root n_data [] s s' Hws Hne at_none Hpl Ed) as [_ Hc'].
    change (d_file s) with f3 in Hc'. cbn [m_heap]. lia.
  - eapply dump_once; [exact HL|exact Hws|exact Hne|exact at_none| |exact Ed].
    exists (Node n_table ∅ (BGroup [])). split; [exact Hna|]. split; intros nm e; [|intros c']; intros Hin; inversion Hin.
Qed.

(** ** Reading the type back *)
Definition object_pickled (D : dump_loader) : Prop := forall c i, D c = Ok (CObject, i) -> i = (FPickle, b_pickle, true).

Local Transparent std_dump dump_loader_of.
Lemma std_dump_object : std_dump CObject = Ok fallback.
Proof. vm_compute. reflexivity. Qed.
Lemma std_object_pickled : object_pickled std_dump.
Proof.
  intros c i Hc. destruct (decide (c = CObject)) as [-> |Hne]; [rewrite std_dump_object in Hc; by inversion Hc|].
  unfold std_dump, dump_loader_of, load_loader in Hc. destruct (load_loader_mro _ _ _ _ _) as [g [[j|]|e]]; simpl in Hc; [|by inversion Hc|done].
  congruence.
Qed.
Local Opaque std_dump dump_loader_of.

Section Placed.
Context (E : env) (D : dump_loader) (HL : loader_ok E D) (HD : object_pickled D).

Lemma placed_reads s y a at_ pl memo ls :
  placed E D s y a at_ pl memo ls -> at_form at_ ->
  exists n o pt fn base, get_node (d_file s) a = Some n /\ d_heap s !! y = Some o /\ D (ocls o) = Ok (pt, (fn, base, memo)) /\
    reads_as (d_file s) n pt base /\ links n = match p_data pl with None => ls | Some _ => [] end.
Proof.
  intros (o & h0 & nx & pt & fn & base & te & nm & H1 & H2 & H3 & H4 & H5 & H6 & H7 & H8) Hat.
  eexists _, o, pt, fn, base. split; [exact H7|]. split; [done|]. split; [done|].
  split.
  2: { unfold links, extend, plan_body. simpl. destruct te; simpl; by destruct (p_data pl). }
  destruct te as [e|].
  - destruct H8 as [Hne (en & b & bn & base' & fn' & m' & K1 & K2 & K3 & K4 & K5 & K6 & K7 & K8 & K9)].
    assert (pt = ocls o) as Hpt by (by destruct (lo_cls _ _ HL _ _ _ H3)). rewrite <- Hpt, K8 in H3. inversion H3; subst fn' base' m'.
    intros E' Hi. unfold resolve_type. simpl nd_attrs. rewrite attrs_update_other by done. simpl. rewrite lookup_insert.
    unfold getn in *. rewrite K1. unfold entry_base. rewrite K3, K4, K7. cbn [res_bind]. rewrite K2, Hi. congruence.
  - simpl in H8. subst pt. apply HD in H3 as Hi. inversion Hi; subst fn base memo. simpl in H4. unfold create_pickled in H4.
    destruct (oval o); try done. destruct (e_pickles _ _ _); inversion H4; subst pl.
    intros E' Him. unfold resolve_type. simpl nd_attrs. rewrite attrs_update_other by done. done.
Qed.

Lemma child_role lo s sb lk :
  (forall y b, d_memo s !! y = Some b -> stored E D lo s y b) ->
  child_ok E D lo s sb lk -> role D (d_heap s) (d_file s) (d_memo s) (snd lk).
Proof.
  intros Hst. destruct sb as [[nm y] at_], lk as [nm' a]. intros (Hnm & _ & _ & Hat & H). simpl in Hnm, H |- *. subst nm'. destruct H as [(t & Ht & H)|(pl & Hpl & Hs & Hd)].
  - destruct H as [[-> _]|Hn].
    + destruct (Hst _ _ Ht) as (_ & _ & at' & pl & ls & Hat' & Hpl & _).
      destruct (placed_reads _ _ _ _ _ _ _ Hpl Hat') as (n & o & pt & fn & base & R1 & R2 & R3 & R4 & _).
      by eapply role_object.
    + eapply role_reference; [exact Hn|done|done| |exact Ht]. simpl. by rewrite attrs_update_other.
  - destruct (placed_reads _ _ _ _ _ _ _ Hpl Hat) as (n & o & pt & fn & base & R1 & R2 & R3 & R4 & R5).
    eapply role_scalar; [exact R1| |exact R2|exact R3|exact R4]. by destruct (p_data pl).
Qed.

(** The members of a node with a role have one. *)
Lemma role_step lo s a n nm b :
  (forall y b, d_memo s !! y = Some b -> stored E D lo s y b) ->
  role D (d_heap s) (d_file s) (d_memo s) a -> get_node (d_file s) a = Some n -> (nm, b) ∈ links n ->
  role D (d_heap s) (d_file s) (d_memo s) b.
Proof.
  intros Hst [n' y o pt fn base H1 H2 _ _ _|n' y o pt fn base H1 H2 _ _ _|n' y t H1 H2 _ _ _] Hn Hin;
    rewrite H1 in Hn; inversion Hn; subst n'.
  2,3: rewrite H2 in Hin; by apply elem_of_nil in Hin.
  destruct (Hst _ _ H2) as (_ & _ & at' & pl & ls & Hat' & Hpl & Hf).
  destruct (placed_reads _ _ _ _ _ _ _ Hpl Hat') as (n' & o' & pt' & fn' & base' & R1 & _ & _ & _ & R5).
  rewrite H1 in R1. inversion R1; subst n'. rewrite R5 in Hin. destruct (p_data pl); [by apply elem_of_nil in Hin|].
  apply elem_of_list_lookup in Hin as [i Hi]. destruct (Forall2_lookup_r _ _ _ _ _ Hf Hi) as (sb & _ & Hc).
  by apply (child_role _ _ _ _ Hst) in Hc.
Qed.
End Placed.

(** Every node below the dumped data has a role. *)
Definition without_loader (c : cls) : Prop :=
  match base_cls c with COpaque _ _ | CFunction | CType | CObject => True | _ => False end.
Lemma std_dump_pickled c : outside_hickle c -> without_loader c -> std_dump c = Ok fallback.
Proof.
  intros Ho Hc. rewrite (std_dump_base c _ Ho eq_refl). unfold without_loader in Hc. destruct (base_cls c); try done; vm_compute; reflexivity.
Qed.
Lemma pickled_placed E s y a c k v at_ pl ls :
  at_form at_ -> placed E std_dump s y a at_ pl true ls -> d_heap s !! y = Some (Obj c (VOpaque k v)) -> std_dump c = Ok fallback ->
  exists n, get_node (d_file s) a = Some n /\ nd_body n = BData (DPickle c k v) /\ nd_attrs n !! a_type = None.
Proof.
  intros Hat (o & h0 & nx & pt & fn & base & te & nm & H1 & H2 & H3 & H4 & H5 & H6 & H7 & H8) Hy Hc.
  rewrite Hy in H2. inversion H2; subst o. simpl in H3. rewrite Hc in H3. inversion H3; subst pt fn base.
  simpl in H4. unfold create_pickled in H4. simpl in H4. destruct (e_pickles _ _ _); inversion H4; subst pl.
  destruct te as [e|]; [by destruct H8|]. eexists. split; [exact H7|]. split; [done|]. simpl. by rewrite attrs_update_other.
Qed.

Lemma dump_file_roles C kw opts x p m f f' m' :
  tree f -> c_world C = std_world -> free_above m -> Forall (fun o => snd o = false) opts ->
  dump_file C kw opts x p m f = (f', m', Ok tt) ->
  exists (place : gmap N addr) root c,
    get_path f' p = Some root /\ child f' root n_data = Some c /\ m_heap m ⊆ m_heap m' /\
    (forall y z a, place !! y = Some a -> place !! z = Some a -> y = z) /\
    (forall y a, place !! y = Some a -> exists n o pt fn base, get_node f' a = Some n /\ m_heap m' !! y = Some o /\
       std_dump (ocls o) = Ok (pt, (fn, base, true)) /\ reads_as f' n pt base) /\
    (forall a, below f' c a -> role std_dump (m_heap m') f' place a) /\
    (forall y a c k v, place !! y = Some a -> m_heap m' !! y = Some (Obj c (VOpaque k v)) -> outside_hickle c -> without_loader c ->
       exists n, get_node f' a = Some n /\ nd_body n = BData (DPickle c k v) /\ nd_attrs n !! a_type = None) /\
    (plain_heap (m_heap m) -> f_next f' <= f_next f + N.of_nat (length (components p)) + 4 + 3 * N.of_nat (edges (m_heap m') place)) /\
    exists tbl tn, child f' root n_table = Some tbl /\ get_node f' tbl = Some tn /\ NoDup (map fst (links tn)) /\
      forall nm nm' e e' c, (nm, e) ∈ links tn -> (nm', e') ∈ links tn -> records f' e c -> records f' e' c -> e = e'.
Proof.
  intros Ht HW Hm Hop Hd.
  destruct (dump_file_state C kw opts x p m f f' m' Ht ltac:(rewrite HW; apply std_world_ok) Hm Hd)
    as (chain & s & lo & tbl & root & c & <- & Hh & Hsub & Ht' & Hw & Hp & Htb & Hc & _ & _ & _ & Hst & Hch & _ & Hchain & Hcnt & Honce).
  rewrite (Hchain Hop), HW, std_dump_eq in *. pose proof (std_dump_ok (c_env C)) as HL.
  exists (d_memo s), root, c. split; [done|]. split; [done|]. split; [done|]. split; [exact (ws_memo_inj _ _ _ Hw)|]. split; [|split; [|split; [|split; [exact Hcnt|]]]]; [rewrite <- Hh..|].
  - intros y a Hy. destruct (Hst _ _ Hy) as (_ & _ & at' & pl & ls & Hat' & Hpl & _).
    destruct (placed_reads _ _ HL std_object_pickled _ _ _ _ _ _ _ Hpl Hat') as (n & o & pt & fn & base & R1 & R2 & R3 & R4 & _).
    by exists n, o, pt, fn, base.
  - intros a Hb. remember c as c0 eqn:Ec in Hb. induction Hb as [a|a n nm b b' Hb IH Hn Hin].
    + subst a. exact (child_role _ _ HL std_object_pickled _ _ _ _ Hst Hch).
    + exact (role_step _ _ HL std_object_pickled _ _ _ _ _ _ Hst (IH Ec) Hn Hin).
  - intros y a c' k v Hy Ho Hout Hwl. destruct (Hst _ _ Hy) as (_ & _ & at' & pl & ls & Hat' & Hpl & _).
    exact (pickled_placed _ _ _ _ _ _ _ _ _ _ Hat' Hpl Ho (std_dump_pickled _ Hout Hwl)).
  - destruct Honce as (tn & T1 & _ & T3). exists tbl, tn. split; [done|]. split; [done|]. split; [by eapply tr_names|].
    intros nm nm' e e' c' He He' Hr Hr'. pose proof (T3 _ _ _ He Hr). pose proof (T3 _ _ _ He' Hr'). congruence.
Qed.

(** ** Members of dict groups *)
Lemma data_name_slash i : has_char 47 (data_name i) = false.
Proof.
  pose proof (data_name_ok i) as H. unfold name_ok in H. destruct (data_name i) as [|c r]; [done|].
  destruct (has_char 47 (c :: r)); [done|done].
Qed.
Lemma key_name_slash E o nm : key_name E o = Ok (Some nm) -> has_char 47 nm = false.
Proof.
  unfold key_name. destruct (isinst (ocls o) CStr).
  { destruct (oval o); try done. unfold str_slashes. destruct (has_char 47 s) eqn:Es; [done|]. simpl. destruct (has_char 92 s); [done|].
    intros [= <-]. change (34 :: s ++ [34]) with ([34] ++ s ++ [34]). rewrite !has_char_app, Es. done. }
  destruct (isinst (ocls o) CBytes).
  { destruct (oval o); try done. unfold byte_slashes. destruct (has_char 47 b) eqn:Es; [done|].
    destruct (utf8_decode b) as [t|] eqn:Ed; [|done]. intros [= <-].
    change ([98; 34] ++ ?x) with ([98; 34] ++ x). change (98 :: 34 :: t ++ [34]) with ([98; 34] ++ t ++ [34]).
    rewrite !has_char_app, (decode_char _ _ 47 ltac:(lia) Ed Es). done. }
  case_bool_decide; [|done]. destruct (scalar_repr E o) as [r|]; [|done]. simpl. unfold str_slashes.
  destruct (has_char 47 r) eqn:Es; [done|]. simpl. destruct (has_char 92 r); [done|]. by intros [= <-].
Qed.
Lemma dict_subs_slash E h kvs : forall nx idx ts ss, dict_subs E h nx idx kvs = Ok (ts, ss) ->
  length ss = length kvs /\ Forall (fun sb => has_char 47 (fst (fst sb)) = false) ss.
Proof.
  induction kvs as [|[k v] kvs IH]; intros nx idx ts ss; simpl; [intros [= <- <-]; split; [done|constructor]|].
  destruct (h !! k) as [ko|]; [|done]. destruct (key_name E ko) as [[nm|]|] eqn:En; simpl; [| |done].
  - destruct (utf8_encode _) as [kb|]; [|done]. simpl. destruct (dict_subs E h nx (idx + 1) kvs) as [[ts' ss']|] eqn:Es; [|done].
    simpl. intros [= <- <-]. destruct (IH _ _ _ _ Es) as [H1 H2]. split; [simpl; congruence|]. constructor; [|done].
    simpl. by eapply key_name_slash.
  - destruct (dict_subs E h (nx + 1) (idx + 1) kvs) as [[ts' ss']|] eqn:Es; [|done].
    simpl. intros [= <- <-]. destruct (IH _ _ _ _ Es) as [H1 H2]. split; [simpl; congruence|]. constructor; [|done].
    simpl. apply data_name_slash.
Qed.

Lemma create_dict_plan E fn h nx c kvs pl : create E fn h nx (Obj c (VDict kvs)) = Ok pl -> fn <> FNone ->
  p_data pl = None /\ length (p_subs pl) = length kvs /\ Forall (fun sb => has_char 47 (fst (fst sb)) = false) (p_subs pl).
Proof.
  intros Hc Hf. destruct fn; simpl in Hc; try done.
  - unfold create_listlike, create_text in Hc. simpl in Hc. by destruct (_ || _).
  - unfold create_dictlike in Hc. simpl in Hc. destruct (dict_subs E h nx 0 kvs) as [[ts ss]|] eqn:Es; [|done]. inversion Hc; subst pl.
    split; [done|]. simpl. by eapply dict_subs_slash.
Qed.
Definition dict_class (c : cls) : Prop :=
  base_cls c = CDict \/ base_cls c = COrderedDict \/ base_cls c = CCounter \/ base_cls c = CDefaultDict.
Lemma std_dump_dict c : outside_hickle c -> dict_class c -> exists base, std_dump c = Ok (c, (FDict, base, true)).
Proof.
  intros Ho Hc. rewrite (std_dump_base c _ Ho eq_refl). destruct Hc as [-> |[-> |[-> | ->]]]; vm_compute first_item; by eexists.
Qed.

(** One member per entry, with distinct names without slashes. *)
Lemma dict_members C kw opts x p m f f' m' c kvs :
  tree f -> c_world C = std_world -> free_above m -> Forall (fun o => snd o = false) opts ->
  m_heap m !! x = Some (Obj c (VDict kvs)) -> outside_hickle c -> dict_class c ->
  dump_file C kw opts x p m f = (f', m', Ok tt) ->
  exists root d n, get_path f' p = Some root /\ child f' root n_data = Some d /\ get_node f' d = Some n /\
    length (links n) = length kvs /\ NoDup (map fst (links n)) /\ Forall (fun l => has_char 47 (fst l) = false) (links n).
Proof.
  intros Ht HW Hm Hop Hx Ho Hc Hd.
  destruct (dump_file_state C kw opts x p m f f' m' Ht ltac:(rewrite HW; apply std_world_ok) Hm Hd)
    as (chain & s & lo & tbl & root & d & <- & Hh & Hsub & Ht' & Hw & Hp & _ & Hch & _ & _ & _ & Hst & _ & Hfst & Hchain & _).
  rewrite (Hchain Hop), HW, std_dump_eq in *.
  destruct (std_dump_dict c Ho Hc) as (base & Hsd).
  assert (d_heap s !! x = Some (Obj c (VDict kvs))) as Hx' by (rewrite Hh; by eapply lookup_weaken).
  assert (forall at_ pl memo ls, placed (c_env C) std_dump s x d at_ pl memo ls -> Forall2 (child_ok (c_env C) std_dump lo s) (p_subs pl) ls -> memo = true ->
    exists n, get_node (d_file s) d = Some n /\ length (links n) = length kvs /\ Forall (fun l => has_char 47 (fst l) = false) (links n)) as Hpl.
  { intros at_ pl memo ls (o & h0 & nx & pt & fn & b & te & nm & H1 & H2 & H3 & H4 & H5 & H6 & H7 & H8) Hf ->.
    rewrite Hx' in H2. inversion H2; subst o. simpl in H3. rewrite Hsd in H3. inversion H3; subst pt fn b.
    destruct (create_dict_plan _ _ _ _ _ _ _ H4 ltac:(done)) as (P1 & P2 & P3).
    eexists. split; [exact H7|].
    assert (links (extend (set_attrs at_ (with_type te (Node nm (attrs_update (p_attrs pl) ∅) (plan_body pl)))) ls) = ls) as ->.
    { unfold links, extend, plan_body. simpl. rewrite P1. destruct te; done. }
    rewrite <- P2. split; [symmetry; by eapply Forall2_length|].
    clear -P3 Hf. induction Hf as [|[[nm y] at_] [nm' b] ss ls Hc Hf IH]; [constructor|]. inversion P3; subst. constructor; [|by apply IH].
    destruct Hc as (Hn & _). simpl in *. by subst. }
  destruct (Hst _ _ (Hfst _ _ _ _ Hx Hsd)) as (_ & _ & at' & pl & ls & Hat' & Hp2 & Hf).
  destruct (Hpl _ _ _ _ Hp2 Hf eq_refl) as (n & N1 & N2 & N3). exists root, d, n. split_and!; auto. by eapply tr_names.
Qed.
