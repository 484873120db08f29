(** * LoadInv: the invariant of loading a dumped file *)
From Verif Require Import Base Utf8 Utf8Proofs Dec DecProofs Num NumProofs PyObj H5 Env Create Dump
  LoadFns LoadModel Registry DumpProofs DumpStored RegistryStd Spec PartSpec LoadBase ArrayProofs Damage Recover.
From stdpp Require Import relations.
From Coq Require Import Lia ZifyBool ZifyN.
Local Open Scope N_scope.
Local Open Scope list_scope.

(** ** hval *)
Lemma res_mapM_ok {A B} (f : A -> res B) xs ys :
  res_mapM f xs = Ok ys <-> Forall2 (fun x y => f x = Ok y) xs ys.
Proof.
  revert ys. induction xs as [|x xs IH]; intros ys; simpl.
  - split; [by intros [= <-]|]. intros H. by inversion H.
  - destruct (f x) as [y|e] eqn:Ef; simpl.
    + destruct (res_mapM f xs) as [zs|e] eqn:Em; simpl.
      * split.
        -- intros [= <-]. constructor; [done|]. by apply IH.
        -- intros H. inversion H; subst. f_equal. f_equal; [congruence|].
           assert (Ok zs = Ok l') as [= ->] by (by apply IH). done.
      * split; [done|]. intros H. inversion H; subst.
        assert (Err e = Ok l') as [=] by (by apply IH).
    + split; [done|]. intros H. inversion H; subst. congruence.
Qed.

Lemma hval_mono fuel fuel' h h' l k :
  hval fuel h l = Ok k -> (fuel <= fuel')%nat -> h ⊆ h' -> hval fuel' h' l = Ok k.
Proof.
  revert fuel' l k. induction fuel as [|fuel IH]; intros fuel' l k; [done|].
  intros Hv Hf Hh. destruct fuel' as [|fuel']; [lia|]. simpl in *.
  destruct (h !! l) as [[c v]|] eqn:El; [|done].
  rewrite (lookup_weaken _ _ _ _ El Hh). destruct v; try done.
  destruct (isinst c CTuple); [|done].
  destruct (res_mapM (hval fuel h) xs) as [ks|] eqn:Em; [|done].
  apply res_mapM_ok in Em.
  assert (res_mapM (hval fuel' h') xs = Ok ks) as ->; [|done].
  apply res_mapM_ok. eapply Forall2_impl; [exact Em|]. intros x y H. eapply IH; eauto. lia.
Qed.

Lemma hashes_fuel h xs ks :
  Forall2 (hashes h) xs ks -> exists d, Forall2 (fun x k => hval d h x = Ok k) xs ks.
Proof.
  induction 1 as [|x k xs ks [d1 H1] H2 [d2 IH]]; [by exists O|].
  exists (Nat.max d1 d2). constructor.
  - eapply hval_mono; [exact H1|lia|done].
  - eapply Forall2_impl; [exact IH|]. intros ? ? HH. eapply hval_mono; [exact HH|lia|done].
Qed.

Lemma has_key_in k s : has_key k s = true <-> k ∈ map fst s.
Proof.
  induction s as [|[k' v] s IH]; simpl.
  - split; [done|]. intros H. by apply elem_of_nil in H.
  - rewrite orb_true_iff, bool_decide_eq_true, IH, elem_of_cons. done.
Qed.
Lemma set_of_distinct fuel h xs : forall ks acc,
  Forall2 (fun x k => hval fuel h x = Ok k) xs ks -> NoDup (map fst acc ++ ks) ->
  set_of fuel h acc xs = Ok (acc ++ zip ks xs).
Proof.
  induction xs as [|x xs IH]; intros ks acc Hf Hn; inversion Hf as [|? y ? l' Hy Hf']; subst; simpl.
  - by rewrite app_nil_r.
  - unfold set_add. rewrite Hy. cbn [res_map res_bind].
    assert (has_key y acc = false) as ->.
    { apply not_true_is_false. rewrite has_key_in. intros Hin. apply NoDup_app in Hn as (_ & Hd & _).
      destruct (Hd y Hin). constructor. }
    rewrite (IH l' (acc ++ [(y, x)])); [by rewrite <- app_assoc| |].
    + done.
    + rewrite map_app. simpl. by rewrite <- app_assoc.
Qed.
Lemma dict_put_new k kl vl d : k ∉ map fst d -> dict_put k kl vl d = d ++ [(k, (kl, vl))].
Proof.
  induction d as [|[k' [a b]] d IH]; simpl; [done|]. rewrite elem_of_cons. intros H.
  rewrite bool_decide_eq_false_2 by naive_solver. rewrite IH by naive_solver. done.
Qed.
Lemma dict_of_distinct fuel h ps : forall ks acc,
  Forall2 (fun p k => hval fuel h (fst p) = Ok k) ps ks -> NoDup (map fst acc ++ ks) ->
  dict_of fuel h acc ps = Ok (acc ++ zip ks ps).
Proof.
  induction ps as [|[kl vl] ps IH]; intros ks acc Hf Hn; inversion Hf as [|? y ? l' Hy Hf']; subst; simpl.
  - by rewrite app_nil_r.
  - simpl in Hy. rewrite Hy. cbn [res_bind]. rewrite dict_put_new.
    + rewrite (IH l'); [by rewrite <- app_assoc|done|].
      rewrite map_app. simpl. by rewrite <- app_assoc.
    + intros Hin. apply NoDup_app in Hn as (_ & Hd & _). destruct (Hd y Hin). constructor.
Qed.

(** ** Relations *)
Lemma tc_last {A} (R : relation A) x y : tc R x y -> exists w, rtc R x w /\ R w y.
Proof.
  induction 1 as [x y H|x y z H1 H2 (w & H3 & H4)].
  - exists x. split; [apply rtc_refl|done].
  - exists w. split; [by eapply rtc_l|done].
Qed.
Lemma Acc_tc_irrefl {A} (R : relation A) x : Acc R x -> ~ tc R x x.
Proof.
  induction 1 as [x _ IH]. intros H. destruct (tc_last _ _ _ H) as (w & H1 & H2).
  apply (IH w H2). eapply tc_rtc_r; [by apply tc_once|done].
Qed.

(** ** same_obj is monotone *)
Lemma same_number_mono h h1 h2 x y : same_number h h1 x y -> h1 ⊆ h2 -> same_number h h2 x y.
Proof.
  intros (c & n & c' & n' & H1 & H2 & H3 & H4) Hs. exists c, n, c', n'. split_and!; auto.
  by eapply lookup_weaken.
Qed.
Lemma same_leaf_mono h h1 h2 x y : same_leaf h h1 x y -> h1 ⊆ h2 -> same_leaf h h2 x y.
Proof. intros (o & H1 & H2 & H3) Hs. exists o. split_and!; auto. by eapply lookup_weaken. Qed.
Lemma same_numbers_mono h h1 h2 xs ys : same_numbers h h1 xs ys -> h1 ⊆ h2 -> same_numbers h h2 xs ys.
Proof.
  intros (Ha & Hf & d & Hd & Hd') Hs. split; [done|]. split.
  - eapply Forall2_impl; [exact Hf|]. intros. by eapply same_number_mono.
  - exists d. split; [|done]. intros y Hy. destruct (Hd y Hy) as [n Hn]. exists n. by eapply lookup_weaken.
Qed.
Lemma same_items_mono h h1 h2 (R R' : loc -> loc -> Prop) xs ys :
  same_items h h1 R xs ys -> h1 ⊆ h2 -> (forall x y, R x y -> R' x y) -> same_items h h2 R' xs ys.
Proof.
  intros [H|H] Hs HR; [left|right]; [|by eapply same_numbers_mono]. eapply Forall2_impl; [exact H|]. done.
Qed.
Lemma same_rows_mono h h1 h2 (R R' : loc -> loc -> Prop) shape xs ys :
  same_rows h h1 R shape xs ys -> h1 ⊆ h2 -> (forall x y, R x y -> R' x y) -> same_rows h h2 R' shape xs ys.
Proof.
  intros (rows & rows' & H1 & H2 & H3 & H4) Hs HR. exists rows, rows'. split_and!; auto.
  eapply Forall2_impl; [exact H4|]. intros r r' [Hr|(A1 & A2 & c & [A3 A4] & A5)]; [left; by eapply same_items_mono|right].
  split; [done|]. split; [eapply Forall2_impl; [exact A2|]; intros; by eapply same_number_mono|].
  exists c. split; [|done]. split; [done|]. intros y Hy. destruct (A4 y Hy) as [n Hn]. exists n. by eapply lookup_weaken.
Qed.
Lemma same_rows_items h h' (R : loc -> loc -> Prop) shape xs ys :
  same_rows h h' R shape xs ys -> Forall2 (fun x y => R x y \/ same_number h h' x y) xs ys.
Proof.
  intros (rows & rows' & -> & -> & _ & Hf). induction Hf as [|r r' rows rows' Hr Hf IH]; simpl; [constructor|].
  apply Forall2_app; [|done]. destruct Hr as [[Hr|(_ & Hr & _)]|(_ & Hr & _)]; (eapply Forall2_impl; [exact Hr|]); naive_solver.
Qed.
Lemma same_obj_mono h h1 h2 (R R' : loc -> loc -> Prop) o o' :
  same_obj h h1 R o o' -> h1 ⊆ h2 -> (forall x y, R x y -> R' x y) -> same_obj h h2 R' o o'.
Proof.
  intros [Hc Hv] Hs HR. split; [done|].
  destruct (oval o), (oval o'); try done; try naive_solver.
  - destruct (isinst (ocls o) CSet).
    + destruct Hv as (ys' & H1 & H2). exists ys'. split; [done|]. by eapply same_items_mono.
    + by eapply same_items_mono.
  - eapply Forall2_impl; [exact Hv|]. intros p q [[H1 H2]|[H1 H2]]; [left|right].
    + split; [|by apply HR]. destruct H1 as [H1|H1]; [left; by apply HR|right; by eapply same_leaf_mono].
    + split; [by eapply same_numbers_mono|done].
  - destruct Hv as [H1 H2]. split; [done|]. by eapply same_rows_mono.
Qed.

(** ** and so is recovered *)
Lemma has_members_impl {A : Type} (items : list (pystr * (loc * option attrs))) (ps : list A) (P Q : A -> pystr -> loc -> option attrs -> Prop) :
  (forall p nm v oa, P p nm v oa -> Q p nm v oa) -> has_members items ps P -> has_members items ps Q.
Proof.
  intros HPQ (nms & H1 & H2 & H3). exists nms. split; [done|]. split; [done|]. eapply Forall2_impl; [exact H3|].
  intros p nm (v & oa & Hi & Hp). exists v, oa. auto.
Qed.
Lemma group_kept_mono h h1 h2 (R R' : loc -> loc -> Prop) o items :
  group_kept h h1 R o items -> h1 ⊆ h2 -> (forall x y, R x y -> R' x y) -> group_kept h h2 R' o items.
Proof.
  intros Hk Hs HR. unfold group_kept in *. destruct (oval o); try done; (eapply has_members_impl; [|exact Hk]).
  - intros p nm v oa (H1 & H2 & H3). split_and!; auto.
  - intros [i [k w]] nm v oa [H1 H2]. split; [done|]. destruct H2 as [[H2 H3]|(ys & H2 & H3)]; [left; auto|right].
    exists ys. split; [by eapply lookup_weaken|by eapply same_items_mono].
  - intros p nm v oa [H1 H2]. split; auto.
  - intros p nm v oa [H1 H2]. split; auto.
Qed.
Lemma recovered_mono h h1 h2 (R R' : loc -> loc -> Prop) o o' :
  recovered_as h h1 R o o' -> h1 ⊆ h2 -> (forall x y, R x y -> R' x y) -> recovered_as h h2 R' o o'.
Proof.
  intros [Hd|(items & a & H1 & H2 & H3 & H4)] Hs HR; [by left|right]. exists items, a. split_and!; auto; [by eapply group_kept_mono|].
  eapply list.Forall_impl; [exact H4|]. intros it (ob & Hob & Ha). exists ob. split; [by eapply lookup_weaken|done].
Qed.
Lemma stands_mono E h h1 h2 (R R' : loc -> loc -> Prop) o o' :
  stands_for E h h1 R o o' -> h1 ⊆ h2 -> (forall x y, R x y -> R' x y) -> stands_for E h h2 R' o o'.
Proof. unfold stands_for. destruct (e_imports E (ocls o)); [apply same_obj_mono|apply recovered_mono]. Qed.

Section Load.
Context (E : env) (HE : env_ok E) (tbl lo : addr) (s : dst).
Context (Hw : wfs std_dump tbl s).
Context (Hst : forall y a, d_memo s !! y = Some a -> stored E std_dump lo s y a).

Notation H := (d_heap s).
Notation F := (d_file s).

(** [z] is dumped as a part of [y]: it is referred to, or it is a tuple of key and value, or
    a string or list made from an array. *)
Definition of_objects (o : obj) : Prop :=
  match oval o with VStrArr _ _ _ | VObjArr _ _ => True | _ => False end.
Definition dep (z y : loc) : Prop :=
  exists o, H !! y = Some o /\
    (z ∈ refs o \/
     (exists kvs k v, oval o = VDict kvs /\ (k, v) ∈ kvs /\ H !! z = Some (Obj CTuple (VSeq [k; v]))) \/
     of_objects o /\ built H (fun x => x ∈ refs o) z).

Lemma graph_part_dep y : graph_part E H y -> Acc dep y.
Proof.
  induction 1 as [x o Ho _ _ _ _ _ IH]. constructor. intros z (o' & Ho' & Hz). simplify_eq.
  destruct Hz as [Hz|[(kvs & k & v & Ek & Hin & Hz)|[_ Hz]]]; [by apply IH| |].
  - constructor. intros w (oz & Hoz & Hw'). simplify_eq.
    assert (w ∈ [k; v]) as Hwin. { destruct Hw' as [?|[(? & ? & ? & [=] & _)|[[] _]]]; done. }
    apply IH. unfold refs. rewrite Ek. apply elem_of_app.
    assert (w = k \/ w = v) as [-> | ->] by set_solver.
    + left. apply elem_of_list_fmap. by exists (k, v).
    + right. apply elem_of_list_fmap. by exists (k, v).
  - induction Hz as [z Hz|z t Hz|z xs Hz Hx IHx _]; [by apply IH| |].
    + constructor. intros w (oz & Hoz & Hw'). simplify_eq. exfalso.
      destruct Hw' as [Hw'|[(? & ? & ? & [=] & _)|[[] _]]]. inversion Hw'.
    + constructor. intros w (oz & Hoz & Hw'). simplify_eq. apply IHx.
      by destruct Hw' as [?|[(? & ? & ? & [=] & _)|[[] _]]].
Qed.
Lemma graph_part_irrefl y : graph_part E H y -> ~ tc dep y y.
Proof. intros. by apply Acc_tc_irrefl, graph_part_dep. Qed.

(** ** The invariant *)
Definition memo_rel (st : lst) (y v : loc) : Prop :=
  exists a, d_memo s !! y = Some a /\ l_memo st !! a = Some v.
(** A scalar of a class that cannot be imported: a recovered dataset, which [_load] keeps by
    its node although [_dump] does not keep scalars by their id. *)
Definition alone (st : lst) (y v : loc) : Prop :=
  exists o o' c, H !! y = Some o /\ scalar o /\ e_imports E (ocls o) = false /\
    l_memo st !! c = Some v /\ (forall z, d_memo s !! z <> Some c) /\
    m_heap (l_mem st) !! v = Some o' /\ recovered_as H (m_heap (l_mem st)) (fun _ _ => False) o o'.
Definition rel (st : lst) (y v : loc) : Prop :=
  memo_rel st y v \/
  (exists o, H !! y = Some o /\ scalar o /\ e_imports E (ocls o) = true /\ m_heap (l_mem st) !! v = Some o) \/
  alone st y v.
Definition matched (st : lst) (y v : loc) : Prop :=
  exists o o', H !! y = Some o /\ m_heap (l_mem st) !! v = Some o' /\
               stands_for E H (m_heap (l_mem st)) (rel st) o o'.
Definition lone (st : lst) (a : addr) (v : loc) : Prop :=
  (forall z, d_memo s !! z <> Some a) /\
  exists n d c b, getn s a = Some n /\ nd_body n = BData d /\ class_missing E F n c b /\
    m_heap (l_mem st) !! v = Some (Obj CRecoveredDataset (VRecD d (rec_attrs (<[a_base_type := ABytes b]> (nd_attrs n))))).

Record inv (st : lst) : Prop := {
  iv_heap : forall l, m_next (l_mem st) <= l -> m_heap (l_mem st) !! l = None;
  iv_nobody : m_heap (l_mem st) !! nobody = Some empty_tuple;
  iv_memo : forall a v, l_memo st !! a = Some v ->
    (exists y, d_memo s !! y = Some a /\ graph_part E H y /\ matched st y v) \/ lone st a v;
  iv_inj : forall a b v, l_memo st !! a = Some v -> l_memo st !! b = Some v -> a = b
}.

Record ext (st st' : lst) : Prop := {
  ex_heap : m_heap (l_mem st) ⊆ m_heap (l_mem st');
  ex_next : m_next (l_mem st) <= m_next (l_mem st');
  ex_memo : l_memo st ⊆ l_memo st'
}.
Lemma ext_refl st : ext st st.
Proof. split; done || lia. Qed.
Lemma ext_trans s1 s2 s3 : ext s1 s2 -> ext s2 s3 -> ext s1 s3.
Proof. intros [A1 B1 C1] [A2 B2 C2]. split; [by etrans|lia|by etrans]. Qed.

(** New memo entries belong to parts of [y], or to scalars. *)
Definition news (y : loc) (st st' : lst) : Prop :=
  forall b w, l_memo st' !! b = Some w -> l_memo st !! b = Some w \/ (exists z, d_memo s !! z = Some b /\ rtc dep z y) \/ (forall z, d_memo s !! z <> Some b).
Definition news_below (y : loc) (st st' : lst) : Prop :=
  forall b w, l_memo st' !! b = Some w -> l_memo st !! b = Some w \/ (exists z, d_memo s !! z = Some b /\ tc dep z y) \/ (forall z, d_memo s !! z <> Some b).
Lemma news_below_refl y st : news_below y st st.
Proof. intros b w ?. by left. Qed.
Lemma news_below_trans y s1 s2 s3 : news_below y s1 s2 -> news_below y s2 s3 -> news_below y s1 s3.
Proof. intros A B b w Hb. destruct (B _ _ Hb) as [Hb'|?]; [by apply A|by right]. Qed.
Lemma news_part y z s1 s2 : news z s1 s2 -> dep z y -> news_below y s1 s2.
Proof.
  intros A Hd b w Hb. destruct (A _ _ Hb) as [?|[(x & Hx & Hr)|?]]; [by left|right; left|by do 2 right].
  exists x. split; [done|]. eapply tc_rtc_l; [done|by apply tc_once].
Qed.
Lemma news_same y st m : news_below y st (set_mem m st).
Proof. intros b w ?. by left. Qed.

Lemma memo_rel_mono st st' y v : memo_rel st y v -> l_memo st ⊆ l_memo st' -> memo_rel st' y v.
Proof. intros (a & H1 & H2) Hs. exists a. split; [done|]. by eapply lookup_weaken. Qed.
Lemma rel_mono st st' y v : rel st y v -> ext st st' -> rel st' y v.
Proof.
  intros [Hm|[(o & H1 & H2 & H3 & H4)|(o & o' & c & H1 & H2 & H3 & H4 & H5 & H6 & H7)]] [A B C];
    [left; by eapply memo_rel_mono|right; left|do 2 right].
  - exists o. split_and!; auto. by eapply lookup_weaken.
  - exists o, o', c. split_and!; auto; [by eapply lookup_weaken|by eapply lookup_weaken|]. by eapply recovered_mono.
Qed.
Lemma matched_mono st st' y v : matched st y v -> ext st st' -> matched st' y v.
Proof.
  intros (o & o' & H1 & H2 & H3) He. exists o, o'. split; [done|]. split.
  - eapply lookup_weaken; [done|apply He].
  - eapply stands_mono; [done|apply He|]. intros. by eapply rel_mono.
Qed.
Lemma lone_mono st st' a v : lone st a v -> ext st st' -> lone st' a v.
Proof.
  intros (H1 & n & d & c & b & H2 & H3 & H4 & H5) He. split; [done|]. exists n, d, c, b. split_and!; auto.
  eapply lookup_weaken; [done|apply He].
Qed.
Lemma memo_matched st y v : inv st -> memo_rel st y v -> matched st y v.
Proof.
  intros Hi (a & Ha & Hv). destruct (iv_memo _ Hi _ _ Hv) as [(y' & Hy' & _ & Hma)|[Hn _]]; [|by destruct (Hn y)].
  assert (y' = y) as -> by (by eapply (ws_memo_inj _ _ _ Hw)). done.
Qed.
Lemma inv_lt st l o : inv st -> m_heap (l_mem st) !! l = Some o -> l < m_next (l_mem st).
Proof. intros Hi Hl. destruct (decide (m_next (l_mem st) <= l)); [|lia]. rewrite (iv_heap _ Hi) in Hl by done. done. Qed.
Lemma inv_memo_lt st a v : inv st -> l_memo st !! a = Some v -> v < m_next (l_mem st).
Proof.
  intros Hi Ha. destruct (iv_memo _ Hi _ _ Ha) as [(y & _ & _ & o & o' & _ & Hv & _)|(_ & n & d & c & b & _ & _ & _ & Hv)]; by eapply inv_lt.
Qed.

(** A new object. *)
Definition fresh (st : lst) (v : loc) : Prop := v <> nobody /\ forall b, l_memo st !! b <> Some v.
Lemma inv_alloc st o :
  inv st ->
  let m := fst (alloc o (l_mem st)) in let v := snd (alloc o (l_mem st)) in
  let st' := set_mem m st in
  inv st' /\ ext st st' /\ m_heap m !! v = Some o /\ fresh st' v.
Proof.
  intros Hi. simpl.
  assert (m_heap (l_mem st) ⊆ <[m_next (l_mem st):=o]> (m_heap (l_mem st))) as Hs.
  { apply insert_subseteq. apply Hi. lia. }
  assert (ext st (set_mem (Mem (<[m_next (l_mem st):=o]> (m_heap (l_mem st))) (m_next (l_mem st) + 1)) st)) as He.
  { split; simpl; [done|lia|done]. }
  split_and!; auto.
  - split; simpl.
    + intros l Hl. rewrite lookup_insert_ne by lia. apply Hi. lia.
    + eapply lookup_weaken; [apply Hi|done].
    + intros a v Ha. destruct (iv_memo _ Hi _ _ Ha) as [(y & H1 & H2 & H3)|H1]; [left|right; by eapply lone_mono].
      exists y. split_and!; auto. eapply matched_mono; eauto.
    + apply Hi.
  - by rewrite lookup_insert.
  - split; simpl.
    + pose proof (inv_lt _ _ _ Hi (iv_nobody _ Hi)). lia.
    + intros b Hb. pose proof (inv_memo_lt _ _ _ Hi Hb). lia.
Qed.
Lemma inv_alloc_list os : forall st,
  inv st ->
  let m := fst (alloc_list os (l_mem st)) in let vs := snd (alloc_list os (l_mem st)) in
  let st' := set_mem m st in
  inv st' /\ ext st st' /\ Forall2 (fun v o => m_heap m !! v = Some o) vs os.
Proof.
  induction os as [|o os IH]; intros st Hi; simpl.
  - split_and!; auto; [by destruct st|]. destruct st. apply ext_refl.
  - destruct (inv_alloc st o Hi) as (A1 & A2 & A3 & _). simpl in *.
    set (st1 := set_mem _ st) in A1.
    destruct (IH st1 A1) as (B1 & B2 & B3). simpl in B1, B2, B3.
    destruct (alloc_list os _) as [m2 ls] eqn:Ea. simpl in *.
    split_and!; [exact B1|eapply ext_trans; [exact A2|exact B2]|].
    constructor; [|exact B3].
    eapply lookup_weaken; [exact A3|apply (ex_heap _ _ B2)].
Qed.

Lemma graph_part_empty y : graph_part E H y -> H !! y = Some empty_tuple -> y = nobody.
Proof. intros G0 Hy. inversion G0; subst. simplify_eq. auto. Qed.

Lemma same_obj_empty h h' R o : same_obj h h' R o empty_tuple -> o = empty_tuple.
Proof.
  destruct o as [c v]. intros [Hc Hv]. simpl in *. subst c. destruct v; try naive_solver.
  simpl in Hv. destruct Hv as [Hv|(_ & Hv & _)]; inversion Hv; subst; done.
Qed.

Lemma stands_empty h h' R o : stands_for E h h' R o empty_tuple -> o = empty_tuple.
Proof.
  unfold stands_for. destruct (e_imports E (ocls o)); [apply same_obj_empty|].
  intros [(d & a & He & _)|(items & a & He & _)]; discriminate He.
Qed.

Lemma inv_memo_put st a y v :
  inv st -> d_memo s !! y = Some a -> graph_part E H y -> matched st y v -> l_memo st !! a = None ->
  (fresh st v \/ v = nobody) ->
  inv (memo_put a v st) /\ ext st (memo_put a v st) /\ rel (memo_put a v st) y v.
Proof.
  intros Hi Hy Hg Hm Ha Hf.
  assert (ext st (memo_put a v st)) as He.
  { split; simpl; [done|lia|by apply insert_subseteq]. }
  split_and!; auto.
  2: { left. exists a. split; [done|]. simpl. by rewrite lookup_insert. }
  split; simpl; try apply Hi.
  - intros b w. destruct (decide (b = a)) as [->|Hne].
    + rewrite lookup_insert. intros [= <-]. left. exists y. split_and!; auto. eapply matched_mono; eauto.
    + rewrite lookup_insert_ne by done. intros Hb. destruct (iv_memo _ Hi _ _ Hb) as [(z & H1 & H2 & H3)|H1]; [left|right; by eapply lone_mono].
      exists z. split_and!; auto. eapply matched_mono; eauto.
  - assert (forall b, l_memo st !! b = Some v -> b = a) as Hb.
    { intros b Hb. destruct Hf as [[_ Hf]| ->]; [by destruct (Hf b)|].
      destruct (iv_memo _ Hi _ _ Hb) as [(z & H1 & H2 & oz & o' & Hoz & Ho' & Hso)|(_ & n & d & c & b' & _ & _ & _ & Ho')];
        rewrite (iv_nobody _ Hi) in Ho'; [|discriminate Ho']. inversion Ho'; subst o'. apply stands_empty in Hso. subst oz.
      destruct Hm as (oy & o' & Hoy & Ho'' & Hso). rewrite (iv_nobody _ Hi) in Ho''. inversion Ho''; subst o'.
      apply stands_empty in Hso. subst oy.
      apply graph_part_empty in Hoz; [|done]. apply graph_part_empty in Hoy; [|done]. congruence. }
    intros b c w. destruct (decide (b = a)) as [->|], (decide (c = a)) as [->|];
      rewrite ?lookup_insert, ?lookup_insert_ne by done; try done.
    + intros [= <-] Hc. symmetry. by apply Hb.
    + intros Hc [= <-]. by apply Hb.
    + apply Hi.
Qed.

Lemma inv_lone_put st a v :
  inv st -> lone st a v -> l_memo st !! a = None -> fresh st v ->
  inv (memo_put a v st) /\ ext st (memo_put a v st).
Proof.
  intros Hi Hl Ha Hf.
  assert (ext st (memo_put a v st)) as He.
  { split; simpl; [done|lia|by apply insert_subseteq]. }
  split; [|done]. split; simpl; try apply Hi.
  - intros b w. destruct (decide (b = a)) as [->|Hne].
    + rewrite lookup_insert. intros [= <-]. right. by eapply lone_mono.
    + rewrite lookup_insert_ne by done. intros Hb. destruct (iv_memo _ Hi _ _ Hb) as [(z & H1 & H2 & H3)|H1]; [left|right; by eapply lone_mono].
      exists z. split_and!; auto. eapply matched_mono; eauto.
  - intros b c w. destruct (decide (b = a)) as [->|], (decide (c = a)) as [->|];
      rewrite ?lookup_insert, ?lookup_insert_ne by done; try done.
    + intros [= <-] Hc. by destruct (proj2 Hf c).
    + intros Hc [= <-]. by destruct (proj2 Hf b).
    + apply Hi.
Qed.

(** ** Keys of loaded objects *)
Definition atom (k : hv) : bool :=
  match k with HNan _ | HId _ | HCons _ _ => false | _ => true end.
Inductive kmatch (st : lst) : hv -> hv -> Prop :=
| km_atom k : atom k = true -> kmatch st k k
| km_nan l l' : kmatch st (HNan l) (HNan l')
| km_id y v : memo_rel st y v -> kmatch st (HId y) (HId v)
| km_cons a a' r r' : kmatch st a a' -> kmatch st r r' -> kmatch st (HCons a r) (HCons a' r').

Lemma kmatch_inj st k1 k2 k' :
  inv st -> kmatch st k1 k' -> kmatch st k2 k' -> coarse k1 = coarse k2.
Proof.
  intros Hi H1. revert k2. induction H1 as [k Hk|l l'|y v (a & Ha & Hv)|a a' r r' H1 IH1 H2 IH2]; intros k2 H'.
  - inversion H'; subst; try done.
  - inversion H'; subst; done.
  - inversion H' as [| |y2 v2 (b & Hb & Hv2)|]; subst; [done|].
    assert (a = b) as -> by (by eapply (iv_inj _ Hi)). simpl.
    f_equal. by eapply (ws_memo_inj _ _ _ Hw).
  - inversion H'; subst; [done|]. simpl. f_equal; auto.
Qed.
Lemma kmatch_mono st st' k k' : kmatch st k k' -> l_memo st ⊆ l_memo st' -> kmatch st' k k'.
Proof. induction 1; intros Hs; constructor; auto. by eapply memo_rel_mono. Qed.

Lemma kmatch_num st l l' n n' : num_val n' = num_val n -> kmatch st (num_hv l n) (num_hv l' n').
Proof. intros He. unfold num_hv. rewrite He. destruct (num_val n) as [x y]. destruct (_ || _); by constructor. Qed.

Lemma kmatch_list st ks ks' :
  Forall2 (kmatch st) ks ks' -> kmatch st (foldr HCons HNil ks) (foldr HCons HNil ks').
Proof. induction 1; simpl; by constructor. Qed.

(** Values a dict key stored by name can have. *)
Definition simple (v : val) : bool :=
  match v with VNone | VNum _ | VStr _ | VBytes _ => true | _ => false end.
Lemma hval_simple st fuel y v o k :
  H !! y = Some o -> m_heap (l_mem st) !! v = Some o -> simple (oval o) = true ->
  hval fuel H y = Ok k -> exists k', hval fuel (m_heap (l_mem st)) v = Ok k' /\ kmatch st k k'.
Proof.
  intros Hy Hv Hs. destruct fuel as [|fuel]; simpl; [done|]. rewrite Hy, Hv.
  destruct o as [c []]; try done; simpl; intros [= <-]; eexists; (split; [done|]); try (by constructor).
  by apply kmatch_num.
Qed.
Lemma hval_number st fuel y v k :
  same_number H (m_heap (l_mem st)) y v -> hval fuel H y = Ok k ->
  exists k', hval fuel (m_heap (l_mem st)) v = Ok k' /\ kmatch st k k'.
Proof.
  intros (c & n & c' & n' & H1 & H2 & H3 & _). destruct fuel as [|fuel]; simpl; [done|]. rewrite H1, H2.
  intros [= <-]. eexists. split; [done|]. by apply kmatch_num.
Qed.

Lemma hval_rel st fuel : forall y v k,
  inv st -> graph_ok E H y -> rel st y v -> hval fuel H y = Ok k ->
  exists k', hval fuel (m_heap (l_mem st)) v = Ok k' /\ kmatch st k k'.
Proof.
  induction fuel as [|fuel IH]; intros y v k Hi Hg Hr; [done|].
  destruct (graph_ok_imported _ _ _ Hg) as (oi & Hoi & Himp).
  destruct Hr as [Hm|[(o & Ho & Hs & _ & Hv)|(o & o' & c & Ho & _ & Hno & _)]].
  2: { intros Hk. clear oi Hoi Himp. eapply hval_simple; eauto. unfold scalar in Hs. by destruct (oval o). }
  2: { congruence. }
  destruct (memo_matched st y v Hi Hm) as (o & o' & Ho & Hv & Hso).
  unfold stands_for in Hso. rewrite Ho in Hoi. inversion Hoi; subst oi. rewrite Himp in Hso. clear Hoi Himp.
  simpl. rewrite Ho, Hv. destruct o as [c vo], o' as [c' vo']. destruct Hso as [Hc Hso]. simpl in *. subst c'.
  destruct vo; simpl; try done; try (destruct vo'; try naive_solver; destruct Hso as [_ [=]]).
  - intros [= <-]. exists HNone. split; [done|by constructor].
  - intros [= <-]. subst n0. eexists. split; [done|]. by apply kmatch_num.
  - intros [= <-]. subst. eexists. split; [done|]. by constructor.
  - intros [= <-]. subst. eexists. split; [done|]. by constructor.
  - destruct (isinst c CTuple) eqn:Et; [|done].
    assert (isinst c CSet = false /\ (forall z, z ∈ xs -> graph_ok E H z)) as [Hns Hch].
    { inversion Hg as [? o0 Ho0 Hso0 _ _ _ Hch]; subst. rewrite Ho in Ho0. inversion Ho0; subst o0. clear Ho0. split; [|exact Hch].
      rewrite isinst_base in Et |- * by done. inversion Hso0 as [| | | |? ? Hb _|? ? Hb _ _| | | | | | | |]; subst; try done.
      - destruct Hb as [E0|E0]; rewrite E0 in *; done.
      - rewrite Hb in Et. done. }
    rewrite Hns in Hso. destruct vo' as [| | | |ys| | | | | | | | | |]; try naive_solver.
    destruct (res_mapM (hval fuel H) xs) as [ks|] eqn:Em; [|done]. simpl. intros [= <-].
    apply res_mapM_ok in Em.
    assert (exists ks', Forall2 (fun x k' => hval fuel (m_heap (l_mem st)) x = Ok k') ys ks' /\ Forall2 (kmatch st) ks ks')
      as (ks' & H1 & H2).
    { clear -Em Hso IH Hch Hi. destruct Hso as [Hf|(_ & Hf & _)].
      - revert ks Em. induction Hf as [|x y xs ys Hxy Hf IHf]; intros ks Em; inversion Em as [|? y0 ? l' Hy0 Em']; subst.
        + by exists [].
        + destruct (IH x y y0) as (k1 & K1 & K2); auto. { apply Hch. constructor. }
          destruct (IHf (fun z Hz => Hch z (elem_of_list_further _ _ _ Hz)) _ Em') as (ks' & K3 & K4).
          exists (k1 :: ks'). split; by constructor.
      - revert ks Em. induction Hf as [|x y xs ys Hxy Hf IHf]; intros ks Em; inversion Em as [|? y0 ? l' Hy0 Em']; subst.
        + by exists [].
        + destruct (hval_number st fuel x y y0) as (k1 & K1 & K2); auto.
          destruct (IHf (fun z Hz => Hch z (elem_of_list_further _ _ _ Hz)) _ Em') as (ks' & K3 & K4).
          exists (k1 :: ks'). split; by constructor. }
    assert (res_mapM (hval fuel (m_heap (l_mem st))) ys = Ok ks') as -> by (by apply res_mapM_ok).
    eexists. split; [done|]. by apply kmatch_list.
  - subst. intros [= <-]. eexists. split; [done|]. by constructor.
  - intros [= <-]. destruct vo'; try naive_solver. eexists. split; [done|]. by constructor.
  - subst. destruct k0; try done; intros [= <-]; eexists; (split; [done|]); constructor; done.
Qed.
End Load.
