(** * Det4: a file of hickle 4 holds one value at each node *)
From Verif Require Import Base Utf8 Utf8Proofs Dec DecProofs Num NumProofs PyObj H5 Env Create Repr Spec4.
From Coq Require Import Lia ZifyBool ZifyN.
Local Open Scope N_scope.
Local Open Scope list_scope.

Arguments str : simpl never.

(** ** Induction on values *)
Section Ind.
Context (P : val4 -> Prop).
Context (HNone' : P QNone) (HNum' : forall c n, P (QNum c n)) (HStr' : forall s, P (QStr s)) (HBytes' : forall b, P (QBytes b))
  (HSeq' : forall c xs, Forall P xs -> P (QSeq c xs))
  (HDict' : forall c kvs, Forall (fun kv => P (snd kv)) kvs -> P (QDict c kvs))
  (HArr' : forall d sh vs, P (QArr d sh vs)) (HStrArr' : forall w sh vs, P (QStrArr w sh vs))
  (HObjArr' : forall x, P x -> P (QObjArr x)) (HPickled' : forall c k n, P (QPickled c k n))
  (HSparse' : forall k d dims vs ix ip sh, P (QSparse k d dims vs ix ip sh))
  (HMasked' : forall d dims vs ms, P (QMasked d dims vs ms)).
Fixpoint val4_ind' (v : val4) : P v :=
  match v with
  | QNone => HNone' | QNum c n => HNum' c n | QStr s => HStr' s | QBytes b => HBytes' b
  | QSeq c xs => HSeq' c xs ((fix go xs : Forall P xs :=
      match xs with [] => Coq.Lists.List.Forall_nil _ | x :: r => Coq.Lists.List.Forall_cons _ x r (val4_ind' x) (go r) end) xs)
  | QDict c kvs => HDict' c kvs ((fix go kvs : Forall (fun kv => P (snd kv)) kvs :=
      match kvs with [] => Coq.Lists.List.Forall_nil _ | (k, x) :: r => Coq.Lists.List.Forall_cons _ (k, x) r (val4_ind' x) (go r) end) kvs)
  | QArr d sh vs => HArr' d sh vs | QStrArr w sh vs => HStrArr' w sh vs
  | QObjArr x => HObjArr' x (val4_ind' x) | QPickled c k n => HPickled' c k n
  | QSparse k d dims vs ix ip sh => HSparse' k d dims vs ix ip sh
  | QMasked d dims vs ms => HMasked' d dims vs ms
  end.
End Ind.

Lemma all2_Forall2 {A B} (R : A -> B -> Prop) xs ys : all2 R xs ys <-> Forall2 R xs ys.
Proof.
  revert ys. induction xs as [|x xs IH]; intros [|y ys]; simpl; try (split; [done|by inversion 1]).
  rewrite IH. split; [intros [? ?]; by constructor|]. by inversion 1.
Qed.

(** ** Attributes *)
Lemma attrs4_base t b more : attrs4 t b more !! a_base_type = Some (AStr b).
Proof. unfold attrs4. destruct t; simpl; [rewrite lookup_insert_ne by done|]; by rewrite lookup_insert. Qed.
Lemma attrs4_type t b more : (list_to_map more : attrs) !! a_type = None -> attrs4 t b more !! a_type = option_map APickle t.
Proof.
  intros H. unfold attrs4. destruct t; simpl; [by rewrite lookup_insert|]. rewrite lookup_insert_ne by done. done.
Qed.
Lemma attrs4_more t b more k : k <> a_type -> k <> a_base_type -> attrs4 t b more !! k = (list_to_map more : attrs) !! k.
Proof.
  intros H1 H2. unfold attrs4. destruct t; simpl; rewrite ?lookup_insert_ne by done; done.
Qed.

Lemma node4_det f a at1 b1 at2 b2 : node4 f a at1 b1 -> node4 f a at2 b2 -> at1 = at2 /\ b1 = b2.
Proof. intros [n1 H1] [n2 H2]. rewrite H1 in H2. by inversion H2. Qed.

(** ** Keys *)
Lemma key_det E k k' : env_ok E -> key_ok4 k -> key_ok4 k' -> key_cls k = key_cls k' -> key_name4 E k = key_name4 E k' -> k = k'.
Proof.
  intros HE. destruct k as [s|c n|], k' as [s'|c' n'|]; simpl; intros H1 H2 Hc Hn; try done; try (subst; destruct H1; done); try (subst; destruct H2; done).
  - f_equal. injection Hn as Hq Hs. rewrite Hq in Hs. by apply app_inj_2 in Hs as [Hs _].
  - subst c'. destruct H1 as (K1 & N1 & F1), H2 as (K2 & N2 & F2).
    destruct c; try done; destruct n, n'; try done; simpl in Hn.
    + by subst.
    + f_equal. f_equal. assert (Ok z = Ok z0) as [= ->]; [|done]. by rewrite <-(Z_parse_dec z), <-(Z_parse_dec z0), Hn.
    + f_equal. f_equal. assert (Some f = Some f0) as [= ->]; [|done].
      rewrite <-(ok_fparse E HE f F1), <-(ok_fparse E HE f0 F2). by rewrite Hn.
    + destruct F1 as [A1 A2], F2 as [B1 B2].
      pose proof (ok_cparse E HE _ _ A1 A2) as X. rewrite Hn, (ok_cparse E HE _ _ B1 B2) in X. by inversion X.
Qed.

(** ** Members *)
Lemma named_items_in i as_ nm a : (nm, a) ∈ named_items i as_ <-> exists j, as_ !! j = Some a /\ nm = item_name (i + N.of_nat j).
Proof.
  revert i. induction as_ as [|b r IH]; intros i; simpl.
  - split; [by intros ?%elem_of_nil|]. by intros (? & ? & _).
  - rewrite elem_of_cons, IH. split.
    + intros [[= -> ->]|(j & Hj & ->)]; [exists O|exists (S j)]; (split; [done|f_equal; lia]).
    + intros ([|j] & Hj & ->); simpl in Hj.
      * left. injection Hj as ->. do 2 f_equal. lia.
      * right. exists j. split; [done|]. f_equal. lia.
Qed.
Lemma named_items_length i as_ : length (named_items i as_) = length as_.
Proof. revert i. induction as_; intros; simpl; auto. Qed.
Lemma item_name_inj i j : item_name i = item_name j -> i = j.
Proof. unfold item_name. intros H. apply app_inv_head in H. by apply N_dec_inj in H. Qed.
Lemma mask_name_no_item i j : item_name i <> item_name j ++ str "_mask".
Proof.
  unfold item_name. intros H. apply (f_equal (@rev N)) in H. rewrite !rev_app_distr in H.
  destruct (rev (N_dec i)) as [|c r] eqn:Er.
  - apply (f_equal (@rev N)) in Er. rewrite rev_involutive in Er. cbn [rev] in Er. by apply N_dec_nonempty in Er.
  - change (rev (str "_mask")) with [107; 115; 97; 109; 95] in H. cbn [app] in H. injection H as -> _.
    assert (Forall (fun c => is_digit c = true) (rev (N_dec i))) as Hd by (apply Forall_rev, N_dec_digit).
    rewrite Er in Hd. apply Forall_cons_1 in Hd as [Hd _]. discriminate Hd.
Qed.
Lemma named_items_perm f as1 as2 ms1 ms2 : Forall (mask_member f (length as1)) ms1 -> Forall (mask_member f (length as2)) ms2 ->
  Permutation (named_items 0 as1 ++ ms1) (named_items 0 as2 ++ ms2) -> as1 = as2.
Proof.
  intros H1 H2 Hp.
  assert (forall as1 as2 ms1 ms2, Forall (mask_member f (length as2)) ms2 -> Permutation (named_items 0 as1 ++ ms1) (named_items 0 as2 ++ ms2) ->
    forall (i : nat) x, as1 !! i = Some x -> as2 !! i = Some x) as X.
  { clear. intros as1 as2 ms1 ms2 H2 Hp i x Hx.
    assert ((item_name (0 + N.of_nat i), x) ∈ named_items 0 as2 ++ ms2) as H.
    { rewrite <-Hp. apply elem_of_app. left. apply named_items_in. by exists i. }
    apply elem_of_app in H as [H|H].
    - apply named_items_in in H as (j & Hj & He). apply item_name_inj in He. assert (j = i) as -> by lia. done.
    - rewrite list.Forall_forall in H2. destruct (H2 _ H) as (j & d & _ & He & _). by apply mask_name_no_item in He. }
  apply list_eq. intros i. destruct (as1 !! i) as [x|] eqn:E1.
  - symmetry. exact (X _ _ _ _ H2 Hp i x E1).
  - destruct (as2 !! i) as [x|] eqn:E2; [|done]. symmetry in Hp. rewrite (X _ _ _ _ H1 Hp i x E2) in E1. discriminate E1.
Qed.

Lemma items4_lookup E f i ks as_ bs : items4 E f i ks as_ bs ->
  length as_ = length ks /\ length bs = length ks /\
  forall j k a b, ks !! j = Some k -> as_ !! j = Some a -> bs !! j = Some b -> item4 E f (i + N.of_nat j) k b a.
Proof.
  revert i as_ bs. induction ks as [|k ks IH]; intros i [|a as_] [|b bs]; simpl; try done.
  intros [H1 H2]. destruct (IH _ _ _ H2) as (L1 & L2 & Hj). split_and!; [lia|lia|].
  intros [|j] k' a' b'; simpl.
  - intros [= <-] [= <-] [= <-]. by replace (i + 0) with i by lia.
  - intros Ek Ea Eb. replace (i + N.pos (Pos.of_succ_nat j)) with (i + 1 + N.of_nat j) by lia. eauto.
Qed.

Lemma item_attrs_det k i k' i' : item_attrs k i = item_attrs k' i' -> key_cls k = key_cls k' /\ i = i'.
Proof.
  intros H. split.
  - assert (item_attrs k i !! str "key_type" = item_attrs k' i' !! str "key_type") as A by (by rewrite H).
    unfold item_attrs in A. rewrite !attrs4_more in A by done. simpl in A.
    rewrite !(lookup_insert_ne _ a_key_base_type), !lookup_insert in A by done. by inversion A.
  - assert (item_attrs k i !! a_key_idx = item_attrs k' i' !! a_key_idx) as A by (by rewrite H).
    unfold item_attrs in A. rewrite !attrs4_more in A by done. simpl in A.
    rewrite !(lookup_insert_ne _ a_key_base_type), !(lookup_insert_ne _ (str "key_type")), !lookup_insert in A by done. inversion A. lia.
Qed.

Lemma item4_det E f i k b i' k' b' a : item4 E f i k b a -> item4 E f i' k' b' a -> item_attrs k i = item_attrs k' i' /\ b = b'.
Proof.
  intros (l & N1 & H1) (l' & N2 & H2). destruct (node4_det _ _ _ _ _ _ N1 N2) as [Ha [= <-]]. split; [done|].
  destruct H1 as [-> |(c & d & _ & P1 & O1)], H2 as [H2|(c' & d' & _ & P2 & O2)].
  - by injection H2.
  - apply Permutation_length in P2. discriminate P2.
  - subst l. apply Permutation_length in P1. discriminate P1.
  - rewrite O1 in O2. by injection O2.
Qed.

(** The members of a dict determine the keys and where the values are. *)
Lemma items4_det E f ks1 as1 bs1 ks2 as2 bs2 : env_ok E ->
  Forall key_ok4 ks1 -> Forall key_ok4 ks2 ->
  items4 E f 0 ks1 as1 bs1 -> items4 E f 0 ks2 as2 bs2 ->
  Permutation (zip (map (key_name4 E) ks1) as1) (zip (map (key_name4 E) ks2) as2) ->
  ks1 = ks2 /\ bs1 = bs2.
Proof.
  intros HE K1 K2 I1 I2 Hp.
  apply items4_lookup in I1 as (L1 & M1 & I1). apply items4_lookup in I2 as (L2 & M2 & I2).
  assert (length ks1 = length ks2) as HL.
  { apply Permutation_length in Hp. rewrite !zip_with_length, !map_length in Hp. lia. }
  assert (forall i k1 b1 k2 b2, ks1 !! i = Some k1 -> bs1 !! i = Some b1 -> ks2 !! i = Some k2 -> bs2 !! i = Some b2 -> k1 = k2 /\ b1 = b2) as H.
  { intros i k1 b1 k2 b2 E1 B1 E2 B2.
    destruct (lookup_lt_is_Some_2 as1 i) as [a Ea]. { rewrite L1. by eapply lookup_lt_Some. }
    assert ((key_name4 E k1, a) ∈ zip (map (key_name4 E) ks2) as2) as Hin.
    { rewrite <-Hp. apply (elem_of_list_lookup_2 _ i). rewrite lookup_zip_with.
      assert (map (key_name4 E) ks1 !! i = Some (key_name4 E k1)) as -> by (by rewrite list_lookup_fmap, E1).
      simpl. by rewrite Ea. }
    apply elem_of_list_lookup in Hin as [j Hj]. rewrite lookup_zip_with in Hj.
    destruct (map (key_name4 E) ks2 !! j) as [nm|] eqn:Ej; [|done]. simpl in Hj.
    destruct (as2 !! j) as [a2|] eqn:Ea2; [|done]. simpl in Hj. injection Hj as -> ->.
    apply list_lookup_fmap_inv in Ej as (k2' & Hnm & Ek2).
    destruct (lookup_lt_is_Some_2 bs2 j) as [b2' Eb2]. { rewrite M2. by eapply lookup_lt_Some. }
    pose proof (I1 i k1 a b1 E1 Ea B1) as N1. pose proof (I2 j k2' a b2' Ek2 Ea2 Eb2) as N2.
    destruct (item4_det _ _ _ _ _ _ _ _ _ N1 N2) as [Ha Hb]. apply item_attrs_det in Ha as [Hc Hi].
    assert (i = j) as <- by lia. simplify_eq. split; [|done].
    apply (key_det E); auto; [exact (Forall_lookup_1 _ _ _ _ K1 E1)|exact (Forall_lookup_1 _ _ _ _ K2 E2)]. }
  split.
  - apply list_eq_same_length with (length ks2); [done|done|]. intros i k1 k2 _ E1 E2.
    destruct (lookup_lt_is_Some_2 bs1 i) as [b1 B1]. { rewrite M1. by eapply lookup_lt_Some. }
    destruct (lookup_lt_is_Some_2 bs2 i) as [b2 B2]. { rewrite M2. by eapply lookup_lt_Some. }
    by destruct (H i k1 b1 k2 b2).
  - apply list_eq_same_length with (length bs2); [done|lia|]. intros i b1 b2 _ B1 B2.
    destruct (lookup_lt_is_Some_2 ks1 i) as [k1 E1]. { rewrite <-M1. by eapply lookup_lt_Some. }
    destruct (lookup_lt_is_Some_2 ks2 i) as [k2 E2]. { rewrite <-M2. by eapply lookup_lt_Some. }
    by destruct (H i k1 b1 k2 b2).
Qed.

(** ** Values *)
Lemma number_of_det k k' n : number_of k n -> number_of k' n -> k = k'.
Proof. destruct k, n; try done; destruct k'; done. Qed.
Lemma map_QNum_det k k' vs : Forall (number_of k) vs -> Forall (number_of k') vs -> map (QNum k) vs = map (QNum k') vs.
Proof.
  intros H1 H2. destruct vs as [|n vs]; [done|]. inversion H1; subst. inversion H2; subst.
  by rewrite (number_of_det k k' n).
Qed.

(** The class named by the attribute 'type'. *)
Definition kind4 (v : val4) : option cls :=
  match v with
  | QNone => Some CNoneType
  | QNum c _ => Some c
  | QStr _ => Some CStr
  | QBytes _ => Some CBytes
  | QSeq c _ | QDict c _ => Some c
  | QArr _ _ _ | QStrArr _ _ _ => Some CNdarray
  | QObjArr _ => Some CFunction
  | QPickled _ _ _ => None
  | QSparse _ _ _ _ _ _ _ => Some return_first
  | QMasked _ _ _ _ => Some CMasked
  end.
Lemma stored4_kind E f v a : stored4 E f v a -> exists at_ d, node4 f a at_ d /\ at_ !! a_type = option_map APickle (kind4 v).
Proof.
  assert (forall t b more d, node4 f a (attrs4 t b more) d -> (list_to_map more : attrs) !! a_type = None ->
    exists at_ d, node4 f a at_ d /\ at_ !! a_type = option_map APickle t) as Hw.
  { intros t b more d H1 H2. eexists _, _. split; [exact H1|]. by rewrite attrs4_type. }
  destruct v; cbn [stored4 kind4]; unfold array_attrs.
  - intros [d H]. by apply (Hw _ _ _ _ H).
  - destruct c; try (intros [? [dt H]]; by apply (Hw _ _ _ _ H)). intros [? H]. by apply (Hw _ _ _ _ H).
  - intros (b & _ & H). by apply (Hw _ _ _ _ H).
  - intros H. by apply (Hw _ _ _ _ H).
  - intros [Hc [(as_ & ms & l & H & _)|[(_ & H)|[(k & d & vs & _ & _ & H)|[(w & ss & _ & _ & _ & H)|(w & bs & _ & H)]]]]];
      by apply (Hw _ _ _ _ H).
  - intros (Hc & _ & _ & as_ & bs & l & H & _). by apply (Hw _ _ _ _ H).
  - intros [_ [H|(n & _ & _ & H)]]; by apply (Hw _ _ _ _ H).
  - intros (k & _ & _ & _ & H). by apply (Hw _ _ _ _ H).
  - intros (_ & b & H & _). by apply (Hw _ _ _ _ H).
  - intros [_ H]. by apply (Hw _ _ _ _ H).
  - intros (_ & _ & a1 & a2 & a3 & a4 & l & H & _). by apply (Hw _ _ _ _ H).
  - intros (_ & _ & _ & hd & _ & H). by apply (Hw _ _ _ _ H).
Qed.
Lemma kind4_det E f v v' a : stored4 E f v a -> stored4 E f v' a -> kind4 v = kind4 v'.
Proof.
  intros H H'. apply stored4_kind in H as (at1 & d1 & N1 & T1). apply stored4_kind in H' as (at2 & d2 & N2 & T2).
  destruct (node4_det _ _ _ _ _ _ N1 N2) as [-> _]. rewrite T1 in T2. destruct (kind4 v), (kind4 v'); simpl in T2; congruence.
Qed.

Lemma stored_num E f c n a : stored4 E f (QNum c n) a ->
  (number_of c n \/ exists d, c = CNp d) /\ exists at_ d, node4 f a at_ (BData (DScalar d n)).
Proof.
  destruct c; cbn [stored4]; try (intros [H1 [dt H]]; split; [by left|by eauto]).
  intros [? H]. split; [right; by eauto|by eauto].
Qed.
Lemma array_attrs_det s s' : array_attrs s = array_attrs s' -> s = s'.
Proof.
  intros H. assert (array_attrs s !! a_np_dtype = array_attrs s' !! a_np_dtype) as A by (by rewrite H).
  unfold array_attrs in A. rewrite !attrs4_more in A by done. simpl in A. rewrite !lookup_insert in A. by inversion A.
Qed.
Lemma str_type_det c b s s' : attrs4 c b [(a_str_type, AStr s)] = attrs4 c b [(a_str_type, AStr s')] -> s = s'.
Proof.
  intros H. pose proof (f_equal (fun m : attrs => m !! a_str_type) H) as A. cbv beta in A.
  rewrite !attrs4_more in A by done. simpl in A. rewrite !lookup_insert in A. by inversion A.
Qed.

Lemma all2_det {A} E f (g : A -> val4) xs : Forall (fun x => forall v' a, stored4 E f (g x) a -> stored4 E f v' a -> g x = v') xs ->
  forall ys bs, all2 (fun x b => stored4 E f (g x) b) xs bs -> all2 (stored4 E f) ys bs -> map g xs = ys.
Proof.
  induction 1 as [|x xs Hx _ IH]; intros [|y ys] [|b bs]; simpl; try done.
  intros [H1 H2] [H3 H4]. f_equal; [by eapply Hx|by eapply IH].
Qed.

Lemma part4_det f k nm d dims vs k' nm' d' dims' vs' a : part4 f k nm d dims vs a -> part4 f k' nm' d' dims' vs' a ->
  k = k' /\ nm = nm' /\ d = d' /\ dims = dims' /\ vs = vs'.
Proof.
  intros (M & _ & N) (M' & _ & N'). destruct (node4_det _ _ _ _ _ _ N N') as [Ha [= -> -> ->]].
  assert (k = k' /\ nm = nm') as [-> ->]; [|done].
  assert (exists b, part_attrs k nm !! a_base_type = Some (AStr b) /\ part_attrs k' nm' !! a_base_type = Some (AStr b)) as (b & H1 & H2).
  { rewrite <-Ha. unfold part_attrs. case_bool_decide; rewrite attrs4_base; by eexists. }
  clear -M M' H1 H2. unfold part_names in M, M'.
  repeat (apply elem_of_cons in M as [->|M]; [|]); try by apply elem_of_nil in M.
  all: repeat (apply elem_of_cons in M' as [->|M']; [|]); try by apply elem_of_nil in M'.
  all: destruct k, k'; vm_compute in H1, H2; injection H1 as <-; try discriminate H2; split; reflexivity.
Qed.
Lemma four_members (a1 a2 a3 a4 b1 b2 b3 b4 : addr) :
  Permutation [(str "data", a1); (str "indices", a2); (str "indptr", a3); (str "shape", a4)]
              [(str "data", b1); (str "indices", b2); (str "indptr", b3); (str "shape", b4)] ->
  a1 = b1 /\ a2 = b2 /\ a3 = b3 /\ a4 = b4.
Proof.
  intros H. assert (forall nm a, (nm, a) ∈ [(str "data", a1); (str "indices", a2); (str "indptr", a3); (str "shape", a4)] ->
    nm = str "data" /\ a = b1 \/ nm = str "indices" /\ a = b2 \/ nm = str "indptr" /\ a = b3 \/ nm = str "shape" /\ a = b4) as X.
  { intros nm a Hp. rewrite H in Hp. clear -Hp. repeat (apply elem_of_cons in Hp as [[= -> ->]|Hp]; [by tauto|]). by apply elem_of_nil in Hp. }
  split_and!; [specialize (X (str "data") a1)|specialize (X (str "indices") a2)|specialize (X (str "indptr") a3)|specialize (X (str "shape") a4)].
  all: destruct X as [[X1 X2]|[[X1 X2]|[[X1 X2]|[X1 X2]]]]; try exact X2; try discriminate X1; repeat first [apply elem_of_list_here|apply elem_of_list_further].
Qed.

Lemma map_NB_inj bs bs' : map NB bs = map NB bs' -> bs = bs'.
Proof. revert bs'. induction bs as [|b bs IH]; intros [|b' bs']; simpl; try done. intros [= -> H]. f_equal. by apply IH. Qed.
Lemma has_mask_det f a dims n ms ms' : has_mask f a dims n ms -> has_mask f a dims n ms' -> ms = ms'.
Proof.
  intros (p & nm & pn & b & d & H1 & H2 & H3 & H4 & H5 & L & H6) (p' & nm' & pn' & b' & d' & H1' & H2' & H3' & H4' & H5' & L' & H6').
  destruct (H3 p' nm') as [-> ->]. { by exists pn'. }
  rewrite H1 in H1'. injection H1' as <-. rewrite H4 in H4'. injection H4' as <-.
  destruct (node4_det _ _ _ _ _ _ H5 H5') as [_ [= <-]].
  destruct H6 as [-> |(x & -> & ->)], H6' as [H6'|(x' & -> & H6')]; try discriminate H6'.
  - injection H6' as H6'. by apply map_NB_inj.
  - by injection H6' as ->.
Qed.

Lemma stored4_det E f : env_ok E -> forall v v' a, stored4 E f v a -> stored4 E f v' a -> v = v'.
Proof.
  intros HE v. induction v as [|c n|s|b|c xs IH|c kvs IH|d sh vs|w sh vs|x IH|c k n|k d dims vs ix ip sh|d dims vs ms] using val4_ind'; intros v' a H H';
    pose proof (kind4_det E f _ v' a H H') as Hk;
    destruct v' as [|c' n'|s'|b'|c' xs'|c' kvs'|d' sh' vs'|w' sh' vs'|x'|c' k' n'|k' d' dims' vs' ix' ip' sh'|d' dims' vs' ms']; cbn [kind4] in Hk; unfold return_first in Hk;
    try discriminate Hk;
    try (apply stored_num in H; destruct H as [[H|[? H]] _]; [|congruence]; injection Hk as ->; destruct n; done);
    try (apply stored_num in H'; destruct H' as [[H'|[? H']] _]; [|congruence]; injection Hk as <-; destruct n'; done);
    try (destruct H as [[Hc|Hc] _]; congruence);
    try (destruct H' as [[Hc|Hc] _]; congruence); auto.
  - apply stored_num in H as (_ & at1 & d1 & N1). apply stored_num in H' as (_ & at2 & d2 & N2).
    destruct (node4_det _ _ _ _ _ _ N1 N2) as [_ [= -> ->]]. by injection Hk as ->.
  - apply stored_num in H as [H _]. destruct H' as [Hc _]. injection Hk as ->.
    destruct Hc as [-> | ->], H as [H|[? H]]; try discriminate H; by destruct n.
  - apply stored_num in H as [H _]. destruct H' as [Hc _]. injection Hk as ->.
    destruct Hc as [-> | ->], H as [H|[? H]]; try discriminate H; by destruct n.
  - destruct H as (b1 & U1 & N1), H' as (b2 & U2 & N2). destruct (node4_det _ _ _ _ _ _ N1 N2) as [_ [= ->]].
    apply utf8_decode_encode in U1, U2. congruence.
  - cbn [stored4] in H, H'. destruct (node4_det _ _ _ _ _ _ H H') as [_ [= ->]]. done.
  - apply stored_num in H' as [H' _]. destruct H as [Hc _]. injection Hk as <-.
    destruct Hc as [-> | ->], H' as [H'|[? H']]; try discriminate H'; by destruct n'.
  - injection Hk as <-. f_equal. cbn [stored4] in H, H'. destruct H as [_ H], H' as [_ H'].
    destruct H as [(as1 & ms1 & l1 & N1 & _ & P1 & M1 & A1)|[(-> & N1)|[(k1 & d1 & vs1 & -> & K1 & N1)|[(w1 & ss1 & -> & _ & _ & N1)|(w1 & bs1 & -> & N1)]]]],
      H' as [(as2 & ms2 & l2 & N2 & _ & P2 & M2 & A2)|[(-> & N2)|[(k2 & d2 & vs2 & -> & K2 & N2)|[(w2 & ss2 & -> & _ & _ & N2)|(w2 & bs2 & -> & N2)]]]];
      destruct (node4_det _ _ _ _ _ _ N1 N2) as [Ha Hb]; try discriminate Hb; try reflexivity.
    + injection Hb as <-. rewrite P1 in P2. apply (named_items_perm f) in P2 as <-; [|done|done].
      rewrite <-(map_id xs). apply (all2_det E f id xs IH xs' as1); done.
    + injection Hb as _ _ ->. by apply map_QNum_det.
    + injection Hb as _ _ ->. done.
    + apply str_type_det in Ha. discriminate Ha.
    + apply str_type_det in Ha. discriminate Ha.
    + injection Hb as _ _ ->. done.
  - destruct H as [[Hc|Hc] _], H' as [[Hc'|Hc'] _]; congruence.
  - apply stored_num in H' as [H' _]. destruct H as [Hc _]. injection Hk as <-.
    destruct Hc as [-> | ->], H' as [H'|[? H']]; try discriminate H'; by destruct n'.
  - destruct H as [[Hc|Hc] _], H' as [[Hc'|Hc'] _]; congruence.
  - injection Hk as <-. f_equal. cbn [stored4] in H, H'. destruct H as (_ & K1 & _ & as1 & bs1 & l1 & N1 & P1 & I1 & A1), H' as (_ & K2 & _ & as2 & bs2 & l2 & N2 & P2 & I2 & A2).
    destruct (node4_det _ _ _ _ _ _ N1 N2) as [_ [= <-]]. rewrite P1 in P2.
    rewrite <-!(map_map fst (key_name4 E)) in P2.
    assert (Forall key_ok4 (map fst kvs)) as K1' by (by apply Forall_map).
    assert (Forall key_ok4 (map fst kvs')) as K2' by (by apply Forall_map).
    destruct (items4_det E f _ as1 bs1 _ as2 bs2 HE K1' K2' I1 I2 P2) as [Hk <-].
    assert (map snd kvs = map snd kvs') as Hv.
    { apply (all2_det E f snd kvs IH (map snd kvs') bs1).
      - apply all2_Forall2 in A1. apply all2_Forall2. eapply Forall2_impl; [exact A1|]. by intros [] ?.
      - apply all2_Forall2 in A2. apply all2_Forall2. apply Forall2_fmap_l. eapply Forall2_impl; [exact A2|]. by intros [] ?. }
    revert Hk Hv. clear. revert kvs'. induction kvs as [|[k x] kvs IH]; intros [|[k' x'] kvs']; simpl; try done.
    intros [= -> H1] [= -> H2]. f_equal. by apply IH.
  - cbn [stored4] in H, H'. destruct H as [_ [N1|(n1 & -> & -> & N1)]], H' as [_ [N2|(n2 & -> & -> & N2)]];
      destruct (node4_det _ _ _ _ _ _ N1 N2) as [_ Hb]; try discriminate Hb; by inversion Hb.
  - cbn [stored4] in H, H'. destruct H' as (k2 & _ & _ & _ & N2). destruct H as [_ [N1|(n1 & -> & -> & N1)]];
      destruct (node4_det _ _ _ _ _ _ N1 N2) as [_ Hb]; discriminate Hb.
  - cbn [stored4] in H, H'. destruct H as (k2 & _ & _ & _ & N2). destruct H' as [_ [N1|(n1 & -> & -> & N1)]];
      destruct (node4_det _ _ _ _ _ _ N1 N2) as [_ Hb]; discriminate Hb.
  - cbn [stored4] in H, H'. destruct H as (k1 & _ & _ & _ & N1). destruct H' as (k2 & _ & _ & _ & N2).
    destruct (node4_det _ _ _ _ _ _ N1 N2) as [Ha Hb]. apply array_attrs_det in Ha. apply app_inv_head in Ha.
    apply N_dec_inj in Ha as ->. by inversion Hb.
  - cbn [stored4] in H, H'. destruct H as (_ & b1 & N1 & S1). destruct H' as (_ & b2 & N2 & S2).
    destruct (node4_det _ _ _ _ _ _ N1 N2) as [_ [= ->]]. f_equal. by eapply IH.
  - cbn [stored4] in H, H'. destruct H as [_ N1], H' as [_ N2]. by destruct (node4_det _ _ _ _ _ _ N1 N2) as [_ [= -> -> ->]].
  - cbn [stored4] in H, H'. destruct H as (_ & _ & a1 & a2 & a3 & a4 & l & N & P & D1 & D2 & D3 & D4).
    destruct H' as (_ & _ & a1' & a2' & a3' & a4' & l' & N' & P' & D1' & D2' & D3' & D4').
    destruct (node4_det _ _ _ _ _ _ N N') as [_ [= <-]]. rewrite P in P'. apply four_members in P' as (<- & <- & <- & <-).
    unfold vector4 in *. destruct ix, ip, sh, ix', ip', sh'. cbn [fst snd] in *.
    destruct (part4_det _ _ _ _ _ _ _ _ _ _ _ _ D1 D1') as (<- & _ & <- & <- & <-).
    destruct (part4_det _ _ _ _ _ _ _ _ _ _ _ _ D2 D2') as (_ & _ & <- & _ & <-).
    destruct (part4_det _ _ _ _ _ _ _ _ _ _ _ _ D3 D3') as (_ & _ & <- & _ & <-).
    destruct (part4_det _ _ _ _ _ _ _ _ _ _ _ _ D4 D4') as (_ & _ & <- & _ & <-). done.
  - cbn [stored4] in H, H'. destruct H as (_ & _ & M & hd & D & N). destruct H' as (_ & _ & M' & hd' & D' & N').
    destruct (node4_det _ _ _ _ _ _ N N') as [Ha [= <-]].
    assert (d = d' /\ dims = dims' /\ vs = vs') as (<- & <- & <-).
    { destruct D as [-> |(n & -> & -> & ->)], D' as [D'|(n' & -> & -> & D')]; try discriminate D'; by injection D' as -> ->. }
    f_equal. by eapply has_mask_det.
Qed.
