(** * Again: what was loaded once can be dumped and loaded again *)
From Verif Require Import Base Utf8 Dec Num NumProofs PyObj H5 Env Create Repr LoadFns LoadModel Registry DumpStored RegistryStd Spec
  LoadBase LoadInv.
From Coq Require Import Lia ZifyBool ZifyN.
Local Open Scope N_scope.
Local Open Scope list_scope.

(** ** Specification *)

(** CPython has one empty tuple only. *)
Definition one_empty_tuple (h : heap) : Prop := forall y, h !! y = Some empty_tuple -> y = nobody.

Lemma Forall2_perm {A B : Type} (P : A -> B -> Prop) (xs ys : list A) :
  Permutation xs ys -> forall ks, Forall2 P xs ks -> exists ks', Permutation ks ks' /\ Forall2 P ys ks'.
Proof.
  induction 1 as [|x xs ys Hp IH|x y xs|xs ys zs H1 IH1 H2 IH2]; intros ks Hk.
  - inversion Hk; subst. by exists [].
  - inversion Hk as [|? k ? ks0 Hx Hk']; subst. destruct (IH _ Hk') as (ks' & A1 & A2). exists (k :: ks'). split; by constructor.
  - inversion Hk as [|? k ? ks0 Hx Hk']; subst. inversion Hk' as [|? k2 ? ks1 Hx2 Hk2]; subst.
    exists (k2 :: k :: ks1). split; repeat constructor; done.
  - destruct (IH1 _ Hk) as (ks' & A1 & A2). destruct (IH2 _ A2) as (ks2 & A3 & A4). exists ks2. split; [by etransitivity|done].
Qed.

Section Again.
Context (E : env) (h h' : heap) (R : loc -> loc -> Prop).
Context (HR : forall a b, R a b -> exists o o', h !! a = Some o /\ h' !! b = Some o' /\ same_obj h h' R o o').
Context (HI : forall a a' b, R a b -> R a' b -> (forall o, h !! a = Some o -> ~ scalar o) -> a = a').

(** ** Keys *)
Inductive km : hv -> hv -> Prop :=
| km_atom k : atom k = true -> km k k
| km_nan l l' : km (HNan l) (HNan l')
| km_id y v : R y v -> (forall o, h !! y = Some o -> ~ scalar o) -> km (HId y) (HId v)
| km_cons a a' r r' : km a a' -> km r r' -> km (HCons a r) (HCons a' r').

Lemma km_inj k1 k1' : km k1 k1' -> forall k2 k2', km k2 k2' -> coarse k1' = coarse k2' -> coarse k1 = coarse k2.
Proof.
  induction 1 as [k Hk|l l'|y v Hv Hs|a a' r r' H1 IH1 H2 IH2]; intros k2 k2' H' He.
  - inversion H'; subst; try done; by destruct k.
  - inversion H'; subst; try done; by destruct k2'.
  - inversion H' as [k Hk|l l'|y2 v2 Hv2 Hs2|]; subst; try done.
    + by destruct k2'.
    + simpl in He. injection He as <-. simpl. f_equal. by eapply HI.
  - inversion H'; subst; try done; [by destruct k2'|]. simpl in *. injection He as He1 He2. f_equal; eauto.
Qed.
Lemma km_num l l' n n' : num_val n' = num_val n -> km (num_hv l n) (num_hv l' n').
Proof. intros He. unfold num_hv. rewrite He. destruct (num_val n) as [x y]. destruct (_ || _); by constructor. Qed.
Lemma km_list ks ks' : Forall2 km ks ks' -> km (foldr HCons HNil ks) (foldr HCons HNil ks').
Proof. induction 1; simpl; by constructor. Qed.

Lemma hval_plain fuel y v o k :
  h !! y = Some o -> h' !! v = Some o -> plain o -> hval fuel h y = Ok k -> exists k', hval fuel h' v = Ok k' /\ km k k'.
Proof.
  intros Hy Hv Hs. destruct fuel as [|fuel]; simpl; [done|]. rewrite Hy, Hv.
  destruct o as [c []]; try done; simpl; intros [= <-]; eexists; (split; [done|]); try (by constructor).
  by apply km_num.
Qed.
Lemma hval_num fuel y v k :
  same_number h h' y v -> hval fuel h y = Ok k -> exists k', hval fuel h' v = Ok k' /\ km k k'.
Proof.
  intros (c & n & c' & n' & H1 & H2 & H3 & _). destruct fuel as [|fuel]; simpl; [done|]. rewrite H1, H2.
  intros [= <-]. eexists. split; [done|]. by apply km_num.
Qed.

Lemma hval_R fuel : forall y v k, graph_ok E h y -> R y v -> hval fuel h y = Ok k ->
  exists k', hval fuel h' v = Ok k' /\ km k k'.
Proof.
  induction fuel as [|fuel IH]; intros y v k Hg Hr; [done|].
  destruct (HR y v Hr) as (o & o' & Ho & Hv & Hso).
  simpl. rewrite Ho, Hv. destruct o as [c vo], o' as [c' vo']. destruct Hso as [Hc Hso]. simpl in *. subst c'.
  destruct vo; simpl; try done; try (destruct vo'; try naive_solver; destruct Hso as [_ [=]]).
  - intros [= <-]. exists HNone. split; [done|by constructor].
  - intros [= <-]. subst n0. eexists. split; [done|]. by apply km_num.
  - intros [= <-]. subst. eexists. split; [done|]. by constructor.
  - intros [= <-]. subst. eexists. split; [done|]. by constructor.
  - destruct (isinst c CTuple) eqn:Et; [|done].
    assert (isinst c CSet = false /\ (forall z, z ∈ xs -> graph_ok E h z)) as [Hns Hch].
    { inversion Hg as [? o0 Ho0 Hso0 _ _ _ Hch]; subst. rewrite Ho in Ho0. inversion Ho0; subst o0. clear Ho0. split; [|exact Hch].
      rewrite isinst_base in Et |- * by done. inversion Hso0 as [| | | |? ? Hb _|? ? Hb _ _| | | | | | | |]; subst; try done.
      - destruct Hb as [E0|E0]; rewrite E0 in *; done.
      - rewrite Hb in Et. done. }
    rewrite Hns in Hso. destruct vo' as [| | | |ys| | | | | | | | | |]; try naive_solver.
    destruct (res_mapM (hval fuel h) xs) as [ks|] eqn:Em; [|done]. simpl. intros [= <-].
    apply res_mapM_ok in Em.
    assert (exists ks', Forall2 (fun x k' => hval fuel h' x = Ok k') ys ks' /\ Forall2 km ks ks') as (ks' & H1 & H2).
    { clear -Em Hso IH Hch. destruct Hso as [Hf|(_ & Hf & _)].
      - revert ks Em. induction Hf as [|x y xs ys Hxy Hf IHf]; intros ks Em; inversion Em as [|? y0 ? l' Hy0 Em']; subst.
        + by exists [].
        + destruct (IH x y y0) as (k1 & K1 & K2); auto. { apply Hch. constructor. }
          destruct (IHf (fun z Hz => Hch z (elem_of_list_further _ _ _ Hz)) _ Em') as (ks' & K3 & K4).
          exists (k1 :: ks'). split; by constructor.
      - revert ks Em. induction Hf as [|x y xs ys Hxy Hf IHf]; intros ks Em; inversion Em as [|? y0 ? l' Hy0 Em']; subst.
        + by exists [].
        + destruct (hval_num fuel x y y0) as (k1 & K1 & K2); auto.
          destruct (IHf (fun z Hz => Hch z (elem_of_list_further _ _ _ Hz)) _ Em') as (ks' & K3 & K4).
          exists (k1 :: ks'). split; by constructor. }
    assert (res_mapM (hval fuel h') ys = Ok ks') as -> by (by apply res_mapM_ok).
    eexists. split; [done|]. by apply km_list.
  - subst. intros [= <-]. eexists. split; [done|]. by constructor.
  - destruct vo'; try (by destruct Hso). intros [= <-]. eexists. split; [done|]. constructor; [done|]. intros o. rewrite Ho.
    intros [= <-]. by intros [].
  - subst. destruct k0; try done; intros [= <-]; eexists; (split; [done|]); constructor; try done.
    intros o. rewrite Ho. intros [= <-]. by intros [].
Qed.

(** An object and its copy, where it is used as a key or item. *)
Definition twin (x y : loc) : Prop := R x y \/ same_leaf h h' x y \/ same_number h h' x y.
Lemma hval_twin x y k : graph_ok E h x -> twin x y -> hashes h x k -> exists k', hashes h' y k' /\ km k k'.
Proof.
  intros Hg Ht [fuel Hk]. destruct Ht as [Hr|[(o & H1 & H2 & H3)|Hn]].
  - destruct (hval_R fuel x y k Hg Hr Hk) as (k' & A & B). exists k'. split; [by exists fuel|done].
  - destruct (hval_plain fuel x y o k H1 H3 H2 Hk) as (k' & A & B). exists k'. split; [by exists fuel|done].
  - destruct (hval_num fuel x y k Hn Hk) as (k' & A & B). exists k'. split; [by exists fuel|done].
Qed.

Lemma distinct_again xs ys :
  (forall x, x ∈ xs -> graph_ok E h x) -> Forall2 twin xs ys -> distinct_keys h xs -> distinct_keys h' ys.
Proof.
  intros Hg Ht (ks & Hk & Hnd).
  assert (exists ks', Forall2 (hashes h') ys ks' /\ Forall2 km ks ks') as (ks' & H1 & H2).
  { clear Hnd. revert ks Hk. induction Ht as [|x y xs ys Hxy Ht IH]; intros ks Hk; inversion Hk as [|? k ? ks0 Hx Hk']; subst.
    - exists []. by split.
    - destruct (hval_twin x y k (Hg x (elem_of_list_here _ _)) Hxy Hx) as (k' & A & B).
      destruct (IH (fun z Hz => Hg z (elem_of_list_further _ _ _ Hz)) _ Hk') as (ks' & C & D).
      exists (k' :: ks'). split; by constructor. }
  exists ks'. split; [done|]. clear -Hnd H2 HI. induction H2 as [|k k' ks ks' Hk H2 IH]; simpl in *; [constructor|].
  apply list.NoDup_cons in Hnd as [Hn Hnd]. apply list.NoDup_cons. split; [|by apply IH]. intros Hin. apply Hn. clear Hn.
  apply elem_of_list_fmap in Hin as (k2' & He & Hin). apply elem_of_list_lookup in Hin as [i Hin].
  destruct (Forall2_lookup_r _ _ _ _ _ H2 Hin) as (k2 & Hk2 & Hm). apply elem_of_list_fmap. exists k2.
  split; [|by eapply elem_of_list_lookup_2]. by eapply km_inj.
Qed.
Lemma distinct_perm hp xs ys : Permutation xs ys -> distinct_keys hp xs -> distinct_keys hp ys.
Proof.
  intros Hp (ks & Hk & Hnd). destruct (Forall2_perm _ xs ys Hp ks Hk) as (ks' & A & B).
  exists ks'. split; [exact B|]. by rewrite <-(Permutation_map coarse A).
Qed.

(** ** Numbers *)
Lemma twin_class x y : twin x y -> (exists o o', h !! x = Some o /\ h' !! y = Some o' /\ ocls o' = ocls o /\
    (plain o -> o' = o) /\ (~ plain o -> ~ plain o')) \/
  same_number h h' x y.
Proof.
  intros [Hr|[(o & H1 & H2 & H3)|Hn]]; [left|left|by right].
  - destruct (HR x y Hr) as ([c v] & [c' v'] & Ho & Ho' & Hc & Hs). simpl in *. subst c'. exists (Obj c v), (Obj c v'). split_and!; auto.
    + intros Hp. destruct v; try done; destruct v'; simpl in Hs; naive_solver.
    + intros Hp Hp'. apply Hp. destruct v'; try done; destruct v; try done; simpl in Hs; naive_solver.
  - exists o, o. split_and!; auto.
Qed.
Lemma numbers_back xs ys : Forall2 R xs ys -> all_numbers h' ys -> all_numbers h xs.
Proof.
  intros Hf Hall x Hx. apply elem_of_list_lookup in Hx as [i Hi]. destruct (Forall2_lookup_l _ _ _ _ _ Hf Hi) as (y & Hy & Hr).
  destruct (Hall y ltac:(by eapply elem_of_list_lookup_2)) as (c & n & d & Hn & Hd).
  destruct (HR x y Hr) as ([c1 v] & o' & Ho & Ho' & Hc & Hs). rewrite Hn in Ho'. inversion Ho'; subst o'. simpl in *. subst c1.
  exists c, n, d. split; [|done]. rewrite Ho. f_equal. f_equal. destruct v; naive_solver.
Qed.
Lemma lossless_R xs ys : Forall2 R xs ys -> lossless h xs -> lossless h' ys.
Proof.
  intros Hf.
  assert (forall y c n, y ∈ ys -> h' !! y = Some (Obj c (VNum n)) -> exists x, x ∈ xs /\ h !! x = Some (Obj c (VNum n))) as Hb.
  { intros y c n Hy Hn. apply elem_of_list_lookup in Hy as [i Hi]. destruct (Forall2_lookup_r _ _ _ _ _ Hf Hi) as (x & Hx & Hr).
    exists x. split; [by eapply elem_of_list_lookup_2|].
    destruct (HR x y Hr) as ([c1 v] & o' & Ho & Ho' & Hc & Hs). rewrite Hn in Ho'. inversion Ho'; subst o'. simpl in *. subst c1.
    rewrite Ho. f_equal. f_equal. destruct v; naive_solver. }
  intros [H|[H|[d H]]].
  - left. intros y c z Hy Hn. destruct (Hb y c (NZ z) Hy Hn) as (x & Hx & Hxn). by eapply H.
  - right. left. intros y c n d Hy Hn Hd. destruct (Hb y c n Hy Hn) as (x & Hx & Hxn). by eapply H.
  - right. right. exists d. intros y c n Hy Hn. destruct (Hb y c n Hy Hn) as (x & Hx & Hxn). by eapply H.
Qed.
Lemma lossless_np hp d ys : numpy_of hp d ys -> lossless hp ys.
Proof.
  intros H. right. right. exists d. intros y c n Hy Hn. destruct (H y Hy) as [n' Hn']. rewrite Hn in Hn'. by inversion Hn'.
Qed.
Lemma lossless_items xs ys :
  same_items h h' R xs ys -> (all_numbers h xs -> lossless h xs) -> all_numbers h' ys -> lossless h' ys.
Proof.
  intros [Hf|(_ & _ & d & Hd & _)] Hl Hall; [|by eapply lossless_np].
  eapply lossless_R; [done|]. apply Hl. by eapply numbers_back.
Qed.
Lemma items_twin xs ys : same_items h h' R xs ys -> Forall2 twin xs ys.
Proof.
  intros [Hf|(_ & Hf & _)]; (eapply Forall2_impl; [exact Hf|]); intros; [by left|right; by right].
Qed.
Lemma perm_numbers hp xs ys : Permutation xs ys -> all_numbers hp xs -> all_numbers hp ys.
Proof. intros Hp H x Hx. apply H. by rewrite Hp. Qed.
Lemma perm_lossless hp xs ys : Permutation xs ys -> lossless hp xs -> lossless hp ys.
Proof.
  intros Hp [H|[H|[d H]]].
  - left. intros x c z Hx. apply H. by rewrite Hp.
  - right. left. intros x c n d Hx. apply H. by rewrite Hp.
  - right. right. exists d. intros x c n Hx. apply H. by rewrite Hp.
Qed.

(** ** References *)
Definition fresh_number (y : loc) : Prop :=
  exists c n, h' !! y = Some (Obj c (VNum n)) /\ number_ok c n /\ ((exists d, c = CNp d) \/ c ∈ [CBool; CInt; CFloat; CComplex]).
Definition kin (x y : loc) : Prop := R x y \/ same_leaf h h' x y \/ fresh_number y.
Lemma np_fresh d xs ys y : Forall2 (same_number h h') xs ys -> numpy_of h' d ys -> y ∈ ys -> fresh_number y.
Proof.
  intros Hf Hd Hy. destruct (Hd y Hy) as [n Hn]. apply elem_of_list_lookup in Hy as [i Hi].
  destruct (Forall2_lookup_r _ _ _ _ _ Hf Hi) as (x & _ & (c & n1 & c' & n' & _ & H2 & _ & H4)).
  rewrite Hn in H2. inversion H2; subst. exists (CNp d), n'. eauto.
Qed.
Lemma items_kin xs ys y : same_items h h' R xs ys -> y ∈ ys -> exists x, x ∈ xs /\ kin x y.
Proof.
  intros Hs Hy. pose proof Hy as Hy'. apply elem_of_list_lookup in Hy as [i Hi]. destruct Hs as [Hf|(_ & Hf & d & Hd & _)];
  destruct (Forall2_lookup_r _ _ _ _ _ Hf Hi) as (x & Hx & Hr); exists x; (split; [by eapply elem_of_list_lookup_2|]); [by left|].
  right. right. by eapply np_fresh.
Qed.
Lemma refs_again o o' y : same_obj h h' R o o' -> y ∈ refs o' -> exists x, x ∈ refs o /\ kin x y.
Proof.
  destruct o as [c v], o' as [c' v']. intros [Hc Hs] Hy. simpl in *. subst c'. unfold refs in *.
  destruct v; simpl in *; try (destruct v'; try (by destruct Hs); simpl in Hy; by apply elem_of_nil in Hy).
  - destruct v'; try (by destruct Hs). simpl in Hy. destruct (isinst c CSet).
    + destruct Hs as (ys' & Hp & Hs). rewrite Hp in Hy. by eapply items_kin.
    + by eapply items_kin.
  - destruct v'; try (by destruct Hs). simpl in Hy.
    assert (exists p q, p ∈ kvs /\ q ∈ kvs0 /\ same_pair h h' R p q /\ (y = fst q \/ y = snd q)) as (p & q & Hp & Hq & Hpq & Hyq).
    { apply elem_of_app in Hy as [Hy|Hy]; apply elem_of_list_fmap in Hy as (q & -> & Hq); apply elem_of_list_lookup in Hq as [i Hq];
      destruct (Forall2_lookup_r _ _ _ _ _ Hs Hq) as (p & Hp & Hpq); exists p, q; split_and!; eauto using elem_of_list_lookup_2. }
    assert (fst p ∈ map fst kvs ++ map snd kvs /\ snd p ∈ map fst kvs ++ map snd kvs) as [I1 I2].
    { split; apply elem_of_app; [left|right]; apply elem_of_list_fmap; by exists p. }
    destruct Hpq as [[Hk Hv]|[(_ & Hf & d & Hd & _) _]].
    + destruct Hyq as [-> | ->]; [exists (fst p); split; [done|]; destruct Hk as [Hk|Hk]; [by left|right; by left]|].
      exists (snd p). split; [done|]. by left.
    + exists (fst p). split; [done|]. right. right. eapply np_fresh; [exact Hf|exact Hd|].
      destruct Hyq as [-> | ->]; [left|right; left].
  - destruct v'; try (by destruct Hs). simpl in Hy. destruct Hs as [_ (rows & rows' & -> & -> & _ & Hf)].
    apply elem_of_list_In, in_concat in Hy as (r' & Hr' & Hy). apply elem_of_list_In in Hr', Hy.
    apply elem_of_list_lookup in Hr' as [i Hi]. destruct (Forall2_lookup_r _ _ _ _ _ Hf Hi) as (r & Hr & Hrr).
    assert (exists x, x ∈ r /\ kin x y) as (x & Hx & Hk).
    { destruct Hrr as [Hrr|(_ & Hff & c1 & [Hc1 Hb] & _)]; [by eapply items_kin|].
      destruct (Hb y Hy) as [n Hn]. apply elem_of_list_lookup in Hy as [j Hj].
      destruct (Forall2_lookup_r _ _ _ _ _ Hff Hj) as (x & Hx & (c2 & n1 & c' & n' & _ & H2 & _ & H4)).
      rewrite Hn in H2. inversion H2; subst. exists x. split; [by eapply elem_of_list_lookup_2|]. right. right. exists c', n'. eauto. }
    exists x. split; [|done]. apply elem_of_list_In, in_concat. exists r. split; apply elem_of_list_In; [|done]. by eapply elem_of_list_lookup_2.
  - destruct v'; try (by destruct Hs). simpl in Hy. destruct Hs as [H1 H2].
    apply elem_of_cons in Hy as [-> |Hy]; [exists data; split; [left|by left]|]. apply elem_of_list_singleton in Hy as ->.
    exists mask. split; [right; left|by left].
  - destruct v'; try (by destruct Hs). simpl in Hy. destruct Hs as (H1 & H2 & H3 & H4).
    apply elem_of_cons in Hy as [-> |Hy]; [exists data; split; [left|by left]|].
    apply elem_of_cons in Hy as [-> |Hy]; [exists indices; split; [right; left|by left]|].
    apply elem_of_cons in Hy as [-> |Hy]; [exists indptr; split; [right; right; left|by left]|].
    apply elem_of_list_singleton in Hy as ->. exists shape. split; [right; right; right; left|by left].
Qed.

(** ** Keys of dicts *)
Lemma np_name d : cls_name (CNp d) ∉ map str ["float"; "bool"; "int"; "complex"; "NoneType"]%string.
Proof. apply (bool_decide_unpack _). destruct d as [|[]|[]|[]|[]]; vm_compute; exact I. Qed.
Lemma key_again p q : same_pair h h' R p q -> key_ok h (fst p) -> key_ok h' (fst q).
Proof.
  intros Hs (o & Ho & K1 & K2 & K3). destruct Hs as [[[Hr|(o1 & H1 & _ & H2)] _]|[(_ & Hf & d & Hd & _) _]].
  - destruct (HR _ _ Hr) as ([c v] & [c' v'] & Ho1 & Ho' & Hc & Hs). rewrite Ho in Ho1. inversion Ho1; subst o. simpl in *. subst c'.
    exists (Obj c v'). split; [done|]. split; [|done]. intros [= -> ->]. apply K1. f_equal. destruct v; naive_solver.
  - rewrite Ho in H1. inversion H1; subst o1. by exists o.
  - destruct (Hd (fst q)) as [n Hn]; [left|]. exists (Obj (CNp d) (VNum n)). split_and!; [done|done|done|].
    intros Hin. by apply np_name in Hin.
Qed.
Lemma pair_twin p q : same_pair h h' R p q -> twin (fst p) (fst q).
Proof.
  intros [[[Hr|Hl] _]|[(_ & Hf & _) _]]; [by left|right; by left|right; right]. by inversion Hf.
Qed.
Lemma pair_numbers p q :
  same_pair h h' R p q -> (all_numbers h [fst p; snd p] -> lossless h [fst p; snd p]) ->
  all_numbers h' [fst q; snd q] -> lossless h' [fst q; snd q].
Proof.
  intros Hs Hl Hall. destruct Hs as [[Hk Hv]|[(_ & _ & d & Hd & _) _]]; [|by eapply lossless_np].
  destruct Hk as [Hk|(o & H1 & H2 & H3)].
  - assert (Forall2 R [fst p; snd p] [fst q; snd q]) as Hf by (repeat constructor; done).
    eapply lossless_R; [done|]. apply Hl. by eapply numbers_back.
  - assert (forall c n, h' !! fst q = Some (Obj c (VNum n)) -> h !! fst p = Some (Obj c (VNum n))) as Hb by (intros; congruence).
    assert (forall c n, h' !! snd q = Some (Obj c (VNum n)) -> h !! snd p = Some (Obj c (VNum n))) as Hb2.
    { intros c n Hn. destruct (HR _ _ Hv) as ([c1 v] & o' & Ho & Ho' & Hc & Hs). rewrite Hn in Ho'. inversion Ho'; subst o'.
      simpl in *. subst c1. rewrite Ho. f_equal. f_equal. destruct v; naive_solver. }
    assert (all_numbers h [fst p; snd p]) as Ha.
    { intros z Hz. apply elem_of_cons in Hz as [-> |Hz].
      - destruct (Hall (fst q) ltac:(left)) as (c & n & d & A & B). exists c, n, d. auto.
      - apply elem_of_list_singleton in Hz as ->. destruct (Hall (snd q) ltac:(right; left)) as (c & n & d & A & B). exists c, n, d. auto. }
    specialize (Hl Ha).
    assert (forall z c n, z ∈ [fst q; snd q] -> h' !! z = Some (Obj c (VNum n)) -> exists x, x ∈ [fst p; snd p] /\ h !! x = Some (Obj c (VNum n))) as Hz.
    { intros z c n Hz Hn. apply elem_of_cons in Hz as [-> |Hz]; [exists (fst p); split; [left|auto]|].
      apply elem_of_list_singleton in Hz as ->. exists (snd p). split; [right; left|auto]. }
    destruct Hl as [Hl|[Hl|[d Hl]]].
    + left. intros y c z Hy Hn. destruct (Hz y c (NZ z) Hy Hn) as (x & Hx & Hxn). by eapply Hl.
    + right. left. intros y c n d Hy Hn Hd. destruct (Hz y c n Hy Hn) as (x & Hx & Hxn). by eapply Hl.
    + right. right. exists d. intros y c n Hy Hn. destruct (Hz y c n Hy Hn) as (x & Hx & Hxn). by eapply Hl.
Qed.

(** ** Arrays of objects *)
Definition alike (x y : loc) : Prop := R x y \/ same_number h h' x y.
Lemma alike_obj x y : alike x y -> exists o o', h !! x = Some o /\ h' !! y = Some o' /\
  (same_obj h h' R o o' \/ exists c n c' n', o = Obj c (VNum n) /\ o' = Obj c' (VNum n')).
Proof.
  intros [Hr|(c & n & c' & n' & H1 & H2 & _)].
  - destruct (HR x y Hr) as (o & o' & ? & ? & ?). exists o, o'. auto.
  - exists (Obj c (VNum n)), (Obj c' (VNum n')). split_and!; auto. right. eauto 6.
Qed.
Lemma outer_again x y : alike x y -> outer_len h' y = outer_len h x.
Proof.
  intros Hr. destruct (alike_obj _ _ Hr) as (o & o' & Ho & Ho' & Hso). unfold outer_len. rewrite Ho, Ho'.
  destruct Hso as [[Hc Hv]|(? & ? & ? & ? & -> & ->)]; [|done].
  destruct o as [c vo], o' as [c' vo']. simpl in Hc, Hv. subst c'.
  destruct vo, vo'; try done; try (by destruct Hv as [_ [=]]); try (by destruct Hv as [_ [= -> -> ->]]).
  - destruct (_ || _) eqn:El; [|done]. destruct (isinst c CSet).
    + destruct Hv as (ys & P1 & P2). rewrite P1. f_equal. f_equal. symmetry. by destruct P2 as [P2|(_ & P2 & _)]; eapply Forall2_length.
    + f_equal. f_equal. symmetry. by destruct Hv as [P2|(_ & P2 & _)]; eapply Forall2_length.
  - by destruct Hv as [-> _].
Qed.
Lemma element_again x y : alike x y -> element_ok h x -> element_ok h' y.
Proof.
  intros Hr. destruct (alike_obj _ _ Hr) as (o & o' & Ho & Ho' & Hso). unfold element_ok. rewrite Ho, Ho'.
  destruct Hso as [[Hc Hv]|(? & ? & ? & ? & -> & ->)]; [|done].
  destruct o as [c vo], o' as [c' vo']. simpl in Hc, Hv. subst c'.
  destruct vo, vo'; try done; try (by destruct Hv as [_ [=]]); try (destruct Hv as [_ [= -> -> ->]]); try (by destruct shape).
  destruct Hv as [-> _]. by destruct shape.
Qed.
Lemma uniform_again xs ys : Forall2 alike xs ys -> not_uniform h xs -> not_uniform h' ys.
Proof.
  intros Hf [-> |(x & y & Hx & Hy & Hxy)]; [left; by inversion Hf|right].
  apply elem_of_list_lookup in Hx as [i Hx]. apply elem_of_list_lookup in Hy as [j Hy].
  destruct (Forall2_lookup_l _ _ _ _ _ Hf Hx) as (v & Hv & Rv). destruct (Forall2_lookup_l _ _ _ _ _ Hf Hy) as (w & Hw' & Rw).
  exists v, w. split; [by eapply elem_of_list_lookup_2|]. split; [by eapply elem_of_list_lookup_2|].
  by rewrite (outer_again _ _ Rv), (outer_again _ _ Rw).
Qed.
Lemma row_concat shape (rows : list (list loc)) : Forall (fun r => N.of_nat (length r) = last shape 1) rows ->
  forall i, row shape (concat rows) i = default [] (rows !! i).
Proof.
  unfold row. intros Hw. assert (Forall (fun r : list loc => length r = N.to_nat (last shape 1)) rows) as Hw'.
  { eapply list.Forall_impl; [exact Hw|]. intros r Hr. simpl in Hr. lia. }
  clear Hw. set (w := N.to_nat (last shape 1)) in *. clearbody w.
  induction Hw' as [|r rows Hr Hw IH]; intros i.
  - simpl. by rewrite drop_nil, take_nil.
  - destruct i as [|i].
    + cbn [concat lookup list_lookup default]. rewrite drop_0. by apply take_app_alt.
    + change ((r :: rows) !! S i) with (rows !! i). rewrite <- IH. cbn [concat]. change (S i * w)%nat with (w + i * w)%nat.
      rewrite <- drop_drop. by rewrite drop_app_alt.
Qed.
Lemma rows_again shape xs ys :
  same_rows h h' R shape xs ys -> (forall i, all_numbers h (row shape xs i) -> lossless h (row shape xs i)) ->
  forall i, all_numbers h' (row shape ys i) -> lossless h' (row shape ys i).
Proof.
  intros (rows & rows' & -> & -> & Hw & Hf) Hl i Hall.
  assert (Forall (fun r => N.of_nat (length r) = last shape 1) rows') as Hw'.
  { clear -Hw Hf. induction Hf as [|r r' rows rows' Hr Hf IH]; [constructor|]. inversion Hw; subst. constructor; [|by apply IH].
    assert (length r' = length r) as ->; [|done].
    destruct Hr as [[Hr|(_ & Hr & _)]|(_ & Hr & _)]; symmetry; by eapply Forall2_length. }
  rewrite (row_concat shape rows' Hw' i) in *. specialize (Hl i). rewrite (row_concat shape rows Hw i) in Hl.
  destruct (rows' !! i) as [r'|] eqn:Hi; [|left; intros ? ? ? Hx; by apply elem_of_nil in Hx].
  destruct (Forall2_lookup_r _ _ _ _ _ Hf Hi) as (r & Hr & Hrr). rewrite Hr in Hl. simpl in *.
  destruct Hrr as [Hrr|(_ & _ & c & [Hc Hn] & _)].
  - by eapply lossless_items.
  - right. right. assert (exists d, np_dtype_of_cls c = PNum d) as [d Hd].
    { clear -Hc. repeat (apply elem_of_cons in Hc as [-> |Hc]; [by eexists|]). by apply elem_of_nil in Hc. }
    exists d. intros x c1 n Hx H1. destruct (Hn x Hx) as [n' Hn']. rewrite H1 in Hn'. by inversion Hn'; subst.
Qed.

(** ** Everything *)
Lemma storable_again o o' :
  (forall z, z ∈ refs o -> graph_ok E h z) -> same_obj h h' R o o' -> storable h o -> storable h' o'.
Proof.
  intros Hch [Hc Hs] Hst. destruct o' as [c' v']. simpl in Hc. subst c'. unfold refs in Hch.
  inversion Hst as [|c n Hn|t|c b Hb Hbn|c xs Hb Hl|c xs Hb Hd Hl|c kvs Hb Hd Hk Hl|c d shape vs Hc Hsh Hv|w shape vs Hsh Hlen Hw Hv
    |shape xs Hsh Hlen Hel Hnu Hrow|d|c d m Hb|c k d i q sh Hb|c k n Hb]; subst o; simpl in *;
    destruct v' as [| | | |ys|kvs'| | |shape' ys| | | | | |]; try (by destruct Hs); try (destruct Hs as [_ [=]]; subst); try (by constructor).
  - assert (isinst c CSet = false) as Ei. { rewrite isinst_base by done. destruct Hb as [-> | ->]; done. }
    rewrite Ei in Hs. apply st_seq; [done|]. by eapply lossless_items.
  - assert (isinst c CSet = true) as Ei. { rewrite isinst_base by done. rewrite Hb. done. }
    rewrite Ei in Hs. destruct Hs as (ys' & Hp & Hs). apply st_set; [done| |].
    + eapply distinct_perm; [by symmetry|]. eapply distinct_again; [exact Hch|by apply items_twin|done].
    + intros Hall. eapply perm_lossless; [by symmetry|]. eapply lossless_items; [exact Hs|done|]. by eapply perm_numbers.
  - apply st_dict; [done| | |].
    + eapply distinct_again; [| |exact Hd].
      * intros z Hz. apply Hch. apply elem_of_app. by left.
      * clear -Hs. induction Hs; simpl; constructor; [by apply pair_twin|done].
    + clear -Hs Hk HR. revert Hk. induction Hs as [|p q kvs kvs' Hp Hs IH]; simpl; intros Hk; [constructor|]. inversion Hk; subst.
      constructor; [by eapply key_again|by apply IH].
    + clear -Hs Hl HR. revert Hl. induction Hs as [|p q kvs kvs' Hp Hs IH]; simpl; intros Hl; [constructor|]. inversion Hl; subst.
      constructor; [by eapply pair_numbers|by apply IH].
  - destruct Hs as [-> Hs]. pose proof (same_rows_items _ _ _ _ _ _ Hs) as Hf. apply st_objarr.
    + done.
    + by rewrite <- (Forall2_length _ _ _ Hf).
    + clear -Hf Hel HR. induction Hf; [constructor|]. inversion Hel; subst. constructor; [by eapply element_again|auto].
    + by eapply uniform_again.
    + by eapply rows_again.
  - by eapply st_sparse.
Qed.
Context (HE : env_ok E) (Hnp : forall d, e_imports E (CNp d) = true) (Hone : one_empty_tuple h').
Lemma np_outside d : outside_hickle (CNp d).
Proof.
  intros k Hk. destruct d as [|[]|[]|[]|[]]; vm_compute in Hk;
  repeat (apply elem_of_cons in Hk as [-> |Hk]; [done|]); by apply elem_of_nil in Hk.
Qed.
Lemma builtin_outside c : c ∈ [CBool; CInt; CFloat; CComplex] -> outside_hickle c /\ cls_module c = str "builtins".
Proof.
  intros Hc. repeat (apply elem_of_cons in Hc as [-> |Hc]; [split; [|done]; intros k Hk; vm_compute in Hk;
    repeat (apply elem_of_cons in Hk as [-> |Hk]; [done|]); by apply elem_of_nil in Hk|]). by apply elem_of_nil in Hc.
Qed.
Lemma graph_again x : graph_ok E h x -> forall y, R x y -> graph_ok E h' y.
Proof.
  induction 1 as [x o Ho Hst Hout Him Het Hch IH]. intros y Hr.
  destruct (HR x y Hr) as (o1 & o' & Ho1 & Ho' & Hs). rewrite Ho in Ho1. inversion Ho1; subst o1. clear Ho1.
  pose proof (proj1 Hs) as Hc. apply (graph_ok_intro E h' y o'); [done|by eapply storable_again| | | |].
  - by rewrite Hc.
  - by rewrite Hc.
  - intros ->. by apply Hone.
  - intros z Hz. destruct (refs_again _ _ _ Hs Hz) as (w & Hw & [Hk|[(ol & H1 & H2 & H3)|(c & n & Hn & Hok & Hcl)]]).
    + by eapply IH.
    + specialize (Hch w Hw). inversion Hch as [? o2 Ho2 Hs2 Hout2 Him2 _ _]; subst. rewrite H1 in Ho2. inversion Ho2; subst o2.
      apply (graph_ok_intro E h' z ol); [done| |done|done| |].
      * destruct ol as [c v]. destruct v; try done; inversion Hs2; subst; by constructor.
      * intros ->. by apply Hone.
      * intros t Ht. destruct ol as [c v]. destruct v; try done; by apply elem_of_nil in Ht.
    + apply (graph_ok_intro E h' z (Obj c (VNum n))); [done|by constructor| | |done|].
      * destruct Hcl as [[d ->]|Hcl]; [apply np_outside|]. by apply builtin_outside.
      * destruct Hcl as [[d ->]|Hcl]; [apply Hnp|]. apply (ok_imports E HE). by apply builtin_outside.
      * intros t Ht. by apply elem_of_nil in Ht.
Qed.
End Again.

(** A graph that agrees with one the round trip is claimed for is itself such a graph. *)
Lemma isomorphic_ok E h x h' y :
  env_ok E -> (forall d, e_imports E (CNp d) = true) -> one_empty_tuple h' ->
  graph_ok E h x -> isomorphic h x h' y -> graph_ok E h' y.
Proof.
  intros HE Hnp Hone Hg (R & Hxy & HR & _ & HI). by eapply (graph_again E h h' R HR HI HE Hnp Hone).
Qed.
