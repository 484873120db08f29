(** * RoundTrip: [_dump] followed by [_load] *)
From stdpp Require Import relations.
From Verif Require Import Base Utf8 Utf8Proofs Dec DecProofs Num NumProofs PyObj H5 Env Create Dump
  LoadFns LoadModel Registry DumpProofs DumpStored RegistryStd Spec PartSpec LoadBase ArrayProofs LoadInv LoadLeaf LoadCont LoadMain LoadDict LoadAll DumpClosed.
From Coq Require Import Lia ZifyBool ZifyN.
Local Open Scope N_scope.
Local Open Scope list_scope.
Local Opaque std_loader std_dump.

(** ** Graphs in a larger heap *)
Section Mono.
Context (E : env) (h h' : heap) (Hh : h ⊆ h').

Definition known (xs : list loc) : Prop := forall x, x ∈ xs -> is_Some (h !! x).
Lemma known_eq xs x : known xs -> x ∈ xs -> h' !! x = h !! x.
Proof. intros Hk Hx. destruct (Hk x Hx) as [o Ho]. rewrite Ho. by eapply lookup_weaken. Qed.

Lemma all_numbers_back xs : known xs -> all_numbers h' xs -> all_numbers h xs.
Proof.
  intros Hk Ha x Hx. destruct (Ha x Hx) as (c & n & d & H1 & H2). rewrite (known_eq xs x Hk Hx) in H1. by exists c, n, d.
Qed.
Lemma lossless_mono xs : known xs -> lossless h xs -> lossless h' xs.
Proof.
  intros Hk [Hl|[Hl|[d Hl]]]; [left|right; left|right; right; exists d].
  - intros x c z Hx Ho. rewrite (known_eq xs x Hk Hx) in Ho. by eapply Hl.
  - intros x c n d Hx Ho. rewrite (known_eq xs x Hk Hx) in Ho. by eapply Hl.
  - intros x c n Hx Ho. rewrite (known_eq xs x Hk Hx) in Ho. by eapply Hl.
Qed.
Lemma distinct_keys_mono xs : distinct_keys h xs -> distinct_keys h' xs.
Proof.
  intros (ks & Hks & Hn). exists ks. split; [|done]. eapply Forall2_impl; [exact Hks|].
  intros x k [d Hd]. exists d. eapply hval_mono; eauto.
Qed.
Lemma storable_mono o : known (refs o) -> storable h o -> storable h' o.
Proof.
  intros Hk Hs. inversion Hs as [|c0 n0 Hnum|str0|c0 b0 Hb0 Hnm|c0 xs Hb0 Hll|c0 xs Hb0 Hdk Hll|c0 kvs Hb0 Hdk Hko Hll|c0 d0 shape vs Hb0 Hsh Hvs|w0 shape vs Hsh Hlen Hw1 Hvs|shape xs Hsh Hlen Hel Hnu Hrow|d0|c0 d0 m0 Hb0|c0 k0 d0 i0 p0 s0 Hb0|c0 k0 n0 Hb0]; subst o; cbn [refs oval] in Hk.
  - constructor.
  - by constructor.
  - constructor.
  - by constructor.
  - constructor; [done|]. intros Ha. apply lossless_mono; [done|]. by apply Hll, all_numbers_back.
  - apply st_set; [done|by apply distinct_keys_mono|]. intros Ha. apply lossless_mono; [done|]. by apply Hll, all_numbers_back.
  - apply st_dict; [done|by apply distinct_keys_mono| |].
    + rewrite list.Forall_forall in Hko |- *. intros k Hkin; destruct (Hko k Hkin) as (o & Ho & Hr). exists o. split; [by eapply lookup_weaken|done].
    + rewrite list.Forall_forall in Hll |- *. intros [k v] Hin. simpl.
      assert (known [k; v]) as Hkv.
      { intros x Hx. apply Hk. unfold refs. simpl. apply elem_of_app.
        assert (x = k \/ x = v) as [-> | ->]. { rewrite !elem_of_cons, elem_of_nil in Hx. tauto. }
        - left. apply elem_of_list_fmap. by exists (k, v).
        - right. apply elem_of_list_fmap. by exists (k, v). }
      intros Ha. apply lossless_mono; [done|]. by apply (Hll _ Hin), all_numbers_back.
  - by constructor.
  - by constructor.
  - assert (forall x, x ∈ xs -> outer_len h' x = outer_len h x) as Ho.
    { intros x Hx. unfold outer_len. by rewrite (known_eq xs x Hk Hx). }
    apply st_objarr; [done|done| | |].
    + rewrite list.Forall_forall in Hel |- *. intros x Hx. specialize (Hel x Hx). unfold element_ok in *.
      by rewrite (known_eq xs x Hk Hx).
    + destruct Hnu as [-> |(x & y & Hx & Hy & Hxy)]; [by left|right]. exists x, y. split_and!; auto. by rewrite !Ho.
    + intros i Ha.
      assert (known (row shape xs i)) as Hkr. { intros x Hx. apply Hk. by eapply elem_of_row. }
      apply lossless_mono; [done|]. by apply Hrow, all_numbers_back.
  - constructor.
  - by constructor.
  - by econstructor.
  - by constructor.
Qed.
Lemma graph_ok_mono x : graph_ok E h x -> graph_ok E h' x.
Proof.
  induction 1 as [x o Ho Hs Hout Him He Hch IH]. econstructor; eauto.
  - by eapply lookup_weaken.
  - apply storable_mono; [|done]. intros y Hy. specialize (Hch y Hy). inversion Hch; subst. by eexists.
Qed.
Lemma graph_known x o : graph_ok E h x -> h !! x = Some o -> known (refs o).
Proof.
  intros Hg Ho y Hy. inversion Hg as [? o' Ho' _ _ _ _ Hch]; subst. rewrite Ho in Ho'. inversion Ho'; subst.
  specialize (Hch y Hy). inversion Hch; subst. by eexists.
Qed.

(** ** and back: a copy of the graph in the larger heap is a copy of the original *)
Lemma same_number_back h2 xs x y : known xs -> x ∈ xs -> same_number h' h2 x y -> same_number h h2 x y.
Proof.
  intros Hk Hx (c & n & c' & n' & H1 & H2 & H3). rewrite (known_eq xs x Hk Hx) in H1. by exists c, n, c', n'.
Qed.
Lemma Forall2_in {A B} (P Q : A -> B -> Prop) xs ys :
  Forall2 P xs ys -> (forall x y, x ∈ xs -> P x y -> Q x y) -> Forall2 Q xs ys.
Proof.
  induction 1 as [|x y xs ys Hp Hf IH]; intros Hi; constructor.
  - apply Hi; [by left|done].
  - apply IH. intros. apply Hi; [by right|done].
Qed.
Lemma same_numbers_back h2 xs ys : known xs -> same_numbers h' h2 xs ys -> same_numbers h h2 xs ys.
Proof.
  intros Hk (Ha & Hf & d & Hd & Hd'). split; [by apply all_numbers_back|]. split.
  - eapply Forall2_in; [exact Hf|]. intros x y Hx Hr. by eapply same_number_back.
  - exists d. split; [done|]. intros d' Hx. apply Hd'. intros x Hin. destruct (Hx x Hin) as (c & n & Hn & Hc). exists c, n.
    split; [|done]. by rewrite (known_eq xs x Hk Hin).
Qed.
Lemma same_items_back h2 (R : loc -> loc -> Prop) xs ys :
  known xs -> same_items h' h2 R xs ys -> same_items h h2 (fun a b => R a b /\ a ∈ xs) xs ys.
Proof.
  intros Hk [Hi|Hi]; [left|right; by apply same_numbers_back]. eapply Forall2_in; [exact Hi|]. done.
Qed.
Lemma same_obj_back h2 (R : loc -> loc -> Prop) o o' :
  known (refs o) -> same_obj h' h2 R o o' -> same_obj h h2 (fun a b => R a b /\ a ∈ refs o) o o'.
Proof.
  intros Hk [Hc Hv]. split; [done|]. unfold refs in *.
  destruct (oval o) as [| | | |xs|kvs| | | | |d m|d i p sh| | |], (oval o') as [| | | |ys|kvs'| | | | |d' m'|d' i' p' sh'| | |]; try naive_solver.
  - destruct (isinst (ocls o) CSet).
    + destruct Hv as (ys' & H1 & H2). exists ys'. split; [done|]. by apply same_items_back.
    + by apply same_items_back.
  - eapply Forall2_in; [exact Hv|]. intros [k v] [k' v'] Hin Hp. unfold same_pair in *. simpl in *.
    assert (k ∈ map fst kvs ++ map snd kvs) as Ik. { apply elem_of_app. left. apply elem_of_list_fmap. by exists (k, v). }
    assert (v ∈ map fst kvs ++ map snd kvs) as Iv. { apply elem_of_app. right. apply elem_of_list_fmap. by exists (k, v). }
    destruct Hp as [[Hk' Hv']|[H1 H2]]; [left|right].
    + split; [|by split]. destruct Hk' as [Hk'|(ok & K1 & K2 & K3)]; [by left|right].
      exists ok. rewrite (known_eq _ _ Hk Ik) in K1. done.
    + split.
      * apply same_numbers_back; [|done]. intros z Hz. apply Hk.
        apply elem_of_cons in Hz as [-> |Hz]; [done|]. apply elem_of_list_singleton in Hz as ->. done.
      * intros ob Hob. apply H2. by rewrite (known_eq _ _ Hk Ik).
  - destruct Hv as [H1 (rows & rows' & -> & H2 & H3 & H4)]. split; [done|]. exists rows, rows'. split; [done|]. split; [done|]. split; [done|].
    eapply Forall2_in; [exact H4|]. intros r r' Hr Hi.
    assert (forall z, z ∈ r -> z ∈ concat rows) as Hin by (intros z Hz; apply elem_of_list_In, in_concat; exists r; split; by apply elem_of_list_In).
    assert (known r) as Hkr by (intros z Hz; apply Hk; by apply Hin).
    destruct Hi as [Hi|(I1 & I2 & I3)]; [left|right].
    2:{ split; [by eapply all_numbers_back|]. split.
        { eapply Forall2_in; [exact I2|]. intros x y Hx Hr'. by eapply same_number_back. }
        destruct I3 as (c & I3 & I4). exists c. split; [done|]. intros c' [C1 C2]. apply I4. split; [done|].
        intros x Hx. destruct (C2 x Hx) as [n Hn]. exists n. by rewrite (known_eq r x Hkr Hx). }
    destruct (same_items_back _ _ _ _ Hkr Hi) as [Hs|Hs]; [left|by right].
    eapply Forall2_impl; [exact Hs|]. intros x y [Hx1 Hx2]. split; [done|]. by apply Hin.
  - destruct Hv as [H1 H2]. split; (split; [done|set_solver]).
  - destruct Hv as (H1 & H2 & H3 & H4). split_and!; auto; set_solver.
Qed.
Lemma graph_part_mono x : graph_part E h x -> graph_part E h' x.
Proof.
  assert (forall x, imported E h x -> imported E h' x) as Him.
  { intros y (o & Ho & Hi). exists o. split; [by eapply lookup_weaken|done]. }
  induction 1 as [x o Ho Hs Hout Hpo He Hch IH]. econstructor; eauto.
  - by eapply lookup_weaken.
  - apply storable_mono; [|done]. intros y Hy. specialize (Hch y Hy). inversion Hch; subst. by eexists.
  - unfold parts_ok in *. destruct (e_imports E (ocls o)); [|done]. destruct (oval o); try done.
    + intros Hc y Hy. by apply graph_ok_mono, Hpo.
    + intros k Hk. by apply graph_ok_mono, Hpo.
    + intros y Hy. by apply Him, Hpo.
    + naive_solver.
    + naive_solver.
Qed.
Lemma graph_part_known x o : graph_part E h x -> h !! x = Some o -> known (refs o).
Proof.
  intros Hg Ho y Hy. inversion Hg as [? o' Ho' _ _ _ _ Hch]; subst. rewrite Ho in Ho'. inversion Ho'; subst.
  specialize (Hch y Hy). inversion Hch; subst. by eexists.
Qed.
Lemma data_kept_back o d : known (refs o) -> data_kept h' o d -> data_kept h o d.
Proof.
  intros Hk. unfold data_kept, refs in *. destruct (oval o) as [| | | |xs| | | | | | | | | |]; try done.
  intros [?|(dt & vs & -> & Hf)]; [by left|right]. exists dt, vs. split; [done|]. eapply Forall2_in; [exact Hf|].
  intros x v Hx (c & n & Ho & Hv). rewrite (known_eq _ _ Hk Hx) in Ho. by exists c, n.
Qed.
Lemma group_kept_back h2 (R : loc -> loc -> Prop) o items :
  known (refs o) -> group_kept h' h2 R o items -> group_kept h h2 (fun a b => R a b /\ a ∈ refs o) o items.
Proof.
  intros Hk. unfold group_kept, refs in *. destruct (oval o) as [| | | |xs|kvs| | | | |d m|d i p sh| | |]; try done.
  - apply (has_members_map items _ id); [apply map_id|]. intros [i x] nm v oa Hin (H1 & H2 & H3). split_and!; auto.
    unfold id. cbn [fst snd] in *. rewrite enumerate_from in Hin. rewrite <- (enum_from_snd xs 0). apply elem_of_list_fmap.
    by exists (i, x).
  - apply (has_members_map items _ id); [apply map_id|]. intros [i [k w]] nm v oa Hin (H1 & H2). unfold id. split; [done|].
    rewrite enumerate_from in Hin.
    assert ((k, w) ∈ kvs) as Hkw. { rewrite <- (enum_from_snd kvs 0). apply elem_of_list_fmap. by exists (i, (k, w)). }
    assert (k ∈ map fst kvs ++ map snd kvs) as Ik. { apply elem_of_app. left. apply elem_of_list_fmap. by exists (k, w). }
    assert (w ∈ map fst kvs ++ map snd kvs) as Iv. { apply elem_of_app. right. apply elem_of_list_fmap. by exists (k, w). }
    destruct H2 as [[H2 H3]|(ys & H2 & H3)]; [left|right].
    + split; [|by split]. intros t Ht. apply H2. by eapply lookup_weaken.
    + exists ys. split; [done|]. apply same_items_back in H3.
      * eapply same_items_mono; [exact H3|done|]. intros a b [Hab Ha]. split; [done|].
        apply elem_of_cons in Ha as [-> |Ha]; [done|]. apply elem_of_list_singleton in Ha as ->. done.
      * intros z Hz. apply Hk. apply elem_of_cons in Hz as [-> |Hz]; [done|]. apply elem_of_list_singleton in Hz as ->. done.
  - apply (has_members_map items _ id); [apply map_id|]. intros [nm' x] nm v oa Hin (H1 & H2). unfold id. split; [done|]. split; [done|].
    cbn [snd]. clear -Hin. repeat (apply elem_of_cons in Hin as [[= -> ->]|Hin]; [set_solver|]). inversion Hin.
  - apply (has_members_map items _ id); [apply map_id|]. intros [nm' x] nm v oa Hin (H1 & H2). unfold id. split; [done|]. split; [done|].
    cbn [snd]. clear -Hin. repeat (apply elem_of_cons in Hin as [[= -> ->]|Hin]; [set_solver|]). inversion Hin.
Qed.
Lemma stands_back h2 (R : loc -> loc -> Prop) o o' :
  known (refs o) -> stands_for E h' h2 R o o' -> stands_for E h h2 (fun a b => R a b /\ a ∈ refs o) o o'.
Proof.
  intros Hk. unfold stands_for. destruct (e_imports E (ocls o)); [by apply same_obj_back|].
  intros [(d & a & -> & H1 & H2)|(its & a & -> & H1 & H2 & H3)]; [left|right].
  - exists d, a. split_and!; auto. by apply data_kept_back.
  - exists its, a. split_and!; auto. by apply group_kept_back.
Qed.
Lemma restored_back x h2 y :
  graph_part E h x -> restored E h' x h2 y -> restored E h x h2 y.
Proof.
  intros Hg (R & R1 & R2 & R3 & R4).
  exists (fun a b => R a b /\ graph_part E h a). split; [done|]. split_and!.
  - intros a b [Hr Ga]. destruct (R2 _ _ Hr) as (o & o' & Ho & Ho' & Hso).
    inversion Ga as [? oa Hoa _ _ _ _ Hch]; subst. rewrite (lookup_weaken _ _ _ _ Hoa Hh) in Ho. inversion Ho; subst oa.
    exists o, o'. split_and!; auto.
    apply stands_back in Hso; [|by eapply graph_part_known].
    eapply stands_mono; [exact Hso|done|]. intros u v [Hu Hv]. auto.
  - intros a b b' [H1 Ga] [H2 _] Hns. eapply R3; eauto. intros o Ho.
    inversion Ga as [? oa Hoa _ _ _ _ Hch]; subst. rewrite (lookup_weaken _ _ _ _ Hoa Hh) in Ho. inversion Ho; subst. by apply Hns.
  - intros a a' b [H1 Ga] [H2 _] Hns. eapply R4; eauto. intros o Ho.
    inversion Ga as [? oa Hoa _ _ _ _ Hch]; subst. rewrite (lookup_weaken _ _ _ _ Hoa Hh) in Ho. inversion Ho; subst. by apply Hns.
Qed.
End Mono.

(** When all classes are there, nothing is lost. *)
Lemma restored_isomorphic E h x h2 y : graph_ok E h x -> restored E h x h2 y -> isomorphic h x h2 y.
Proof.
  intros Hg (R & R1 & R2 & R3 & R4). exists (fun a b => R a b /\ graph_ok E h a). split; [done|]. split_and!.
  - intros a b [Hr Ga]. destruct (R2 _ _ Hr) as (o & o' & Ho & Ho' & Hso).
    inversion Ga as [? oa Hoa _ _ Him _ Hch]; subst. rewrite Hoa in Ho. inversion Ho; subst oa.
    exists o, o'. split_and!; auto. unfold stands_for in Hso. rewrite Him in Hso.
    apply (same_obj_back h h (reflexivity h)) in Hso; [|by eapply graph_known].
    eapply same_obj_mono; [exact Hso|done|]. intros u v [Hu Hv]. auto.
  - intros a b b' [H1 Ga] [H2 _]. by apply R3.
  - intros a a' b [H1 Ga] [H2 _]. by apply (R4 a a' b).
Qed.

(** ** The round trip *)

(** Memory of a process: locations from [m_next] on are free, [nobody] is the empty tuple. *)
Definition mem_ok (m : mem) : Prop :=
  (forall l, m_next m <= l -> m_heap m !! l = None) /\ m_heap m !! nobody = Some empty_tuple.

Lemma inv_init E s m : mem_ok m -> inv E s (Lst m ∅).
Proof. intros [H1 H2]. split; simpl; try done; by intros ? *. Qed.

Theorem dump_load_part E kw tbl fuel x root nm s s' :
  env_ok E -> wfs std_dump tbl s -> d_memo s = ∅ -> root <> tbl -> tbl < f_next (d_file s) -> root < f_next (d_file s) ->
  graph_part E (d_heap s) x -> tree (d_file s') ->
  dump_ fuel E std_dump kw tbl x root nm [] s = (s', Ok tt) ->
  exists c pn, getn s' root = Some (extend pn [(nm, c)]) /\ getn s root = Some pn /\ is_group pn = true /\
  exists n, forall fuel' m, (n <= fuel')%nat -> mem_ok m ->
    exists st v, load_ fuel' E std_loader (d_file s') c (Lst m ∅) = Ok (st, v) /\
      m_heap m ⊆ m_heap (l_mem st) /\
      restored E (d_heap s) x (m_heap (l_mem st)) v.
Proof.
  intros HE Hw Hm Hrt Htlo Hrlo Hg Htr Hd.
  destruct (dump_stored E std_dump kw tbl (std_dump_ok E) fuel x root nm [] s s' (f_next (d_file s))) as (W & G & NS & c & pn & Hc & Hp1 & Hp2 & Hp3); auto.
  { constructor. }
  exists c, pn. split_and!; auto.
  assert (forall y a, d_memo s' !! y = Some a -> stored E std_dump (f_next (d_file s)) s' y a) as Hst.
  { intros y a Ha. destruct (NS _ _ Ha) as [Ho|Ho]; [|done]. rewrite Hm in Ho. done. }
  assert (d_heap s ⊆ d_heap s') as Hh by apply G.
  pose proof (graph_part_mono E _ _ Hh x Hg) as Hg'.
  destruct (child_loads E tbl _ s' W Hst nm x [] (nm, c) Hg') as [n Hn]; [|done|].
  { by apply (memo_loads E HE tbl _ s' W Hst (tr_names _ Htr)). }
  exists n. intros fuel' m Hf Hmem.
  destruct (Hn fuel' (Lst m ∅) Hf (inv_init E s' m Hmem)) as (st & v & L1 & L2 & L3 & _ & L5).
  exists st, v. split; [exact L1|]. split; [exact (ex_heap _ _ L3)|].
  eapply restored_back; [exact Hh|exact Hg|]. by eapply inv_restored.
Qed.
