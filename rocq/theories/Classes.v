(** * Classes: which classes the numbers of loaded sequences and arrays have *)
From Verif Require Import Base Utf8 Dec Num PyObj H5 Env Create Dump LoadFns LoadModel Registry RegistryStd Spec RoundTrip
  Api DumpClosed ApiProofs DumpEnv Reach Accept ApiAccept ApiTop LoadInv Cases.
Local Open Scope N_scope.
Local Open Scope list_scope.
Local Opaque std_loader std_dump dump_loader_of loader_of.

(** The object at [y] is a number of class [c], or of the numpy class that numpy gives
    numbers of class [c]. *)
Definition class_or_numpy (h' : heap) (c : cls) (y : loc) : Prop :=
  exists n, h' !! y = Some (Obj c (VNum n)) \/ exists d, np_dtype_of_cls c = PNum d /\ h' !! y = Some (Obj (CNp d) (VNum n)).

Lemma numbers_back h h' d xs ys : items_back h h' xs ys -> of_dtype h d xs ->
  Forall2 (same_class h h') xs ys \/ Forall2 (same_number h h') xs ys /\ numpy_of h' d ys.
Proof.
  intros [Hf|(Ha & Hf & d1 & Hd & Hsame)] Hx.
  - left. eapply Forall2_impl; [exact Hf|]. intros a b. apply iso_class.
  - destruct (Hsame d Hx) as [-> | ->]; [|by right]. inversion Hf; subst. left. constructor.
Qed.
Lemma builtin_of_dtype h c xs : python_of h c xs -> exists d, np_dtype_of_cls c = PNum d /\ of_dtype h d xs.
Proof.
  intros [Hc Hx]. assert (exists d, np_dtype_of_cls c = PNum d) as [d Hd].
  { repeat (apply elem_of_cons in Hc as [-> |Hc]; [by eexists|]). by apply elem_of_nil in Hc. }
  exists d. split; [done|]. intros x Hin. destruct (Hx x Hin) as [n Hn]. by exists c, n.
Qed.
Lemma row_classes h h' (R : loc -> loc -> Prop) c xs ys :
  (forall a b, R a b -> exists o o', h !! a = Some o /\ h' !! b = Some o' /\ same_obj h h' R o o') ->
  same_row h h' R xs ys -> python_of h c xs -> Forall (class_or_numpy h' c) ys.
Proof.
  intros HR Hr Hp. pose proof Hp as [Hc Hx]. apply list.Forall_forall. intros y Hy.
  destruct Hr as [[Hf|(_ & Hf & d & Hd & Hsame)]|(_ & Hf & c1 & [Hc1 Hy1] & Hsame)].
  - apply elem_of_list_lookup in Hy as [i Hi]. destruct (Forall2_lookup_r _ _ _ _ _ Hf Hi) as (x & Hxi & Hxy).
    apply elem_of_list_lookup_2 in Hxi. destruct (Hx x Hxi) as [n Hn]. destruct (HR _ _ Hxy) as (o & [c' v'] & H1 & H2 & Hcl & Hv).
    rewrite Hn in H1. inversion H1; subst o. simpl in *. subst c'. destruct Hv as [_ ->]. exists n. by left.
  - destruct (builtin_of_dtype _ _ _ Hp) as (d0 & Hd0 & Hof). destruct (Hsame d0 Hof) as [-> | <-].
    { inversion Hf; subst. by apply elem_of_nil in Hy. }
    destruct (Hd y Hy) as [n Hn]. exists n. right. by exists d0.
  - destruct (Hsame c Hp) as [-> | <-]. { inversion Hf; subst. by apply elem_of_nil in Hy. }
    destruct (Hy1 y Hy) as [n Hn]. exists n. by left.
Qed.
Lemma iso_array_classes h x h' v c shape c0 xs : isomorphic h x h' v -> h !! x = Some (Obj c (VObjArr shape xs)) ->
  python_of h c0 xs -> exists ys, h' !! v = Some (Obj c (VObjArr shape ys)) /\ Forall (class_or_numpy h' c0) ys.
Proof.
  intros Hi Ho [Hc0 Hp]. pose proof Hi as (R & Hxv & HR & HF & HI). destruct (HR _ _ Hxv) as (o1 & [c' v'] & H1 & H2 & Hc & Hs).
  rewrite Ho in H1. inversion H1; subst o1. simpl in *. subst c'.
  destruct v'; try (by destruct Hs). destruct Hs as [<- (rows & rows' & -> & -> & _ & Hf)]. eexists. split; [done|].
  clear H2 Ho H1. induction Hf as [|r r' rows rows' Hr Hf IH]; [constructor|]. cbn [concat] in *. apply Forall_app. split.
  - apply (row_classes h h' R c0 r r' HR Hr). split; [done|]. intros y Hy. apply Hp. apply elem_of_app. by left.
  - apply IH. intros y Hy. apply Hp. apply elem_of_app. by right.
Qed.

Lemma seq_numbers_back C E' kw opts x p m f c d xs :
  setting C E' opts p m f -> acceptable_graph E' kw (m_heap m) x -> graph_ok E' (m_heap m) x ->
  m_heap m !! x = Some (Obj c (VSeq xs)) -> isinst c CSet = false -> of_dtype (m_heap m) d xs ->
  comes_back C E' kw opts x p m f (fun h v => exists ys, h !! v = Some (Obj c (VSeq ys)) /\
    (Forall2 (same_class (m_heap m) h) xs ys \/ Forall2 (same_number (m_heap m) h) xs ys /\ numpy_of h d ys)).
Proof.
  intros H1 H2 H3 H4 H5 H6. eapply comes_back_impl; [|by eapply seq_back]. intros h v (ys & Hy & Hi). exists ys.
  split; [done|]. by apply numbers_back.
Qed.
Lemma array_classes_back C E' kw opts x p m f c shape c0 xs :
  setting C E' opts p m f -> acceptable_graph E' kw (m_heap m) x -> graph_ok E' (m_heap m) x ->
  m_heap m !! x = Some (Obj c (VObjArr shape xs)) -> python_of (m_heap m) c0 xs ->
  comes_back C E' kw opts x p m f (fun h v => exists ys, h !! v = Some (Obj c (VObjArr shape ys)) /\
    Forall (class_or_numpy h c0) ys).
Proof.
  intros Hse Ha Hg Hx Hp. eapply comes_back_impl; [|by apply whole_graph]. intros h v Hi. by eapply iso_array_classes.
Qed.
