(** * LoaderSamples: the standard loader modules are tidy; concrete searches *)
From Verif Require Import Base Utf8 Dec Num PyObj H5 Env Create Dump LoadFns LoadModel Registry RegistryStd RegistryProofs LoaderSearch.
From Coq Require Import Lia ZifyBool ZifyN.
Local Open Scope N_scope.
Local Open Scope list_scope.

(** Decidable form of [tidy]. *)
Definition responsible_b (W : world) (c : cls) (nm : pystr) : bool :=
  match package W c with Some p => bool_decide (nm = loader_prefix ++ p) | None => false end.
Definition tidy_b (W : world) : bool :=
  bool_decide (NoDup (map fst (w_modules W))) &&
  forallb (fun '(nm, m) =>
    forallb (fun e => match re_dump e with Some _ => in_hickle (re_cls e) || responsible_b W (re_cls e) nm | None => true end) (lm_register m)
    && bool_decide (NoDup (dump_keys m)) && forallb acceptable (lm_register m) && forallb excludable (lm_exclude m)
    && forallb (fun '(nm', m') => bool_decide (nm = nm') || forallb (fun b => bool_decide (b ∉ module_names m')) (module_names m)) (w_modules W))
    (w_modules W).
Lemma tidy_intro W : tidy_b W = true -> tidy W.
Proof.
  unfold tidy_b. intros [Hn Hall]%andb_true_iff. apply bool_decide_eq_true in Hn. rewrite List.forallb_forall in Hall.
  assert (H : forall nm m, (nm, m) ∈ w_modules W -> _) by (intros nm m Hm; exact (Hall (nm, m) (proj1 (elem_of_list_In _ _) Hm))).
  cbn beta iota in H. clear Hall.
  split.
  - done.
  - intros nm m e Hm He Hd. specialize (H nm m Hm). rewrite !andb_true_iff in H. destruct H as [[[[H _] _] _] _].
    rewrite List.forallb_forall in H. specialize (H e (proj1 (elem_of_list_In _ _) He)). destruct (re_dump e); [|done].
    apply orb_true_iff in H. destruct H as [H|H]; [by left|right]. unfold responsible_b in H. unfold responsible.
    destruct (package W (re_cls e)) as [pk|]; [|done]. apply bool_decide_eq_true in H. by exists pk.
  - intros nm m Hm. specialize (H nm m Hm). rewrite !andb_true_iff in H. destruct H as [[[[_ H] _] _] _]. by apply bool_decide_eq_true in H.
  - intros nm m Hm. specialize (H nm m Hm). rewrite !andb_true_iff in H. destruct H as [[[_ H] H'] _]. done.
  - intros nm m nm' m' b Hm Hm' Hb Hb'. specialize (H nm m Hm). rewrite !andb_true_iff in H. destruct H as [_ H].
    rewrite List.forallb_forall in H. specialize (H (nm', m') (proj1 (elem_of_list_In _ _) Hm')). cbn beta iota in H.
    apply orb_true_iff in H. destruct H as [H|H]; [by apply bool_decide_eq_true in H|].
    rewrite List.forallb_forall in H. specialize (H b (proj1 (elem_of_list_In _ _) Hb)). apply bool_decide_eq_true in H. done.
Qed.
Definition fresh_b (W : world) (g0 : registry) : bool :=
  bool_decide (g_loaded g0 = []) &&
  forallb (fun '(nm, m) => forallb (fun e => match re_dump e with
    | Some _ => forallb (fun p => negb (bool_decide (snd (fst p) = re_cls e))) (g_py g0) | None => true end) (lm_register m)) (w_modules W).
Lemma fresh_intro W g0 : fresh_b W g0 = true -> fresh W g0.
Proof.
  unfold fresh_b. intros [H1 H2]%andb_true_iff. apply bool_decide_eq_true in H1. split; [done|].
  intros nm m e o Hm He Hd. rewrite List.forallb_forall in H2. specialize (H2 (nm, m) (proj1 (elem_of_list_In _ _) Hm)). cbn beta iota in H2.
  rewrite List.forallb_forall in H2. specialize (H2 e (proj1 (elem_of_list_In _ _) He)). destruct (re_dump e); [|done].
  destruct (alist_get (o, re_cls e) (g_py g0)) as [i|] eqn:E; [|done]. apply alist_get_in in E.
  rewrite List.forallb_forall in H2. specialize (H2 _ (proj1 (elem_of_list_In _ _) E)). cbn [fst snd] in H2.
  by rewrite bool_decide_eq_true_2 in H2.
Qed.

Lemma std_tidy : tidy std_world.
Proof. apply tidy_intro. vm_compute. reflexivity. Qed.
Lemma std_fresh : fresh std_world core_registry.
Proof. apply fresh_intro. vm_compute. reflexivity. Qed.

(** A package 'shapes' with the classes Shape, Square(Shape) and Circle(Shape) and a loader
    module for Shape and, under the option 'custom', for Square. *)
Definition m_shapes : pystr := str "hickle.loaders.load_shapes".
Definition c_shape : cls := COpaque (str "shapes.base") (str "Shape").
Definition c_square : cls := CSub (str "shapes.flat") (str "Square") c_shape.
Definition c_circle : cls := CSub (str "shapes.flat") (str "Circle") c_shape.
Definition shape_entry (c : cls) (b : string) (o : opt) : reg_entry :=
  Entry c (str b) (Some (FDict, m_shapes)) (Some (LNothing, m_shapes)) (Some (KDict, m_shapes)) true o.
Definition shapes_module : loader_module :=
  LoaderModule [shape_entry c_shape "shape" None; shape_entry c_square "square" (Some (str "custom"))] [].
Definition shapes_world : world := World ((m_shapes, shapes_module) :: w_modules std_world) (Some (str "script")).
Lemma shapes_tidy : tidy shapes_world.
Proof. apply tidy_intro. vm_compute. reflexivity. Qed.
Lemma shapes_fresh : fresh shapes_world core_registry.
Proof. apply fresh_intro. vm_compute. reflexivity. Qed.

Lemma not_registered W g0 o c :
  forallb (fun '(nm, m) => forallb (fun e => match re_dump e with Some _ => negb (bool_decide ((re_opt e, re_cls e) = (o, c))) | None => true end) (lm_register m)) (w_modules W) = true ->
  alist_get (o, c) (g_py g0) = None -> forall j, ~ registered W g0 o c j.
Proof.
  intros H Hg j [nm m e fn mo Hm He Hec Ho Hd|i Hi]; [|congruence].
  rewrite List.forallb_forall in H. specialize (H (nm, m) (proj1 (elem_of_list_In _ _) Hm)). cbn beta iota in H.
  rewrite List.forallb_forall in H. specialize (H e (proj1 (elem_of_list_In _ _) He)). rewrite Hd, Hec, Ho in H.
  by rewrite bool_decide_eq_true_2 in H.
Qed.
Lemma shape_registered : registered shapes_world core_registry None c_shape (FDict, str "shape", true).
Proof.
  apply (RegModule shapes_world core_registry None c_shape m_shapes shapes_module (shape_entry c_shape "shape" None) FDict m_shapes); [left|left|done..].
Qed.
Lemma square_registered : registered shapes_world core_registry (Some (str "custom")) c_square (FDict, str "square", true).
Proof.
  apply (RegModule shapes_world core_registry _ c_square m_shapes shapes_module (shape_entry c_square "square" (Some (str "custom"))) FDict m_shapes);
    [left|right; left|done..].
Qed.
Lemma circle_search : search_finds shapes_world core_registry [Some (str "custom"); None] (mro c_circle) (FDict, str "shape", true).
Proof.
  exists [c_circle], c_shape, [CObject]. split; [done|]. split.
  - exists [Some (str "custom")], None, []. split; [done|]. split; [exact shape_registered|].
    intros o j ->%elem_of_list_singleton. apply not_registered; vm_compute; reflexivity.
  - intros c ->%elem_of_list_singleton o j [-> |[-> |[]%elem_of_nil]%elem_of_cons]%elem_of_cons; apply not_registered; vm_compute; reflexivity.
Qed.
Lemma square_search : search_finds shapes_world core_registry [Some (str "custom"); None] (mro c_square) (FDict, str "square", true).
Proof.
  exists [], c_square, [c_shape; CObject]. split; [done|]. split; [|intros ? []%elem_of_nil].
  exists [], (Some (str "custom")), [None]. split; [done|]. split; [exact square_registered|]. intros ? ? []%elem_of_nil.
Qed.
(** Some history: a list and a string dumped, then a class of the script that has no loader. *)
Definition some_history : list (list opt * cls * option bytes) :=
  [([None], CList, None); ([None], CStr, Some (str "str")); ([Some (str "custom"); None], COpaque (str "__main__") (str "Thing"), None)].

(** ** Modules that are not tidy *)
Definition c_other : cls := COpaque (str "other") (str "Thing").
Definition greedy_module : loader_module := LoaderModule [shape_entry c_shape "shape" None; shape_entry c_other "thing" None] [].
Definition greedy_world : world := World ((m_shapes, greedy_module) :: w_modules std_world) None.
(** User code registering a loader for the class list. *)
Definition user_list : reg_entry :=
  Entry CList (str "mylist") (Some (FDict, str "user")) (Some (LNothing, str "user")) None true None.
Definition user_registry : registry := fst (register_class core_registry user_list).
(** A class defined by a loader module and registered by it, as what to load some data as. *)
Definition c_dummy : cls := COpaque m_shapes (str "Dummy").
Definition dummy_module : loader_module := LoaderModule [shape_entry c_dummy "dummy" None] [].
Definition dummy_world : world := World ((m_shapes, dummy_module) :: w_modules std_world) None.
