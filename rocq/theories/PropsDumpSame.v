(** * PropsDumpSame: what dump writes is determined by the object (C61) *)
From Verif Require Import Base Utf8 Dec Num PyObj H5 Env Create Dump LoadFns LoadModel Registry RegistryStd Spec RoundTrip
  Api DumpClosed ApiProofs Instance Samples SampleProofs Fresh Same DumpSame.
From Coq Require Import Lia ZifyBool ZifyN.
Local Open Scope N_scope.
Local Open Scope list_scope.

(** ** C61: dump depends on the structure of the object only

    Two processes with the same environment and the same registered loaders dump two
    objects of the same structure, [x1] in the memory [m1] and [x2] in [m2], to the same
    path of the same file with the same arguments.  Where the objects are in memory and
    what else is there makes no difference: the files written are equal and both calls
    return, or raise the same error.  The structures may contain themselves.  All that is
    assumed about the environment is that numpy judges nested sequences by their
    structure. *)
Theorem C61_dump_determined C kw opts p f x1 m1 x2 m2 f1 m1' r1 f2 m2' r2 :
  ragged_by_structure (c_env C) -> free_above m1 -> free_above m2 -> all_there (m_heap m1) x1 ->
  same_graph (m_heap m1) x1 (m_heap m2) x2 ->
  dump_file C kw opts x1 p m1 f = (f1, m1', r1) -> dump_file C kw opts x2 p m2 f = (f2, m2', r2) ->
  f1 = f2 /\ r1 = r2.
Proof.
  intros HR F1 F2 Ha Hs H1 H2. pose proof (dump_file_same C kw opts p f x1 m1 x2 m2 HR F1 F2 Ha Hs) as X.
  rewrite H1, H2 in X. exact X.
Qed.
Print Assumptions C61_dump_determined.

(** dump leaves every object of the process as it was, whether it returns or not, and
    dumping the same object to the same file again does the same again. *)
Theorem C61_dump_twice C kw opts x p m f f1 m1 r :
  ragged_by_structure (c_env C) -> world_ok (c_world C) -> tree f -> free_above m -> all_there (m_heap m) x ->
  dump_file C kw opts x p m f = (f1, m1, r) ->
  (forall y o, m_heap m !! y = Some o -> m_heap m1 !! y = Some o) /\
  exists m2, dump_file C kw opts x p m1 f = (f1, m2, r).
Proof.
  intros HR HW Ht F1 Ha H1. destruct (dump_file_frame _ _ _ _ _ _ _ _ _ _ Ht HW F1 H1) as (_ & _ & _ & F2 & Hsub & _).
  split; [intros y o Ho; by eapply lookup_weaken|].
  destruct (dump_file C kw opts x p m1 f) as [[f2 m2] r2] eqn:H2. exists m2.
  assert (same_graph (m_heap m) x (m_heap m1) x) as Hs.
  { exists (fun l => l). split; [done|]. split; [|done]. intros z Hz. destruct (Ha z Hz) as [o Ho]. rewrite Ho. cbn [option_map].
    rewrite (lookup_weaken _ _ _ _ Ho Hsub). by rewrite moved_id. }
  by destruct (C61_dump_determined _ _ _ _ _ _ _ _ _ _ _ _ _ _ _ HR F1 F2 Ha Hs H1 H2) as [<- <-].
Qed.
Print Assumptions C61_dump_twice.

(** The environment of Instance.v is such an environment. *)
Lemma shape_moved h h' g x : (forall z, part_of h x z -> h' !! g z = option_map (moved g) (h !! z)) ->
  forall k z, part_of h x z -> np_shape k h' (g z) = np_shape k h z.
Proof.
  intros H. induction k as [|k IH]; intros z Hz; [done|]. cbn [np_shape]. rewrite (H z Hz).
  destruct (h !! z) as [[c v]|] eqn:Ez; [|done]. cbn [option_map]. unfold moved. cbn [ocls oval].
  destruct v as [| | | |xs| | | | | | | | | |]; cbn [moved_val]; try done. rewrite map_length.
  assert (map (np_shape k h') (map g xs) = map (np_shape k h) xs) as ->; [|done].
  rewrite map_map. apply map_ext_in. intros y Hy. apply IH. eapply part_trans; [exact Hz|]. eapply part_step; [exact Ez| |apply part_self].
  by apply elem_of_list_In.
Qed.
Example C61_environment : ragged_by_structure ienv.
Proof.
  intros h x h' y (g & <- & G & _). change (e_ragged ienv h x) with (match np_shape 40 h x with Some _ => false | None => true end).
  change (e_ragged ienv h' (g x)) with (match np_shape 40 h' (g x) with Some _ => false | None => true end).
  by rewrite (shape_moved h h' g x G 40 x (part_self _ _)).
Qed.

(** A list with a string it holds twice and a dict with a tuple as key, at two places of
    two memories. *)
Definition h_a : heap :=
  <[1 := Obj CList (VSeq [2; 3; 2])]> (<[2 := Obj CStr (VStr (str "a"))]> (<[3 := Obj CDict (VDict [(4, 2)])]>
  (<[4 := Obj CTuple (VSeq [2])]> (<[0 := empty_tuple]> ∅)))).
Definition h_b : heap :=
  <[7 := Obj CList (VSeq [9; 3; 9])]> (<[9 := Obj CStr (VStr (str "a"))]> (<[3 := Obj CDict (VDict [(1, 9)])]>
  (<[1 := Obj CTuple (VSeq [9])]> (<[0 := empty_tuple]> (<[5 := Obj CInt (VNum (NZ 8))]> ∅))))).
Example C61_applies :
  free_above (Mem h_a 5) /\ free_above (Mem h_b 10) /\ all_there h_a 1 /\ same_graph h_a 1 h_b 7 /\
  snd (dump_file C0 [] [] 1 (str "/") (Mem h_a 5) f0) = Ok tt /\
  match load_file C0 false (fst (fst (dump_file C0 [] [] 7 (str "/") (Mem h_b 10) f0))) (str "/") m0 with
  | (_, Ok (m, v), _) => see m v = WSeq CList [WStr CStr (str "a");
      WDict CDict [(WSeq CTuple [WStr CStr (str "a")], WStr CStr (str "a"))]; WStr CStr (str "a")]
  | _ => False
  end.
Proof.
  assert (forall z, part_of h_a 1 z -> z ∈ [1; 2; 3; 4]) as Hp.
  { assert (forall x z, part_of h_a x z -> x ∈ [1; 2; 3; 4] -> z ∈ [1; 2; 3; 4]) as X; [|intros z Hz; by eapply X; [exact Hz|left]].
    induction 1 as [|x o y z Ho Hy _ IH]; [done|]. intros Hx. apply IH. clear IH.
    repeat (apply elem_of_cons in Hx as [->|Hx]); [..|by apply elem_of_nil in Hx]; vm_compute in Ho; injection Ho as <-;
      repeat (apply elem_of_cons in Hy as [->|Hy]); try (by apply elem_of_nil in Hy);
      repeat (first [by apply elem_of_cons; left | apply elem_of_cons; right]). }
  split; [|split; [|split; [|split; [|split]]]].
  - intros l Hl. cbn [m_next m_heap] in *. unfold h_a. rewrite !lookup_insert_ne by lia. apply lookup_empty.
  - intros l Hl. cbn [m_next m_heap] in *. unfold h_b. rewrite !lookup_insert_ne by lia. apply lookup_empty.
  - intros z Hz%Hp. repeat (apply elem_of_cons in Hz as [->|Hz]); [by eexists..|by apply elem_of_nil in Hz].
  - exists (fun l => if l =? 1 then 7 else if l =? 2 then 9 else if l =? 3 then 3 else 1). split; [done|]. split.
    + intros z Hz%Hp. repeat (apply elem_of_cons in Hz as [->|Hz]); [done..|by apply elem_of_nil in Hz].
    + intros z w Hz%Hp Hw%Hp. repeat (apply elem_of_cons in Hz as [->|Hz]); [..|by apply elem_of_nil in Hz];
        (repeat (apply elem_of_cons in Hw as [->|Hw]); [..|by apply elem_of_nil in Hw]); by vm_compute.
  - look.
  - look.
Qed.

(** Sharing does make a difference: with two equal strings instead of one the file is
    another one. *)
Definition m_c : mem := mem_of [Obj CList (VSeq [2; 3]); o_str "a"%string; o_str "a"%string].
Definition m_d : mem := mem_of [Obj CList (VSeq [2; 2]); o_str "a"%string; o_str "a"%string].
Definition second_item (m : mem) : option body :=
  let f := fst (fst (dump_file C0 [] [] 1 (str "/") m f0)) in
  match get_path f (str "/data/data1") with
  | Some a => option_map nd_body (get_node f a)
  | None => None
  end.
Example C61_sharing_counts :
  match second_item m_c, second_item m_d with
  | Some (BData (DS1 b)), Some (BData (DRefTo _)) => b = str "a"
  | _, _ => False
  end.
Proof. look. Qed.
