(** * PropsClasses: the classes of numbers in loaded sequences and arrays (C14, C37)

    [setting] and [comes_back] are in Cases.v, see PropsDump.v. *)
From Verif Require Import Base Utf8 Dec Num PyObj H5 Env Create Dump LoadFns LoadModel Registry RegistryStd Spec RoundTrip
  Api DumpClosed ApiProofs DumpEnv Instance Samples SampleProofs Accept ApiAccept Cases DumpSamples Classes ClassSamples.
Local Open Scope N_scope.
Local Open Scope list_scope.

(** ** C14: numbers of one class become that class or the numpy class that stands for it

    [of_dtype h d xs]: the items are numbers of classes numpy represents with dtype [d], such
    as int with int64.  They come back all in their own classes, or all in the class of [d],
    with the same values: a list of bools never comes back as a list of ints.

    Missing: own classes in every case, which is false ([C14_element_types_refuted]). *)
Theorem C14_number_classes_partial C E' kw opts x p m f c d xs :
  setting C E' opts p m f -> acceptable_graph E' kw (m_heap m) x -> graph_ok E' (m_heap m) x ->
  m_heap m !! x = Some (Obj c (VSeq xs)) -> isinst c CSet = false -> of_dtype (m_heap m) d xs ->
  comes_back C E' kw opts x p m f (fun h v => exists ys, h !! v = Some (Obj c (VSeq ys)) /\
    (Forall2 (same_class (m_heap m) h) xs ys \/ Forall2 (same_number (m_heap m) h) xs ys /\ numpy_of h d ys)).
Proof. exact (seq_numbers_back C E' kw opts x p m f c d xs). Qed.
Print Assumptions C14_number_classes_partial.

(** ** C37: bools, ints, floats and complex numbers in arrays of objects

    If all elements of an array of objects are of one of these classes, each comes back in
    that class or in the numpy class that stands for it.

    Missing: the same class in every case; see [C37_arrays_refuted]. *)
Theorem C37_element_classes_partial C E' kw opts x p m f c shape c0 xs :
  setting C E' opts p m f -> acceptable_graph E' kw (m_heap m) x -> graph_ok E' (m_heap m) x ->
  m_heap m !! x = Some (Obj c (VObjArr shape xs)) -> python_of (m_heap m) c0 xs ->
  comes_back C E' kw opts x p m f (fun h v => exists ys, h !! v = Some (Obj c (VObjArr shape ys)) /\
    Forall (class_or_numpy h c0) ys).
Proof. exact (array_classes_back C E' kw opts x p m f c shape c0 xs). Qed.
Print Assumptions C37_element_classes_partial.

Example C14_C37_classes_apply :
  setting C0 ienv [] p_ab m_num f0 /\
  acceptable_graph ienv [] (m_heap m_num) 1 /\ graph_ok ienv (m_heap m_num) 1 /\
  m_heap m_num !! 1 = Some (Obj CList (VSeq [2; 3])) /\ of_dtype (m_heap m_num) (DInt W8) [2; 3] /\
  acceptable_graph ienv [] (m_heap m_num) 4 /\ graph_ok ienv (m_heap m_num) 4 /\
  m_heap m_num !! 4 = Some (Obj CNdarray (VObjArr [2] [5; 6])) /\ python_of (m_heap m_num) CBool [5; 6].
Proof.
  split; [apply setting0; apply Nat.ltb_lt; vm_compute; reflexivity|].
  split; [apply m_num_acceptable; inU|]. split; [apply m_num_ok|]. split; [look|]. split; [apply m_num_classes|].
  split; [apply m_num_acceptable; inU|]. split; [apply m_num_ok|]. split; [look|]. apply m_num_classes.
Qed.
Example C14_C37_classes_show :
  round_trip m_num 1 = (Ok tt, Ok (WSeq CList [WNum (CNp (DInt W8)) (NZ 1); WNum (CNp (DInt W8)) (NZ 2)])) /\
  fst (round_trip m_num 4) = Ok tt.
Proof. split; vm_compute; reflexivity. Qed.
