(** * PropsDump: what dump accepts, how it ends, what it writes and what comes back
    (C03-C11, C14, C15, C25, C37-C40, C43, C45)

    [setting] and [comes_back] are in Cases.v: a process [C] with the standard loaders, any
    file [f], any path [p] that is free in it, any memory [m], and a loading process with the
    environment [E'], which iterates HDF5 groups in its own order.  [comes_back … P]: the dump
    succeeds, and whatever the loading process has in its memory, load returns an object
    satisfying [P] and changes neither the file nor the other objects. *)
From Verif Require Import Base Utf8 Dec Num PyObj H5 Env Create Dump LoadFns LoadModel Registry RegistryStd Spec RoundTrip
  Api DumpClosed ApiProofs DumpEnv Reach Instance Samples SampleProofs Cyclic ApiTop DumpTerm ApiEnds Accept DumpOk DumpAccept
  ApiAccept DumpKw Cases Count Table Layout DumpSamples LoaderSearch Native.
From Coq Require Import Lia ZifyBool ZifyN.
Local Open Scope N_scope.
Local Open Scope list_scope.

(** ** C03: dump ends on every finite graph

    [heap_closed]: objects refer to objects.  [K] bounds the number of dimensions of arrays of
    strings and objects, each of which costs a level of recursion.  The recursion limit
    [(K + 2) * size] is never reached, also by cyclic graphs, and a higher limit changes nothing. *)
Theorem C03_dump_ends C C' kw opts x p m f K :
  tree f -> world_ok (c_world C) -> free_above m -> heap_closed (m_heap m) -> is_Some (m_heap m !! x) ->
  (forall y o, m_heap m !! y = Some o -> (dims o <= K)%nat) ->
  ((K + 2) * size (m_heap m) < c_fuel C)%nat -> more_fuel C C' ->
  snd (dump_file C kw opts x p m f) <> Err OutOfFuel /\
  dump_file C' kw opts x p m f = dump_file C kw opts x p m f.
Proof. exact (dump_file_ends C C' kw opts x p m f K). Qed.
Print Assumptions C03_dump_ends.

Example C03_dump_ends_applies :
  tree f0 /\ world_ok (c_world C0) /\ free_above m_cyclic /\ heap_closed (m_heap m_cyclic) /\ is_Some (m_heap m_cyclic !! 1) /\
  (forall y o, m_heap m_cyclic !! y = Some o -> (dims o <= 0)%nat) /\ ((0 + 2) * size (m_heap m_cyclic) < c_fuel C0)%nat /\ more_fuel C0 C0.
Proof. exact cyclic_closed. Qed.

(** ** C43: documented values are accepted

    [acceptable_graph] (Accept.v) also holds of cyclic graphs. *)
Theorem C43_accepted C kw opts x p m f :
  env_ok (c_env C) -> c_world C = std_world -> tree f -> free_above m -> Forall (fun o => snd o = false) opts ->
  free_path f p -> acceptable_graph (c_env C) kw (m_heap m) x -> (34 * size (m_heap m) < c_fuel C)%nat ->
  exists f' m', dump_file C kw opts x p m f = (f', m', Ok tt).
Proof. exact (dump_file_accepts C kw opts x p m f). Qed.
Print Assumptions C43_accepted.

Example C43_accepted_applies kw :
  acceptable_graph ienv kw (m_heap m_ex) 1 /\ acceptable_graph ienv kw (m_heap m_np) 1 /\ acceptable_graph ienv kw (m_heap m_cyclic) 1.
Proof. exact (conj (m_ex_acceptable kw) (conj (m_np_acceptable kw) (cyclic_acceptable kw))). Qed.

(** Accepted and, without cycles, restored. *)
Theorem C43_total_round_trip C E' kw opts x p m f :
  setting C E' opts p m f -> acceptable_graph E' kw (m_heap m) x -> graph_ok E' (m_heap m) x ->
  comes_back C E' kw opts x p m f (isomorphic (m_heap m) x).
Proof. exact (whole_graph C E' kw opts x p m f). Qed.
Print Assumptions C43_total_round_trip.

Example C43_total_round_trip_applies kw :
  setting C0 ienv [] p_ab m_ex f0 /\ acceptable_graph ienv kw (m_heap m_ex) 1 /\ graph_ok ienv (m_heap m_ex) 1 /\
  setting C0 ienv [] p_ab m_np f0 /\ acceptable_graph ienv kw (m_heap m_np) 1 /\ graph_ok ienv (m_heap m_np) 1.
Proof. exact (conj (setting0 _ m_ex_size) (conj (m_ex_acceptable kw) (conj m_ex_ok (conj (setting0 _ m_np_size) (conj (m_np_acceptable kw) m_np_ok))))). Qed.

(** ** C05: None, bool, int, float and complex survive on their own *)
Theorem C05_numbers C E' kw opts x p m f o :
  setting C E' opts p m f -> m_heap m !! x = Some o -> builtin_number o ->
  comes_back C E' kw opts x p m f (fun h v => h !! v = Some o).
Proof. exact (number_back C E' kw opts x p m f o). Qed.
Print Assumptions C05_numbers.

Example C05_numbers_applies :
  let m := mem_of [o_int (2 ^ 63); o_int (- 2 ^ 200); o_float half; o_bool false; o_none] in
  setting C0 ienv [] p_ab m f0 /\ (exists o, m_heap m !! 1 = Some o /\ builtin_number o) /\
  (exists o, m_heap m !! 2 = Some o /\ builtin_number o) /\ (exists o, m_heap m !! 3 = Some o /\ builtin_number o).
Proof. exact numbers_sample. Qed.

(** ** C06: text and byte strings *)
Theorem C06_str C E' kw opts x p m f s :
  setting C E' opts p m f -> m_heap m !! x = Some (Obj CStr (VStr s)) -> encodable s = true ->
  comes_back C E' kw opts x p m f (fun h v => h !! v = Some (Obj CStr (VStr s))).
Proof. exact (str_back C E' kw opts x p m f s). Qed.
Print Assumptions C06_str.
Theorem C06_bytes C E' kw opts x p m f b :
  setting C E' opts p m f -> m_heap m !! x = Some (Obj CBytes (VBytes b)) ->
  comes_back C E' kw opts x p m f (fun h v => h !! v = Some (Obj CBytes (VBytes b))).
Proof. exact (bytes_back C E' kw opts x p m f b). Qed.
Print Assumptions C06_bytes.
(** [encodable]: no lone surrogate. *)
Theorem C06_surrogate_refused C kw opts x p m f s :
  c_world C = std_world -> Forall (fun o => snd o = false) opts ->
  m_heap m !! x = Some (Obj CStr (VStr s)) -> encodable s = false ->
  exists e, snd (dump_file C kw opts x p m f) = Err e.
Proof. exact (surrogate_refused C kw opts x p m f s). Qed.
Print Assumptions C06_surrogate_refused.

Example C06_applies :
  let m := mem_of [Obj CStr (VStr [0; 228; 128512]); Obj CStr (VStr []); Obj CBytes (VBytes [0; 255]); Obj CStr (VStr [55296])] in
  setting C0 ienv [] p_ab m f0 /\ m_heap m !! 1 = Some (Obj CStr (VStr [0; 228; 128512])) /\ encodable [0; 228; 128512] = true /\
  m_heap m !! 3 = Some (Obj CBytes (VBytes [0; 255])) /\ m_heap m !! 4 = Some (Obj CStr (VStr [55296])) /\ encodable [55296] = false.
Proof. exact strings_sample. Qed.

(** ** C07: order and number of the items of lists and tuples

    [items_back]: item by item the same object graph or, if all items are numbers, the same
    number. *)
Theorem C07_sequences C E' kw opts x p m f c xs :
  setting C E' opts p m f -> acceptable_graph E' kw (m_heap m) x -> graph_ok E' (m_heap m) x ->
  m_heap m !! x = Some (Obj c (VSeq xs)) -> isinst c CSet = false ->
  comes_back C E' kw opts x p m f (fun h v => exists ys, h !! v = Some (Obj c (VSeq ys)) /\ items_back (m_heap m) h xs ys).
Proof. exact (seq_back C E' kw opts x p m f c xs). Qed.
Print Assumptions C07_sequences.

Example C07_sequences_applies :
  m_heap m_ex !! 1 = Some (Obj CList (VSeq [2; 3; 3; 4])) /\ isinst CList CSet = false.
Proof. split; vm_compute; reflexivity. Qed.

(** ** C08: dict keys survive with type and insertion order: false for numpy numbers

    [{np.int32(1): np.int64(2)}] comes back with the key [np.int64(1)]. *)
Theorem C08_key_class_refuted :
  round_trip (mem_of [o_dict [(2, 3)]; Obj (CNp (DInt W4)) (VNum (NZ 1)); Obj (CNp (DInt W8)) (VNum (NZ 2))]) 1 =
  (Ok tt, Ok (WDict CDict [(WNum (CNp (DInt W8)) (NZ 1), WNum (CNp (DInt W8)) (NZ 2))])).
Proof. vm_compute. reflexivity. Qed.
Print Assumptions C08_key_class_refuted.

(** [entry_back]: key and value are the same object graphs, or the key is a number of another
    class than the builtin ones, the value is a number, and both are the same numbers.
    Missing: keys of [key_ok] only ([graph_ok], Spec.v), in particular not False. *)
Theorem C08_dicts_partial C E' kw opts x p m f c kvs :
  setting C E' opts p m f -> acceptable_graph E' kw (m_heap m) x -> graph_ok E' (m_heap m) x ->
  m_heap m !! x = Some (Obj c (VDict kvs)) ->
  comes_back C E' kw opts x p m f
    (fun h v => exists kvs', h !! v = Some (Obj c (VDict kvs')) /\ Forall2 (entry_back (m_heap m) h) kvs kvs').
Proof. exact (dict_back C E' kw opts x p m f c kvs). Qed.
Print Assumptions C08_dicts_partial.

Example C08_dicts_partial_applies :
  m_heap m_ex !! 4 = Some (Obj CDict (VDict [(3, 2); (2, 5)])) /\ graph_ok ienv (m_heap m_ex) 4 /\ acceptable_graph ienv [] (m_heap m_ex) 4.
Proof. exact dict_sample. Qed.

(** ** C09: the bool key that survives is True

    The key False does not ([C09_key_false_refuted], PropsGraph.v); [graph_ok] leaves it out. *)
Theorem C09_key_true_partial C E' kw opts x p m f c kvs i k w :
  setting C E' opts p m f -> acceptable_graph E' kw (m_heap m) x -> graph_ok E' (m_heap m) x ->
  m_heap m !! x = Some (Obj c (VDict kvs)) -> kvs !! i = Some (k, w) -> m_heap m !! k = Some (Obj CBool (VNum (NB true))) ->
  comes_back C E' kw opts x p m f
    (fun h v => exists kvs' k' w', h !! v = Some (Obj c (VDict kvs')) /\ length kvs' = length kvs /\ kvs' !! i = Some (k', w') /\
                  h !! k' = Some (Obj CBool (VNum (NB true))) /\ isomorphic (m_heap m) w h w').
Proof.
  intros Hse Ha Hg Ho Hi Hk. eapply comes_back_impl; [|apply (dict_back C E' kw opts x p m f c kvs Hse Ha Hg Ho)].
  intros h v (kvs' & Hv & Hf). destruct (Forall2_lookup_l _ _ _ _ _ Hf Hi) as ([k' w'] & Hi' & [[H1 H2]|[_ H]]).
  - exists kvs', k', w'. split; [done|]. split; [symmetry; exact (Forall2_length _ _ _ Hf)|]. split; [done|]. split; [|done].
    exact (iso_leaf _ _ _ _ _ H1 Hk eq_refl I).
  - destruct (H _ Hk). apply (bool_decide_unpack _). vm_compute. exact I.
Qed.
Print Assumptions C09_key_true_partial.

(** [{True: 'a', 'a': True}] *)
Example C09_key_true_partial_applies :
  setting C0 ienv [] p_ab m_true f0 /\ m_heap m_true !! 1 = Some (Obj CDict (VDict [(2, 3); (3, 2)])) /\
  m_heap m_true !! 2 = Some (Obj CBool (VNum (NB true))) /\
  graph_ok ienv (m_heap m_true) 1 /\ acceptable_graph ienv [] (m_heap m_true) 1.
Proof. exact true_sample. Qed.

(** ** C10: one member per dict entry, with distinct names without slash *)
Theorem C10_dict_members C kw opts x p m f f' m' c kvs :
  tree f -> c_world C = std_world -> free_above m -> Forall (fun o => snd o = false) opts ->
  m_heap m !! x = Some (Obj c (VDict kvs)) -> outside_hickle c -> dict_class c ->
  dump_file C kw opts x p m f = (f', m', Ok tt) ->
  exists root d n, get_path f' p = Some root /\ child f' root n_data = Some d /\ get_node f' d = Some n /\
    length (links n) = length kvs /\ NoDup (map fst (links n)) /\ Forall (fun l => has_char 47 (fst l) = false) (links n).
Proof. exact (dict_members C kw opts x p m f f' m' c kvs). Qed.
Print Assumptions C10_dict_members.

(** No entry makes the dump fail, the values being acceptable and the keys distinct.
    Missing: str and bytes keys containing NUL, on whose treatment by h5py nothing is assumed. *)
Theorem C10_dict_accepted_partial C kw opts x p m f c kvs :
  env_ok (c_env C) -> c_world C = std_world -> tree f -> free_above m -> Forall (fun o => snd o = false) opts ->
  free_path f p -> (34 * size (m_heap m) < c_fuel C)%nat ->
  m_heap m !! x = Some (Obj c (VDict kvs)) -> acceptable_graph (c_env C) kw (m_heap m) x ->
  exists f' m', dump_file C kw opts x p m f = (f', m', Ok tt).
Proof. exact (fun H1 H2 H3 H4 H5 H6 H7 _ H8 => dump_file_accepts C kw opts x p m f H1 H2 H3 H4 H5 H6 H8 H7). Qed.
Print Assumptions C10_dict_accepted_partial.

(** [{'/': 1, '\\': 2, b'/': 3, '"/"': 4, 1: 5}] *)
Example C10_dict_members_applies :
  let m := mem_of [o_dict [(2, 7); (3, 7); (4, 7); (5, 7); (6, 7)]; o_str "/"; o_str "\"; o_bytes "/"; o_str """/"""; o_int 1; o_str "v"] in
  outside_hickle CDict /\ dict_class CDict /\ m_heap m !! 1 = Some (Obj CDict (VDict [(2, 7); (3, 7); (4, 7); (5, 7); (6, 7)])) /\
  snd (dump_file C0 [] [] 1 p_ab m f0) = Ok tt.
Proof. exact slashes_sample. Qed.

(** ** C11: sets *)
Theorem C11_sets C E' kw opts x p m f c xs :
  setting C E' opts p m f -> acceptable_graph E' kw (m_heap m) x -> graph_ok E' (m_heap m) x ->
  m_heap m !! x = Some (Obj c (VSeq xs)) ->
  comes_back C E' kw opts x p m f
    (fun h v => exists ys ys', h !! v = Some (Obj c (VSeq ys)) /\ Permutation ys ys' /\ items_back (m_heap m) h xs ys').
Proof. exact (set_back C E' kw opts x p m f c xs). Qed.
Print Assumptions C11_sets.

Example C11_sets_applies :
  m_heap m_ex !! 5 = Some (Obj CSet (VSeq [2; 3])) /\ graph_ok ienv (m_heap m_ex) 5 /\ acceptable_graph ienv [] (m_heap m_ex) 5.
Proof. exact set_sample. Qed.

(** ** C14: element types survive unless all items are numbers, not all of one numpy class

    Missing: lists of Python numbers and lists mixing numpy classes, for which it is false
    ([C14_element_types_refuted]). *)
Theorem C14_element_types_partial C E' kw opts x p m f c xs :
  setting C E' opts p m f -> acceptable_graph E' kw (m_heap m) x -> graph_ok E' (m_heap m) x ->
  m_heap m !! x = Some (Obj c (VSeq xs)) -> isinst c CSet = false ->
  ~ all_numbers (m_heap m) xs \/ (exists d, numpy_of (m_heap m) d xs) ->
  comes_back C E' kw opts x p m f
    (fun h v => exists ys, h !! v = Some (Obj c (VSeq ys)) /\ Forall2 (same_class (m_heap m) h) xs ys).
Proof. exact (seq_classes_back C E' kw opts x p m f c xs). Qed.
Print Assumptions C14_element_types_partial.

Example C14_element_types_partial_applies : ~ all_numbers (m_heap m_ex) [2; 3; 3; 4].
Proof. exact m_ex_not_numbers. Qed.

(** ** C15, C39, C40: what is in the file after a dump

    [place]: the node of every object that is tracked.  Every node at or below the data node
    is the one node of a tracked object, a scalar or empty dataset, or a reference to the node
    of a tracked object; nodes of objects have, for every process that can import the class,
    the class and loader name of the object.  An object without loader is one pickle string
    without type.  The number of nodes is bounded by the path components and the number of
    references between objects.  The type table has one entry per class. *)
Theorem C15_C39_C40_nodes C kw opts x p m f f' m' :
  tree f -> c_world C = std_world -> free_above m -> Forall (fun o => snd o = false) opts ->
  dump_file C kw opts x p m f = (f', m', Ok tt) ->
  exists (place : gmap N addr) root c,
    get_path f' p = Some root /\ child f' root n_data = Some c /\ m_heap m ⊆ m_heap m' /\
    (forall y z a, place !! y = Some a -> place !! z = Some a -> y = z) /\
    (forall y a, place !! y = Some a -> exists n o pt fn base, get_node f' a = Some n /\ m_heap m' !! y = Some o /\
       std_dump (ocls o) = Ok (pt, (fn, base, true)) /\ reads_as f' n pt base) /\
    (forall a, below f' c a -> role std_dump (m_heap m') f' place a) /\
    (forall y a c k v, place !! y = Some a -> m_heap m' !! y = Some (Obj c (VOpaque k v)) -> outside_hickle c -> without_loader c ->
       exists n, get_node f' a = Some n /\ nd_body n = BData (DPickle c k v) /\ nd_attrs n !! a_type = None) /\
    (plain_heap (m_heap m) -> f_next f' <= f_next f + N.of_nat (length (components p)) + 4 + 3 * N.of_nat (edges (m_heap m') place)) /\
    exists tbl tn, child f' root n_table = Some tbl /\ get_node f' tbl = Some tn /\ NoDup (map fst (links tn)) /\
      forall nm nm' e e' c, (nm, e) ∈ links tn -> (nm', e') ∈ links tn -> records f' e c -> records f' e' c -> e = e'.
Proof. exact (dump_file_roles C kw opts x p m f f' m'). Qed.
Print Assumptions C15_C39_C40_nodes.

Example C15_C39_C40_nodes_applies :
  tree f0 /\ c_world C0 = std_world /\ free_above m_np /\ snd (dump_file C0 [str "compression"] [] 1 p_ab m_np f0) = Ok tt.
Proof. exact nodes_sample. Qed.

(** ** C45: data are stored natively

    [holds h f place a y]: the node [a] was written for the object [y]; the data node for [x]
    and every node below it for some object.  A node is the dataset that the
    relation [native] gives for the class and value of the object, if it gives any, or a
    reference to the node of an object that occurs more than once.  The values of a dict are
    found under the quoted key if it is a str without slashes and backslashes; the elements of a
    sequence stored as a group under data0, data1, ... *)
Theorem C45_native C kw opts x p m f f' m' :
  tree f -> c_world C = std_world -> free_above m -> Forall (fun o => snd o = false) opts ->
  dump_file C kw opts x p m f = (f', m', Ok tt) ->
  exists (place : gmap N addr) root c,
    get_path f' p = Some root /\ child f' root (str "data") = Some c /\ m_heap m ⊆ m_heap m' /\
    holds (m_heap m') f' place c x /\
    (forall a, below f' c a -> exists y, holds (m_heap m') f' place a y) /\
    (forall y a k v kvs s, place !! y = Some a -> m_heap m' !! y = Some (Obj CDict (VDict kvs)) -> (k, v) ∈ kvs ->
       m_heap m' !! k = Some (Obj CStr (VStr s)) -> has_char 47 s = false -> has_char 92 s = false ->
       exists b, child f' a ([34] ++ s ++ [34]) = Some b /\ holds (m_heap m') f' place b v) /\
    (forall y a cl xs n i v, place !! y = Some a -> m_heap m' !! y = Some (Obj cl (VSeq xs)) -> cl ∈ [CList; CTuple; CSet] ->
       get_node f' a = Some n -> is_group n = true -> xs !! i = Some v ->
       exists b, child f' a (str "data" ++ N_dec (N.of_nat i)) = Some b /\ holds (m_heap m') f' place b v).
Proof. exact (dump_file_native C kw opts x p m f f' m'). Qed.
Print Assumptions C45_native.

(** True, -5, 2.5, 2**63, [1, 2], 'é' and the empty tuple, in their own files. *)
Example C45_applies :
  (tree f0 /\ c_world C0 = std_world /\ free_above m_np /\ snd (dump_file C0 [str "compression"] [] 1 p_ab m_np f0) = Ok tt) /\
  map (fun x => data_at (fst (dumped m_native x))) [1; 2; 3; 4; 5; 8; 0] =
    map Some [DScalar DBool (NB true); DScalar (DInt W8) (NZ (-5)); DScalar (DFloat F8) (NF (FFin false 5 (-1)));
              DU8 (str "9223372036854775808"); DArray (DInt W8) [2] [NZ 1; NZ 2]; DS1 [195; 169]; DNull KInt].
Proof. split; [exact nodes_sample|look]. Qed.

(** ** C25: keyword arguments for h5py

    False for arrays without dimensions: [hickle.dump(np.array(1), f, compression='gzip')]
    raises TypeError. *)
Theorem C25_zero_dim_refuted :
  let m := mem_of [o_arr (DInt W8) [] [NZ 1]] in
  snd (dump_file C0 [] [] 1 (str "/") m f0) = Ok tt /\
  snd (dump_file C0 [str "compression"] [] 1 (str "/") m f0) = Err TypeError.
Proof. split; vm_compute; reflexivity. Qed.
Print Assumptions C25_zero_dim_refuted.

(** Otherwise the result of a dump, including its failure, does not depend on the keyword
    arguments at all; in the model the file does not record how data are compressed, that is
    what h5py takes care of. *)
Theorem C25_keywords_partial C kw kw' opts x p m f :
  tree f -> world_ok (c_world C) -> free_above m -> no_zero_dim (m_heap m) x ->
  dump_file C kw opts x p m f = dump_file C kw' opts x p m f.
Proof. exact (dump_file_kw C kw kw' opts x p m f). Qed.
Print Assumptions C25_keywords_partial.

Example C25_keywords_partial_applies : no_zero_dim (m_heap m_ex) 1 /\ no_zero_dim (m_heap m_np) 1.
Proof. exact (conj m_ex_dims m_np_dims). Qed.

(** ** C37: numeric arrays *)
Theorem C37_numeric_arrays_partial C E' kw opts x p m f c d shape vs :
  setting C E' opts p m f -> m_heap m !! x = Some (Obj c (VArr d shape vs)) -> outside_hickle c ->
  c = CNdarray \/ base_cls c = CMatrix -> Forall (fun v => num_of_dtype d v = true) vs ->
  (shape = [] -> length vs = 1%nat /\ Forall (fun k => k ∉ filter_keys) kw) ->
  e_pickles_cls E' c = true -> e_imports E' c = true ->
  comes_back C E' kw opts x p m f (fun h v => h !! v = Some (Obj c (VArr d shape vs))).
Proof. exact (array_back C E' kw opts x p m f c d shape vs). Qed.
Print Assumptions C37_numeric_arrays_partial.

Example C37_numeric_arrays_partial_applies :
  m_heap m_np !! 3 = Some (Obj CNdarray (VArr (DInt W8) [2] [NZ 7; NZ (-1)])) /\ outside_hickle CNdarray /\
  Forall (fun v => num_of_dtype (DInt W8) v = true) [NZ 7; NZ (-1)].
Proof. exact array_sample. Qed.

(** Arrays of strings, of any shape with up to 32 dimensions, none of which but the last of
    several is 0 ([C37_arrays_refuted]: an empty array of strings cannot be loaded).  numpy
    drops NUL at the end of an element, so that no element ends with it. *)
Theorem C37_string_arrays_partial C E' kw opts x p m f w shape vs :
  setting C E' opts p m f -> m_heap m !! x = Some (Obj CNdarray (VStrArr w shape vs)) ->
  shape_ok shape -> N.of_nat (length vs) = size_of shape -> 1 <= w ->
  Forall (fits_width w) vs -> Forall (fun s => encodable s = true) vs ->
  e_pickles_cls E' CNdarray = true -> e_imports E' CNdarray = true ->
  comes_back C E' kw opts x p m f (fun h v => h !! v = Some (Obj CNdarray (VStrArr w shape vs))).
Proof. exact (strarr_back C E' kw opts x p m f w shape vs). Qed.
Print Assumptions C37_string_arrays_partial.

Example C37_string_arrays_partial_applies :
  let vs := [str "ab"; []; str "xyz"; str "c"] in
  m_heap m_arr !! 2 = Some (Obj CNdarray (VStrArr 3 [2; 2] vs)) /\ setting C0 ienv [] p_ab m_arr f0 /\
  shape_ok [2; 2] /\ N.of_nat (length vs) = size_of [2; 2] /\ Forall (fits_width 3) vs /\ Forall (fun s => encodable s = true) vs.
Proof. exact strarr_sample. Qed.

(** Arrays of objects come back with their shape, their elements in place.  Elements in a
    row of numbers only may come back as other objects of the same value. *)
Theorem C37_object_arrays_partial C E' kw opts x p m f c shape xs :
  setting C E' opts p m f -> acceptable_graph E' kw (m_heap m) x -> graph_ok E' (m_heap m) x ->
  m_heap m !! x = Some (Obj c (VObjArr shape xs)) ->
  comes_back C E' kw opts x p m f (fun h v => exists ys, h !! v = Some (Obj c (VObjArr shape ys)) /\
    Forall2 (same_item (m_heap m) h) xs ys).
Proof. exact (objarr_back C E' kw opts x p m f c shape xs). Qed.
Print Assumptions C37_object_arrays_partial.

Example C37_object_arrays_partial_applies :
  m_heap m_arr !! 3 = Some (Obj CNdarray (VObjArr [2; 2] [4; 5; 6; 4])) /\ graph_ok ienv (m_heap m_arr) 3 /\
  acceptable_graph ienv [] (m_heap m_arr) 3 /\
  m_heap m_arr !! 7 = Some (Obj CNdarray (VObjArr [2] [4; 8])) /\ graph_ok ienv (m_heap m_arr) 7 /\
  acceptable_graph ienv [] (m_heap m_arr) 7.
Proof. exact objarr_sample. Qed.

(** ** C38: masked arrays and sparse matrices *)
Theorem C38_masked C E' kw opts x p m f c d k cd td sd vd ck tk sk vk :
  setting C E' opts p m f -> acceptable_graph E' kw (m_heap m) x -> graph_ok E' (m_heap m) x ->
  m_heap m !! x = Some (Obj c (VMasked d k)) ->
  m_heap m !! d = Some (Obj cd (VArr td sd vd)) -> m_heap m !! k = Some (Obj ck (VArr tk sk vk)) ->
  comes_back C E' kw opts x p m f (fun h v => exists d' k', h !! v = Some (Obj c (VMasked d' k')) /\
    h !! d' = Some (Obj cd (VArr td sd vd)) /\ h !! k' = Some (Obj ck (VArr tk sk vk))).
Proof. exact (masked_back C E' kw opts x p m f c d k cd td sd vd ck tk sk vk). Qed.
Print Assumptions C38_masked.
Theorem C38_sparse C E' kw opts x p m f c d i q s cd td sd vd ci ti si vi cq tq sq vq :
  setting C E' opts p m f -> acceptable_graph E' kw (m_heap m) x -> graph_ok E' (m_heap m) x ->
  m_heap m !! x = Some (Obj c (VSparse d i q s)) ->
  m_heap m !! d = Some (Obj cd (VArr td sd vd)) -> m_heap m !! i = Some (Obj ci (VArr ti si vi)) ->
  m_heap m !! q = Some (Obj cq (VArr tq sq vq)) ->
  comes_back C E' kw opts x p m f (fun h v => exists d' i' q' s', h !! v = Some (Obj c (VSparse d' i' q' s')) /\
    h !! d' = Some (Obj cd (VArr td sd vd)) /\ h !! i' = Some (Obj ci (VArr ti si vi)) /\
    h !! q' = Some (Obj cq (VArr tq sq vq)) /\ isomorphic (m_heap m) s h s').
Proof. exact (sparse_back C E' kw opts x p m f c d i q s cd td sd vd ci ti si vi cq tq sq vq). Qed.
Print Assumptions C38_sparse.

Example C38_applies :
  m_heap m_np !! 2 = Some (Obj CMasked (VMasked 3 4)) /\ graph_ok ienv (m_heap m_np) 2 /\ acceptable_graph ienv [] (m_heap m_np) 2 /\
  m_heap m_np !! 5 = Some (Obj (CSparse SCsr) (VSparse 6 7 8 9)) /\ graph_ok ienv (m_heap m_np) 5 /\ acceptable_graph ienv [] (m_heap m_np) 5.
Proof. exact masked_sample. Qed.

(** ** C40: objects without loader are pickled

    The objects an object pickled as a whole refers to are part of its pickled state [n]
    (see [create_pickled], Create.v). *)
Theorem C40_pickled C E' kw opts x p m f c k n :
  setting C E' opts p m f -> m_heap m !! x = Some (Obj c (VOpaque k n)) -> outside_hickle c -> without_loader c ->
  e_pickles E' c n = true -> e_imports E' c = true ->
  comes_back C E' kw opts x p m f (fun h v => h !! v = Some (Obj c (VOpaque k n))).
Proof. exact (pickled_back C E' kw opts x p m f c k n). Qed.
Print Assumptions C40_pickled.

Example C40_pickled_applies :
  let c := COpaque (str "m") (str "A") in
  m_heap m_np !! 10 = Some (Obj c (VOpaque OById 4)) /\ outside_hickle c /\ without_loader c /\
  e_pickles ienv c 4 = true /\ e_imports ienv c = true.
Proof. exact pickled_sample. Qed.
