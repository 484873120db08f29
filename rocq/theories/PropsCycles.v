(** * PropsCycles: cycles, lists of dumpable items and subclasses (C04, C13, C36, C48) *)
From stdpp Require Import relations.
From Verif Require Import Base Utf8 Dec Num PyObj H5 Env Create Dump LoadFns LoadModel Registry RegistryStd Spec RoundTrip
  DumpProofs Api DumpClosed ApiProofs Instance Samples SampleProofs Cyclic Accept ApiAccept DumpEnv Cases DumpSamples LoadCycle DumpCycle Acyclic Subclass.
From Coq Require Import Lia ZifyBool ZifyN.
Local Open Scope N_scope.
Local Open Scope list_scope.

(** ** C04: what dump accepts load can restore: false for every cyclic graph

    [cyclic] (DumpCycle.v): starting at [x] one comes to a container that contains itself.
    If dump accepts such an object then no process, with whatever loaders, recursion limit,
    order of iteration and memory, gets a value from load. *)
Theorem C04_cyclic_never_loads C kw opts x p m f f' m' :
  tree f -> not_v3 f -> c_world C = std_world -> free_above m -> Forall (fun o => snd o = false) opts ->
  cyclic (m_heap m) x -> dump_file C kw opts x p m f = (f', m', Ok tt) ->
  forall C' w m2 f2 m3 v ov, (forall a l, Permutation (e_order (c_env C') a l) l) ->
    load_file C' w f' p m2 <> (f2, Ok (m3, v), ov).
Proof. exact (cyclic_never_loads C kw opts x p m f f' m'). Qed.
Print Assumptions C04_cyclic_never_loads.

(** For graphs of supported values the property holds exactly when there is no cycle. *)
Theorem C04_loads_iff_acyclic C E' kw opts x p m f :
  setting C E' opts p m f -> acceptable_graph E' kw (m_heap m) x -> sound_graph E' (m_heap m) x ->
  exists f' m', dump_file C kw opts x p m f = (f', m', Ok tt) /\ (loads E' f' p <-> ~ cyclic (m_heap m) x).
Proof. exact (loads_iff_acyclic C E' kw opts x p m f). Qed.
Print Assumptions C04_loads_iff_acyclic.

(** One graph with and one without a cycle. *)
Example C04_applies kw :
  (setting C0 ienv [] p_ab m_cyclic f0 /\ acceptable_graph ienv kw (m_heap m_cyclic) 1 /\ sound_graph ienv (m_heap m_cyclic) 1 /\
   cyclic (m_heap m_cyclic) 1) /\
  (setting C0 ienv [] p_ab m_ex f0 /\ acceptable_graph ienv kw (m_heap m_ex) 1 /\ sound_graph ienv (m_heap m_ex) 1 /\
   ~ cyclic (m_heap m_ex) 1).
Proof.
  exact (conj (conj (setting0 _ m_cyclic_size) (conj (cyclic_acceptable kw) (conj cyclic_sound cyclic_sample)))
    (conj (setting0 _ m_ex_size) (conj (m_ex_acceptable kw) (conj (graph_ok_sound _ _ _ m_ex_ok) (graph_ok_acyclic _ _ _ m_ex_ok))))).
Qed.

(** ** C48: a file whose nodes need each other in a circle is never loaded

    [f] is any file, also one not written by hickle, in which groups may be members of
    themselves (hard links) and references may form circles; [leads] (LoadCycle.v): the
    second node is needed to build the object of the first ([v4_file]: in files of hickle 4
    load passes over some members of the groups written for sparse matrices). *)
Theorem C48_circle_never_loads C w f p m f' m' v ov root c b :
  (forall a l, Permutation (e_order (c_env C) a l) l) -> wf_file f ->
  detect (node_attrs f root_addr) (node_attrs f root) <> Ok V3 ->
  get_path f p = Some root -> child f root n_data = Some c ->
  rtc (leads (v4_file f root) f) c b -> tc (leads (v4_file f root) f) b b ->
  load_file C w f p m <> (f', Ok (m', v), ov).
Proof.
  exact (fun HE Hwf Hv Hp Hc Hr Ht Hl => grounded_no_cycle _ _ _ _ (load_file_grounded C w f p m f' m' v ov root c HE Hwf Hv Hp Hc Hl) Hr Ht).
Qed.
Print Assumptions C48_circle_never_loads.

Example C48_applies :
  wf_file f_own /\ detect (node_attrs f_own root_addr) (node_attrs f_own root_addr) <> Ok V3 /\
  get_path f_own [] = Some root_addr /\ child f_own root_addr n_data = Some 1 /\ rtc (leads (v4_file f_own root_addr) f_own) 1 1 /\ tc (leads (v4_file f_own root_addr) f_own) 1 1.
Proof. exact own_member_file. Qed.

(** ** C13: a list of dumpable elements is dumpable

    False in general (C13_list_of_dumpable_refuted).  What holds: [items_fine] (Accept.v)
    excludes bytes of length 0 or 1, nested lists numpy takes for ragged arrays, and integers
    beyond 64 bit in lists of numbers. *)
Theorem C13_list_accepted_partial C kw opts x p m f c xs :
  env_ok (c_env C) -> c_world C = std_world -> tree f -> free_above m -> Forall (fun o => snd o = false) opts ->
  free_path f p -> (34 * size (m_heap m) < c_fuel C)%nat ->
  m_heap m !! x = Some (Obj c (VSeq xs)) -> base_cls c = CList \/ base_cls c = CTuple \/ base_cls c = CSet ->
  outside_hickle c -> e_pickles_cls (c_env C) c = true ->
  (forall y, y ∈ xs -> acceptable_graph (c_env C) kw (m_heap m) y) -> items_fine (c_env C) (m_heap m) xs ->
  exists f' m', dump_file C kw opts x p m f = (f', m', Ok tt).
Proof. exact (list_accepted C kw opts x p m f c xs). Qed.
Print Assumptions C13_list_accepted_partial.

Example C13_list_accepted_applies kw :
  m_heap m_ex !! 5 = Some (Obj CSet (VSeq [2; 3])) /\ (forall y, y ∈ [2; 3] -> acceptable_graph ienv kw (m_heap m_ex) y) /\
  items_fine ienv (m_heap m_ex) [2; 3].
Proof. exact (m_ex_items kw). Qed.

(** ** C36: subclasses survive

    False for subclasses of str, for Counter, defaultdict and namedtuples
    (C36_subclasses_refuted).  What holds: numbers and bytes exactly, lists, tuples, sets and
    dicts up to what C07, C08 and C12 say of their items.  [c] may be derived in any number of
    steps. *)
Theorem C36_numbers_partial C E' kw opts x p m f o :
  setting C E' opts p m f -> m_heap m !! x = Some o -> plain_subclass o ->
  outside_hickle (ocls o) -> e_pickles_cls E' (ocls o) = true -> e_imports E' (ocls o) = true ->
  comes_back C E' kw opts x p m f (fun h v => h !! v = Some o).
Proof. exact (subclass_back C E' kw opts x p m f o). Qed.
Print Assumptions C36_numbers_partial.

Theorem C36_lists_partial C E' kw opts x p m f c xs :
  setting C E' opts p m f -> acceptable_graph E' kw (m_heap m) x -> graph_ok E' (m_heap m) x ->
  m_heap m !! x = Some (Obj c (VSeq xs)) -> isinst c CSet = false ->
  comes_back C E' kw opts x p m f (fun h v => exists ys, h !! v = Some (Obj c (VSeq ys)) /\ items_back (m_heap m) h xs ys).
Proof. exact (seq_back C E' kw opts x p m f c xs). Qed.
Print Assumptions C36_lists_partial.

Theorem C36_sets_partial C E' kw opts x p m f c xs :
  setting C E' opts p m f -> acceptable_graph E' kw (m_heap m) x -> graph_ok E' (m_heap m) x ->
  m_heap m !! x = Some (Obj c (VSeq xs)) ->
  comes_back C E' kw opts x p m f
    (fun h v => exists ys ys', h !! v = Some (Obj c (VSeq ys)) /\ Permutation ys ys' /\ items_back (m_heap m) h xs ys').
Proof. exact (set_back C E' kw opts x p m f c xs). Qed.
Print Assumptions C36_sets_partial.

Theorem C36_dicts_partial C E' kw opts x p m f c kvs :
  setting C E' opts p m f -> acceptable_graph E' kw (m_heap m) x -> graph_ok E' (m_heap m) x ->
  m_heap m !! x = Some (Obj c (VDict kvs)) ->
  comes_back C E' kw opts x p m f
    (fun h v => exists kvs', h !! v = Some (Obj c (VDict kvs')) /\ Forall2 (entry_back (m_heap m) h) kvs kvs').
Proof. exact (dict_back C E' kw opts x p m f c kvs). Qed.
Print Assumptions C36_dicts_partial.

Example C36_applies kw :
  (setting C0 ienv [] p_ab m_sub f0 /\ m_heap m_sub !! 3 = Some (Obj c_int2 (VNum (NZ 5))) /\ plain_subclass (Obj c_int2 (VNum (NZ 5))) /\
   outside_hickle c_int2 /\ e_pickles_cls ienv c_int2 = true /\ e_imports ienv c_int2 = true) /\
  acceptable_graph ienv kw (m_heap m_sub) 1 /\ graph_ok ienv (m_heap m_sub) 1.
Proof. exact (conj subclass_sample (conj (m_sub_acceptable kw) m_sub_ok)). Qed.
Example C36_concrete :
  round_trip m_sub 1 = (Ok tt, Ok (WSeq c_list2 [WStr CStr (str "abc"); WNum c_int2 (NZ 5)])).
Proof. vm_compute. reflexivity. Qed.
