(** * PropsGraph: object graphs survive dump and load (C01, C02, C04, C09, C12-C14, C19, C36, C37) *)
From Verif Require Import Base Utf8 Dec Num PyObj H5 Env Create Dump LoadFns LoadModel Registry RegistryStd Spec RoundTrip
  Api DumpClosed ApiProofs DumpEnv Reach Instance Samples SampleProofs Cyclic ApiTop.
From Coq Require Import Lia ZifyBool ZifyN.
Local Open Scope N_scope.
Local Open Scope list_scope.

(** ** C01: dump then load restores the object graph

    [C] is the dumping process; the loading process iterates groups in its own order [o],
    parses numbers and imports classes in its own way, and may have anything in its memory
    [m2].  [f] is any file, [p] any path. *)
Theorem C01_dump_then_load C kw opts x p m f f' m' o fp cp im :
  let E' := other_loader (c_env C) o fp cp im in
  env_ok E' -> c_world C = std_world -> c_pyver C <> [] ->
  tree f -> not_v3 f -> no_options (target_attrs f p) -> Forall (fun o => snd o = false) opts ->
  free_above m -> graph_ok E' (m_heap m) x ->
  dump_file C kw opts x p m f = (f', m', Ok tt) ->
  exists N, forall C' writable m2,
    c_env C' = E' -> c_world C' = std_world -> (N <= c_fuel C')%nat -> mem_ok m2 ->
    exists m3 v, load_file C' writable f' p m2 = (f', Ok (m3, v), false) /\
      m_heap m2 ⊆ m_heap m3 /\ isomorphic (m_heap m) x (m_heap m3) v.
Proof. exact (dump_load_file C kw opts x p m f f' m' o fp cp im). Qed.
Print Assumptions C01_dump_then_load.

Example C01_dump_then_load_applies :
  env_ok ienv /\ tree f0 /\ not_v3 f0 /\ no_options (target_attrs f0 (str "/a/b")) /\ free_above m_ex /\
  graph_ok ienv (m_heap m_ex) 1 /\ other_loader (c_env C0) (e_order ienv) (e_fparse ienv) (e_cparse ienv) (e_imports ienv) = ienv /\
  snd (dump_file C0 [str "compression"] [] 1 (str "/a/b") m_ex f0) = Ok tt /\
  (let '(f, _, _) := dump_file C0 [str "compression"] [] 1 (str "/a/b") m_ex f0 in
   let '(_, r, _) := load_file C0 false f (str "/a/b") m0 in res_map (fun '(m, v) => see m v) r) =
  Ok (WSeq CList [WNum CInt (NZ 5); WStr CStr (str "abc"); WStr CStr (str "abc");
        WDict CDict [(WStr CStr (str "abc"), WNum CInt (NZ 5));
                     (WNum CInt (NZ 5), WSeq CSet [WStr CStr (str "abc"); WNum CInt (NZ 5)])]]).
Proof.
  split; [exact ienv_ok|]. split; [exact f0_tree|]. split; [look|]. split; [intros ? ? Hn; vm_compute in Hn; done|].
  split; [apply mem_of_free|]. split; [exact m_ex_ok|]. split; [reflexivity|]. split; look.
Qed.

(** ** C02: aliasing is preserved

    [P] and [Q]: two positions inside the dumped object, holding [a] and [b]. *)
Theorem C02_aliases_preserved C kw opts x p m f f' m' o fp cp im P Q a b :
  let E' := other_loader (c_env C) o fp cp im in
  env_ok E' -> c_world C = std_world -> c_pyver C <> [] ->
  tree f -> not_v3 f -> no_options (target_attrs f p) -> Forall (fun o => snd o = false) opts ->
  free_above m -> graph_ok E' (m_heap m) x ->
  reach (m_heap m) x P a -> reach (m_heap m) x Q b -> ~ scalar_at (m_heap m) a -> ~ scalar_at (m_heap m) b ->
  dump_file C kw opts x p m f = (f', m', Ok tt) ->
  exists N, forall C' writable m2,
    c_env C' = E' -> c_world C' = std_world -> (N <= c_fuel C')%nat -> mem_ok m2 ->
    exists m3 v a' b', load_file C' writable f' p m2 = (f', Ok (m3, v), false) /\
      reach (m_heap m3) v P a' /\ reach (m_heap m3) v Q b' /\ (a = b <-> a' = b').
Proof. exact (dump_load_alias C kw opts x p m f f' m' o fp cp im P Q a b). Qed.
Print Assumptions C02_aliases_preserved.

(** Items 1 and 2 of the list are one string, item 3 is another object. *)
Example C02_aliases_preserved_applies :
  reach (m_heap m_ex) 1 [Item 1] 3 /\ reach (m_heap m_ex) 1 [Item 2] 3 /\ reach (m_heap m_ex) 1 [Item 3; Value 1] 5 /\
  ~ scalar_at (m_heap m_ex) 3 /\ ~ scalar_at (m_heap m_ex) 5.
Proof.
  split; [eapply reach_item; [look|look|look|constructor]|].
  split; [eapply reach_item; [look|look|look|constructor]|].
  split; [eapply reach_item; [look|look|look|]; eapply reach_value; [look|look|constructor]|].
  split; intros (o & Ho & Hs); vm_compute in Ho; inversion Ho; subst; done.
Qed.

(** ** C04: what dump accepts load can restore: false for cyclic objects

    [x = []; x.append(x)] is dumped without complaint; loading it exceeds every recursion
    limit. *)
Theorem C04_cyclic_load_refuted :
  exists m x f root c, dumped m x = (f, Ok tt) /\ get_path f (str "/") = Some root /\ child f root n_data = Some c /\
    forall fuel m2, load_ fuel ienv std_loader f c (Lst m2 ∅) = Err OutOfFuel.
Proof. exact cyclic_refutes. Qed.
Print Assumptions C04_cyclic_load_refuted.

(** ** C09: the dict key False survives: false

    [bool('False')] is true. *)
Theorem C09_key_false_refuted :
  round_trip (mem_of [o_dict [(2, 3)]; o_bool false; o_int 1]) 1 =
    (Ok tt, Ok (WDict CDict [(WNum CBool (NB true), WNum CInt (NZ 1))])) /\
  round_trip (mem_of [o_dict [(2, 3); (4, 5)]; o_bool false; o_int 1; o_bool true; o_int 2]) 1 =
    (Ok tt, Ok (WDict CDict [(WNum CBool (NB true), WNum CInt (NZ 2))])).
Proof. split; vm_compute; reflexivity. Qed.
Print Assumptions C09_key_false_refuted.

(** ** C12: numbers inside containers keep their value: false

    [2**53 + 1, 0.5] is stored as floats; in a set, 2**53 and 2**53 + 1 become one. *)
Theorem C12_numbers_keep_value_refuted :
  round_trip (mem_of [o_list [2; 3]; o_int (2 ^ 53 + 1); o_float half]) 1 =
    (Ok tt, Ok (WSeq CList [WNum (CNp (DFloat F8)) (NF (FFin false 1 53)); WNum (CNp (DFloat F8)) (NF half)])) /\
  round_trip (mem_of [o_set [2; 3; 4]; o_int (2 ^ 53 + 1); o_float half; o_int (2 ^ 53)]) 1 =
    (Ok tt, Ok (WSeq CSet [WNum (CNp (DFloat F8)) (NF (FFin false 1 53)); WNum (CNp (DFloat F8)) (NF half)])).
Proof. split; vm_compute; reflexivity. Qed.
Print Assumptions C12_numbers_keep_value_refuted.

(** What holds: see [lossless] in Spec.v. *)
Theorem C12_numbers_keep_value_partial C kw opts x p m f f' m' o fp cp im c xs :
  let E' := other_loader (c_env C) o fp cp im in
  env_ok E' -> c_world C = std_world -> c_pyver C <> [] ->
  tree f -> not_v3 f -> no_options (target_attrs f p) -> Forall (fun o => snd o = false) opts ->
  free_above m -> graph_ok E' (m_heap m) x ->
  m_heap m !! x = Some (Obj c (VSeq xs)) -> all_numbers (m_heap m) xs ->
  dump_file C kw opts x p m f = (f', m', Ok tt) ->
  exists N, forall C' writable m2,
    c_env C' = E' -> c_world C' = std_world -> (N <= c_fuel C')%nat -> mem_ok m2 ->
    exists m3 v ys ys', load_file C' writable f' p m2 = (f', Ok (m3, v), false) /\
      m_heap m3 !! v = Some (Obj c (VSeq ys)) /\ Permutation ys ys' /\ (isinst c CSet = false -> ys' = ys) /\
      Forall2 (same_number (m_heap m) (m_heap m3)) xs ys'.
Proof. exact (dump_load_numbers C kw opts x p m f f' m' o fp cp im c xs). Qed.
Print Assumptions C12_numbers_keep_value_partial.

(** ** C13: a list of dumpable elements is dumpable: false

    2**63 on its own is stored as text, in a list numpy has to hold it; the length of an
    int is asked for in [b'a', 1]; [np.ndim] refuses the second item of [1, [[1], [1, 1]]]. *)
Theorem C13_list_of_dumpable_refuted :
  (round_trip (mem_of [o_int (2 ^ 63)]) 1 = (Ok tt, Ok (WNum CInt (NZ (2 ^ 63)))) /\
   snd (dumped (mem_of [o_list [2]; o_int (2 ^ 63)]) 1) = Err OverflowError) /\
  (snd (dumped (mem_of [o_bytes "a"]) 1) = Ok tt /\ snd (dumped (mem_of [o_int 1]) 1) = Ok tt /\
   snd (dumped (mem_of [o_list [2; 3]; o_bytes "a"; o_int 1]) 1) = Err TypeError) /\
  (snd (dumped (mem_of [o_list [2; 3]; o_list [4]; o_list [4; 4]; o_int 1]) 1) = Ok tt /\
   snd (dumped (mem_of [o_list [4; 5]; o_list [4]; o_list [4; 4]; o_int 1; o_list [2; 3]]) 1) = Err ValueError).
Proof. split_and!; vm_compute; reflexivity. Qed.
Print Assumptions C13_list_of_dumpable_refuted.

(** ** C14: element types survive: false

    The int in [1] is loaded as np.int64. *)
Theorem C14_element_types_refuted :
  round_trip (mem_of [o_list [2]; o_int 1]) 1 = (Ok tt, Ok (WSeq CList [WNum (CNp (DInt W8)) (NZ 1)])).
Proof. vm_compute. reflexivity. Qed.
Print Assumptions C14_element_types_refuted.

(** ** C19: a failed dump is not mistaken for data: false

    Dumping ['abc', y] where y cannot be pickled fails; loading gives ['abc', ()]. *)
Theorem C19_failed_dump_loads_refuted :
  round_trip (mem_of [o_list [2; 3]; o_str "abc"; Obj (COpaque (str "m") (str "A")) (VOpaque OById 13)]) 1 =
    (Err PicklingError, Ok (WSeq CList [WStr CStr (str "abc"); WSeq CTuple []])).
Proof. vm_compute. reflexivity. Qed.
Print Assumptions C19_failed_dump_loads_refuted.

(** ** C36: subclasses survive: false for str, Counter, namedtuple and defaultdict *)
Theorem C36_subclasses_refuted :
  round_trip (mem_of [Obj (CSub (str "m") (str "S") CStr) (VStr (str "ab"))]) 1 =
    (Ok tt, Ok (WStr (CSub (str "m") (str "S") CStr) (str "[[b'a' b'b']]"))) /\
  round_trip (mem_of [Obj CCounter (VDict [(2, 3)]); o_str "a"; o_int 2]) 1 =
    (Ok tt, Ok (WDict CCounter [(WSeq CTuple [WStr CStr (str "a"); WNum CInt (NZ 2)], WNum CInt (NZ 1))])) /\
  round_trip (mem_of [Obj (CNamedTuple (str "m") (str "P") 2) (VSeq [2; 3]); o_str "a"; o_int 2]) 1 = (Ok tt, Err TypeError) /\
  round_trip (mem_of [Obj CDefaultDict (VDict [(2, 3)]); o_str "a"; o_int 2]) 1 = (Ok tt, Err TypeError).
Proof. split_and!; vm_compute; reflexivity. Qed.
Print Assumptions C36_subclasses_refuted.

(** ** C37: numpy arrays survive: false for empty string arrays and for object arrays

    The object array of shape (2,) of two lists comes back with shape (2, 2). *)
Theorem C37_arrays_refuted :
  round_trip (mem_of [Obj CNdarray (VStrArr 1 [0] [])]) 1 = (Ok tt, Err TypeError) /\
  round_trip (mem_of [Obj CNdarray (VObjArr [2] [2; 3]); o_list [4; 4]; o_list [4; 4]; o_str "abc"]) 1 =
    (Ok tt, Ok (WOther (Obj CNdarray (VObjArr [2; 2] [1; 1; 1; 1])))).
Proof. split_and!; vm_compute; reflexivity. Qed.
Print Assumptions C37_arrays_refuted.
