(** * Props4: files written by hickle 4 *)
From Verif Require Import Base Utf8 Dec Num PyObj H5 Env Create Repr Dump LoadFns LoadModel Registry Api RoundTrip ApiProofs
  Instance Samples Spec4 Det4 Load4.
From Coq Require Import Lia ZifyBool ZifyN.
Local Open Scope N_scope.
Local Open Scope list_scope.

(** ** C57: what hickle 4 stored is loaded

    A group holding a value as hickle 4 stored it ([dumped4], Spec4.v) is loaded with the value
    ([shows]), whatever else is in the file, in any order of the members, with nodes shared by
    several parents or not, the datasets of masked arrays excepted.  The module numpy can be
    imported.  Missing from the full statement: the cases refuted below, and what Spec4.v does
    not describe (sets, instances of subclasses). *)
Theorem C57_loads_partial C w f p root m v :
  env_ok (c_env C) -> c_world C = std_world ->
  (forall c, cls_module c ∈ [str "numpy"; str "collections"] -> e_imports (c_env C) c = true) ->
  not_v3 f -> (w = true -> get_node f (f_next f) = None) -> mem_ok m ->
  get_path f p = Some root -> dumped4 (c_env C) f root v -> (height4 v <= c_fuel C)%nat ->
  exists f' m' l b, load_file C w f p m = (f', Ok (m', l), b) /\ m_heap m ⊆ m_heap m' /\ shows (m_heap m') v l /\
    (w = false -> f' = f).
Proof.
  intros H1 H2 H3 H4 H5 H6 H7 H8 H9.
  destruct (load_4 C w f p root m v H1 H2 H3 H4 H5 H6 H7 H8 H9) as (f' & m' & l & b & L1 & L2 & L3 & L4 & _).
  exists f', m', l, b. split_and!; assumption.
Qed.
Print Assumptions C57_loads_partial.

(** The group holds no other value. *)
Theorem C57_one_value E f root v v' :
  env_ok E -> dumped4 E f root v -> dumped4 E f root v' -> v = v'.
Proof.
  intros HE (a & (nm & l & ver & pv & rest & Hn & _ & _ & _ & Hd & _) & Hv) (a' & (nm' & l' & ver' & pv' & rest' & Hn' & _ & _ & _ & Hd' & _) & Hv').
  rewrite Hn in Hn'. injection Hn' as _ _ _ <-. rewrite Hd in Hd'. injection Hd' as <-. exact (stored4_det E f HE v v' a Hv Hv').
Qed.
Print Assumptions C57_one_value.

(** *** Files of the examples: the root, which holds the value of node 1, and other nodes *)
Definition file4 (nodes : list (addr * node)) : file :=
  File (list_to_map ((root_addr, Node (str "/") (list_to_map [(str "HICKLE_VERSION", AStr (str "4.0.0")); (str "HICKLE_PYTHON_VERSION", AStr (str "3.7.4"))])
                                      (BGroup [(str "data", 1)])) :: nodes)) 100.
Definition n4 (t : option cls) (base : string) (more : list (pystr * attrv)) (b : body) : node := Node [] (attrs4 t (str base) more) b.
Definition i4 (k : key4) (i : N) (b : addr) : node := Node [] (item_attrs k i) (BGroup [(str "data", b)]).

(** {'a': [1, 'x', (), b'z'], 2: (0.5, 0.5), True: array([[1, 2]], dtype=int16),
    None: ['ab', 'c']}. *)
Definition v_ex : val4 :=
  QDict CDict [(KStr (str "a"), QSeq CList [QNum CInt (NZ 1); QStr (str "x"); QSeq CTuple []; QBytes (str "z")]);
               (KNum CInt (NZ 2), QSeq CTuple [QNum CFloat (NF half); QNum CFloat (NF half)]);
               (KNum CBool (NB true), QArr (DInt W2) [1; 2] [NZ 1; NZ 2]);
               (KNone, QSeq CList [QStr (str "ab"); QStr (str "c")])].
Definition f_ex : file := file4
  [(1, n4 (Some CDict) "dict" [] (BGroup [(str "2", 3); (str "'a'", 2); (str "None", 5); (str "True", 4)]));
   (2, i4 (KStr (str "a")) 0 6); (3, i4 (KNum CInt (NZ 2)) 1 7); (4, i4 (KNum CBool (NB true)) 2 8); (5, i4 KNone 3 9);
   (6, n4 (Some CList) "list" [] (BGroup [(str "data_1", 11); (str "data_0", 10); (str "data_3", 13); (str "data_2", 12)]));
   (7, n4 (Some CTuple) "tuple" [] (BData (DArray (DFloat F8) [2] [NF half; NF half])));
   (8, n4 (Some CNdarray) "ndarray" [(a_np_dtype, AStr (str "int16"))] (BData (DArray (DInt W2) [1; 2] [NZ 1; NZ 2])));
   (9, n4 (Some CList) "list" [(a_str_type, AStr (str "str"))] (BData (DFixed 2 [2] [str "ab"; str "c"])));
   (10, n4 (Some CInt) "int" [] (BData (DScalar (DInt W8) (NZ 1))));
   (11, n4 (Some CStr) "str" [] (BData (DVlen (str "x"))));
   (12, n4 (Some CTuple) "tuple" [] (BData (DNull KInt)));
   (13, n4 (Some CBytes) "bytes" [] (BData (DVlen (str "z"))))].
Ltac node := eexists; reflexivity.
Ltac decided := apply (bool_decide_unpack _); vm_compute; exact I.
Ltac nomask := split; [decided|]; split; [decided|]; split; [apply Forall_nil_2|].
Ltac item := eexists; split; [node|by left].
Example C57_ex : dumped4 ienv f_ex root_addr v_ex /\ not_v3 f_ex /\ get_path f_ex (str "/") = Some root_addr /\
  loaded f_ex = Ok (WDict CDict
    [(WStr CStr (str "a"), WSeq CList [WNum CInt (NZ 1); WStr CStr (str "x"); WSeq CTuple []; WBytes CBytes (str "z")]);
     (WNum CInt (NZ 2), WSeq CTuple [WNum (CNp (DFloat F8)) (NF half); WNum (CNp (DFloat F8)) (NF half)]);
     (WNum CBool (NB true), WOther (Obj CNdarray (VArr (DInt W2) [1; 2] [NZ 1; NZ 2])));
     (WNone, WSeq CList [WStr CStr (str "ab"); WStr CStr (str "c")])]).
Proof.
  split; [|split; [reflexivity|split; [reflexivity|vm_compute; reflexivity]]].
  exists 1. split.
  { exists (str "/"), [(str "data", 1)], (str "4.0.0"), (str "3.7.4"), (str ".0.0"). split_and!; try reflexivity; [by right|done]. }
  unfold v_ex. cbn [stored4 map fst].
  split; [by left|]. split; [repeat (apply Forall_cons_2; [cbn [fst key_ok4]; first [exact I|by split_and!|by split]|]); apply Forall_nil_2|].
  split; [apply (bool_decide_unpack _); vm_compute; exact I|].
  exists [2; 3; 4; 5], [6; 7; 8; 9]. eexists. split; [node|]. split; [apply (bool_decide_unpack _); vm_compute; exact I|].
  split; [cbn [items4]; split; [item|split; [item|split; [item|split; [item|done]]]]|].
  cbn [all2]. split_and!.
  - cbn [stored4]. split; [by left|]. left. exists [10; 11; 12; 13], []. eexists. split; [node|]. nomask.
    cbn [all2]. split_and!; [split; [done|]; exists (DInt W8); node|exists (str "x"); split; [reflexivity|node]| |node|done].
    split; [by right|]. right. left. split; [done|node].
  - cbn [stored4]. split; [by right|]. right. right. left. exists CFloat, (DFloat F8), [NF half; NF half]. split; [done|]. split; [by repeat constructor|node].
  - cbn [stored4]. split; [by repeat constructor|]. left. node.
  - cbn [stored4]. split; [by left|]. right. right. right. left. exists 2, [str "ab"; str "c"]. split; [done|]. split; [by repeat constructor|]. split; [by left|node].
  - done.
Qed.

(** [np.float32(0.5), np.array(['ab', 'c']), np.array(None), OrderedDict(), slice(...), b'z', b'z'],
    the two bytes being one node. *)
Definition v_ex2 : val4 :=
  QSeq CList [QNum (CNp (DFloat F4)) (NF half); QStrArr 2 [2] [str "ab"; str "c"]; QObjArr QNone; QDict COrderedDict [];
              QPickled (COpaque (str "builtins") (str "slice")) OUnhashable 7; QBytes (str "z"); QBytes (str "z")].
Definition f_ex2 : file := file4
  [(1, n4 (Some CList) "list" [] (BGroup [(str "data_6", 7); (str "data_5", 7); (str "data_4", 6); (str "data_3", 5); (str "data_2", 4); (str "data_1", 3); (str "data_0", 2)]));
   (2, n4 (Some (CNp (DFloat F4))) "np_scalar" [(a_np_dtype, AStr (str "float32"))] (BData (DScalar (DFloat F4) (NF half))));
   (3, n4 (Some CNdarray) "ndarray" [(a_np_dtype, AStr (str "<U2"))] (BData (DFixed 2 [2] [str "ab"; str "c"])));
   (4, n4 (Some CFunction) "ndarray" [(a_np_dtype, AStr (str "object"))] (BGroup [(str "data", 8)]));
   (5, n4 (Some COrderedDict) "dict" [] (BGroup []));
   (6, n4 None "pickle" [] (BData (DPickle (COpaque (str "builtins") (str "slice")) OUnhashable 7)));
   (7, n4 (Some CBytes) "bytes" [] (BData (DVlen (str "z"))));
   (8, n4 (Some CNoneType) "None" [] (BData (DNull KInt)))].
Example C57_ex2 : dumped4 ienv f_ex2 root_addr v_ex2 /\
  (exists l, loaded f_ex2 = Ok (WSeq CList
    [WNum (CNp (DFloat F4)) (NF half); WOther (Obj CNdarray (VStrArr 2 [2] [str "ab"; str "c"])); WOther (Obj CNdarray (VObjArr [] [l]));
     WDict COrderedDict []; WOther (Obj (COpaque (str "builtins") (str "slice")) (VOpaque OUnhashable 7)); WBytes CBytes (str "z"); WBytes CBytes (str "z")])).
Proof.
  split; [|eexists; vm_compute; reflexivity].
  exists 1. split.
  { exists (str "/"), [(str "data", 1)], (str "4.0.0"), (str "3.7.4"), (str ".0.0"). split_and!; try reflexivity; [by right|done]. }
  unfold v_ex2. cbn [stored4]. split; [by left|]. left. exists [2; 3; 4; 5; 6; 7; 7], []. eexists. split; [node|]. nomask. cbn [all2].
  split; [split; [reflexivity|node]|].
  split. { exists 2. split; [by left|]. split; [done|]. split; [|node]. repeat (apply Forall_cons_2; [split; [by repeat constructor|by split]|]). apply Forall_nil_2. }
  split. { split; [done|]. exists 8. split; [node|]. exists (DNull KInt). node. }
  split. { split; [by right|]. split; [apply Forall_nil_2|]. split; [apply NoDup_nil_2|]. exists [], [], []. split; [node|]. by split_and!. }
  split; [split; [reflexivity|node]|]. split; [node|]. split; [node|done].
Qed.

(** Two sparse matrices, as items 15 and 17 of the list in
    hickle/tests/legacy_hkls/hickle_4.0.0.hkl, in the order in which h5py lists the members
    and in another. *)
Definition ints (zs : list Z) : list num := map NZ zs.
Definition sparse_nodes (k : sparse_kind) (a b : addr) (dims : list N) (vs : list Z) (size : list Z) (swap : bool) : list (addr * node) :=
  let ms := [(str "data", b); (str "indices", b + 1); (str "indptr", b + 2); (str "shape", b + 3)] in
  [(a, Node [] (attrs4 (Some return_first) (cls_name (CSparse k)) []) (BGroup (if swap then rev ms else ms)));
   (b, Node [] (part_attrs k (str "data")) (BData (DArray (DInt W8) dims (ints vs))));
   (b + 1, Node [] (part_attrs k (str "indices")) (BData (DArray (DInt W4) [6] (ints [0; 2; 2; 0; 1; 2]%Z))));
   (b + 2, Node [] (part_attrs k (str "indptr")) (BData (DArray (DInt W4) [4] (ints [0; 2; 3; 6]%Z))));
   (b + 3, Node [] (part_attrs k (str "shape")) (BData (DArray (DInt W8) [2] (ints size))))].
Definition v_ex3 : val4 :=
  let ix := (DInt W4, ints [0; 2; 2; 0; 1; 2]%Z) in let ip := (DInt W4, ints [0; 2; 3; 6]%Z) in
  QSeq CList [QSparse SCsr (DInt W8) [6] (ints [1; 2; 3; 4; 5; 6]%Z) ix ip (DInt W8, ints [3; 3]%Z);
              QSparse SBsr (DInt W8) [6; 1; 2] (ints [1; 1; 2; 2; 3; 3; 4; 4; 5; 5; 6; 6]%Z) ix ip (DInt W8, ints [3; 6]%Z)].
Definition f_ex3 : file := file4
  ((1, n4 (Some CList) "list" [] (BGroup [(str "data_0", 2); (str "data_1", 3)])) ::
   sparse_nodes SCsr 2 10 [6] [1; 2; 3; 4; 5; 6]%Z [3; 3]%Z false ++
   sparse_nodes SBsr 3 20 [6; 1; 2] [1; 1; 2; 2; 3; 3; 4; 4; 5; 5; 6; 6]%Z [3; 6]%Z true).
Ltac part := split; [apply (bool_decide_unpack _); vm_compute; exact I|split; [repeat (apply Forall_cons_2; [reflexivity|]); apply Forall_nil_2|node]].
Example C57_ex3 : dumped4 ienv f_ex3 root_addr v_ex3 /\
  (exists a b c d a' b' c' d', loaded f_ex3 = Ok (WSeq CList
    [WOther (Obj (CSparse SCsr) (VSparse a b c d)); WOther (Obj (CSparse SBsr) (VSparse a' b' c' d'))])).
Proof.
  split; [|do 8 eexists; vm_compute; reflexivity].
  exists 1. split.
  { exists (str "/"), [(str "data", 1)], (str "4.0.0"), (str "3.7.4"), (str ".0.0"). split_and!; try reflexivity; [by right|done]. }
  unfold v_ex3. cbv zeta. cbn [stored4]. split; [by left|]. left. exists [2; 3], []. eexists. split; [node|]. nomask. cbn [all2]. split; [|split; [|done]].
  - split; [reflexivity|]. split; [reflexivity|]. exists 10, 11, 12, 13. eexists. split; [node|].
    split; [apply (bool_decide_unpack _); vm_compute; exact I|]. split; [part|]. split; [part|]. split; part.
  - split; [reflexivity|]. split; [reflexivity|]. exists 20, 21, 22, 23. eexists. split; [node|].
    split; [apply (bool_decide_unpack _); vm_compute; exact I|]. split; [part|]. split; [part|]. split; part.
Qed.

(** [np.ma.array([1, 2, 3], mask=[0, 1, 0]), {'k': np.ma.array([[0.5], [0.5]])}, 1]: the
    masks are members of the group of the array, as item 12 of the list of
    hickle_4.0.0.hkl; the mask of the second is one False. *)
Definition v_ex4 : val4 :=
  QSeq CList [QMasked (DInt W8) [3] (ints [1; 2; 3]%Z) [false; true; false];
              QDict CDict [(KStr (str "k"), QMasked (DFloat F8) [2; 1] [NF half; NF half] [false; false])];
              QNum CInt (NZ 1)].
Definition masked_node (d : dtype) (dims : list N) (vs : list num) : node :=
  Node [] (attrs4 (Some CMasked) (str "ndarray_masked_data") [(a_np_dtype, AStr (dtype_name d))]) (BData (DArray d dims vs)).
Definition mask_node (d : hdata) : node := Node [] mask_attrs (BData d).
Definition f_ex4 : file := file4
  [(1, n4 (Some CList) "list" [] (BGroup [(str "data_0", 2); (str "data_0_mask", 3); (str "data_1", 4); (str "data_2", 5)]));
   (2, masked_node (DInt W8) [3] (ints [1; 2; 3]%Z)); (3, mask_node (DArray DBool [3] (map NB [false; true; false])));
   (4, n4 (Some CDict) "dict" [] (BGroup [(str "'k'", 6)]));
   (5, n4 (Some CInt) "int" [] (BData (DScalar (DInt W8) (NZ 1))));
   (6, Node [] (item_attrs (KStr (str "k")) 0) (BGroup [(str "data_mask", 8); (str "data", 7)]));
   (7, masked_node (DFloat F8) [2; 1] [NF half; NF half]); (8, mask_node (DScalar DBool (NB false)))].
Example C57_ex4 : dumped4 ienv f_ex4 root_addr v_ex4 /\
  (exists a b c d, loaded f_ex4 = Ok (WSeq CList
    [WOther (Obj CMasked (VMasked a b)); WDict CDict [(WStr CStr (str "k"), WOther (Obj CMasked (VMasked c d)))]; WNum CInt (NZ 1)])).
Proof.
  split; [|do 4 eexists; vm_compute; reflexivity].
  exists 1. split.
  { exists (str "/"), [(str "data", 1)], (str "4.0.0"), (str "3.7.4"), (str ".0.0"). split_and!; try reflexivity; [by right|done]. }
  unfold v_ex4. cbn [stored4]. split; [by left|]. left. exists [2; 4; 5], [(str "data_0_mask", 3)]. eexists. split; [node|].
  split; [decided|]. split; [decided|]. split.
  { apply Forall_cons_2; [|apply Forall_nil_2]. exists 0, (DArray DBool [3] (map NB [false; true; false])). split; [reflexivity|]. split; [reflexivity|node]. }
  cbn [all2]. split; [|split; [|split; [|done]]].
  - split; [reflexivity|]. split; [repeat (apply Forall_cons_2; [reflexivity|]); apply Forall_nil_2|]. split.
    + exists 1, (str "data_0"). eexists _, 3, _. split; [reflexivity|]. split; [decided|].
      split; [apply only_link_spec; vm_compute; reflexivity|]. split; [reflexivity|]. split; [node|]. split; [reflexivity|by left].
    + eexists. split; [left; reflexivity|node].
  - split; [by left|]. split; [repeat (apply Forall_cons_2; [cbn [fst key_ok4]; first [exact I|by split_and!|by split]|]); apply Forall_nil_2|]. split; [decided|].
    exists [6], [7]. eexists. split; [node|]. split; [decided|]. split.
    + cbn [items4]. split; [|done]. eexists. split; [node|]. right. exists 8, (DScalar DBool (NB false)). split; [node|]. split; [decided|reflexivity].
    + cbn [all2]. split; [|done]. split; [reflexivity|]. split; [repeat (apply Forall_cons_2; [reflexivity|]); apply Forall_nil_2|]. split.
      * exists 6, (str "data"). eexists _, 8, _. split; [reflexivity|]. split; [decided|].
        split; [apply only_link_spec; vm_compute; reflexivity|]. split; [reflexivity|]. split; [node|]. split; [reflexivity|]. right. by exists false.
      * eexists. split; [left; reflexivity|node].
  - split; [done|]. exists (DInt W8). node.
Qed.

(** *** What is not loaded as it was *)

(** {False: 1} is loaded as {True: 1}. *)
Theorem C57_false_key_refuted :
  loaded (file4 [(1, n4 (Some CDict) "dict" [] (BGroup [(str "False", 2)])); (2, i4 (KNum CBool (NB false)) 0 3);
                 (3, n4 (Some CInt) "int" [] (BData (DScalar (DInt W8) (NZ 1))))]) =
  Ok (WDict CDict [(WNum CBool (NB true), WNum CInt (NZ 1))]).
Proof. vm_compute. reflexivity. Qed.
Print Assumptions C57_false_key_refuted.

(** {b'abc': 1} is loaded as {"'abc": 1}: the name is the repr of the key, and the code
    takes away one character at each end and makes no bytes of it. *)
Theorem C57_bytes_key_refuted :
  loaded (file4 [(1, n4 (Some CDict) "dict" [] (BGroup [(str "b'abc'", 2)]));
                 (2, n4 None "dict_item" [(a_key_base_type, AStr (str "bytes")); (str "key_type", APickle CBytes); (a_key_idx, AInt 0)] (BGroup [(str "data", 3)]));
                 (3, n4 (Some CInt) "int" [] (BData (DScalar (DInt W8) (NZ 1))))]) =
  Ok (WDict CDict [(WStr CStr (str "'abc"), WNum CInt (NZ 1))]).
Proof. vm_compute. reflexivity. Qed.
Print Assumptions C57_bytes_key_refuted.

(** ['a', ''], stored as an array of dtype 'S1', is loaded as ['a', '\x00']. *)
Theorem C57_empty_string_refuted :
  loaded (file4 [(1, n4 (Some CList) "list" [(a_str_type, AStr (str "str"))] (BData (DFixed 1 [2] [str "a"; []])))]) =
  Ok (WSeq CList [WStr CStr (str "a"); WStr CStr [0]]).
Proof. vm_compute. reflexivity. Qed.
Print Assumptions C57_empty_string_refuted.

(** np.array(['a', 'b']) is loaded as np.array('a'). *)
Theorem C57_characters_refuted :
  loaded (file4 [(1, n4 (Some CNdarray) "ndarray" [(a_np_dtype, AStr (str "<U1"))] (BData (DFixed 1 [2] [str "a"; str "b"])))]) =
  Ok (WOther (Obj CNdarray (VStrArr 1 [] [str "a"]))).
Proof. vm_compute. reflexivity. Qed.
Print Assumptions C57_characters_refuted.

(** An instance of a subclass of str is loaded with the repr of its bytes. *)
Theorem C57_str_subclass_refuted :
  loaded (file4 [(1, n4 (Some (CSub (str "m") (str "S") CStr)) "str" [] (BData (DVlen (str "x"))))]) =
  Ok (WStr (CSub (str "m") (str "S") CStr) (str "b'x'")).
Proof. vm_compute. reflexivity. Qed.
Print Assumptions C57_str_subclass_refuted.
