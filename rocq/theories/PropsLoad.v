(** * PropsLoad: identity of dumped objects, damaged groups, attribute overlays, hickle 3 key order
    (C16, C20, C31, C35, C44) *)
From Verif Require Import Base Utf8 Dec Num PyObj H5 Env Create Dump LoadFns LoadModel Registry RegistryStd Spec RoundTrip
  Api DumpClosed ApiProofs DumpEnv Reach Instance Samples SampleProofs Cyclic FileProofs Damage DamageApi
  MemoAlloc MemoAllocProofs Proxy ProxyProofs Legacy LegacyProofs.
From Coq Require Import Lia ZifyBool ZifyN Sorted.
Local Open Scope N_scope.
Local Open Scope list_scope.

(** ** C16: object identity is never confused by address reuse

    [es]: any sequence of allocations at free addresses of the adversary's choice, releases
    of objects nobody holds, and steps of the dump.  [outs]: what is written, in order.  A
    reference written for object [x] leads to the node [x] itself was written to, and an
    object entered in the memo is never written as a new node again. *)
Theorem C16_identity live born es s outs before o after :
  alive_ok live born -> arun true (afresh live born) es = Some (s, outs) -> outs = before ++ o :: after ->
  match o with
  | ORef x n => ONew x n true ∈ before
  | ONew x _ _ => forall n, ONew x n true ∉ before
  end.
Proof. exact (memo_never_confused live born es s outs before o after). Qed.
Print Assumptions C16_identity.

(** A dump in the course of which the address 10 is used for two objects: a temporary
    that was not memoised, and one that is written, and referred to later. *)
Definition reuse : list aevent :=
  [EAlloc 10; EEnter 0; ERecord 4 false; ELeave; EFree 0; EAlloc 10; EEnter 1; ERecord 5 true; ELeave; EAlloc 11; EEnter 1].
Example C16_identity_applies :
  alive_ok ∅ 0 /\ option_map snd (arun true (afresh ∅ 0) reuse) = Some [ONew 0 4 false; ONew 1 5 true; ORef 1 5].
Proof. split; [split; intros *; by rewrite lookup_empty|look]. Qed.

(** The object has to be in the memo: with the address only, as in [memo[id(py_obj)] = h_node],
    a schedule makes dump write a reference to an unrelated object. *)
Theorem C16_needs_object :
  option_map snd (arun false (afresh ∅ 0) confusion) = Some [ONew 0 5 true; ORef 1 5] /\
  arun true (afresh ∅ 0) confusion = None.
Proof. split; look. Qed.
Print Assumptions C16_needs_object.

(** ** C20: damaged sequences are detected

    Missing members are not: the empty tuple takes their place.  The sample is the list
    ["ab", "cd"] with its first, then with its last member removed from the file. *)
Theorem C20_missing_refuted :
  snd (dumped m_two 1) = Ok tt /\ loaded f_list = Ok (WSeq CList [WStr CStr (str "ab"); WStr CStr (str "cd")]) /\
  loaded (unlink (at_path f_list "/data") (str "data0") f_list) = Ok (WSeq CList [WSeq CTuple []; WStr CStr (str "cd")]) /\
  loaded (unlink (at_path f_list "/data") (str "data1") f_list) = Ok (WSeq CList [WStr CStr (str "ab"); WSeq CTuple []]).
Proof. split_and!; look. Qed.
Print Assumptions C20_missing_refuted.

(** Nor is an index that occurs twice if the empty tuple comes first: ["ab", ()] with both
    members at index 1 is loaded as [(), "ab"]. *)
Theorem C20_twice_refuted :
  snd (dumped m_two 6) = Ok tt /\ loaded f_empty = Ok (WSeq CList [WStr CStr (str "ab"); WSeq CTuple []]) /\
  loaded (write_attr (at_path f_empty "/data/data0") a_item_index (AInt 1) f_empty) =
    Ok (WSeq CList [WSeq CTuple []; WStr CStr (str "ab")]).
Proof. split_and!; look. Qed.
Print Assumptions C20_twice_refuted.

(** An index that occurs twice is detected for all other items, wherever the damaged group
    is in the data, in any iteration order of the groups, in files of hickle 4 and 5. *)
Theorem C20_twice_partial C writable f p m f' r o :
  (forall a l, Permutation (e_order (c_env C) a l) l) -> 0 < m_next m -> writable = false \/ has_table f p ->
  damaged_at place_twice C f p -> load_file C writable f p m = (f', r, o) -> exists e, r = Err e.
Proof. exact (load_twice C writable f p m f' r o). Qed.
Print Assumptions C20_twice_partial.

Example C20_twice_applies :
  (forall a l, Permutation (e_order (c_env C0) a l) l) /\ 0 < m_next m0 /\ damaged_at place_twice C0 f_list2 (str "/") /\
  loaded f_list2 = Err IndexError.
Proof. split; [exact (ok_order _ ienv_ok)|]. split; [done|]. split; [exact f_list2_damaged|look]. Qed.

(** Whatever is missing, no item turns up at another place than its own: each item of the
    loaded list is the empty tuple or what the member with this index is loaded as. *)
Theorem C20_in_place_partial E LD f fuel a n pt b s s' l :
  (forall a l, Permutation (e_order E a l) l) ->
  get_node f a = Some n -> loads_as E LD f n pt b true -> ld_conts LD b = Some KList -> base_cls pt = CList ->
  l_memo s !! a = None -> load_ (S fuel) E LD f a s = Ok (s', l) ->
  exists xs, m_heap (l_mem s') !! l = Some (Obj pt (VSeq xs)) /\ items_in_place f (load_ fuel E LD f) (links n) xs.
Proof. exact (fun HO => load_list_in_place E HO LD f fuel a n pt b s s' l). Qed.
Print Assumptions C20_in_place_partial.

Example C20_in_place_applies :
  exists n s l, get_node f_list 2 = Some n /\ loads_as ienv LD0 f_list n CList (str "list") true /\
    ld_conts LD0 (str "list") = Some KList /\ load_ 10 ienv LD0 f_list 2 (Lst m0 ∅) = Ok (s, l) /\ map fst (links n) = [str "data0"; str "data1"].
Proof. exact f_list_in_place. Qed.

(** ** C44: damaged dicts are detected

    [dict_twice]: two members with the same index, none of them an empty tuple.
    [dict_gap]: no member with index i, but one with a higher index. *)
Theorem C44_twice_partial C writable f p m f' r o :
  (forall a l, Permutation (e_order (c_env C) a l) l) -> 0 < m_next m -> writable = false \/ has_table f p ->
  damaged_at dict_twice C f p -> load_file C writable f p m = (f', r, o) -> exists e, r = Err e.
Proof. exact (load_dict_twice C writable f p m f' r o). Qed.
Print Assumptions C44_twice_partial.
Theorem C44_gap_partial C writable f p m f' r o :
  (forall a l, Permutation (e_order (c_env C) a l) l) -> 0 < m_next m -> writable = false \/ has_table f p ->
  damaged_at dict_gap C f p -> load_file C writable f p m = (f', r, o) -> exists e, r = Err e.
Proof. exact (load_dict_gap C writable f p m f' r o). Qed.
Print Assumptions C44_gap_partial.

Example C44_applies :
  damaged_at dict_twice C0 f_dict2 (str "/") /\ loaded f_dict2 = Err IndexError /\
  damaged_at dict_gap C0 f_dict1 (str "/") /\ loaded f_dict1 = Err ValueError.
Proof. split; [exact f_dict2_damaged|]. split; [look|]. split; [exact f_dict1_damaged|look]. Qed.

(** The last members can be missing unnoticed. *)
Theorem C44_last_refuted :
  snd (dumped m_two 5) = Ok tt /\
  loaded f_dict = Ok (WDict CDict [(WStr CStr (str "ab"), WStr CStr (str "cd")); (WStr CStr (str "cd"), WStr CStr (str "ab"))]) /\
  loaded (unlink (at_path f_dict "/data") (str """cd""") f_dict) = Ok (WDict CDict [(WStr CStr (str "ab"), WStr CStr (str "cd"))]).
Proof. split_and!; look. Qed.
Print Assumptions C44_last_refuted.

(** ** C31: attribute overlays never reach the file

    [os]: any sequence of operations on [proxy.attrs], and of changes made to the node's
    attributes behind the proxy's back.  The attributes of the node are those the latter alone
    would leave. *)
Theorem C31_node_untouched a os :
  px_node (px_run (wrap a) os) = px_node (px_run (wrap a) (List.filter on_node os)).
Proof. exact (px_node_only a os). Qed.
Print Assumptions C31_node_untouched.
Theorem C31_node_same a os : forallb (fun o => negb (on_node o)) os = true -> px_node (px_run (wrap a) os) = a.
Proof. exact (px_node_same a os). Qed.
Print Assumptions C31_node_same.

(** What is read through the proxy: the value last set through it and not deleted since,
    otherwise the present attribute of the node; [in], [get] and iteration agree. *)
Theorem C31_visible a os k :
  px_get (px_run (wrap a) os) k =
    match own_value a (rev os) k with Some v => Some v | None => node_value a (rev os) k end.
Proof. exact (px_view a os k). Qed.
Print Assumptions C31_visible.
Theorem C31_consistent a os k : let p := px_run (wrap a) os in
  (px_mem p k = true <-> is_Some (px_get p k)) /\ (k ∈ px_keys p <-> is_Some (px_get p k)) /\ NoDup (px_keys p).
Proof. exact (conj (px_mem_get _ k) (conj (px_keys_visible _ k) (px_keys_nodup _))). Qed.
Print Assumptions C31_consistent.

(** What hickle uses it for: members of sparse matrices are loaded with other types. *)
Theorem C31_redirect nm dt a p : redirect nm dt a = Ok (Some p) ->
  px_node p = a /\
  px_get p a_type = Some (APickle (if bool_decide (nm = str "shape") then CTuple else CNdarray)) /\
  px_get p a_base_type = Some (ABytes (if bool_decide (nm = str "shape") then str "tuple" else str "ndarray")) /\
  (nm <> str "shape" -> px_get p a_np_dtype = Some (default (ABytes dt) (a !! a_np_dtype))).
Proof. exact (redirect_node nm dt a p). Qed.
Print Assumptions C31_redirect.

Definition k1 : pystr := str "a".
Definition a1 : attrs := <[k1 := AInt 1]> ∅.
Example C31_applies :
  let p := px_run (wrap a1) [PSet k1 (AInt 2); PSet (str "b") (AInt 3); PDel k1; PDel k1; PSet k1 (AInt 4); NSet k1 (AInt 5)] in
  px_get p k1 = Some (AInt 4) /\ px_get p (str "b") = Some (AInt 3) /\ px_node p !! k1 = Some (AInt 5) /\
  px_node p !! str "b" = None /\ forallb (fun o => negb (on_node o)) [PSet k1 (AInt 2); PDel k1] = true.
Proof. repeat split; look. Qed.
Example C31_redirect_applies : exists p, redirect (str "indices") (str "<i4") a1 = Ok (Some p).
Proof. eexists. unfold redirect. cbn -[wrap px_put]. reflexivity. Qed.

(** ** C35: hickle 3 lists keep their order

    [number]: the first run of digits in the name, read as decimal number. *)
Theorem C35_numeric_order ks :
  Forall (fun k => Forall (fun c => c < 128) k) ks -> Forall (fun k => is_Some (key_number k)) ks ->
  exists out, sort_keys ks = Ok out /\ Permutation out ks /\
    StronglySorted (fun a b => number a <= number b) out /\
    (forall n, List.filter (fun k => number k =? n) out = List.filter (fun k => number k =? n) ks).
Proof. exact (sort_keys_spec ks). Qed.
Print Assumptions C35_numeric_order.

(** In particular the members data_0 ... data_(n-1) of a list, in whatever order h5py yields them. *)
Theorem C35_items n ks :
  Permutation ks (map (fun i => item_name (N.of_nat i)) (seq 0 n)) ->
  sort_keys ks = Ok (map (fun i => item_name (N.of_nat i)) (seq 0 n)).
Proof. exact (sort_keys_items n ks). Qed.
Print Assumptions C35_items.

Example C35_applies :
  item_name 10 = str "data_10" /\ number (str "data_10") = 10 /\
  sort_keys [str "data_10"; str "data_2"; str "x2"; str "data_1"] = Ok [str "data_1"; str "data_2"; str "x2"; str "data_10"] /\
  Permutation [str "data_2"; str "data_0"; str "data_1"] (map (fun i => item_name (N.of_nat i)) (seq 0 3)).
Proof.
  split; [look|]. split; [look|]. split; [look|]. change (map _ _) with [str "data_0"; str "data_1"; str "data_2"].
  by apply (Permutation_cons_append [str "data_0"; str "data_1"]).
Qed.
