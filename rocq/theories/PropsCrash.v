(** * PropsCrash: a dump interrupted at any point (C50, C51)

    [interrupted C kw opts x p m f k]: the file left by [dump(x, f, path=p, **kw)] when an
    exception strikes after the first [k] operations on the file (Crash.v). *)
From Verif Require Import Base Utf8 Dec Num PyObj H5 Env Create Dump LoadFns LoadModel Registry RegistryStd Spec RoundTrip
  Api DumpClosed ApiProofs DumpEnv Reach Instance Samples SampleProofs Crash CrashProofs ApiTop DumpCycle Accept Count FailedDump CrashLeaf.
From Coq Require Import Lia ZifyBool ZifyN.
Local Open Scope N_scope.
Local Open Scope list_scope.

(** ** C50: an interrupted dump harms nothing else in the file *)

(** What is outside the target is as before, at every point of interruption; the groups
    leading to the target may have got new members. *)
Theorem C50_frame C kw opts x p m f k cs at_ b :
  tree f -> content f cs = Some (at_, b) ->
  let f' := interrupted C kw opts x p m f k in
  (~ cs `prefix_of` components p -> content f' cs = Some (at_, b)) /\
  (cs <> components p ->
     content f' cs = Some (at_, b) \/
     exists l ls, b = BGroup l /\ content f' cs = Some (at_, BGroup (l ++ ls)) /\ Forall (fun k => f_next f <= snd k) ls).
Proof.
  intros Ht Hc f'. destruct (interrupted_frame C kw opts x p m f k Ht) as (T & S & N & Q). by apply (changed_content p f).
Qed.
Print Assumptions C50_frame.

(** The file remains one HDF5 can hold: a tree whose links lead to nodes. *)
Theorem C50_file_intact C kw opts x p m f k : tree f -> tree (interrupted C kw opts x p m f k).
Proof. intros Ht. apply (interrupted_frame C kw opts x p m f k Ht). Qed.
Print Assumptions C50_file_intact.

(** An object dumped before is loaded as before, after one interrupted dump to another
    path.  (C18_independent_dumps: after any history of dumps, complete, failing or
    interrupted.) *)
Theorem C50_earlier_dump_loads C kw opts x p m f f1 m1 C2 kw2 opts2 y p2 m2 k o fp cp im :
  let E' := other_loader (c_env C) o fp cp im in
  env_ok E' -> c_world C = std_world -> c_pyver C <> [] ->
  tree f -> not_v3 f -> no_options (target_attrs f p) -> Forall (fun o => snd o = false) opts ->
  free_above m -> graph_ok E' (m_heap m) x ->
  dump_file C kw opts x p m f = (f1, m1, Ok tt) ->
  ~ into p p2 -> free_above m2 ->
  exists N, forall C' writable m3,
    c_env C' = E' -> c_world C' = std_world -> (N <= c_fuel C')%nat -> mem_ok m3 ->
    let f2 := interrupted C2 kw2 opts2 y p2 m2 f1 k in
    exists m4 v, load_file C' writable f2 p m3 = (f2, Ok (m4, v), false) /\
      m_heap m3 ⊆ m_heap m4 /\ isomorphic (m_heap m) x (m_heap m4) v.
Proof.
  intros E' HE HW Hpy Ht Hv Hno Hop Hm Hx Hd Hi Hm2.
  refine (history_load C kw opts x p m f f1 m1 [p2] _ m2 o fp cp im HE HW Hpy Ht Hv Hno Hop Hm Hx Hd _ ltac:(by constructor)).
  apply (hist_mem m2); [done|]. apply (hist_interrupted C2 kw2 opts2 y p2 k). apply hist_none.
Qed.
Print Assumptions C50_earlier_dump_loads.

(** The list of operations is that of the dump: performed to the end it leaves the file the
    dump leaves. *)
Theorem C50_complete C kw opts x p m f k :
  tree f -> (length (file_ops C kw opts x p m f) <= k)%nat ->
  interrupted C kw opts x p m f k = fst (fst (dump_file C kw opts x p m f)).
Proof. exact (interrupted_all C kw opts x p m f k). Qed.
Print Assumptions C50_complete.

(** ["ab", 5], and a file that holds another object at "/b". *)
Definition m_pair : mem := mem_of [o_list [2; 3]; o_str "ab"; o_int 5].
Definition f_other : file := fst (fst (dump_file C0 [] [] 1 (str "/b") m_ex f0)).
Definition try (k : nat) : file := interrupted C0 [] [] 1 (str "/a") m_pair f_other k.
Definition see_at (f : file) (p : string) : res view :=
  let '(_, r, _) := load_file C0 false f (str p) m0 in res_map (fun '(m, v) => see m v) r.

Example C50_applies :
  length (file_ops C0 [] [] 1 (str "/a") m_pair f_other) = 23%nat /\
  Forall (fun k => see_at (try k) "/b" = see_at f_other "/b") (seq 0 24) /\
  see_at f_other "/b" = loaded (fst (dumped m_ex 1)) /\
  ~ into (str "/b") (str "/a").
Proof.
  split; [look|]. split; [repeat (apply Forall_cons; [look|]); apply Forall_nil; exact I|]. split; [look|].
  apply (proj1 (bool_decide_eq_false _)). look.
Qed.

(** ** C51: what an interrupted dump left is not taken for an object: false

    ["ab", 5]: after the group is typed, it loads as [(), ()], after the first item as
    ["ab", ()]. *)
Theorem C51_refuted :
  exists C m x f k1 k2,
    tree f /\ snd (dump_file C [] [] x (str "/") m f) = Ok tt /\ see m x = WSeq CList [WStr CStr (str "ab"); WNum CInt (NZ 5)] /\
    see_at (interrupted C [] [] x (str "/") m f k1) "/" = Ok (WSeq CList [WSeq CTuple []; WSeq CTuple []]) /\
    see_at (interrupted C [] [] x (str "/") m f k2) "/" = Ok (WSeq CList [WStr CStr (str "ab"); WSeq CTuple []]).
Proof.
  exists C0, m_pair, 1, f0, 9%nat, 15%nat. split; [exact f0_tree|]. repeat split; look.
Qed.
Print Assumptions C51_refuted.

(** What holds: as long as the member 'data' of the target is missing, load raises.
    Missing: interruptions after that, where load may raise or not (see above). *)
Theorem C51_before_data_partial C kw opts x p m f k :
  tree f -> not_v3 f -> let f' := interrupted C kw opts x p m f k in
  content f' (components p ++ [n_data]) = None ->
  forall C' w m2 f2 r ov, load_file C' w f' p m2 = (f2, r, ov) -> exists e, r = Err e.
Proof.
  intros Ht Hv f' Hc C' w m2 f2 r ov. apply load_no_data.
  - apply (interrupted_frame C kw opts x p m f k Ht).
  - by apply interrupted_not_v3.
  - unfold content in Hc. destruct (walk f' root_addr (components p ++ [n_data])) as [a|] eqn:Hw; [|done].
    destruct (interrupted_frame C kw opts x p m f k Ht) as (T & _).
    destruct (tr_root _ T) as (rn & Hrn & _). destruct (walk_some f' _ root_addr a T ltac:(by eexists) Hw) as [n Hn].
    by rewrite Hn in Hc.
Qed.
Print Assumptions C51_before_data_partial.

Example C51_applies :
  tree f_other /\ not_v3 f_other /\ content (try 4) (components (str "/a") ++ [n_data]) = None /\
  map (fun k => see_at (try k) "/a") (seq 0 5) = [Err FileError; Err FileError; Err FileError; Err KeyError; Err KeyError].
Proof.
  split; [|split; [look|split; look]].
  unfold f_other. destruct (dump_file C0 [] [] 1 (str "/b") m_ex f0) as [[f' m'] r] eqn:Hd.
  refine (proj1 (dump_file_frame C0 [] [] 1 (str "/b") m_ex f0 f' m' r f0_tree std_world_ok (mem_of_free _) Hd)).
Qed.

(** What holds at every point: the target held no 'data' before and dump is stopped after
    any number of operations.  Then no load of it succeeds; or a dataset is there that
    does not say yet what it holds; or the object has items and the group for them is
    there; or the dump was complete.  For any loader, option, configuration of the
    loading interpreter and way of opening the file. *)
Theorem C51_only_containers_partial C kw opts x p m f k o :
  tree f -> not_v3 f -> content f (components p ++ [n_data]) = None -> m_heap m !! x = Some o ->
  let f' := interrupted C kw opts x p m f k in
  (forall C' w m', exists e, snd (fst (load_file C' w f' p m')) = Err e) \/
  (exists at_ d, content f' (components p ++ [n_data]) = Some (at_, BData d) /\ at_ !! a_type = None) \/
  ((plain_obj o -> refs o <> []) /\ exists at_ l, content f' (components p ++ [n_data]) = Some (at_, BGroup l)) \/
  f' = fst (fst (dump_file C kw opts x p m f)).
Proof. exact (interrupted_loads C kw opts x p m f k o). Qed.
Print Assumptions C51_only_containers_partial.

(** An object that refers to no others (a number, a string, bytes, an array of numbers, an
    empty container, an object to be pickled): there is no half of it.
    Missing: datasets without type, which load takes for a pickle. *)
Theorem C51_leaf_partial C kw opts x p m f k o :
  tree f -> not_v3 f -> content f (components p ++ [n_data]) = None -> m_heap m !! x = Some o ->
  plain_obj o -> refs o = [] ->
  let f' := interrupted C kw opts x p m f k in
  (forall C' w m', exists e, snd (fst (load_file C' w f' p m')) = Err e) \/
  (exists at_ d, content f' (components p ++ [n_data]) = Some (at_, BData d) /\ at_ !! a_type = None) \/
  f' = fst (fst (dump_file C kw opts x p m f)).
Proof.
  intros Ht Hv Hc Ho Hp Hr f'. destruct (interrupted_loads C kw opts x p m f k o Ht Hv Hc Ho) as [H|[H|[[H _]|H]]]; [by left|by right; left| |by right; right].
  by destruct (H Hp).
Qed.
Print Assumptions C51_leaf_partial.

(** "ab" written to '/a' of a file with something else, stopped after each number of
    operations: load raises, then the untyped dataset, then all of it. *)
Definition m_ab : mem := mem_of [o_str "ab"%string].
Definition ab (k : nat) : file := interrupted C0 [] [] 1 (str "/a") m_ab f_other k.
Example C51_leaf_applies :
  not_v3 f_other /\ content f_other (components (str "/a") ++ [n_data]) = None /\
  m_heap m_ab !! 1 = Some (o_str "ab"%string) /\ plain_obj (o_str "ab"%string) /\ refs (o_str "ab"%string) = [] /\
  map (fun k => see_at (ab k) "/a") (seq 0 12) =
    [Err FileError; Err FileError; Err FileError; Err KeyError; Err KeyError; Err Unmodelled; Err Unmodelled; Err Unmodelled;
     Err Unmodelled; Err Unmodelled; Ok (WStr CStr (str "ab")); Ok (WStr CStr (str "ab"))].
Proof. repeat split; look. Qed.

(** ** C19: a failed dump is not mistaken for data: what holds

    (C19_failed_dump_loads_refuted in PropsGraph.v: in general it is.)  The target held no
    'data' before and dump raised.  If the object refers to no others (a number, a
    string, an array of numbers, an object to be pickled, ...), every load raises.
    Otherwise either every load raises, or what was left at 'data' is a group or a
    dataset without type: no dataset is ever left that says what it holds.
    Missing: groups, which may load (the refutation is one), arrays of strings and
    objects (not [plain_obj]), whose elements are stored by way of a list made for the
    purpose, and custom loaders. *)
Theorem C19_only_containers_partial C kw opts x p m f f' m' e o :
  tree f -> not_v3 f -> c_world C = std_world -> Forall (fun o => snd o = false) opts -> free_above m ->
  content f (components p ++ [n_data]) = None ->
  m_heap m !! x = Some o -> outside_hickle (ocls o) -> e_pickles_cls (c_env C) (ocls o) = true -> ascii_name (ocls o) ->
  dump_file C kw opts x p m f = (f', m', Err e) ->
  (forall C' w m2 f2 r ov, load_file C' w f' p m2 = (f2, r, ov) -> exists e, r = Err e) \/
  ((plain_obj o -> refs o <> []) /\ exists at_ b, content f' (components p ++ [n_data]) = Some (at_, b) /\
     ((exists l, b = BGroup l) \/ at_ !! a_type = None)).
Proof.
  intros Ht Hv HW Hop Hm Hc Ho H1 H2 H3 Hd.
  destruct (failed_dump C kw opts x p m f f' m' e o Ht HW Hop Hm Hc Ho H1 H2 H3 Hd) as [H|H]; [left|by right].
  intros C' w m2 f2 r ov. apply load_no_data; [| |done].
  - eapply dump_file_frame; [exact Ht| |exact Hm|exact Hd]. rewrite HW. exact std_world_ok.
  - eapply dump_not_v3; [exact Ht| |exact Hm|exact Hv|exact Hop|exact Hd]. rewrite HW. exact std_world_ok.
Qed.
Print Assumptions C19_only_containers_partial.

(** The same for the objects that refer to no others. *)
Theorem C19_leaf_partial C kw opts x p m f f' m' e o :
  tree f -> not_v3 f -> c_world C = std_world -> Forall (fun o => snd o = false) opts -> free_above m ->
  content f (components p ++ [n_data]) = None ->
  m_heap m !! x = Some o -> outside_hickle (ocls o) -> e_pickles_cls (c_env C) (ocls o) = true -> ascii_name (ocls o) ->
  plain_obj o -> refs o = [] -> dump_file C kw opts x p m f = (f', m', Err e) ->
  forall C' w m2 f2 r ov, load_file C' w f' p m2 = (f2, r, ov) -> exists e, r = Err e.
Proof.
  intros Ht Hv HW Hop Hm Hc Ho H1 H2 H3 Hp Hr Hd.
  destruct (C19_only_containers_partial C kw opts x p m f f' m' e o Ht Hv HW Hop Hm Hc Ho H1 H2 H3 Hd) as [H|[H _]]; [exact H|].
  by destruct (H Hp).
Qed.
Print Assumptions C19_leaf_partial.

(** An object that cannot be pickled and a string with a lone surrogate: nothing is left
    that loads.  [2**63] is a list: the dataset left has no type. *)
Definition m_bad : mem :=
  mem_of [Obj (COpaque (str "m") (str "A")) (VOpaque OById 13); Obj CStr (VStr [55296]); o_list [4]; o_int (2 ^ 63)].
Example C19_leaf_applies :
  content f0 (components (str "/") ++ [n_data]) = None /\ not_v3 f0 /\
  (forall x, x ∈ [1; 2; 3] -> exists o, m_heap m_bad !! x = Some o /\ outside_hickle (ocls o) /\ e_pickles_cls (c_env C0) (ocls o) = true /\ ascii_name (ocls o) /\ plain_obj o) /\
  map (fun x => (round_trip m_bad x).1) [1; 2; 3] = [Err PicklingError; Err UnicodeError; Err OverflowError] /\
  map (fun x => (round_trip m_bad x).2) [1; 2] = [Err KeyError; Err KeyError] /\
  (exists at_ d, content (dump_file C0 [] [] 3 (str "/") m_bad f0).1.1 (components (str "/") ++ [n_data]) = Some (at_, BData d) /\ at_ !! a_type = None).
Proof.
  split; [look|]. split; [look|]. split; [|split; [look|split; [look|]]].
  - intros x Hx. rewrite !elem_of_cons, elem_of_nil in Hx. destruct Hx as [->|[->|[->|[]]]]; eexists; (split; [look|]); (split;
      [intros k Hk; repeat (apply elem_of_cons in Hk as [-> |Hk]; [done|]); by apply elem_of_nil in Hk|split; [look|split; [repeat (apply Forall_cons_2; [look|]); apply Forall_nil_2|exact I]]]).
  - eexists _, _. split; look.
Qed.
