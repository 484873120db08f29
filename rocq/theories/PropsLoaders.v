(** * PropsLoaders: which loader is used, and what happens when there is none (C29, C30) *)
From Verif Require Import Base Utf8 Dec Num PyObj H5 Env Create Dump LoadFns LoadModel Registry RegistryStd Spec PartSpec RoundTrip
  Api DumpClosed ApiProofs DumpEnv Reach Instance Samples SampleProofs Cyclic FileProofs Damage DamageApi Recover RecoverStd ApiTop LoaderSearch LoaderSamples.
From Coq Require Import Lia ZifyBool ZifyN.
Local Open Scope N_scope.
Local Open Scope list_scope.

(** ** C30: data of missing classes is recovered

    A dataset is always recovered, with its content, its attributes without 'type', and the
    base_type recorded with the missing class. *)
Theorem C30_dataset_partial E opts legacy f fuel a n c b d s :
  let LD := loader_of std_world opts legacy in
  None ∈ opts -> get_node f a = Some n -> class_missing E f n c b -> nd_body n = BData d -> l_memo s !! a = None ->
  exists s' l at_, load_ (S fuel) E LD f a s = Ok (s', l) /\
    m_heap (l_mem s') !! l = Some (Obj CRecoveredDataset (VRecD d at_)) /\ recovered_attrs (nd_attrs n) b at_.
Proof.
  exact (fun Ho Hn Hc => recover_data E _ f fuel a n _ _ d s Hn
           (class_missing_recovers E _ f n c b (std_can_recover opts legacy Ho) Hc)).
Qed.
Print Assumptions C30_dataset_partial.

(** A group is recovered with all its members, provided they can be loaded. *)
Theorem C30_group_partial E opts legacy f fuel a n c b s :
  let LD := loader_of std_world opts legacy in
  (forall a l, Permutation (e_order E a l) l) -> None ∈ opts ->
  get_node f a = Some n -> class_missing E f n c b -> is_group n = true -> NoDup (map fst (links n)) -> l_memo s !! a = None ->
  (forall s' l, load_ (S fuel) E LD f a s = Ok (s', l) ->
     exists items at_, m_heap (l_mem s') !! l = Some (Obj CRecoveredGroup (VRecG items at_)) /\
       recovered_attrs (nd_attrs n) b at_ /\ recovered_items f (load_ fuel E LD f) (links n) items) /\
  (forall e, load_ (S fuel) E LD f a s = Err e ->
     exists nm a' s1, (nm, a') ∈ links n /\ (load_ fuel E LD f a' s1 = Err e \/ get_node f a' = None)).
Proof.
  exact (fun HO Ho Hn Hc Hg Hd Hm =>
    let R := class_missing_recovers E _ f n c b (std_can_recover opts legacy Ho) Hc in
    conj (fun s' l => recover_group E HO _ f fuel a n _ _ s s' l Hn R Hg Hd Hm)
         (fun e => recover_group_err E HO _ f fuel a n _ _ s e Hn R Hg Hm)).
Qed.
Print Assumptions C30_group_partial.

(** All option chains a load works with are of this kind. *)
Theorem C30_options f root legacy chain : options_of f root legacy = Ok chain -> None ∈ chain.
Proof. exact (options_of_none f root legacy chain). Qed.
Print Assumptions C30_options.

Example C30_applies :
  ((exists n, get_node f_my 2 = Some n /\ class_missing E_my f_my n (c_my CDict) (str "dict") /\ is_group n = true /\
      map fst (links n) = [str """ab"""]) /\
   (exists n, get_node f_my 5 = Some n /\ class_missing E_my f_my n (c_my CList) (str "list") /\ is_group n = false)) /\
  recovered C_my f_my =
    Ok (PeekG [(str """ab""", (PeekD (DArray (DInt W8) [2] [NZ 7; NZ 7]) (Some (ABytes (str "list"))) None, false))]
              (Some (ABytes (str "dict"))) None).
Proof. exact (conj f_my_missing f_my_loaded). Qed.

(** The same holds if the class is there but no loader for the base_type. *)
Theorem C30_loader_missing_dataset E LD f fuel a n c b d s :
  get_node f a = Some n -> loader_missing E LD f n c b -> nd_body n = BData d -> l_memo s !! a = None ->
  exists s' l at_, load_ (S fuel) E LD f a s = Ok (s', l) /\
    m_heap (l_mem s') !! l = Some (Obj CRecoveredDataset (VRecD d at_)) /\ recovered_attrs (nd_attrs n) b at_.
Proof.
  exact (fun Hn Hc => match loader_missing_recovers E LD f n c b Hc with ex_intro _ pt R => recover_data E LD f fuel a n _ pt d s Hn R end).
Qed.
Print Assumptions C30_loader_missing_dataset.
Example C30_loader_missing_applies :
  (exists n, get_node f_foo 5 = Some n /\ loader_missing ienv LD0 f_foo n (c_my CList) (str "foo") /\
     nd_body n = BData (DArray (DInt W8) [2] [NZ 7; NZ 7])) /\
  peeked_of (res_map (fun '(s, v) => (l_mem s, v)) (load_ 10 ienv LD0 f_foo 5 (Lst m0 ∅))) =
    Ok (PeekD (DArray (DInt W8) [2] [NZ 7; NZ 7]) (Some (ABytes (str "foo"))) None).
Proof. exact f_foo_missing. Qed.

(** Whole graphs: whatever classes the loading process cannot import, load returns a graph
    in which every object of an importable class comes back as it was and each of the others
    is a recovered dataset or group showing what was stored; sharing is preserved for both
    ([restored] in PartSpec.v).  [graph_part] leaves out what cannot work: missing classes
    among elements of sets, keys of dicts and parts of arrays. *)
Theorem C30_whole_graph_partial C kw opts x p m f f1 m1 ps f2 m2 o fp cp im :
  let E' := other_loader (c_env C) o fp cp im in
  env_ok E' -> c_world C = std_world -> c_pyver C <> [] ->
  tree f -> not_v3 f -> no_options (target_attrs f p) -> Forall (fun o => snd o = false) opts ->
  free_above m -> graph_part E' (m_heap m) x ->
  dump_file C kw opts x p m f = (f1, m1, Ok tt) ->
  history ps (f1, m1) (f2, m2) -> Forall (fun p2 => ~ into p p2) ps ->
  exists N, forall C' writable m3,
    c_env C' = E' -> c_world C' = std_world -> (N <= c_fuel C')%nat -> mem_ok m3 ->
    exists m4 v, load_file C' writable f2 p m3 = (f2, Ok (m4, v), false) /\
      m_heap m3 ⊆ m_heap m4 /\ restored E' (m_heap m) x (m_heap m4) v.
Proof. exact (history_load_part C kw opts x p m f f1 m1 ps f2 m2 o fp cp im). Qed.
Print Assumptions C30_whole_graph_partial.

(** [My([7, "ab"]), the same object, A(), "ab"] where neither My nor A can be imported. *)
Example C30_whole_graph_applies :
  (graph_part E_part (m_heap m_part) 1 /\ ~ graph_ok E_part (m_heap m_part) 1) /\
  snd (dumped m_part 1) = Ok tt /\
  seen_part (snd (fst (load_file C_part false (fst (dumped m_part 1)) (str "/") m0))) =
  Ok (true, PeekG [(str "data1", (PeekOther, true)); (str "data0", (PeekOther, true))] (Some (ABytes (str "list"))) None,
      PeekD (DPickle (COpaque (str "mymod") (str "A")) OByValue 7) None None, WStr CStr (str "ab")).
Proof. exact (conj m_part_ok m_part_loaded). Qed.

(** False in general: recovered data is not hashable, so a set with an element, or a dict
    with a key, whose class is missing cannot be loaded at all. *)
Theorem C30_keys_refuted :
  snd (dumped m_key 1) = Ok tt /\ recovered C_key (fst (dumped m_key 1)) = Err TypeError /\
  snd (dumped m_key 4) = Ok tt /\ recovered C_key (fst (dumped m_key 4)) = Err TypeError.
Proof. split_and!; look. Qed.
Print Assumptions C30_keys_refuted.

(** In files of hickle 4 the original base_type, here 'dict', is lost. *)
Theorem C30_base_type_4x_refuted :
  recovered C_my f_my4 = Ok (PeekG [] (Some (ABytes b_recover)) None) /\ b_recover <> str "dict".
Proof. split; [look|]. apply (bool_decide_unpack _). look. Qed.
Print Assumptions C30_base_type_4x_refuted.

(** ** C29: the most specific loader wins, independent of history

    [W]: the loader modules that can be found; [g0]: what hickle and the user have
    registered; [h]: any sequence of earlier searches, each with its options; [opts]: the
    active options, [None] standing for the global loaders; [base]: the base_type in the
    file if the search is for loading. *)
Theorem C29_history W g0 h opts base c :
  tidy W -> fresh W g0 -> not_hickle c = true ->
  snd (load_loader W opts (after W g0 h) c base) = snd (load_loader W opts g0 c base).
Proof. exact (fun HT HF => history_independent W g0 HT HF h opts base c). Qed.
Print Assumptions C29_history.

Theorem C29_most_specific W g0 h opts base c i :
  tidy W -> fresh W g0 -> not_hickle c = true -> search_finds W g0 opts (mro c) i ->
  snd (load_loader W opts (after W g0 h) c base) = Ok (c, i).
Proof. exact (fun HT HF => search_most_specific W g0 HT HF h opts base c i). Qed.
Print Assumptions C29_most_specific.

Theorem C29_pickled W g0 h opts base c :
  tidy W -> fresh W g0 -> not_hickle c = true -> (forall k, k ∈ mro c -> no_item W g0 opts k) ->
  snd (load_loader W opts (after W g0 h) c base) = Ok (CObject, (FPickle, str "pickle", true)).
Proof. exact (fun HT HF => search_pickle W g0 HT HF h opts base c). Qed.
Print Assumptions C29_pickled.
(** There is no third case. *)
Theorem C29_cases W g0 opts c :
  tidy W -> fresh W g0 -> not_hickle c = true ->
  (exists i, search_finds W g0 opts (mro c) i) \/ (forall k, k ∈ mro c -> no_item W g0 opts k).
Proof. exact (fun HT HF => search_cases W g0 HT HF opts c). Qed.
Print Assumptions C29_cases.

(** What dump and load are modelled with, all modules loaded beforehand, gives the same
    answer; and after the search the functions for the base types of the module that
    answered are the same as well. *)
Theorem C29_full W g0 h opts base c :
  tidy W -> fresh W g0 -> not_hickle c = true ->
  snd (load_loader W opts (after W g0 h) c base) = snd (load_loader W opts (load_all W g0) c base).
Proof. exact (fun HT HF => search_full W g0 HT HF h opts base c). Qed.
Print Assumptions C29_full.
Theorem C29_functions W g0 h opts base c k c1 c2 i nm m e b opts' :
  tidy W -> fresh W g0 -> not_hickle c = true -> mro c = c1 ++ k :: c2 -> class_item W g0 opts k i -> (forall c', c' ∈ c1 -> no_item W g0 opts c') ->
  (nm, m) ∈ w_modules W -> e ∈ lm_register m -> re_cls e = k -> re_dump e <> None -> b ∈ module_names m ->
  let g' := fst (load_loader W opts (after W g0 h) c base) in
  chain_get opts' b (g_fn g') = chain_get opts' b (g_fn (load_all W g0)) /\
  chain_get opts' b (g_ct g') = chain_get opts' b (g_ct (load_all W g0)).
Proof. exact (fun HT HF => bases_after_search W g0 HT HF h opts base c k c1 c2 i nm m e b opts'). Qed.
Print Assumptions C29_functions.

(** The loader modules of hickle are tidy, alone and with one for a package of the user. *)
Example C29_applies :
  (tidy std_world /\ fresh std_world core_registry) /\ (tidy shapes_world /\ fresh shapes_world core_registry) /\
  (not_hickle c_circle = true /\ search_finds shapes_world core_registry [Some (str "custom"); None] (mro c_circle) (FDict, str "shape", true)) /\
  (not_hickle c_square = true /\ search_finds shapes_world core_registry [Some (str "custom"); None] (mro c_square) (FDict, str "square", true)) /\
  g_loaded (after shapes_world core_registry some_history) = [str "hickle.loaders.load_builtins"] /\
  snd (load_loader shapes_world [None] (after shapes_world core_registry some_history) c_square None) = Ok (c_square, (FDict, str "shape", true)) /\
  snd (load_loader shapes_world [None] (after shapes_world core_registry some_history) (COpaque (str "__main__") (str "Thing")) None) = Ok fallback.
Proof.
  split; [exact (conj std_tidy std_fresh)|]. split; [exact (conj shapes_tidy shapes_fresh)|].
  split; [exact (conj eq_refl circle_search)|]. split; [exact (conj eq_refl square_search)|]. split; [look|]. split; look.
Qed.

(** Without these conditions the answer does depend on the history.  A loader module that
    registers a class of another package: *)
Theorem C29_other_package_refuted :
  snd (load_loader greedy_world [None] core_registry c_other None) = Ok fallback /\
  snd (load_loader greedy_world [None] (after greedy_world core_registry [([None], c_shape, None)]) c_other None)
    = Ok (c_other, (FDict, str "thing", true)).
Proof. split; look. Qed.
Print Assumptions C29_other_package_refuted.
(** A loader the user registers for a class hickle has a loader for: it is used until the
    module of hickle is loaded, here for the sake of an int. *)
Theorem C29_run_time_refuted :
  snd (register_class core_registry user_list) = Ok tt /\
  snd (load_loader std_world [None] user_registry CList None) = Ok (CList, (FDict, str "mylist", true)) /\
  snd (load_loader std_world [None] (after std_world user_registry [([None], CInt, None)]) CList None)
    = Ok (CList, (FList, str "list", true)).
Proof. split; [look|]. split; look. Qed.
Print Assumptions C29_run_time_refuted.
(** A class defined by a loader module, with an option active. *)
Theorem C29_dummy_refuted :
  snd (load_loader dummy_world [None] core_registry c_dummy None) = Ok (c_dummy, (FDict, str "dummy", true)) /\
  snd (load_loader dummy_world [Some (str "custom"); None] core_registry c_dummy None)
    = Ok (c_dummy, (FNotDumpable, str "NotHicklable", false)) /\
  snd (load_loader dummy_world [Some (str "custom"); None] (after dummy_world core_registry [([None], c_dummy, None)]) c_dummy None)
    = Ok (c_dummy, (FDict, str "dummy", true)).
Proof. split; [look|]. split; look. Qed.
Print Assumptions C29_dummy_refuted.
