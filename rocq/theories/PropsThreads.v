(** * PropsThreads: threads searching loaders at the same time (C65)

    [run W (g, ts) sched]: the class tables [g] and the threads [ts] after the steps the
    schedule [sched] (a list of thread numbers) gives (Threads.v).  [answer t]: what the
    search of thread [t] returned, if it is done.  [tidy], [fresh], [after], [registered] and
    [package] are those of C29: loader modules that keep to the classes of their package, what is
    registered before any module is loaded, the tables after a history of searches, how
    instances of a class are to be dumped, the package a class belongs to. *)
From Verif Require Import Base Utf8 Dec Num PyObj H5 Env Create Dump LoadFns LoadModel Registry RegistryStd RegistryProofs LoaderSearch LoaderSamples
  SampleProofs Threads ThreadProofs.
Local Open Scope N_scope.
Local Open Scope list_scope.

(** Threads at the beginning of their searches. *)
Definition started (ts : list thread) : Prop :=
  Forall (fun t => not_hickle (t_cls t) = true /\ t = start (t_opts t) (t_base t) (t_cls t)) ts.
Lemma started_ok W g0 h ts : tidy W -> fresh W g0 -> started ts -> pool_ok W g0 (after W g0 h, ts).
Proof.
  intros HT HF H. apply begin_ok; [done|done|]. eapply list.Forall_impl; [exact H|]. intros t [A B]. split; [done|]. by rewrite B.
Qed.

(** The steps are those of [load_loader]: a thread that is not interrupted, the others being
    stopped anywhere, computes it. *)
Theorem C65_steps W g ts i opts base c : ts !! i = Some (start opts base c) -> exists n g' ts',
  run W (g, ts) (repeat i n) = (g', ts') /\ g' = fst (load_loader W opts g c base) /\
  (ts' !! i) ≫= answer = Some (snd (load_loader W opts g c base)) /\ forall j, j <> i -> ts' !! j = ts !! j.
Proof. exact (run_through W g ts i opts base c). Qed.
Print Assumptions C65_steps.

(** Every thread that gets enough turns is done: none waits for another. *)
Theorem C65_finishes W g ts i t : ts !! i = Some t ->
  exists n, forall sched, (n <= turns i sched)%nat -> exists t', snd (run W (g, ts) sched) !! i = Some t' /\ answer t' <> None.
Proof.
  intros Hi. exists (cost W (t_pc t)). intros sched Hn. destruct (run_finishes W sched g ts i t Hi Hn) as (t' & a & A & B).
  exists t'. split; [done|]. unfold answer. by rewrite B.
Qed.
Print Assumptions C65_finishes.

(** Every schedule: no search raises, and what it finds is registered for a class of the mro
    (under an active option), or it is the fallback. *)
Theorem C65_registered_partial W g0 h ts sched i t r :
  tidy W -> fresh W g0 -> started ts -> snd (run W (after W g0 h, ts) sched) !! i = Some t -> answer t = Some r ->
  r = Ok fallback \/ exists item c o, r = Ok (t_cls t, item) /\ c ∈ mro (t_cls t) /\ o ∈ t_opts t /\ registered W g0 o c item.
Proof.
  intros HT HF Hs Hi Ha. destruct (run_ok W g0 HT HF sched _ (started_ok W g0 h ts HT HF Hs)) as [[_ Hp] _].
  destruct (Forall_lookup_1 _ _ _ _ Hp Hi) as [_ Hok]. unfold pc_ok in Hok. unfold answer in Ha. destruct (t_pc t); try done.
  destruct Hok as (oi & -> & Hreg). injection Ha as <-. destruct oi as [item|]; [right|by left].
  destruct (Hreg item eq_refl) as (c & o & A & B & C). by exists item, c, o.
Qed.
Print Assumptions C65_registered_partial.

(** A thread the loader modules of whose classes were loaded before the threads started gets
    what it would get alone, whatever the others do. *)
Theorem C65_loaded_partial W g0 h ts sched i opts base c t r :
  tidy W -> fresh W g0 -> started ts -> ts !! i = Some (start opts base c) ->
  (forall k pkg m, k ∈ mro c -> package W k = Some pkg -> alist_get (loader_prefix ++ pkg) (w_modules W) = Some m ->
     loader_prefix ++ pkg ∈ g_loaded (after W g0 h)) ->
  snd (run W (after W g0 h, ts) sched) !! i = Some t -> answer t = Some r ->
  r = snd (load_loader W opts (after W g0 h) c base).
Proof.
  intros HT HF Hs Hi Hset Ht Ha. pose proof (started_ok W g0 h ts HT HF Hs) as Hok.
  destruct (run_course W g0 HT HF sched _ i _ Hok Hi Hset eq_refl) as (t' & A & B & E1 & E2). rewrite Ht in A. injection A as <-.
  unfold on_course in B. unfold answer in Ha. destruct (t_pc t); try done. subst a. injection Ha as <-. cbn [start t_cls t_opts] in *.
  rewrite E1, E2, (search_answer W g0 HT HF opts base c); [done|by apply inv_after|].
  destruct (Forall_lookup_1 _ _ _ _ Hs Hi) as [Hc _]. exact Hc.
Qed.
Print Assumptions C65_loaded_partial.

(** Whatever the threads have done and wherever they are stopped, a search with one map of
    loaders (no options) that is not interrupted finds what it finds at the beginning. *)
Theorem C65_uninterrupted_partial W g0 h ts sched o base c :
  tidy W -> fresh W g0 -> started ts -> not_hickle c = true ->
  snd (load_loader W [o] (fst (run W (after W g0 h, ts) sched)) c base) = snd (load_loader W [o] g0 c base).
Proof.
  intros HT HF Hs Hc. destruct (run_ok W g0 HT HF sched _ (started_ok W g0 h ts HT HF Hs)) as [[Hp _] _].
  rewrite !(search_whole W g0 HT HF) by first [done|apply inv_partly, inv_start; done]. done.
Qed.
Print Assumptions C65_uninterrupted_partial.

(** Two threads dump arrays, each to its own file; load_numpy is not loaded.  Thread 0 finds nothing
    registered for ndarray and is interrupted; thread 1 loads the module; thread 0 goes on,
    sees that the module is loaded, and concludes that it has nothing for ndarray: the array
    is pickled. *)
Definition two_arrays : list thread := [start [None] None CNdarray; start [None] None CNdarray].
Definition in_between : list nat := ([0] ++ repeat 1 12 ++ repeat 0 20)%nat.
Theorem C65_refuted :
  snd (load_loader std_world [None] core_registry CNdarray None) = Ok (CNdarray, (FNpArray, str "ndarray", true)) /\
  map answer (snd (run std_world (core_registry, two_arrays) in_between)) =
    [Some (Ok (CObject, (FPickle, str "pickle", true))); Some (Ok (CNdarray, (FNpArray, str "ndarray", true)))].
Proof. split; look. Qed.
Print Assumptions C65_refuted.

(** A loader module whose base type is enclosed in exclamation marks: one thread is enough for it to be
    loaded, two raise ValueError in one of them. *)
Definition bang_world : world := World [(m_shapes, LoaderModule [shape_entry c_shape "!shape!" None] [])] None.
Theorem C65_error_refuted :
  snd (load_loader bang_world [None] core_registry c_shape None) = Ok (c_shape, (FDict, str "!shape!", true)) /\
  map answer (snd (run bang_world (core_registry, [start [None] None c_shape; start [None] None c_shape]) ([0; 0] ++ repeat 1 6 ++ repeat 0 6)%nat)) =
    [Some (Err ValueError); Some (Ok (c_shape, (FDict, str "!shape!", true)))].
Proof. split; look. Qed.
Print Assumptions C65_error_refuted.

(** Three threads; load_builtins has been loaded for the sake of a list, load_shapes is
    loaded by the threads while one of them looks for a dict. *)
Definition some_threads : list thread :=
  [start [None] None CDict; start [Some (str "custom"); None] None c_square; start [None] None c_circle].
Example C65_applies :
  (tidy shapes_world /\ fresh shapes_world core_registry) /\ started some_threads /\
  (forall k pkg m, k ∈ mro CDict -> package shapes_world k = Some pkg -> alist_get (loader_prefix ++ pkg) (w_modules shapes_world) = Some m ->
     loader_prefix ++ pkg ∈ g_loaded (after shapes_world core_registry some_history)) /\
  map answer (snd (run shapes_world (after shapes_world core_registry some_history, some_threads) ([1; 2; 1; 0; 2; 1; 2] ++ repeat 1 5 ++ repeat 2 9 ++ repeat 0 3)%nat)) =
    [Some (Ok (CDict, (FDict, str "dict", true))); Some (Ok (c_square, (FDict, str "square", true))); Some (Ok (c_circle, (FDict, str "shape", true)))].
Proof.
  split; [split; [exact shapes_tidy|exact shapes_fresh]|]. split; [repeat constructor|]. split; [|look].
  intros k pkg m Hk Hp _. assert (loader_prefix ++ pkg = str "hickle.loaders.load_builtins") as ->.
  { repeat (apply elem_of_cons in Hk as [-> |Hk]; [vm_compute in Hp; injection Hp as <-; look|]). by apply elem_of_nil in Hk. }
  apply (bool_decide_unpack _). look.
Qed.
