(** * Threads: the search for a loader step by step, and threads searching at the same time

    Registry.v models [load_loader] as one function.  Here it is cut into the steps between
    which Python may switch threads.
    Simplification: one registration ([register_class], [register_class_exclude]) is one
    step, as is importing a loader module; the managers of the threads belong to different
    files, so that the class tables of [LoaderManager] are all they share. *)
From Verif Require Import Base Utf8 Dec Num PyObj H5 Env Create Dump LoadFns LoadModel Registry.
Local Open Scope N_scope.
Local Open Scope list_scope.

(** Where a thread is in [load_loader], lookup.py:1131-1315; [r]: the rest of the mro. *)
Inductive pc :=
| PLook (cs : list cls)                       (** :1163-1166, before [types_dict.get(mro_item)] *)
| PMiss (c : cls) (r : list cls)              (** :1170-1250, nothing was found for [c] *)
| PReg (c : cls) (r : list cls) (nm : pystr) (es : list reg_entry) (xs : list (bytes * opt))
                                              (** :1293-1297, [es] and [xs] are left to register *)
| PAgain (c : cls) (r : list cls)             (** :1300-1306, after [loaded_loaders.add] *)
| PDone (a : res (option dump_item)).         (** returned or raised; [None]: the fallback of :1308-1310 *)

(** lookup.py:1252-1291: find and import the loader module. *)
Definition begin_module (W : world) (c : cls) (r : list cls) (nm : pystr) : pc :=
  match alist_get nm (w_modules W) with
  | None => PLook r
  | Some m => PReg c r nm (lm_register m) (lm_exclude m)
  end.

(** One step of one thread. *)
Definition thread_step (W : world) (opts : list opt) (base : option bytes) (g : registry) (p : pc) : registry * pc :=
  match p with
  | PLook [] => (g, PDone (Ok None))
  | PLook (c :: r) =>
      match chain_get opts c (g_py g) with
      | Some i => (g, PDone (Ok (Some i)))
      | None => (g, PMiss c r)
      end
  | PMiss c r =>
      let m := cls_module c in
      if bool_decide (part 0 m = str "hickle") then
        if bool_decide (length (module_parts m) = 1%nat) then (g, PDone (Err IndexError))
        else if negb (bool_decide (part 1 m = str "loaders")) then
          match base with
          | Some b => if in_tables g opts b then (g, PDone (Ok (Some (FNotDumpable, b, true)))) else (g, PDone (Err RuntimeError))
          | None => (g, PDone (Err RuntimeError))
          end
        else if negb (is_prefix (str "load_") (part 2 m)) || (3 <? length (module_parts m))%nat
        then (g, PLook r)
        else
          let item := (FNotDumpable, str "NotHicklable", false) in
          let g' := Registry (alist_set (default None (head opts), c) item (g_py g)) (g_fn g) (g_ct g) (g_loaded g) in
          if bool_decide (m ∈ g_loaded g) then (g', PDone (Ok (Some item)))
          else (g', begin_module W c r m)
      else
        match (if bool_decide (part 0 m = str "__main__") then w_main W else Some (part 0 m)) with
        | None => (g, PLook r)
        | Some pkg =>
            let nm := loader_prefix ++ pkg in
            if bool_decide (nm ∈ g_loaded g) then (g, PLook r) else (g, begin_module W c r nm)
        end
  | PReg c r nm (e :: es) xs =>
      match register_class g e with
      | (g', Ok _) => (g', PReg c r nm es xs)
      | (g', Err x) => (g', PDone (Err x))
      end
  | PReg c r nm [] ((b, o) :: xs) =>
      match register_class_exclude g b o with
      | (g', Ok _) => (g', PReg c r nm [] xs)
      | (g', Err x) => (g', PDone (Err x))
      end
  | PReg c r nm [] [] => (Registry (g_py g) (g_fn g) (g_ct g) (nm :: g_loaded g), PAgain c r)
  | PAgain c r =>
      match chain_get opts c (g_py g) with
      | Some i => (g, PDone (Ok (Some i)))
      | None => (g, PLook r)
      end
  | PDone a => (g, PDone a)
  end.

(** A thread that searches the loader for the class [t_cls]. *)
Record thread := Thread { t_opts : list opt; t_base : option bytes; t_cls : cls; t_pc : pc }.
Definition start (opts : list opt) (base : option bytes) (c : cls) : thread := Thread opts base c (PLook (mro c)).
Definition set_pc (t : thread) (p : pc) : thread := Thread (t_opts t) (t_base t) (t_cls t) p.

(** The scheduler lets thread [i] make a step. *)
Definition turn (W : world) (s : registry * list thread) (i : nat) : registry * list thread :=
  match snd s !! i with
  | None => s
  | Some t =>
      let '(g, p) := thread_step W (t_opts t) (t_base t) (fst s) (t_pc t) in
      (g, <[i := set_pc t p]> (snd s))
  end.
(** A schedule: which thread makes the next step. *)
Definition run (W : world) (s : registry * list thread) (sched : list nat) : registry * list thread :=
  foldl (turn W) s sched.
(** What [load_loader] returns to thread [t] once it is done. *)
Definition answer (t : thread) : option (res (cls * dump_item)) :=
  match t_pc t with
  | PDone a => Some (res_map (fun oi => match oi with Some i => (t_cls t, i) | None => fallback end) a)
  | _ => None
  end.
