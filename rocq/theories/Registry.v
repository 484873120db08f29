(** * Registry: the loader tables of [LoaderManager] and the search for a loader

    hickle/lookup.py:853-1365, class_register/exclude_register of the loader modules,
    hickle/loaders/__init__.py. *)
From Verif Require Import Base Utf8 Dec Num PyObj H5 Env Create Dump LoadFns LoadModel.

(** ** Options: [None] or a name; loaders/__init__.py:6-20, lookup.py:877-895 *)
Notation opt := (option (list N)) (only parsing).
Definition opt_4x : opt := Some (str "hickle-4.x").
Definition optional_loaders : list pystr := [str "custom"].
Definition known_options : list opt := None :: opt_4x :: map Some optional_loaders.

(** ** The class tables [__py_types__], [__hkl_functions__], [__hkl_container__],
    [__loaded_loaders__].
    Functions and container classes carry the [__module__] they are defined in.
    Simplification: the tables keyed by base_type hold every entry twice, under bytes
    and str; one key here. *)
Record registry := Registry {
  g_py : list ((opt * cls) * dump_item);
  g_fn : list ((opt * bytes) * loadfn);
  g_ct : list ((opt * bytes) * contk);
  g_loaded : list pystr
}.
Definition empty_registry : registry := Registry [] [] [] [].

(** Arguments of [register_class]. *)
Record reg_entry := Entry {
  re_cls : cls;
  re_base : bytes;
  re_dump : option (dumpfn * pystr);
  re_load : option (loadfn * pystr);
  re_cont : option (contk * pystr);
  re_memo : bool;
  re_opt : opt
}.

Definition module_parts (m : pystr) : list pystr := split_char 46 m.
Definition part (i : nat) (m : pystr) : pystr := default [] (module_parts m !! i).

(** lookup.py:1395-1399. *)
Definition disallowed_to_ignore : list bytes := [str "dict_item"; str "pickle"].
Definition disallow_in_option : list bytes := [str "pickle"].

(** [hkl_str[:1] == hkl_str[-1:] == b'!'] *)
Definition bang_name (b : bytes) : bool :=
  match b with
  | [] => false
  | c :: _ => (c =? 33) && (List.last b 0 =? 33)
  end.

(** Classes managed by hickle core only, lookup.py:961-968.  Besides classes the code
    accepts functions in the place of the class, of which only the replacement for lambdas,
    [moc_lambda] of PyObj.v, is represented here, as a class of that name.  [CFunction] is the
    class of functions, which is neither a function nor a subclass of [type]. *)
Definition core_only (c : cls) : bool :=
  bool_decide (c = CObject) || bool_decide (c = moc_lambda) || isinst c CType || isinst c CDictItem.

Definition entry_modules (e : reg_entry) : list pystr :=
  [ match re_dump e with Some (_, m) => m | None => [] end;
    match re_load e with Some (_, m) => m | None => [] end;
    match re_cont e with Some (_, m) => m | None => [] end ].

Definition known_option (o : opt) : bool := bool_decide (o ∈ known_options).

(** lookup.py:901-1011, register_class. *)
Definition register_class (g : registry) (e : reg_entry) : registry * res unit :=
  let ms := entry_modules e in
  if core_only (re_cls e) && existsb (fun m => negb (bool_decide (part 0 m ∈ [str "hickle"; []]))) ms
  then (g, Err TypeError)
  else if core_only (re_cls e) && existsb (fun m => bool_decide (part 1 m = str "loaders")) ms
  then (g, Err TypeError)
  else if (match alist_get (None : opt, re_base e) (g_fn g), alist_get (None : opt, re_base e) (g_ct g) with
           | None, None => false | _, _ => true
           end)
          && (bang_name (re_base e) || bool_decide (re_base e ∈ disallow_in_option))
  then (g, Err ValueError)
  else if negb (known_option (re_opt e)) &&
          (match re_dump e, re_load e, re_cont e with None, None, None => false | _, _, _ => true end)
  then (g, Err LookupErr)
  else
    let g1 := match re_dump e with
              | Some (fn, _) => Registry (alist_set (re_opt e, re_cls e) (fn, re_base e, re_memo e) (g_py g))
                                         (g_fn g) (g_ct g) (g_loaded g)
              | None => g
              end in
    let ascii := forallb (fun c => c <? 128) (re_base e) in
    let g2 := match re_load e with
              | Some (fn, _) => Registry (g_py g1) (alist_set (re_opt e, re_base e) fn (g_fn g1)) (g_ct g1) (g_loaded g1)
              | None => g1
              end in
    match re_load e, ascii with
    | Some _, false => (g2, Err UnicodeError)
    | _, _ =>
        let g3 := match re_cont e with
                  | Some (k, _) => Registry (g_py g2) (g_fn g2) (alist_set (re_opt e, re_base e) k (g_ct g2)) (g_loaded g2)
                  | None => g2
                  end in
        match re_cont e, ascii with
        | Some _, false => (g3, Err UnicodeError)
        | _, _ => (g3, Ok tt)
        end
    end.

(** lookup.py:1017-1053, register_class_exclude.  [b'...'[0] == b'!'] compares an int
    with bytes and is never true. *)
Definition register_class_exclude (g : registry) (b : bytes) (o : opt) : registry * res unit :=
  match b with
  | [] => (g, Err IndexError)
  | _ =>
      if bool_decide (b ∈ disallowed_to_ignore) then (g, Err ValueError)
      else if negb (known_option o) then (g, Err LookupErr)
      else
        let g' := Registry (g_py g) (alist_set (o, b) LNothing (g_fn g)) (alist_set (o, b) KNo (g_ct g)) (g_loaded g) in
        if forallb (fun c => c <? 128) b then (g', Ok tt) else (g', Err UnicodeError)
  end.

(** ** Loader modules *)
Record loader_module := LoaderModule {
  lm_register : list reg_entry;
  lm_exclude : list (bytes * opt)
}.

(** The loader modules that can be found, by full name, and how [__main__] resolves to
    the name of its source file ([None]: no file), lookup.py:1205-1234. *)
Record world := World {
  w_modules : list (pystr * loader_module);
  w_main : option pystr
}.

Definition loader_prefix : pystr := str "hickle.loaders.load_".

Fixpoint register_all (g : registry) (es : list reg_entry) : registry * res unit :=
  match es with
  | [] => (g, Ok tt)
  | e :: r =>
      match register_class g e with
      | (g', Ok _) => register_all g' r
      | (g', Err x) => (g', Err x)
      end
  end.
Fixpoint exclude_all (g : registry) (es : list (bytes * opt)) : registry * res unit :=
  match es with
  | [] => (g, Ok tt)
  | (b, o) :: r =>
      match register_class_exclude g b o with
      | (g', Ok _) => exclude_all g' r
      | (g', Err x) => (g', Err x)
      end
  end.
(** lookup.py:1293-1298: register what the module offers and mark it loaded. *)
Definition load_module (g : registry) (name : pystr) (m : loader_module) : registry * res unit :=
  match register_all g (lm_register m) with
  | (g1, Err x) => (g1, Err x)
  | (g1, Ok _) =>
      match exclude_all g1 (lm_exclude m) with
      | (g2, Err x) => (g2, Err x)
      | (g2, Ok _) => (Registry (g_py g2) (g_fn g2) (g_ct g2) (name :: g_loaded g2), Ok tt)
      end
  end.

(** [ChainMap.get]: the first of the active options with an entry. *)
Fixpoint chain_get {K V} `{EqDecision K} (opts : list opt) (k : K) (t : list ((opt * K) * V)) : option V :=
  match opts with
  | [] => None
  | o :: r => match alist_get (o, k) t with Some v => Some v | None => chain_get r k t end
  end.

(** ** lookup.py:1131-1315, load_loader

    [opts]: maps of the ChainMaps, first map first.  [base]: the base_type argument when
    loading.  What to do with one class of the mro: *)
Inductive step :=
| Found (i : dump_item)
| Next
| Fail (e : exn).

Definition in_tables (g : registry) (opts : list opt) (b : bytes) : bool :=
  match chain_get opts b (g_fn g), chain_get opts b (g_ct g) with
  | None, None => false
  | _, _ => true
  end.

(** lookup.py:1270-1306: load the module if there is one and look again. *)
Definition try_module (W : world) (opts : list opt) (g : registry) (c : cls) (name : pystr)
  : registry * step :=
  match alist_get name (w_modules W) with
  | None => (g, Next)
  | Some m =>
      match load_module g name m with
      | (g', Err x) => (g', Fail x)
      | (g', Ok _) =>
          match chain_get opts c (g_py g') with
          | Some i => (g', Found i)
          | None => (g', Next)
          end
      end
  end.

Definition load_loader_step (W : world) (opts : list opt) (g : registry) (base : option bytes) (c : cls)
  : registry * step :=
  match chain_get opts c (g_py g) with
  | Some i => (g, Found i)
  | None =>
      let m := cls_module c in
      if bool_decide (part 0 m = str "hickle") then
        if bool_decide (length (module_parts m) = 1%nat) then (g, Fail IndexError)
        else if negb (bool_decide (part 1 m = str "loaders")) then
          match base with
          | Some b => if in_tables g opts b then (g, Found (FNotDumpable, b, true)) else (g, Fail RuntimeError)
          | None => (g, Fail RuntimeError)
          end
        else if negb (is_prefix (str "load_") (part 2 m)) || (3 <? length (module_parts m))%nat
        then (g, Next)
        else
          let item := (FNotDumpable, str "NotHicklable", false) in
          let g' := Registry (alist_set (default None (head opts), c) item (g_py g)) (g_fn g) (g_ct g) (g_loaded g) in
          if bool_decide (m ∈ g_loaded g) then (g', Found item)
          else try_module W opts g' c m
      else
        match (if bool_decide (part 0 m = str "__main__") then w_main W else Some (part 0 m)) with
        | None => (g, Next)
        | Some pkg =>
            let name := loader_prefix ++ pkg in
            if bool_decide (name ∈ g_loaded g) then (g, Next) else try_module W opts g c name
        end
  end.

Fixpoint load_loader_mro (W : world) (opts : list opt) (g : registry) (base : option bytes) (cs : list cls)
  : registry * res (option dump_item) :=
  match cs with
  | [] => (g, Ok None)
  | c :: r =>
      match load_loader_step W opts g base c with
      | (g', Found i) => (g', Ok (Some i))
      | (g', Fail e) => (g', Err e)
      | (g', Next) => load_loader_mro W opts g' base r
      end
  end.

(** The fallback of lookup.py:1308-1310. *)
Definition fallback : cls * dump_item := (CObject, (FPickle, b_pickle, true)).

Definition load_loader (W : world) (opts : list opt) (g : registry) (pt : cls) (base : option bytes)
  : registry * res (cls * dump_item) :=
  let '(g', r) := load_loader_mro W opts g base (mro pt) in
  (g', res_map (fun oi => match oi with Some i => (pt, i) | None => fallback end) r).

(** ** Registrations hickle makes itself *)
Definition m_lookup : pystr := str "hickle.lookup".

(** lookup.py:1419-1421, :1455-1458, :1515, :1571 in source order (the lambda replacement
    of :1592-1594 is a function registered under '!moc_lambda!'). *)
Definition core_entries : list reg_entry :=
  [ Entry CDictItem (str "dict_item") (Some (FNothing, m_lookup)) (Some (LNothing, m_lookup))
          (Some (KFirst, m_lookup)) false opt_4x;
    Entry CNodeReference b_reference (Some (FNothing, m_lookup)) (Some (LNothing, m_lookup))
          (Some (KExpand, m_lookup)) false None;
    Entry CObject b_pickle None (Some (LPickled, m_lookup)) None true None;
    Entry CRecoverCustom b_recover None (Some (LRecover, m_lookup)) (Some (KRecover, m_lookup)) true None;
    Entry moc_lambda (str "!moc_lambda!") (Some (FNothing, m_lookup)) (Some (LNothing, m_lookup))
          None true opt_4x ].
Definition core_registry : registry := fst (register_all empty_registry core_entries).

(** load_builtins.py:528-543. *)
Definition m_builtins : pystr := str "hickle.loaders.load_builtins".
Definition builtin_entry (c : cls) (b : string) (d : dumpfn) (l : option loadfn) (k : option contk) (memo : bool)
  : reg_entry :=
  Entry c (str b) (Some (d, m_builtins)) (option_map (fun l => (l, m_builtins)) l)
        (option_map (fun k => (k, m_builtins)) k) memo None.
Definition builtins_module : loader_module := LoaderModule
  [ builtin_entry CList "list" FList (Some LList) (Some KList) true;
    builtin_entry CTuple "tuple" FList (Some LList) (Some KList) true;
    builtin_entry CDict "dict" FDict None (Some KDict) true;
    builtin_entry CSet "set" FSet (Some LList) (Some KSet) true;
    builtin_entry CBytes "bytes" FList (Some LList) None true;
    builtin_entry CStr "str" FList (Some LList) None true;
    Entry CStr (str "str") None (Some (L4xString, m_builtins)) None true opt_4x;
    builtin_entry CInt "int" FScalar (Some LScalar) None false;
    builtin_entry CFloat "float" FScalar (Some LScalar) None false;
    builtin_entry CComplex "complex" FScalar (Some LScalar) None false;
    builtin_entry CBool "bool" FScalar (Some LScalar) None false;
    builtin_entry CNoneType "None" FNone (Some LNone) None false ] [].

(** load_numpy.py:318-344. *)
Definition m_numpy : pystr := str "hickle.loaders.load_numpy".
Definition numpy_entry (c : cls) (b : string) (d : option dumpfn) (l : option loadfn) (k : option contk)
    (memo : bool) (o : opt) : reg_entry :=
  Entry c (str b) (option_map (fun d => (d, m_numpy)) d) (option_map (fun l => (l, m_numpy)) l)
        (option_map (fun k => (k, m_numpy)) k) memo o.
Definition numpy_module : loader_module := LoaderModule
  [ numpy_entry CNpDtype "np_dtype" (Some FNpDtype) (Some LNpDtype) None true None;
    numpy_entry CNpNumber "np_scalar" (Some FNpScalar) (Some LNpScalar) None false None;
    numpy_entry CNpGeneric "np_scalar" (Some FNpScalar) (Some LNpScalar) None false None;
    numpy_entry CNdarray "ndarray" (Some FNpArray) (Some LNdarray) (Some KNDArray) true None;
    numpy_entry CMasked "ndarray_masked" (Some FNpMasked) None (Some KMasked) true None;
    numpy_entry CMasked "ndarray_masked_data" None (Some LNdarrayMasked) None false opt_4x;
    numpy_entry CMatrix "np_matrix" (Some FNpArray) (Some LNdarray) None true None ]
  [(str "ndarray_masked_mask", opt_4x)].

(** load_scipy.py:119-125. *)
Definition m_scipy : pystr := str "hickle.loaders.load_scipy".
Definition scipy_entry (k : sparse_kind) (b : string) : reg_entry :=
  Entry (CSparse k) (str b) (Some (FSparse, m_scipy)) None (Some (KSparse, m_scipy)) true None.
Definition scipy_module : loader_module := LoaderModule
  [ scipy_entry SCsr "csr_matrix"; scipy_entry SCsc "csc_matrix"; scipy_entry SBsr "bsr_matrix" ] [].

(** load_pandas.py:5-6 is empty; for load_astropy.py see Astropy.v, which is separate. *)
Definition std_world : world := World
  [ (m_builtins, builtins_module); (m_numpy, numpy_module); (m_scipy, scipy_module);
    (str "hickle.loaders.load_pandas", LoaderModule [] []) ] None.

(** ** Managers: the active options, lookup.py:1061-1129 *)

(** [str.upper] / [str.lower] on the ASCII range.
    Simplification: other characters are left alone; option names are ASCII. *)
Definition upper (s : pystr) : pystr := map (fun c => if (97 <=? c) && (c <=? 122) then c - 32 else c) s.
Definition lower (s : pystr) : pystr := map (fun c => if (65 <=? c) && (c <=? 90) then c + 32 else c) s.
Definition attribute_prefix : pystr := str "OPTION_".
Definition option_attr (o : pystr) : pystr := attribute_prefix ++ upper o.
(** The name without the prefix, which is matched ignoring case, and [.lower()] of it.
    Simplification: names with line breaks do not occur. *)
Definition option_of_attr (nm : pystr) : option pystr :=
  let l := lower nm in
  if is_prefix (lower attribute_prefix) l then Some (drop (length attribute_prefix) l) else None.

Definition attr_true (v : attrv) : bool :=
  match v with
  | AInt z => negb (z =? 0)%Z
  | ABool b => b
  | ABytes s | AStr s => match s with [] => false | _ => true end
  | ARef _ | APickle _ => true
  end.

(** Insert each option's map in front of the chain. *)
Fixpoint insert_options (names : list pystr) (chain : list opt) : res (list opt) :=
  match names with
  | [] => Ok chain
  | n :: r => if known_option (Some n) then insert_options r (Some n :: chain) else Err LookupErr
  end.

(** Manager for dumping: options given by the caller; each active one is noted in the
    attributes of the root group before it is checked. *)
Fixpoint set_options (opts : list (pystr * bool)) (a : attrs) (chain : list opt) : attrs * res (list opt) :=
  match opts with
  | [] => (a, Ok chain)
  | (o, on) :: r =>
      if on then
        let a' := <[option_attr o := ABool true]> a in
        if known_option (Some o) then set_options r a' (Some o :: chain) else (a', Err LookupErr)
      else set_options r a chain
  end.
Definition dump_options (opts : list (pystr * bool)) (a : attrs) : attrs * res (list opt) :=
  set_options opts a [None].

(** Manager for loading: options read from the attributes, in the order h5py yields
    them ([names]). *)
Definition load_options (legacy : bool) (ats : list (pystr * attrv)) : res (list opt) :=
  let names := omap (fun '(nm, v) => if attr_true v then option_of_attr nm else None) ats in
  res_map (fun chain => if legacy then opt_4x :: chain else chain) (insert_options names [None]).

(** ** The loaders a dump or load works with

    Registry.v keeps track of loading modules on demand; LoaderSearch.v shows for tidy
    loader modules that the answers do not depend on what was loaded before (C29_full,
    C29_functions), so dump and load use the tables with everything loaded. *)
Definition load_all (W : world) (g : registry) : registry :=
  foldl (fun g '(nm, m) => fst (load_module g nm m)) g (w_modules W).
Definition full_registry (W : world) : registry := load_all W core_registry.

Definition dump_loader_of (W : world) (opts : list opt) : dump_loader :=
  fun c => snd (load_loader W opts (full_registry W) c None).
Definition loader_of (W : world) (opts : list opt) (legacy : bool) : loader := {|
  ld_load := fun c b => res_map (fun '(pt, (_, _, memo)) => (pt, memo))
                          (snd (load_loader W opts (full_registry W) c (Some b)));
  ld_types := fun b => chain_get opts b (g_fn (full_registry W));
  ld_conts := fun b => chain_get opts b (g_ct (full_registry W));
  ld_legacy := legacy
|}.
Definition std_dump : dump_loader := dump_loader_of std_world [None].
Definition std_loader : loader := loader_of std_world [None] false.
Definition std_loader_4x : loader := loader_of std_world [opt_4x; None] true.
