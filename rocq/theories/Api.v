(** * Api: [dump] and [load] on an open file

    hickle/hickle.py:148-247, 263-398 without opening and closing the file (FileIO.v), and
    the constructors of the two managers (lookup.py:483-580, 1061-1129). *)
From Verif Require Import Base Utf8 Dec Num PyObj H5 Env Create Dump LoadFns LoadModel Registry.

(** ** Paths inside a file: assumed behaviour of h5py

    Simplification: the component "." (the group itself) does not occur. *)
Definition components (p : pystr) : list pystr :=
  List.filter (fun c => negb (bool_decide (c = []))) (split_char 47 p).
Definition root_addr : addr := 0.

Definition child (f : file) (a : addr) (nm : pystr) : option addr :=
  match get_node f a with
  | Some n => alist_get nm (links n)
  | None => None
  end.
Fixpoint walk (f : file) (a : addr) (cs : list pystr) : option addr :=
  match cs with
  | [] => Some a
  | c :: r => match child f a c with Some b => walk f b r | None => None end
  end.
(** [file.get(path, None)]. *)
Definition get_path (f : file) (p : pystr) : option addr := walk f root_addr (components p).

(** [file.create_group(path)]: missing groups on the way are created as well.  A dataset
    on the way or an existing object at the end is an error. *)
Fixpoint make_groups (f : file) (a : addr) (cs : list pystr) : file * res addr :=
  match cs with
  | [] => (f, Err ValueError)
  | c :: r =>
      match child f a c, r with
      | Some _, [] => (f, Err ValueError)
      | Some b, _ => make_groups f b r
      | None, _ =>
          match create_node f a c (BGroup []) with
          | Err AttributeError => (f, Err ValueError)
          | Err e => (f, Err e)
          | Ok (f', b) => match r with [] => (f', Ok b) | _ => make_groups f' b r end
          end
      end
  end.
Definition create_group (f : file) (p : pystr) : file * res addr := make_groups f root_addr (components p).

Definition update_node (f : file) (a : addr) (g : node -> node) : file :=
  match get_node f a with Some n => put_node f a (g n) | None => f end.
Definition node_attrs (f : file) (a : addr) : attrs :=
  match get_node f a with Some n => nd_attrs n | None => ∅ end.

(** ** The process: what does not change between calls *)
Record config := Config {
  c_env : env;
  c_world : world;
  c_pyver : pystr;                   (** "%i.%i.%i" % sys.version_info[:3] *)
  c_v3 : file -> pystr -> mem -> res (mem * loc);   (** legacy_v3.load; modelled separately, on trees, in LegacyV3.v *)
  c_fuel : nat
}.

(** hickle/__version__.py *)
Definition hickle_version : pystr := str "5.0.3".
Definition a_version : pystr := str "HICKLE_VERSION".
Definition a_pyversion : pystr := str "HICKLE_PYTHON_VERSION".
Definition n_table : pystr := str "hickle_types_table".
Definition n_data : pystr := str "data".

(** ** dump

    hickle.py:215-221, the group to dump to. *)
Definition root_for_dump (f : file) (p : pystr) : file * res addr :=
  match get_path f p with
  | None => create_group f p
  | Some a =>
      match get_node f a with
      | None => (f, Err Unmodelled)
      | Some n =>
          match nd_body n with
          | BData _ => (f, Err AttributeError)          (* Dataset has no items *)
          | BGroup [] => (f, Ok a)
          | BGroup _ => (f, Err ValueError)
          end
      end
  end.

(** hickle.py:223-229 with LoaderManager.__init__ (options given) and
    ReferenceManager.__init__ (file writable, table missing, lookup.py:523-526).
    Creating the managers may fail because the file already has one: FileIO.v. *)
Definition stamp (C : config) (f : file) (root : addr) : file :=
  update_node f root (fun n => set_attr a_pyversion (AStr (c_pyver C)) (set_attr a_version (AStr hickle_version) n)).
Definition with_options (f : file) (root : addr) (opts : list (pystr * bool)) : file * res (list opt) :=
  let '(a, r) := dump_options opts (node_attrs f root) in
  (update_node f root (fun n => Node (nd_name n) a (nd_body n)), r).

Definition dump_into (C : config) (kw : kwargs) (chain : list opt) (x : loc) (root : addr) (m : mem) (f : file)
  : file * mem * res unit :=
  match create_node f root n_table (BGroup []) with
  | Err e => (f, m, Err e)
  | Ok (f1, tbl) =>
      let '(s, r) := dump_ (c_fuel C) (c_env C) (dump_loader_of (c_world C) chain) kw tbl x root n_data []
                           (Dst (m_heap m) (m_next m) f1 ∅ [] []) in
      (d_file s, Mem (d_heap s) (d_next s), r)
  end.
Definition dump_root (C : config) (kw : kwargs) (opts : list (pystr * bool)) (x : loc) (root : addr) (m : mem) (f : file)
  : file * mem * res unit :=
  match with_options (stamp C f root) root opts with
  | (f1, Err e) => (f1, m, Err e)
  | (f1, Ok chain) => dump_into C kw chain x root m f1
  end.
(** Everything [dump] does to the open file. *)
Definition dump_file (C : config) (kw : kwargs) (opts : list (pystr * bool)) (x : loc) (p : pystr) (m : mem) (f : file)
  : file * mem * res unit :=
  match root_for_dump f p with
  | (f1, Err e) => (f1, m, Err e)
  | (f1, Ok root) => dump_root C kw opts x root m f1
  end.

(** ** load *)

(** [attrs.get(name)] is there and true. *)
Definition attr_set (a : attrs) (k : pystr) : bool :=
  match a !! k with Some v => attr_true v | None => false end.
Definition v3_attrs : list pystr := map str ["CLASS"; "VERSION"; "PYTHON_VERSION"]%string.
Definition v4_attrs : list pystr := [a_version; a_pyversion].

Inductive format := V3 | V4 | V5.


(** [h5f.attrs['VERSION'][0]] as int: first character of a str, first byte of bytes. *)
Definition v3_major (v : attrv) : res Z :=
  match v with
  | AStr (c :: _) => Z_parse [c]
  | ABytes (b :: _) => Ok (Z.of_N b)
  | _ => Err ValueError
  end.

(** hickle.py:326-391: which format the file is in.  [fa]: attributes of the file,
    [ra]: of the group. *)
Definition detect (fa ra : attrs) : res format :=
  if forallb (attr_set fa) v3_attrs then
    match fa !! str "CLASS" with
    | Some (AStr s) | Some (ABytes s) =>
        if bool_decide (s = str "hickle") then
          match fa !! str "VERSION" with
          | Some v => res_bind (v3_major v) (fun z => if (z =? 3)%Z then Ok V3 else Err RuntimeError)
          | None => Err Unmodelled
          end
        else Err AttributeError
    | _ => Err AttributeError
    end
  else if forallb (attr_set ra) v4_attrs then
    match ra !! a_version with
    | Some (AStr s) => res_map (fun z => if (z =? 4)%Z then V4 else V5) (Z_parse (default [] (head (split_char 46 s))))
    | Some (ABytes _) => Err TypeError          (* bytes.split('.') *)
    | _ => Err AttributeError
    end
  else Err FileError.

(** lookup.py:551-580: an existing table is checked when the file is writable.  The
    message about a missing base_type uses an unbound variable at first use; what is
    raised then (UnboundLocalError) is taken as RuntimeError. *)
Definition check_entry (f : file) (e : addr) : res unit :=
  match get_node f e with
  | None => Err Unmodelled
  | Some n =>
      match nd_body n with
      | BGroup _ => Err AttributeError
      | BData (DNull KS1) => res_map (fun _ => tt) (ascii_encode (nd_name n))
      | BData d =>
          match nd_attrs n !! a_base_type with
          | Some (ARef b) =>
              match get_node f b with
              | None => Err RuntimeError
              | Some bn =>
                  res_bind (ascii_encode (nd_name bn)) (fun _ =>
                    match d with DPickleCls _ => Ok tt | _ => Err Unmodelled end)
              end
          | _ => Err RuntimeError
          end
      end
  end.
Fixpoint check_entries (f : file) (l : list (pystr * addr)) : res unit :=
  match l with
  | [] => Ok tt
  | (_, e) :: r => res_bind (check_entry f e) (fun _ => check_entries f r)
  end.

(** What ReferenceManager.__init__ does when loading (lookup.py:516-580): the table of the
    file, or a table made in the file ([Some true]) or in an overlay ([Some false]). *)
Definition load_table (f : file) (root : addr) (writable : bool) : file * res bool :=
  match child f root n_table with
  | None =>
      if writable then
        match create_node f root n_table (BGroup []) with
        | Ok (f', _) => (f', Ok false)
        | Err e => (f, Err e)
        end
      else (f, Ok true)
  | Some t =>
      match get_node f t with
      | None => (f, Err Unmodelled)
      | Some n =>
          match nd_body n with
          | BData _ => (f, Err ReferenceErr)
          | BGroup l => (f, if writable then res_map (fun _ => false) (check_entries f l) else Ok false)
          end
      end
  end.

(** [h_root_group.attrs.items()] in h5py's order (by name).
    Simplification: the order is that of the finite map; only the relative order of
    options depends on it. *)
Definition attr_items (a : attrs) : list (pystr * attrv) := map_to_list a.

(** [LoaderManager(h_root_group, legacy)]. *)
Definition options_of (f : file) (root : addr) (legacy : bool) : res (list opt) :=
  load_options legacy (attr_items (node_attrs f root)).

(** hickle.py:378-391 inside both managers: the member 'data' is loaded. *)
Definition load_data (C : config) (chain : list opt) (legacy : bool) (f : file) (root : addr) (m : mem)
  : res (mem * loc) :=
  match child f root n_data with
  | None => Err KeyError
  | Some a =>
      res_map (fun '(s, v) => (l_mem s, v))
        (load_ (c_fuel C) (c_env C) (loader_of (c_world C) chain legacy) f a (Lst m ∅))
  end.

(** [writable]: [file.mode == 'r+'].  The flag tells that the table was made in an overlay
    file, in which case the entry of the manager is not removed (FileIO.v). *)
Definition load_root (C : config) (writable : bool) (f : file) (root : addr) (m : mem)
  : file * res (mem * loc) * bool :=
  match detect (node_attrs f root_addr) (node_attrs f root) with
  | Err e => (f, Err e, false)
  | Ok V3 => (f, Err Unmodelled, false)      (* see load_file *)
  | Ok v =>
      let legacy := match v with V4 => true | _ => false end in
      match options_of f root legacy with
      | Err e => (f, Err e, false)
      | Ok chain =>
          match load_table f root writable with
          | (f', Err e) => (f', Err e, false)
          | (f', Ok overlay) => (f', load_data C chain legacy f' root m, overlay)
          end
      end
  end.

(** Everything [load] does with the open file, before exceptions are turned into
    ValueError. *)
Definition load_file (C : config) (writable : bool) (f : file) (p : pystr) (m : mem)
  : file * res (mem * loc) * bool :=
  match get_path f p with
  | None => (f, Err FileError, false)
  | Some root =>
      match get_node f root with
      | None => (f, Err Unmodelled, false)
      | Some n =>
          if is_group n then
            match detect (node_attrs f root_addr) (nd_attrs n) with
            | Ok V3 => (f, c_v3 C f p m, false)
            | _ => load_root C writable f root m
            end
          else (f, Err FileError, false)
      end
  end.
