(** * Dump: [ReferenceManager.store_type] and [_dump]

    hickle/lookup.py:582-675 and hickle/hickle.py:77-145. *)
From Verif Require Import Base Utf8 Dec Num PyObj H5 Env Create.

(** What [LoaderManager.load_loader] answers for a class when dumping
    (lookup.py:1131-1315, modelled in Registry.v): the class to be stored and
    [(create_dataset, base_type, memoise)]. *)
Definition dump_item := (dumpfn * bytes * bool)%type.
Definition dump_loader := cls -> res (cls * dump_item).

(** State of a running dump: the Python heap (it only grows, by objects hickle makes
    itself), the file, and the [ReferenceManager]: its memo dictionary
    ([id(obj)] to node; that the memo also keeps the object alive is the subject of
    MemoAlloc.v), [_py_obj_type_link] and [_base_type_link] (lookup.py:487-488) as far as
    [store_type] reads them. *)
Record dst := Dst {
  d_heap : heap;
  d_next : loc;
  d_file : file;
  d_memo : gmap loc addr;
  d_types : list (cls * addr);
  d_bases : list (bytes * addr)
}.
Definition set_file (f : file) (s : dst) : dst :=
  Dst (d_heap s) (d_next s) f (d_memo s) (d_types s) (d_bases s).
Definition upd_node (a : addr) (g : node -> node) (s : dst) : dst :=
  match get_node (d_file s) a with
  | Some n => set_file (put_node (d_file s) a (g n)) s
  | None => s
  end.
Definition put_temps (ts : list obj) (s : dst) : dst :=
  Dst (temps_heap (d_heap s) (d_next s) ts) (d_next s + N.of_nat (length ts))
      (d_file s) (d_memo s) (d_types s) (d_bases s).
Definition set_memo (x : loc) (a : addr) (s : dst) : dst :=
  Dst (d_heap s) (d_next s) (d_file s) (<[x := a]> (d_memo s)) (d_types s) (d_bases s).

(** [str(len(self._py_obj_type_table))], lookup.py:650. *)
Definition table_size (f : file) (tbl : addr) : N :=
  match get_node f tbl with Some n => N.of_nat (length (links n)) | None => 0 end.

(** lookup.py:664-670: the entry for the base_type string, made on first use. *)
Definition base_entry (tbl : addr) (kw : kwargs) (base : bytes) (s : dst) : dst * res addr :=
  match alist_get base (d_bases s) with
  | Some b => (s, Ok b)
  | None =>
      match ascii_encode base with      (* base_type.decode('ascii') *)
      | Err e => (s, Err e)
      | Ok nm =>
          match create_dataset (d_file s) tbl nm (no_compression kw) (DNull KS1) with
          | Err e => (s, Err e)
          | Ok (f, b) =>
              (Dst (d_heap s) (d_next s) f (d_memo s) (d_types s) ((base, b) :: d_bases s), Ok b)
          end
      end
  end.

(** lookup.py:582-675, store_type (attr_name is always 'type'). *)
Definition store_type (E : env) (tbl : addr) (kw : kwargs) (node : addr) (pt : cls) (base : bytes) (s : dst)
  : dst * res unit :=
  if bool_decide (pt = CObject) then (s, Ok tt)
  else
    let link e s := (upd_node node (set_attr a_type (ARef e)) s, Ok tt) in
    match alist_get pt (d_types s) with
    | Some e => link e s
    | None =>
        if bool_decide (base = []) then (s, Err ValueError)
        else if negb (e_pickles_cls E pt) then (s, Err PicklingError)
        else
          match create_dataset (d_file s) tbl (N_dec (table_size (d_file s) tbl)) kw (DPickleCls pt) with
          | Err e => (s, Err e)
          | Ok (f, e) =>
              match base_entry tbl kw base (set_file f s) with
              | (s1, Err x) => (s1, Err x)
              | (s1, Ok b) =>
                  let s2 := upd_node e (set_attr a_base_type (ARef b)) s1 in
                  link e (Dst (d_heap s2) (d_next s2) (d_file s2) (d_memo s2)
                              ((pt, e) :: d_types s2) (d_bases s2))
              end
          end
    end.

(** Execution of a plan: the HDF5 side of a [create_*] function. *)
Definition run_plan (kw : kwargs) (parent : addr) (nm : pystr) (p : plan) (s : dst) : dst * res addr :=
  let s0 := put_temps (p_temps p) s in
  let r := match p_data p with
           | Some d => create_dataset (d_file s) parent nm (if p_nocomp p then no_compression kw else kw) d
           | None => create_node (d_file s) parent nm (BGroup [])
           end in
  match r with
  | Err e => (s0, Err e)
  | Ok (f, a) =>
      let s1 := upd_node a (set_attrs (p_attrs p)) (set_file f s0) in
      match p_fail p with
      | Some e => (s1, Err e)
      | None => (s1, Ok a)
      end
  end.

(** hickle.py:105-117: a reference to the node an object was dumped to before. *)
Definition dump_ref (parent : addr) (nm : pystr) (at_ : list (pystr * attrv)) (target : addr) (s : dst)
  : dst * res unit :=
  match create_dataset (d_file s) parent nm [] (DRefTo target) with
  | Err e => (s, Err e)
  | Ok (f, a) => (upd_node a (set_attrs at_) (set_file f s), Ok tt)
  end.

(** hickle.py:132: [name != 'type']. *)
Definition without_type (at_ : list (pystr * attrv)) : list (pystr * attrv) :=
  List.filter (fun p => negb (bool_decide (fst p = a_type))) at_.

(** hickle.py:122-132: create the node of an object that is not in the memo and give it
    its type and attributes. *)
Definition dump_node (E : env) (L : dump_loader) (kw : kwargs) (tbl : addr) (o : obj) (parent : addr)
    (nm : pystr) (at_ : list (pystr * attrv)) (s : dst) : dst * res (addr * bool * list sub) :=
  match L (ocls o) with
  | Err e => (s, Err e)
  | Ok (pt, (fn, base, memoise)) =>
      let finish a subs s :=
        (upd_node a (set_attrs (without_type at_)) s, Ok (a, memoise, subs)) in
      match create E fn (d_heap s) (d_next s) o with
      | Ok p =>
          match run_plan kw parent nm p s with
          | (s1, Err e) => (s1, Err e)
          | (s1, Ok a) =>
              match store_type E tbl kw a pt base s1 with
              | (s2, Err e) => (s2, Err e)
              | (s2, Ok _) => finish a (p_subs p) s2
              end
          end
      | Err NotHicklable =>
          match create_pickled E o with
          | Err e => (s, Err e)
          | Ok p =>
              match run_plan kw parent nm p s with
              | (s1, Err e) => (s1, Err e)
              | (s1, Ok a) => finish a (p_subs p) s1
              end
          end
      | Err e => (s, Err e)
      end
  end.

Fixpoint dump_subs (rec : loc -> pystr -> list (pystr * attrv) -> dst -> dst * res unit)
    (subs : list sub) (s : dst) : dst * res unit :=
  match subs with
  | [] => (s, Ok tt)
  | (nm, x, at_) :: r =>
      match rec x nm at_ s with
      | (s1, Err e) => (s1, Err e)
      | (s1, Ok _) => dump_subs rec r s1
      end
  end.

(** hickle.py:77-145, [_dump].  The fuel stands for Python's recursion limit. *)
Fixpoint dump_ (fuel : nat) (E : env) (L : dump_loader) (kw : kwargs) (tbl : addr)
    (x : loc) (parent : addr) (nm : pystr) (at_ : list (pystr * attrv)) (s : dst) : dst * res unit :=
  match fuel with
  | O => (s, Err OutOfFuel)
  | S f =>
      match d_memo s !! x with
      | Some a => dump_ref parent nm at_ a s
      | None =>
          match d_heap s !! x with
          | None => (s, Err Unmodelled)
          | Some o =>
              match dump_node E L kw tbl o parent nm at_ s with
              | (s1, Err e) => (s1, Err e)
              | (s1, Ok (a, memoise, subs)) =>
                  let s2 := if memoise then set_memo x a s1 else s1 in
                  dump_subs (fun y nm at_ => dump_ f E L kw tbl y a nm at_) subs s2
              end
          end
      end
  end.
