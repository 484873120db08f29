(** * Crash: dump interrupted between two operations on the file

    [dump] may be stopped at any moment by an exception hickle does not raise itself:
    KeyboardInterrupt, MemoryError, a write the operating system refuses.  hickle catches
    none of these (hickle.py:231-247 has only [finally]), so the file is left as it is.
    Here dump is described as the list of operations it performs on the HDF5 file, in the
    order of the code; an interruption leaves the effect of some of the first ones.
    Simplification: [create_group], [create_dataset] and the assignment of one attribute
    are each performed completely or not at all; what remains of a file if the process
    dies without closing it is a matter of the HDF5 library and not modelled. *)
From Verif Require Import Base Utf8 Dec Num PyObj H5 Env Create Dump LoadFns LoadModel Registry Api.

Inductive hop :=
| OpCreate (parent : addr) (nm : pystr) (b : body)
| OpAttr (a : addr) (k : pystr) (v : attrv).

Definition perform (f : file) (o : hop) : file :=
  match o with
  | OpCreate p nm b => match create_node f p nm b with Ok (f', _) => f' | Err _ => f end
  | OpAttr a k v => update_node f a (set_attr k v)
  end.
Definition perform_all (f : file) (ops : list hop) : file := foldl perform f ops.

Definition attr_ops (a : addr) (kvs : list (pystr * attrv)) : list hop :=
  map (fun '(k, v) => OpAttr a k v) kvs.

(** lookup.py:664-670. *)
Definition base_ops (tbl : addr) (kw : kwargs) (base : bytes) (s : dst) : list hop :=
  match alist_get base (d_bases s) with
  | Some _ => []
  | None =>
      match ascii_encode base with
      | Err _ => []
      | Ok nm =>
          match create_dataset (d_file s) tbl nm (no_compression kw) (DNull KS1) with
          | Err _ => []
          | Ok _ => [OpCreate tbl nm (BData (DNull KS1))]
          end
      end
  end.

(** lookup.py:582-675. *)
Definition store_ops (E : env) (tbl : addr) (kw : kwargs) (node : addr) (pt : cls) (base : bytes) (s : dst) : list hop :=
  if bool_decide (pt = CObject) then []
  else
    match alist_get pt (d_types s) with
    | Some e => [OpAttr node a_type (ARef e)]
    | None =>
        if bool_decide (base = []) then []
        else if negb (e_pickles_cls E pt) then []
        else
          let nm := N_dec (table_size (d_file s) tbl) in
          match create_dataset (d_file s) tbl nm kw (DPickleCls pt) with
          | Err _ => []
          | Ok (f, e) =>
              OpCreate tbl nm (BData (DPickleCls pt)) :: base_ops tbl kw base (set_file f s) ++
              match base_entry tbl kw base (set_file f s) with
              | (_, Err _) => []
              | (_, Ok b) => [OpAttr e a_base_type (ARef b); OpAttr node a_type (ARef e)]
              end
          end
    end.

(** The [create_*] functions: one node, then its attributes. *)
Definition plan_ops (kw : kwargs) (parent : addr) (nm : pystr) (p : plan) (s : dst) : list hop :=
  let b := match p_data p with Some d => BData d | None => BGroup [] end in
  let r := match p_data p with
           | Some d => create_dataset (d_file s) parent nm (if p_nocomp p then no_compression kw else kw) d
           | None => create_node (d_file s) parent nm (BGroup [])
           end in
  match r with
  | Err _ => []
  | Ok (_, a) => OpCreate parent nm b :: attr_ops a (p_attrs p)
  end.

(** hickle.py:105-117. *)
Definition ref_ops (parent : addr) (nm : pystr) (at_ : list (pystr * attrv)) (target : addr) (s : dst) : list hop :=
  match create_dataset (d_file s) parent nm [] (DRefTo target) with
  | Err _ => []
  | Ok (_, a) => OpCreate parent nm (BData (DRefTo target)) :: attr_ops a at_
  end.

(** hickle.py:122-132. *)
Definition node_ops (E : env) (L : dump_loader) (kw : kwargs) (tbl : addr) (o : obj) (parent : addr)
    (nm : pystr) (at_ : list (pystr * attrv)) (s : dst) : list hop :=
  match L (ocls o) with
  | Err _ => []
  | Ok (pt, (fn, base, _)) =>
      match create E fn (d_heap s) (d_next s) o with
      | Ok p =>
          plan_ops kw parent nm p s ++
          match run_plan kw parent nm p s with
          | (_, Err _) => []
          | (s1, Ok a) =>
              store_ops E tbl kw a pt base s1 ++
              match store_type E tbl kw a pt base s1 with
              | (_, Err _) => []
              | (_, Ok _) => attr_ops a (without_type at_)
              end
          end
      | Err NotHicklable =>
          match create_pickled E o with
          | Err _ => []
          | Ok p =>
              plan_ops kw parent nm p s ++
              match run_plan kw parent nm p s with
              | (_, Err _) => []
              | (_, Ok a) => attr_ops a (without_type at_)
              end
          end
      | Err _ => []
      end
  end.

Fixpoint subs_ops (rec : loc -> pystr -> list (pystr * attrv) -> dst -> dst * res unit)
    (ops : loc -> pystr -> list (pystr * attrv) -> dst -> list hop) (subs : list sub) (s : dst) : list hop :=
  match subs with
  | [] => []
  | (nm, x, at_) :: r =>
      ops x nm at_ s ++
      match rec x nm at_ s with
      | (_, Err _) => []
      | (s1, Ok _) => subs_ops rec ops r s1
      end
  end.

(** hickle.py:77-145, [_dump]. *)
Fixpoint dump_ops (fuel : nat) (E : env) (L : dump_loader) (kw : kwargs) (tbl : addr)
    (x : loc) (parent : addr) (nm : pystr) (at_ : list (pystr * attrv)) (s : dst) : list hop :=
  match fuel with
  | O => []
  | S f =>
      match d_memo s !! x with
      | Some a => ref_ops parent nm at_ a s
      | None =>
          match d_heap s !! x with
          | None => []
          | Some o =>
              node_ops E L kw tbl o parent nm at_ s ++
              match dump_node E L kw tbl o parent nm at_ s with
              | (_, Err _) => []
              | (s1, Ok (a, memoise, subs)) =>
                  subs_ops (fun y nm at_ => dump_ f E L kw tbl y a nm at_)
                    (fun y nm at_ => dump_ops f E L kw tbl y a nm at_) subs
                    (if memoise then set_memo x a s1 else s1)
              end
          end
      end
  end.

(** [create_group(path)] makes the missing groups one after the other. *)
Fixpoint groups_ops (f : file) (a : addr) (cs : list pystr) : list hop :=
  match cs with
  | [] => []
  | c :: r =>
      match child f a c, r with
      | Some _, [] => []
      | Some b, _ => groups_ops f b r
      | None, _ =>
          match create_node f a c (BGroup []) with
          | Err _ => []
          | Ok (f', b) => OpCreate a c (BGroup []) :: groups_ops f' b r
          end
      end
  end.
Definition root_ops (f : file) (p : pystr) : list hop :=
  match get_path f p with None => groups_ops f root_addr (components p) | Some _ => [] end.

(** lookup.py:1061-1129: each active option is noted before it is checked. *)
Fixpoint option_ops (root : addr) (opts : list (pystr * bool)) : list hop :=
  match opts with
  | [] => []
  | (o, on) :: r =>
      if on then OpAttr root (option_attr o) (ABool true) :: (if known_option (Some o) then option_ops root r else [])
      else option_ops root r
  end.

(** hickle.py:215-236: all operations of one dump. *)
Definition file_ops (C : config) (kw : kwargs) (opts : list (pystr * bool)) (x : loc) (p : pystr) (m : mem) (f : file)
  : list hop :=
  root_ops f p ++
  match root_for_dump f p with
  | (_, Err _) => []
  | (f1, Ok root) =>
      [OpAttr root a_version (AStr hickle_version); OpAttr root a_pyversion (AStr (c_pyver C))] ++ option_ops root opts ++
      match with_options (stamp C f1 root) root opts with
      | (_, Err _) => []
      | (f2, Ok chain) =>
          match create_node f2 root n_table (BGroup []) with
          | Err _ => []
          | Ok (f3, tbl) =>
              OpCreate root n_table (BGroup []) ::
              dump_ops (c_fuel C) (c_env C) (dump_loader_of (c_world C) chain) kw tbl x root n_data []
                (Dst (m_heap m) (m_next m) f3 ∅ [] [])
          end
      end
  end.

(** The file a dump leaves that is interrupted after [k] operations. *)
Definition interrupted (C : config) (kw : kwargs) (opts : list (pystr * bool)) (x : loc) (p : pystr) (m : mem) (f : file)
    (k : nat) : file :=
  perform_all f (take k (file_ops C kw opts x p m f)).
