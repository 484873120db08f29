(** * LegacyV3: files of hickle 3

    hickle/legacy_v3/hickle.py, helpers.py, lookup.py, loaders/load_python3.py,
    loaders/load_numpy.py, loaders/load_scipy.py: the loader [hickle.load] hands files of
    hickle 3 to (hickle/hickle.py:342-372), and the hickle 3 writer, which says what such
    files look like.

    Simplifications:
    - hickle 3 knows no shared objects, so values and files are trees.  The writer does
      not end on cyclic values.
    - Keyword arguments for h5py (compression) change only how data are stored.
    - Classes are told apart by their names.
    - The dill pickle of a value is represented by the value.
    - load_astropy.py is not modelled; Python 2 branches are left out. *)
From Verif Require Import Base Utf8 Dec Num PyObj Env Repr Legacy.

(** ** Values *)
Inductive seq3 :=
| SList | STuple | SSet
| SOther (name : pystr).     (** any other iterable class: frozenset, deque, a named tuple, ... *)
Global Instance seq3_eq_dec : EqDecision seq3.
Proof. solve_decision. Defined.

(** A numeric array: dtype, shape, elements in C order. *)
Definition array3 := (dtype * list N * list num)%type.

Inductive val3 :=
| PNone
| PNum (n : num)                              (** bool, int, float, complex *)
| PNp (d : dtype) (n : num)                   (** numpy scalar *)
| PStr (s : pystr)
| PBytes (b : bytes)
| PSeq (k : seq3) (l : list val3)             (** set: in iteration order *)
| PDict (l : list (val3 * val3))              (** in insertion order *)
| PArr (a : array3)
| PMasked (a : array3) (mask : option (list num))  (** [None]: nomask *)
| PSparse (k : sparse_kind) (data indices indptr shape : array3)
| POther (c : pystr) (n : N)                  (** any other instance: class name, state *)
| PContainer (ctype : bytes) (name : pystr) (key_type : option bytes) (l : list val3).
    (** a PyContainer (hickle.py:389-404) [convert] left as it is *)

(** What the writer and the loader ask CPython and h5py for, beyond [env]. *)
Record env3 := Env3 {
  l_env : env;
  (** [str.isprintable] beyond ASCII *)
  l_printable : N -> bool;
  (** [repr] and [literal_eval] of tuples *)
  l_trepr : list val3 -> pystr;
  l_teval : pystr -> option (list val3);
  (** [str(x)] of other objects *)
  l_str : pystr -> N -> pystr;
  (** h5py before 3.0: variable length strings are read as str, not as bytes *)
  l_text : bool;
  (** groups list their members in the order of creation, not by name *)
  l_track : bool
}.

(** ** Files *)
Inductive data3 :=
| XNum (d : dtype) (n : num)        (** shape () *)
| XArr (a : array3)
| XFixed (l : list bytes)           (** shape (n,), dtype 'S{w}' *)
| XText (s : pystr)                 (** shape (1,), variable length str *)
| XPickle (v : val3).               (** shape (1,), dtype 'S{w}': a pickle *)
Notation attrs3 := (list (list N * list N)) (only parsing).
Inductive tree :=
| TGroup (a : attrs3) (kids : list (pystr * tree))     (** members in order of creation *)
| TData (a : attrs3) (d : data3).
Notation members := (list (list N * tree)) (only parsing).

Section V3.
Variable L : env3.

(** [str(type(x)).encode('ascii', 'ignore')]. *)
Definition sparse_name (k : sparse_kind) : pystr :=
  match k with SCsr => str "csr" | SCsc => str "csc" | SBsr => str "bsr" end.
Definition class3 (v : val3) : pystr :=
  match v with
  | PNone => str "NoneType"
  | PNum (NB _) => str "bool" | PNum (NZ _) => str "int"
  | PNum (NF _) => str "float" | PNum (NC _ _) => str "complex"
  | PNp d _ => str "numpy." ++ dtype_clsname d
  | PStr _ => str "str" | PBytes _ => str "bytes"
  | PSeq SList _ => str "list" | PSeq STuple _ => str "tuple" | PSeq SSet _ => str "set"
  | PSeq (SOther n) _ => n
  | PDict _ => str "dict"
  | PArr _ => str "numpy.ndarray"
  | PMasked _ _ => str "numpy.ma.core.MaskedArray"
  | PSparse k _ _ _ _ => str "scipy.sparse." ++ sparse_name k ++ str "_matrix"
  | POther c _ => c
  | PContainer _ _ _ _ => str "hickle.legacy_v3.hickle.PyContainer"
  end.
Definition type_text (c : pystr) : bytes :=
  List.filter (fun x => x <? 128) (str "<class '" ++ c ++ str "'>").
Definition type3 (v : val3) : bytes := type_text (class3 v).

(** ** Writing

    ['data_%i' % call_id]. *)
Definition name3 (i : N) : pystr := str "data_" ++ N_dec i.
Definition mask_suffix : pystr := str "_mask".
Definition a3_type : pystr := str "type".
Definition a3_key_type : pystr := str "key_type".
Definition a3_string : pystr := str "py3_string_type".
Definition a3_subtype : pystr := str "python_subdtype".
Definition a3_np_dtype : pystr := str "np_dtype".

(** helpers.py:91-113: the class all items have. *)
Definition item_type (l : list val3) : option pystr :=
  match l with
  | [] => None
  | x :: r => if forallb (fun y => bool_decide (class3 y = class3 x)) r then Some (class3 x) else None
  end.
(** hickle.py:219-221. *)
Definition dumpable : list pystr :=
  [str "bool"; str "complex"; str "bytes"; str "float"; str "str"; str "int"].

(** hickle.py:387-401. *)
Definition no_match (i : N) (v : val3) : members := [(name3 i, TData [(a3_type, str "pickle")] (XPickle v))].

(** [str(dtype)]. *)
Definition dtype3 (n : num) : dtype :=
  match n with NB _ => DBool | NZ _ => DInt W8 | NF _ => DFloat F8 | NC _ _ => DComplex C16 end.

(** load_python3.py:40-71, create_listlike_dataset, for items of one dumpable class.
    Simplification: which dtype numpy chooses for integers beyond int64 is left open. *)
Definition listlike_data (l : list val3) : res (data3 * option bytes) :=
  match l with
  | PStr _ :: _ =>
      res_map (fun bs => (XFixed bs, Some (type_text (str "str"))))
        (res_mapM (fun v => match v with PStr s => utf8_encode s | _ => Err Unmodelled end) l)
  | PBytes _ :: _ =>
      res_map (fun bs => (XFixed bs, Some (type_text (str "bytes"))))
        (res_mapM (fun v => match v with PBytes b => Ok b | _ => Err Unmodelled end) l)
  | PNum n :: _ =>
      res_map (fun ns => (XArr (dtype3 n, [N.of_nat (length l)], ns), None))
        (res_mapM (fun v => match v with
                            | PNum m => if num_of_dtype (dtype3 n) m then Ok m else Err Unmodelled
                            | _ => Err Unmodelled
                            end) l)
  | _ => Err Unmodelled
  end.
Definition create_listlike (i : N) (v : val3) (l : list val3) : res members :=
  res_map (fun '(d, st) =>
    [(name3 i, TData ((a3_type, type3 v) :: match st with Some t => [(a3_string, t)] | None => [] end) d)])
    (listlike_data l).

(** load_python3.py:75-87, create_python_dtype_dataset. *)
Definition create_python_dtype (i : N) (n : num) : res members :=
  if num_of_dtype (dtype3 n) n
  then Ok [(name3 i, TData [(a3_type, str "python_dtype"); (a3_subtype, type3 (PNum n))] (XNum (dtype3 n) n))]
  else Err OverflowError.

(** load_python3.py:90-105, create_stringlike_dataset.  h5py refuses NUL characters in
    variable length strings. *)
Definition create_str (i : N) (s : pystr) : res members :=
  if has_char 0 s then Err ValueError
  else res_map (fun _ => [(name3 i, TData [(a3_type, str "string")] (XText s))]) (utf8_encode s).
Definition create_bytes (i : N) (b : bytes) : members :=
  [(name3 i, TData [(a3_type, str "bytes")] (XFixed [b]))].

(** load_python3.py:107-117. *)
Definition create_none3 (i : N) : members :=
  [(name3 i, TData [(a3_type, str "none")] (XArr (DInt W8, [1], [NZ 0])))].

(** load_numpy.py:29-46; [str(d.dtype)] is represented by [dtype_clsname]. *)
Definition create_np_scalar3 (i : N) (d : dtype) (n : num) : members :=
  match d with
  | DBool => no_match i (PNp d n)      (* np.bool_ is not in types_dict *)
  | _ => [(name3 i, TData [(a3_type, str "np_scalar"); (a3_np_dtype, dtype_clsname d)] (XNum d n))]
  end.

(** load_numpy.py:62-78. *)
Definition create_array (i : N) (a : array3) : members := [(name3 i, TData [(a3_type, str "ndarray")] (XArr a))].
Definition mask_data (a : array3) (mask : option (list num)) : data3 :=
  match mask with
  | None => XNum DBool (NB false)
  | Some ns => XArr (DBool, snd (fst a), ns)
  end.
Definition create_masked (i : N) (a : array3) (mask : option (list num)) : members :=
  [(name3 i, TData [(a3_type, str "ndarray_masked_data")] (XArr a));
   (name3 i ++ mask_suffix, TData [(a3_type, str "ndarray_masked_mask")] (mask_data a mask))].

(** load_scipy.py:25-60. *)
Definition sparse_type (k : sparse_kind) (part : pystr) : bytes := sparse_name k ++ str "_matrix" ++ part.
Definition create_sparse3 (i : N) (k : sparse_kind) (data indices indptr shape : array3) : members :=
  [(name3 i, TGroup [(a3_type, sparse_type k [])]
      [(str "data", TData [(a3_type, sparse_type k (str "_data"))] (XArr data));
       (str "indices", TData [(a3_type, sparse_type k (str "_indices"))] (XArr indices));
       (str "indptr", TData [(a3_type, sparse_type k (str "_indptr"))] (XArr indptr));
       (str "shape", TData [(a3_type, sparse_type k (str "_shape"))] (XArr shape))])].

(** hickle.py:382-385, the name of the group of a dict entry: [repr(key)] for str, [str(key)]
    for other keys. *)
Definition key_text (k : val3) : pystr :=
  match k with
  | PStr s => repr_str (l_printable L) s
  | PNum n | PNp _ n => num_repr (l_env L) n
  | PNone => str "None"
  | PBytes b => repr_bytes b
  | PSeq STuple l => l_trepr L l
  | POther c n => l_str L c n
  | _ => []                     (* not hashable *)
  end.

(** [h_group.create_group(name)]: slashes separate the names of nested groups, of which
    those that do not exist are created without attributes; empty names and dots are
    skipped.  Simplification: no name begins with a slash. *)
Definition path3 (nm : pystr) : list pystr :=
  List.filter (fun c => negb (bool_decide (c = [])) && negb (bool_decide (c = str "."))) (split_char 47 nm).
Fixpoint put_path (p : list pystr) (t : tree) (kids : members) : res members :=
  match p with
  | [] => Err ValueError
  | [c] => match alist_get c kids with Some _ => Err NameExists | None => Ok (kids ++ [(c, t)]) end
  | c :: p' =>
      match alist_get c kids with
      | None => res_map (fun ks => kids ++ [(c, TGroup [] ks)]) (put_path p' t [])
      | Some (TGroup a ks) => res_map (fun ks' => alist_set c (TGroup a ks') kids) (put_path p' t ks)
      | Some (TData _ _) => Err ValueError
      end
  end.
(** hickle.py:382-388, one entry of a dict. *)
Definition dict_item (k : val3) (kids : members) : tree :=
  TGroup [(a3_type, str "dict_item"); (a3_key_type, type3 k)] kids.

(** hickle.py:207-254, _dump; the members it adds to the group. *)
Fixpoint dump3 (i : N) (v : val3) {struct v} : res members :=
  match v with
  | PArr a => Ok (create_array i a)
  | PMasked a m => Ok (create_masked i a m)
  | PSparse k a b c d => Ok (create_sparse3 i k a b c d)
  | PDict l =>
      (* hickle.py:362-388, create_dict_dataset *)
      res_map (fun kids => [(name3 i, TGroup [(a3_type, type3 v)] kids)])
        ((fix go (kids : members) (l : list (val3 * val3)) : res members :=
            match l with
            | [] => Ok kids
            | (k, x) :: r =>
                res_bind (dump3 0 x) (fun xs =>
                res_bind (put_path (path3 (key_text k)) (dict_item k xs) kids) (fun kids' => go kids' r))
            end) [] l)
  | PSeq k l =>
      let group :=
        res_map (fun kids => [(name3 i, TGroup [(a3_type, type3 v)] kids)])
          ((fix go (j : N) (l : list val3) : res members :=
              match l with
              | [] => Ok []
              | x :: r => res_bind (dump3 j x) (fun xs => res_map (app xs) (go (j + 1) r))
              end) 0 l) in
      match item_type l with
      | Some c =>
          if bool_decide (c ∈ dumpable)
          then match k with SOther _ => Ok (no_match i v) | _ => create_listlike i v l end
          else group
      | None => group
      end
  | PNone => Ok (create_none3 i)
  | PNum n => create_python_dtype i n
  | PNp d n => Ok (create_np_scalar3 i d n)
  | PStr s => create_str i s
  | PBytes b => Ok (create_bytes i b)
  | POther _ _ | PContainer _ _ _ _ => Ok (no_match i v)
  end.

(** hickle.py:257-311, dump to an empty file or to a new path; the group dumped to. *)
Definition dump_v3 (v : val3) : res tree := res_map (TGroup [(a3_type, str "hickle")]) (dump3 0 v).

(** ** Loading *)

(** The order in which h5py lists the members of a group: by name, or by creation if the
    file was written with track_order. *)
Definition listing (kids : members) : members :=
  if l_track L then kids else sorted_by (fun a b => bytes_lt (fst a) (fst b)) kids.

(** numpy strips trailing NULs from elements of 'S' arrays. *)
Fixpoint drop_nuls (b : bytes) : bytes :=
  match b with
  | [] => []
  | c :: r => match drop_nuls r with [] => if c =? 0 then [] else [c] | r' => c :: r' end
  end.

(** [get_type(h_node)], helpers.py:16-19. *)
Definition get_type (a : attrs3) : res bytes :=
  match alist_get a3_type a with Some t => Ok t | None => Err KeyError end.

(** [int(x)], [float(x)], ... of a scalar read from a dataset, load_python3.py:167-184.
    The subtypes the writer does not use for the dtype are left open. *)
Definition to_python (subtype : option bytes) (n : num) : res val3 :=
  match subtype with
  | None => Err KeyError
  | Some t =>
      if bool_decide (t = type_text (str "int")) then
        match Z_of_num n with Some z => Ok (PNum (NZ z)) | None => Err Unmodelled end
      else if bool_decide (t = type_text (str "float")) then res_map (fun f => PNum (NF f)) (float_of_num n)
      else if bool_decide (t = type_text (str "bool")) then Ok (PNum (NB (truthy n)))
      else if bool_decide (t = type_text (str "complex")) then
        match n with NC a b => Ok (PNum n) | _ => Err Unmodelled end
      else Err TypeError               (* type_dict.get gives None *)
  end.

(** load_python3.py:120-139: the items of list, tuple and set datasets. *)
Definition list_items (a : attrs3) (d : data3) : res (list val3) :=
  match d with
  | XFixed bs =>
      match alist_get a3_string a with
      | Some t =>
          if bool_decide (t = type_text (str "bytes")) then
            res_mapM (fun b => res_bind (utf8_decode (drop_nuls b)) (fun s => res_map PBytes (utf8_encode s))) bs
          else if bool_decide (t = type_text (str "str")) then
            res_mapM (fun b => res_map PStr (utf8_decode (drop_nuls b))) bs
          else Err Unmodelled
      | None => Err Unmodelled
      end
  | XArr (d, [_], ns) => Ok (map (PNp d) ns)
  | _ => Err Unmodelled
  end.

(** ** [set(items)], [dict(zip(keys, items))]

    The canonical form of a hashable value, as [hval] of PyObj.v. *)
Fixpoint hv3 (v : val3) : res hv :=
  match v with
  | PNone => Ok HNone
  | PNum n | PNp _ n => Ok (num_hv 0 n)
  | PStr s => Ok (HStr s)
  | PBytes b => Ok (HBytes b)
  | PSeq STuple l =>
      res_map (foldr HCons HNil)
        ((fix go (l : list val3) : res (list hv) :=
            match l with
            | [] => Ok []
            | x :: r => res_bind (hv3 x) (fun y => res_map (cons y) (go r))
            end) l)
  | PSeq (SOther n) _ => Err Unmodelled
  | PSparse _ _ _ _ _ => Err Unmodelled
  | POther c n => Ok (HCons (HStr c) (HCons (HVal CNoneType n) HNone))
  | _ => Err TypeError
  end.
(** NaN equals nothing. *)
Fixpoint hv_nan (h : hv) : bool :=
  match h with HNan _ => true | HCons a r => hv_nan a || hv_nan r | _ => false end.
Definition hv_same (a b : hv) : bool := bool_decide (a = b) && negb (hv_nan a).
Fixpoint set3 (seen : list hv) (l : list val3) : res (list val3) :=
  match l with
  | [] => Ok []
  | x :: r =>
      res_bind (hv3 x) (fun h =>
        if existsb (hv_same h) seen then set3 seen r else res_map (cons x) (set3 (h :: seen) r))
  end.
Fixpoint dict_set3 (h : hv) (k x : val3) (d : list (hv * (val3 * val3))) : list (hv * (val3 * val3)) :=
  match d with
  | [] => [(h, (k, x))]
  | (h', (k', x')) :: r => if hv_same h h' then (h', (k', x)) :: r else (h', (k', x')) :: dict_set3 h k x r
  end.
Fixpoint dict3 (d : list (hv * (val3 * val3))) (l : list (val3 * val3)) : res (list (val3 * val3)) :=
  match l with
  | [] => Ok (map snd d)
  | (k, x) :: r => res_bind (hv3 k) (fun h => dict3 (dict_set3 h k x d) r)
  end.

(** [list(l)], [tuple(l)], [set(l)]. *)
Definition make_seq (k : seq3) (l : list val3) : res val3 :=
  match k with
  | SSet => res_map (PSeq SSet) (set3 [] l)
  | _ => Ok (PSeq k l)
  end.

(** load_numpy.py:112-124: [np.ma.array(data, mask=mask)]; a scalar mask is spread over the
    array. *)
Definition load_masked (a : array3) (m : option tree) : res val3 :=
  match m with
  | None => Err TypeError                        (* None[:] *)
  | Some (TGroup _ _) => Err Unmodelled
  | Some (TData _ (XNum _ n)) => Ok (PMasked a (Some (map (fun _ => NB (truthy n)) (snd a))))
  | Some (TData _ (XArr (_, sh, ns))) =>
      if bool_decide (sh = snd (fst a)) then Ok (PMasked a (Some (map (fun n => NB (truthy n)) ns)))
      else Err Unmodelled
  | Some (TData _ _) => Err Unmodelled
  end.

(** load_scipy.py:62-78. *)
Definition load_sparse (k : sparse_kind) (a : array3) (sibs : members) : res val3 :=
  let part nm := match alist_get nm sibs with
                 | Some (TData _ (XArr x)) => Ok x
                 | None => Err TypeError          (* None[:] *)
                 | _ => Err Unmodelled
                 end in
  res_bind (part (str "indices")) (fun b =>
  res_bind (part (str "indptr")) (fun c =>
  res_map (PSparse k a b c) (part (str "shape")))).

(** hickle.py:448-460 and :549-565, load_dataset: hkl_types_dict of load_python3.py:200-211,
    load_numpy.py:130-138 and load_scipy.py:84-96.  [sibs]: the members of the group the
    dataset [nm] is in. *)
Definition sparse_kinds : list sparse_kind := [SCsr; SCsc; SBsr].
Definition load_dataset3 (sibs : members) (nm : pystr) (a : attrs3) (d : data3) : res val3 :=
  res_bind (get_type a) (fun t =>
  if bool_decide (t = type_text (str "list")) then res_map (PSeq SList) (list_items a d)
  else if bool_decide (t = type_text (str "tuple")) then res_map (PSeq STuple) (list_items a d)
  else if bool_decide (t = type_text (str "set")) then res_bind (list_items a d) (make_seq SSet)
  else if bool_decide (t = str "bytes") then
    match d with XFixed (b :: _) => Ok (PBytes (drop_nuls b)) | _ => Err Unmodelled end
  else if bool_decide (t = str "python_dtype") then
    match d with XNum _ n => to_python (alist_get a3_subtype a) n | _ => Err Unmodelled end
  else if bool_decide (t = str "string") then
    match d with
    | XText s =>
        (* str(data[0]); of bytes this is their repr *)
        if l_text L then Ok (PStr s) else res_map (fun b => PStr (repr_bytes b)) (utf8_encode s)
    | _ => Err Unmodelled
    end
  else if bool_decide (t = str "pickle") then match d with XPickle v => Ok v | _ => Err Unmodelled end
  else if bool_decide (t = str "none") then Ok PNone
  else if bool_decide (t = str "np_scalar") then
    match d, alist_get a3_np_dtype a with
    | XNum d' n, Some s => if bool_decide (s = dtype_clsname d') then Ok (PNp d' n) else Err Unmodelled
    | _, None => Err KeyError
    | _, _ => Err Unmodelled
    end
  else if bool_decide (t = str "ndarray") || bool_decide (t = str "numpy.ndarray") then
    match d with XArr x => Ok (PArr x) | _ => Err Unmodelled end
  else if bool_decide (t = str "ndarray_masked_data") then
    match d with XArr x => load_masked x (alist_get (nm ++ mask_suffix) sibs) | _ => Err Unmodelled end
  else if bool_decide (t = str "ndarray_masked_mask") then Ok PNone
  else
    match List.find (fun k => bool_decide (t = sparse_type k (str "_data"))) sparse_kinds with
    | Some k => match d with XArr x => load_sparse k x sibs | _ => Err Unmodelled end
    | None =>
        if existsb (fun k => existsb (fun p => bool_decide (t = sparse_type k p))
                                     [str "_indices"; str "_indptr"; str "_shape"]) sparse_kinds
        then Ok PNone
        else Err RuntimeError          (* no_match_load *)
    end).

(** lookup.py:97-110, container_key_types_dict: the key a name stands for.  Of the key
    types with [<type ...>] names only Python 2 wrote any. *)
Definition load_key3 (kt : bytes) (nm : pystr) : res val3 :=
  let is (c : string) := bool_decide (kt = type_text (str c)) in
  if is "str"%string then match eval_str nm with Some s => Ok (PStr s) | None => Err Unmodelled end
  else if is "float"%string then match e_fparse (l_env L) nm with Some f => Ok (PNum (NF f)) | None => Err ValueError end
  else if is "bool"%string then Ok (PNum (NB (negb (bool_decide (nm = [])))))
  else if is "int"%string then res_map (fun z => PNum (NZ z)) (Z_parse nm)
  else if is "complex"%string then
    match e_cparse (l_env L) nm with Some (a, b) => Ok (PNum (NC a b)) | None => Err ValueError end
  else if is "tuple"%string then match l_teval L nm with Some l => Ok (PSeq STuple l) | None => Err ValueError end
  else Ok (PStr nm).

(** hickle.py:412-437, convert. *)
Definition entry_of (v : val3) : res (val3 * val3) :=
  match v with
  | PContainer _ nm kt l =>
      match kt with
      | None => Err TypeError                   (* None[0] *)
      | Some t =>
          res_bind (load_key3 t nm) (fun k =>
          match l with x :: _ => Ok (k, x) | [] => Err IndexError end)
      end
  | _ => Err AttributeError                     (* no attribute name *)
  end.
Definition convert (ctype : bytes) (nm : pystr) (kt : option bytes) (l : list val3) : res val3 :=
  if bool_decide (ctype = type_text (str "list")) then Ok (PSeq SList l)
  else if bool_decide (ctype = type_text (str "tuple")) then Ok (PSeq STuple l)
  else if bool_decide (ctype = type_text (str "set")) then make_seq SSet l
  else if existsb (fun k => bool_decide (ctype = sparse_type k [])) sparse_kinds then
    match l with x :: _ => Ok x | [] => Err IndexError end
  else if bool_decide (ctype = type_text (str "dict")) then
    res_map PDict (res_bind (res_mapM entry_of l) (dict3 []))
  else Ok (PContainer ctype nm kt l).

(** lookup.py:82 and, for the types register_class adds (:171-176), load_scipy.py:84-88. *)
Definition unsorted (ctype : bytes) : bool :=
  bool_decide (ctype = str "dict") ||
  existsb (fun k => bool_decide (ctype = sparse_type k []) || bool_decide (ctype = sparse_type k (str "_data")))
    sparse_kinds.

(** hickle.py:567-612, _load: the value a member is read as.  Every member of a group is
    read, in the order [sort_keys] or the file gives; [done] holds what reading each
    yields.
    Simplification: [h_group.attrs['key_type']] of an entry that lacks it raises before the
    members are read. *)
Fixpoint load3 (sibs : members) (nm : pystr) (t : tree) {struct t} : res val3 :=
  match t with
  | TData a d => load_dataset3 sibs nm a d
  | TGroup a kids =>
      res_bind (get_type a) (fun ctype =>
      res_bind (if bool_decide (ctype = str "dict_item")
                then match alist_get a3_key_type a with Some kt => Ok (Some kt) | None => Err KeyError end
                else Ok None) (fun kt =>
      let names := map fst (listing kids) in
      res_bind (if unsorted ctype then Ok names else sort_keys names) (fun order =>
      let done := (fix go (l : members) : list (pystr * res val3) :=
                     match l with [] => [] | (n, u) :: r => (n, load3 kids n u) :: go r end) kids in
      res_bind (res_mapM (fun n => match alist_get n done with Some r => r | None => Err KeyError end) order)
        (convert ctype nm kt))))
  end.

(** hickle.py:473-547, load; [VERSION] is text beginning with 3 (hickle/hickle.py:352-366), so
    the version is 3 or more and not the number 3.  [py_container[0][0]]. *)
Definition load_v3 (t : tree) : res val3 :=
  res_bind (load3 [] [] t) (fun v =>
    match v with
    | PContainer _ _ _ (x :: _) => Ok x
    | PSeq SList (x :: _) | PSeq STuple (x :: _) => Ok x
    | PContainer _ _ _ [] | PSeq SList [] | PSeq STuple [] => Err IndexError
    | _ => Err Unmodelled
    end).
End V3.
