(** * Spec4: how hickle 4 stored values

    The layout of files written by hickle 4.0, as found in
    hickle/tests/legacy_hkls/hickle_4.0.0.hkl (written by
    hickle/tests/generate_legacy_4_0_0.py): no type table, the class pickled into the
    attribute 'type' of each node, items of lists named data_0, data_1, ..., a group
    between a dict and each of its values, strings as variable length strings, lists of
    equal numbers or strings as arrays.  Nothing here refers to the loader.
    Not described: sets (the file has none), instances of subclasses, keys
    that contain slashes or backslashes (a dict with tuples as keys was pickled as a whole). *)
From Verif Require Import Base Utf8 Dec Num PyObj H5 Env Create Repr.

(** ** Values *)
Inductive key4 :=
| KStr (s : pystr)
| KNum (c : cls) (n : num)
| KNone.
Inductive val4 :=
| QNone
| QNum (c : cls) (n : num)                                (** a number, Python's or numpy's *)
| QStr (s : pystr)
| QBytes (b : bytes)
| QSeq (c : cls) (xs : list val4)                         (** list, tuple *)
| QDict (c : cls) (kvs : list (key4 * val4))              (** dict, OrderedDict *)
| QArr (d : dtype) (shape : list N) (vs : list num)       (** array of numbers *)
| QStrArr (w : N) (shape : list N) (vs : list pystr)      (** array of dtype '<U{w}' *)
| QObjArr (x : val4)                                      (** zero dimensional array of an object *)
| QPickled (c : cls) (k : ohash) (n : N)                  (** anything stored by pickle *)
| QSparse (k : sparse_kind) (d : dtype) (dims : list N) (vs : list num)     (** sparse matrix: the values, *)
          (indices indptr shape : dtype * list num)                         (** where they are, and its size *)
| QMasked (d : dtype) (dims : list N) (vs : list num) (mask : list bool).   (** masked array *)

Section AllTwo.
Context {A B : Type} (R : A -> B -> Prop).
Fixpoint all2 (xs : list A) (ys : list B) : Prop :=
  match xs, ys with
  | [], [] => True
  | x :: xs, y :: ys => R x y /\ all2 xs ys
  | _, _ => False
  end.
End AllTwo.

(** ** Nodes *)

(** Attributes of a node: the pickled class, if any, the base_type and others. *)
Definition attrs4 (t : option cls) (base : pystr) (more : list (pystr * attrv)) : attrs :=
  list_to_map (match t with Some c => [(a_type, APickle c)] | None => [] end ++ (a_base_type, AStr base) :: more).
Definition node4 (f : file) (a : addr) (at_ : attrs) (b : body) : Prop :=
  exists nm, get_node f a = Some (Node nm at_ b).

Definition item_name (i : N) : pystr := str "data_" ++ N_dec i.
Fixpoint named_items (i : N) (as_ : list addr) : list (pystr * addr) :=
  match as_ with [] => [] | a :: r => (item_name i, a) :: named_items (i + 1) r end.

(** The number is one of the class. *)
Definition number_of (c : cls) (n : num) : Prop :=
  match c, n with
  | CBool, NB _ | CInt, NZ _ | CFloat, NF _ | CComplex, NC _ _ => True
  | _, _ => False
  end.
Definition ascii_text (s : pystr) : Prop := Forall (fun c => c < 128) s.

(** 'int64', 'float32', 'bool', ... *)
Definition dtype_name (d : dtype) : pystr := if bool_decide (d = DBool) then str "bool" else dtype_clsname d.
Definition array_attrs (dt : pystr) : attrs := attrs4 (Some CNdarray) (str "ndarray") [(a_np_dtype, AStr dt)].

(** What numpy makes an array of dimensions out of when told to make an array of it. *)
Definition single4 (v : val4) : bool :=
  match v with QSeq _ _ | QArr _ _ _ | QStrArr _ _ _ | QObjArr _ | QSparse _ _ _ _ _ _ _ | QMasked _ _ _ _ => false | _ => true end.

(** ** Sparse matrices *)

(** A group with the class of a function as type, and four datasets: 'data' has the class of the matrix as
    type, the others have that of None and their name in the base_type.  This is the one
    called [nm]. *)
Definition part_names : list pystr := [str "data"; str "indices"; str "indptr"; str "shape"].
Definition part_attrs (k : sparse_kind) (nm : pystr) : attrs :=
  if bool_decide (nm = str "data") then attrs4 (Some (CSparse k)) (cls_name (CSparse k)) []
  else attrs4 (Some CNoneType) (cls_name (CSparse k) ++ str "_" ++ nm) [].
Definition part4 (f : file) (k : sparse_kind) (nm : pystr) (d : dtype) (dims : list N) (vs : list num) (a : addr) : Prop :=
  nm ∈ part_names /\ Forall (fun n => cast d n = Ok n) vs /\ node4 f a (part_attrs k nm) (BData (DArray d dims vs)).
Definition vector4 (f : file) (k : sparse_kind) (nm : pystr) (v : dtype * list num) (a : addr) : Prop :=
  part4 f k nm (fst v) [N.of_nat (length (snd v))] (snd v) a.

(** ** Masked arrays

    The mask is a dataset next to that of the values, with '_mask' added to the name.  It is no
    value of its own: where members of a group are values, those called '..._mask' are not. *)
Definition mask_attrs : attrs := attrs4 (Some CNdarray) (str "ndarray_masked_mask") [].
Definition mask4 (f : file) (b : addr) (d : hdata) : Prop := node4 f b mask_attrs (BData d).
(** The group at [p] has the member [nm], which is [a]. *)
Definition member_of (f : file) (p : addr) (nm : pystr) (a : addr) : Prop :=
  exists n, get_node f p = Some n /\ (nm, a) ∈ links n.
(** One bool for each element, or one for all of them if nothing is masked. *)
Definition mask_data4 (dims : list N) (n : nat) (mask : list bool) (d : hdata) : Prop :=
  length mask = n /\ (d = DArray DBool dims (map NB mask) \/ exists b, mask = repeat b n /\ d = DScalar DBool (NB b)).
Definition has_mask (f : file) (a : addr) (dims : list N) (n : nat) (mask : list bool) : Prop :=
  exists p nm pn b d, get_node f p = Some pn /\ (nm, a) ∈ links pn /\
    (forall p' nm', member_of f p' nm' a -> p' = p /\ nm' = nm) /\
    alist_get (nm ++ str "_mask") (links pn) = Some b /\ mask4 f b d /\ mask_data4 dims n mask d.
Definition array_data (d : dtype) (dims : list N) (vs : list num) (hd : hdata) : Prop :=
  hd = DArray d dims vs \/ exists n, dims = [] /\ vs = [n] /\ hd = DScalar d n.

(** ** Dicts *)

(** The names are the reprs of the keys, for strings in their quotes. *)
Definition key_name4 (E : env) (k : key4) : pystr :=
  match k with
  | KStr s => quote_for s :: s ++ [quote_for s]
  | KNum _ n => num_repr E n
  | KNone => str "None"
  end.
Definition key_cls (k : key4) : cls :=
  match k with KStr _ => CStr | KNum c _ => c | KNone => CNoneType end.
(** Keys hickle 4 used as names: strings without slash and backslash (and whose repr is
    just the string in quotes), numbers, None.  [False] is not among them, see
    C57_false_key_refuted; numbers have 64 bits, nan is excluded. *)
Definition key_ok4 (k : key4) : Prop :=
  match k with
  | KStr s => has_char 47 s = false /\ has_char 92 s = false
  | KNum c n => number_of c n /\ num_nan n = false /\
                match n with NB b => b = true | NZ _ => True | NF f => fits F8 f = true | NC x y => fits F8 x = true /\ fits F8 y = true end
  | KNone => True
  end.
(** Two keys are the same key of a dict. *)
Definition key_form (k : key4) : hv :=
  match k with KStr s => HStr s | KNum _ n => num_hv 0 n | KNone => HNone end.
Definition item_attrs (k : key4) (i : N) : attrs :=
  attrs4 None (str "dict_item") [(a_key_base_type, AStr (cls_name (key_cls k)));
                                 (str "key_type", APickle (key_cls k)); (a_key_idx, AInt (Z.of_N i))].
(** The group between the dict and the value at [b]; a mask may follow. *)
Definition item4 (E : env) (f : file) (i : N) (k : key4) (b : addr) (a : addr) : Prop :=
  exists l, node4 f a (item_attrs k i) (BGroup l) /\
    (l = [(str "data", b)] \/
     exists c d, mask4 f c d /\ Permutation l [(str "data", b); (str "data_mask", c)] /\ e_order E a l = [(str "data", b); (str "data_mask", c)]).
(** These groups are [as_], the values are at [bs]. *)
Fixpoint items4 (E : env) (f : file) (i : N) (ks : list key4) (as_ bs : list addr) : Prop :=
  match ks, as_, bs with
  | [], [], [] => True
  | k :: ks, a :: as_, b :: bs => item4 E f i k b a /\ items4 E f (i + 1) ks as_ bs
  | _, _, _ => False
  end.

(** ** Where a value is stored *)
Definition mask_member (f : file) (n : nat) (m : pystr * addr) : Prop :=
  exists i d, i < N.of_nat n /\ fst m = item_name i ++ str "_mask" /\ mask4 f (snd m) d.
Fixpoint stored4 (E : env) (f : file) (v : val4) (a : addr) {struct v} : Prop :=
  match v with
  | QNone => exists d, node4 f a (attrs4 (Some CNoneType) (str "None") []) (BData d)
  | QNum (CNp d) n => cast d n = Ok n /\
      node4 f a (attrs4 (Some (CNp d)) (str "np_scalar") [(a_np_dtype, AStr (dtype_name d))]) (BData (DScalar d n))
  | QNum c n => number_of c n /\
      exists d, node4 f a (attrs4 (Some c) (cls_name c) []) (BData (DScalar d n))
  | QStr s => exists b, utf8_encode s = Ok b /\
      node4 f a (attrs4 (Some CStr) (str "str") []) (BData (DVlen b))
  | QBytes b => node4 f a (attrs4 (Some CBytes) (str "bytes") []) (BData (DVlen b))
  | QSeq c xs =>
      (c = CList \/ c = CTuple) /\
      ((* a group with one member for each element *)
       (exists as_ ms l, node4 f a (attrs4 (Some c) (cls_name c) []) (BGroup l) /\ NoDup (map fst l) /\
                      Permutation l (named_items 0 as_ ++ ms) /\ Forall (mask_member f (length as_)) ms /\ all2 (stored4 E f) xs as_) \/
       (* nothing *)
       (xs = [] /\ node4 f a (attrs4 (Some c) (cls_name c) []) (BData (DNull KInt))) \/
       (* an array of numbers *)
       (exists k d vs, xs = map (QNum k) vs /\ Forall (number_of k) vs /\
          node4 f a (attrs4 (Some c) (cls_name c) []) (BData (DArray d [N.of_nat (length vs)] vs))) \/
       (* an array of strings *)
       (exists w ss, xs = map QStr ss /\ Forall ascii_text ss /\ (1 < w \/ w = 1 /\ Forall (fun s => length s = 1%nat) ss) /\
          node4 f a (attrs4 (Some c) (cls_name c) [(a_str_type, AStr (str "str"))]) (BData (DFixed w [N.of_nat (length ss)] ss))) \/
       (* an array of bytes *)
       (exists w bs, xs = map QBytes bs /\
          node4 f a (attrs4 (Some c) (cls_name c) [(a_str_type, AStr (str "bytes"))]) (BData (DFixed w [N.of_nat (length bs)] bs))))
  | QDict c kvs =>
      (c = CDict \/ c = COrderedDict) /\
      Forall (fun kv => key_ok4 (fst kv)) kvs /\ NoDup (map (fun kv => key_form (fst kv)) kvs) /\
      exists as_ bs l, node4 f a (attrs4 (Some c) (str "dict") []) (BGroup l) /\
        Permutation l (zip (map (fun kv => key_name4 E (fst kv)) kvs) as_) /\
        items4 E f 0 (map fst kvs) as_ bs /\
        all2 (fun kv b => match kv with (_, x) => stored4 E f x b end) kvs bs
  | QArr d shape vs =>
      Forall (fun n => cast d n = Ok n) vs /\
      (node4 f a (array_attrs (dtype_name d)) (BData (DArray d shape vs)) \/
       exists n, shape = [] /\ vs = [n] /\ node4 f a (array_attrs (dtype_name d)) (BData (DScalar d n)))
  | QStrArr w shape vs =>
      exists k, (1 < k \/ k = 1 /\ shape = [] /\ length vs = 1%nat /\ Forall (fun s => length s = 1%nat) vs) /\ 0 < w /\
        Forall (fun s => ascii_text s /\ N.of_nat (length s) <= w /\ List.last s 1 <> 0) vs /\
        node4 f a (array_attrs (str "<U" ++ N_dec w)) (BData (DFixed k shape vs))
  | QObjArr x =>
      single4 x = true /\
      exists b, node4 f a (attrs4 (Some CFunction) (str "ndarray") [(a_np_dtype, AStr (str "object"))]) (BGroup [(str "data", b)]) /\
        stored4 E f x b
  | QPickled c k n => e_imports E c = true /\
      node4 f a (attrs4 None (str "pickle") []) (BData (DPickle c k n))
  | QSparse k d dims vs indices indptr shape =>
      e_imports E (CSparse k) = true /\ e_imports E return_first = true /\
      exists a1 a2 a3 a4 l, node4 f a (attrs4 (Some return_first) (cls_name (CSparse k)) []) (BGroup l) /\
        Permutation l [(str "data", a1); (str "indices", a2); (str "indptr", a3); (str "shape", a4)] /\
        part4 f k (str "data") d dims vs a1 /\ vector4 f k (str "indices") indices a2 /\
        vector4 f k (str "indptr") indptr a3 /\ vector4 f k (str "shape") shape a4
  | QMasked d dims vs mask =>
      e_imports E CMasked = true /\ Forall (fun n => cast d n = Ok n) vs /\ has_mask f a dims (length vs) mask /\
      exists hd, array_data d dims vs hd /\
        node4 f a (attrs4 (Some CMasked) (str "ndarray_masked_data") [(a_np_dtype, AStr (dtype_name d))]) (BData hd)
  end.

(** ** The same value in memory

    The elements of a list of numbers or bytes may be instances of numpy's classes, all of
    the same class; these equal the elements. *)
Definition key_shows (h : heap) (k : key4) (l : loc) : Prop :=
  match k with
  | KStr s => h !! l = Some (Obj CStr (VStr s))
  | KNum c n => h !! l = Some (Obj c (VNum n))
  | KNone => h !! l = Some (Obj CNoneType VNone)
  end.
Definition elem_shows (h : heap) (d : dtype) (v : val4) (l : loc) : Prop :=
  match v with
  | QNum _ n => h !! l = Some (Obj (CNp d) (VNum n))
  | QBytes b => h !! l = Some (Obj CNpBytes (VBytes b))
  | _ => False
  end.
Definition vector_shows (h : heap) (v : dtype * list num) (l : loc) : Prop :=
  h !! l = Some (Obj CNdarray (VArr (fst v) [N.of_nat (length (snd v))] (snd v))).
Definition size_shows (h : heap) (d : dtype) (vs : list num) (l : loc) : Prop :=
  exists ls, h !! l = Some (Obj CTuple (VSeq ls)) /\ all2 (fun n x => h !! x = Some (Obj (CNp d) (VNum n))) vs ls.
Fixpoint shows (h : heap) (v : val4) (l : loc) {struct v} : Prop :=
  match v with
  | QNone => h !! l = Some (Obj CNoneType VNone)
  | QNum c n => h !! l = Some (Obj c (VNum n))
  | QStr s => h !! l = Some (Obj CStr (VStr s))
  | QBytes b => h !! l = Some (Obj CBytes (VBytes b))
  | QSeq c xs => exists ls, h !! l = Some (Obj c (VSeq ls)) /\
                   (all2 (shows h) xs ls \/ exists d, all2 (elem_shows h d) xs ls)
  | QDict c kvs => exists ps, h !! l = Some (Obj c (VDict ps)) /\
      all2 (fun kv p => match kv with (k, x) => key_shows h k (fst p) /\ shows h x (snd p) end) kvs ps
  | QArr d shape vs => h !! l = Some (Obj CNdarray (VArr d shape vs))
  | QStrArr w shape vs => h !! l = Some (Obj CNdarray (VStrArr w shape vs))
  | QObjArr x => exists lx, h !! l = Some (Obj CNdarray (VObjArr [] [lx])) /\ shows h x lx
  | QPickled c k n => h !! l = Some (Obj c (VOpaque k n))
  | QSparse k d dims vs indices indptr shape => exists ld li lp ls, h !! l = Some (Obj (CSparse k) (VSparse ld li lp ls)) /\
      h !! ld = Some (Obj CNdarray (VArr d dims vs)) /\ vector_shows h indices li /\ vector_shows h indptr lp /\
      size_shows h (fst shape) (snd shape) ls
  | QMasked d dims vs mask => exists ld lm, h !! l = Some (Obj CMasked (VMasked ld lm)) /\
      h !! ld = Some (Obj CNdarray (VArr d dims vs)) /\ h !! lm = Some (Obj CNdarray (VArr DBool dims (map NB mask)))
  end.

(** How deep a value is nested, counting the groups on the way. *)
Fixpoint height4 (v : val4) : nat :=
  match v with
  | QSeq _ xs => S (list_max (map height4 xs))
  | QDict _ kvs => S (S (list_max (map (fun kv => match kv with (_, x) => height4 x end) kvs)))
  | QObjArr x => S (height4 x)
  | _ => 1
  end.

(** A group hickle 4 dumped to: the version, '4' or '4.something', and Python's as attributes,
    the value, here at [a], as member 'data'. *)
Definition root4 (f : file) (root a : addr) : Prop :=
  exists nm l ver pv rest, get_node f root = Some (Node nm (list_to_map [(str "HICKLE_VERSION", AStr ver); (str "HICKLE_PYTHON_VERSION", AStr pv)]) (BGroup l)) /\
    ver = str "4" ++ rest /\ (rest = [] \/ head rest = Some 46) /\ pv <> [] /\
    alist_get (str "data") l = Some a /\ alist_get (str "hickle_types_table") l = None.
Definition dumped4 (E : env) (f : file) (root : addr) (v : val4) : Prop :=
  exists a, root4 f root a /\ stored4 E f v a.
