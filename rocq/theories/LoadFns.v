(** * LoadFns: the [load_*] functions and [PyContainer] classes

    hickle/loaders/load_builtins.py:311-523, load_numpy.py:162-311,
    load_scipy.py:54-114, lookup.py:95-102 and :1401-1571, helpers.py:35-140. *)
From Verif Require Import Base Utf8 Dec Num PyObj H5 Env Create Repr.

(** ** Memory of the loading process *)
Record mem := Mem { m_heap : heap; m_next : loc }.
Definition alloc (o : obj) (m : mem) : mem * loc :=
  (Mem (<[m_next m := o]> (m_heap m)) (m_next m + 1), m_next m).
Fixpoint alloc_list (os : list obj) (m : mem) : mem * list loc :=
  match os with
  | [] => (m, [])
  | o :: r => let '(m1, l) := alloc o m in let '(m2, ls) := alloc_list r m1 in (m2, l :: ls)
  end.

Fixpoint base_cls (c : cls) : cls := match c with CSub _ _ b => base_cls b | _ => c end.

(** [py_obj_type(content)] for a list, tuple or set class and a list of elements;
    [tuple(())] is the shared empty tuple.  A named tuple takes its fields as separate
    arguments, so handing it one list fails unless it has exactly one field. *)
Definition construct_seq (fuel : nat) (pt : cls) (xs : list loc) (m : mem) : res (mem * loc) :=
  match base_cls pt with
  | CList => Ok (alloc (Obj pt (VSeq xs)) m)
  | CTuple =>
      if bool_decide (pt = CTuple) && bool_decide (xs = []) then Ok (m, nobody)
      else Ok (alloc (Obj pt (VSeq xs)) m)
  | CSet =>
      res_map (fun s => alloc (Obj pt (VSeq (map snd s))) m) (set_of fuel (m_heap m) [] xs)
  | CNamedTuple _ _ nf =>
      if nf =? 1 then
        let '(m1, l) := alloc (Obj CList (VSeq xs)) m in Ok (alloc (Obj pt (VSeq [l])) m1)
      else Err TypeError
  | _ => Err Unmodelled
  end.

(** ** load_builtins.py:311-333, load_scalar_dataset *)

(** [py_obj_type(x)] for a number class and a numpy scalar [x].
    Simplification: truncating conversions do not occur and are not modelled. *)
Definition num_convert (c : cls) (n : num) : res num :=
  match c, n with
  | CBool, _ => Ok (NB (truthy n))
  | CInt, NB b => Ok (NZ (if b then 1 else 0))
  | CInt, NZ z => Ok (NZ z)
  | CFloat, _ => res_map NF (float_of_num n)
  | CComplex, NC a b => Ok (NC a b)
  | CComplex, _ => res_map (fun f => NC f (FZero false)) (float_of_num n)
  | _, _ => Err Unmodelled
  end.
Definition load_scalar (d : hdata) (pt : cls) (m : mem) : res (mem * loc) :=
  match d with
  | DScalar _ n => res_map (fun n' => alloc (Obj pt (VNum n')) m) (num_convert (base_cls pt) n)
  | DU8 b =>
      if (length b <? 2)%nat then Err Unmodelled
      else match base_cls pt with      (* int(memoryview(...)) *)
           | CInt => res_map (fun z => alloc (Obj pt (VNum (NZ z))) m) (Z_parse b)
           | _ => Err Unmodelled
           end
  | DNull _ => Err TypeError           (* None < 2 *)
  | _ => Err Unmodelled
  end.

(** ** load_builtins.py:336-354, load_none_dataset *)
Definition load_none (m : mem) : res (mem * loc) := Ok (alloc (Obj CNoneType VNone) m).

(** ** load_builtins.py:356-393, load_list_dataset *)

(** [str(array)] of a (1,n) array of 'S1' bytes, the text a str subclass ends up with.
    Simplification: numpy's line breaks and ellipsis for long arrays are left out. *)
Fixpoint array_items_text (b : bytes) : pystr :=
  match b with
  | [] => []
  | [c] => str "b'" ++ [c] ++ str "'"
  | c :: r => str "b'" ++ [c] ++ str "' " ++ array_items_text r
  end.
Definition array_text (b : bytes) : pystr := str "[[" ++ array_items_text b ++ str "]]".

Definition attr_is (v : option attrv) (s : pystr) : bool :=
  match v with
  | Some (ABytes b) => bool_decide (b = s)
  | Some (AStr t) => bool_decide (t = s)
  | _ => false
  end.

(** [bytes.decode('ascii')], as numpy converts 'S' to 'U'. *)
Definition ascii_decode (b : bytes) : res pystr :=
  if forallb (fun c => c <? 128) b then Ok b else Err UnicodeError.
(** [bytes(array)] of dtype 'S1'. *)
Definition one_byte_each (vs : list bytes) : bytes := map (fun b => default 0 (head b)) vs.

Definition load_list (fuel : nat) (a : attrs) (d : hdata) (pt : cls) (m : mem) : res (mem * loc) :=
  match d with
  | DNull _ =>
      match base_cls pt with
      | CBytes => Ok (alloc (Obj pt (VBytes [])) m)
      | _ => construct_seq fuel pt [] m
      end
  | DS1 b =>
      if attr_is (a !! a_str_type) (str "str") then
        res_bind (utf8_decode b) (fun s =>
          match base_cls pt with
          | CStr => Ok (alloc (Obj pt (VStr s)) m)
          | CBytes => Err TypeError
          | _ => Err Unmodelled
          end)
      else
        match base_cls pt with
        | CBytes => Ok (alloc (Obj pt (VBytes b)) m)
        | CStr | CNpStr => Ok (alloc (Obj pt (VStr (array_text b))) m)
        | _ => Err Unmodelled
        end
  | DArray dt [_] vs =>
      let '(m1, ls) := alloc_list (map (fun v => Obj (CNp dt) (VNum v)) vs) m in
      construct_seq fuel pt ls m1
  | DScalar _ _ => Err TypeError
  | DVlen b =>
      if attr_is (a !! a_str_type) (str "str") then Err Unmodelled
      else match base_cls pt with
           | CBytes => Ok (alloc (Obj pt (VBytes b)) m)
           | _ => Err Unmodelled
           end
  | DFixed w [_] vs =>
      if attr_is (a !! a_str_type) (str "str") then
        res_bind (if 1 <? w then res_mapM ascii_decode vs            (* np.asarray(content, dtype=str).tolist() *)
                  else res_map (map (fun c => [c])) (utf8_decode (one_byte_each vs)))   (* list(text) *)
          (fun ss =>
             let '(m1, ls) := alloc_list (map (fun s => Obj CStr (VStr s)) ss) m in
             construct_seq fuel pt ls m1)
      else
        let '(m1, ls) := alloc_list (map (fun b => Obj CNpBytes (VBytes b)) vs) m in
        construct_seq fuel pt ls m1
  | _ => Err Unmodelled
  end.

(** ** load_builtins.py:395-418, load_hickle_4_x_string; a subclass of str is given the
    bytes. *)
Definition load_4x_string (fuel : nat) (a : attrs) (d : hdata) (pt : cls) (m : mem) : res (mem * loc) :=
  match d, a !! a_str_type with
  | DVlen b, None =>
      if bool_decide (pt = CStr) then res_map (fun s => alloc (Obj pt (VStr s)) m) (utf8_decode b)
      else match base_cls pt with
           | CStr => Ok (alloc (Obj pt (VStr (repr_bytes b))) m)
           | _ => Err Unmodelled
           end
  | DVlen _, Some _ => Err Unmodelled
  | _, _ => load_list fuel a d pt m
  end.

(** ** lookup.py:202-236, RecoveredGroup and RecoveredDataset keep all attributes but
    'type' *)
Definition rec_attrs (a : attrs) : attrs := delete a_type a.

(** ** lookup.py:1503-1515, load_pickled_data *)
Definition load_pickled (E : env) (a : attrs) (d : hdata) (m : mem) : res (mem * loc) :=
  match d with
  | DPickle c k n =>
      if e_imports E c then Ok (alloc (Obj c (VOpaque k n)) m)
      else Ok (alloc (Obj CRecoveredDataset (VRecD d (rec_attrs a))) m)
  | _ => Err Unmodelled
  end.

(** ** lookup.py:1517-1533, recover_custom_dataset; [base]: what
    [resolve_type(h_node, base_type_type=-1)] answers *)
Definition recover_dataset (a : attrs) (d : hdata) (base : bytes) (m : mem) : res (mem * loc) :=
  Ok (alloc (Obj CRecoveredDataset (VRecD d (rec_attrs (<[a_base_type := ABytes base]> a)))) m).

(** ** load_numpy.py:162-272 *)
Definition attr_dtype (a : attrs) : res bytes :=
  match a !! a_np_dtype with
  | Some (ABytes b) => Ok b
  | Some (AStr s) => Ok s
  | Some _ => Err TypeError
  | None => Err KeyError
  end.
(** [np.dtype(s)]: besides strings like '<i8', which hickle 5 writes, names like 'int64',
    which hickle 4 wrote. *)
Definition named_dtype (s : bytes) : option dtype :=
  match dtype_of_str s with
  | Some d => Some d
  | None => List.find (fun d => bool_decide ((if bool_decide (d = DBool) then str "bool" else dtype_clsname d) = s)) all_dtypes
  end.
Definition load_np_dtype (d : hdata) (m : mem) : res (mem * loc) :=
  match d with
  | DU8 b =>
      match dtype_of_str b with
      | Some dt => Ok (alloc (Obj CNpDtype (VDtype dt)) m)
      | None => Err TypeError
      end
  | _ => Err Unmodelled
  end.
(** [dtype.type(h_node[()])]: the class comes from the dtype, not from [py_obj_type]. *)
Definition load_np_scalar (a : attrs) (d : hdata) (m : mem) : res (mem * loc) :=
  res_bind (attr_dtype a) (fun s =>
    match named_dtype s, d with
    | Some dt, DScalar _ n => res_map (fun n' => alloc (Obj (CNp dt) (VNum n')) m) (cast dt n)
    | None, _ => Err TypeError
    | _, _ => Err Unmodelled
    end).

(** What kind of dtype a [np_dtype] string names.  Simplification: '<U0', for which numpy
    chooses a width itself, is not modelled. *)
Inductive adtype := ADNum (d : dtype) | ADStr (w : N) | ADObj.
Definition parse_adtype (s : bytes) : res adtype :=
  match named_dtype s with
  | Some d => Ok (ADNum d)
  | None =>
      if bool_decide (s = obj_dtype) || bool_decide (s = str "object") then Ok ADObj
      else match s with
           | a :: b :: r =>
               if bool_decide ([a; b] = str "<U") then
                 match N_parse r with
                 | Some w => if w =? 0 then Err Unmodelled else Ok (ADStr w)
                 | None => Err TypeError
                 end
               else Err TypeError
           | _ => Err TypeError
           end
  end.

(** A string as numpy keeps it in [w] code points: cut off, without trailing NULs. *)
Fixpoint strip_nul (s : pystr) : pystr :=
  match s with
  | [] => []
  | c :: r => match strip_nul r with [] => if c =? 0 then [] else [c] | r' => c :: r' end
  end.
Definition np_clip (w : N) (s : pystr) : pystr := strip_nul (take (N.to_nat w) s).

Definition arr_cls (pt : cls) : cls := if isinst pt CMatrix then pt else CNdarray.

(** Python number objects made from array elements by a conversion to object dtype. *)
Definition python_number (n : num) : obj :=
  Obj match n with NB _ => CBool | NZ _ => CInt | NF _ => CFloat | NC _ _ => CComplex end (VNum n).

Definition load_ndarray (a : attrs) (d : hdata) (pt : cls) (m : mem) : res (mem * loc) :=
  res_bind (attr_dtype a) (fun s => res_bind (parse_adtype s) (fun ad =>
    match ad with
    | ADStr w =>
        match d with
        | DS1 b => res_map (fun t => alloc (Obj CNdarray (VStrArr w [] [np_clip w t])) m) (utf8_decode b)
        | DNull _ => Err TypeError            (* bytes(h5py.Empty) *)
        | DFixed k shape vs =>
            if 1 <? k
            then res_map (fun ss => alloc (Obj CNdarray (VStrArr w shape (map (np_clip w) ss))) m) (res_mapM ascii_decode vs)
            else res_map (fun t => alloc (Obj CNdarray (VStrArr w [] [np_clip w t])) m) (utf8_decode (one_byte_each vs))
        | _ => Err Unmodelled
        end
    | ADNum dt =>
        match d with
        | DScalar _ n => res_map (fun n' => alloc (Obj (arr_cls pt) (VArr dt [] [n'])) m) (cast dt n)
        | DArray _ shape vs =>
            res_map (fun vs' => alloc (Obj (arr_cls pt) (VArr dt shape vs')) m) (res_mapM (cast dt) vs)
        | _ => Err Unmodelled
        end
    | ADObj =>
        match d with
        | DArray _ shape vs =>
            let '(m1, ls) := alloc_list (map python_number vs) m in
            Ok (alloc (Obj (arr_cls pt) (VObjArr shape ls)) m1)
        | DNull _ =>        (* np.array(h5py.Empty, dtype=object): zero dimensional *)
            let '(m1, l) := alloc (Obj (COpaque (str "h5py") (str "Empty")) (VOpaque OByValue 0)) m in
            Ok (alloc (Obj (arr_cls pt) (VObjArr [] [l])) m1)
        | _ => Err Unmodelled
        end
    end)).

(** ** load_numpy.py:244-272, load_ndarray_masked_dataset

    [d]: the dataset, [mk]: the dataset of the mask, [None] if there is none.
    NDMaskedArrayContainer.convert (load_numpy.py:307-311) gives both to np.ma.array, which
    makes bools of the mask, repeats a mask of one element and gives any other the shape of
    the data; if it has another number of elements MaskError, here ValueError, is raised.
    Simplification: arrays of numbers only. *)
Definition dataset_numbers (d : hdata) : res (list N * list num) :=
  match d with
  | DScalar _ n => Ok ([], [n])
  | DArray _ shape vs => Ok (shape, vs)
  | _ => Err Unmodelled
  end.
Definition fit_mask (n : nat) (ms : list num) : res (list num) :=
  match ms with
  | [b] => Ok (repeat b n)
  | _ => if bool_decide (length ms = n) then Ok ms else Err ValueError
  end.
Definition load_ndarray_masked (a : attrs) (d : hdata) (mk : option hdata) (pt : cls) (m : mem) : res (mem * loc) :=
  res_bind (dataset_numbers d) (fun '(shape, vs) =>
    match mk with
    | None => Err ValueError                  (* "mask not found" *)
    | Some md =>
        res_bind (dataset_numbers md) (fun '(_, ms) =>
        res_bind (attr_dtype a) (fun s => res_bind (parse_adtype s) (fun ad =>
          match ad with
          | ADNum dt =>
              res_bind (res_mapM (cast dt) vs) (fun vs' =>
              res_bind (res_bind (res_mapM (cast DBool) ms) (fit_mask (length vs))) (fun ms' =>
                let '(m1, ld) := alloc (Obj CNdarray (VArr dt shape vs')) m in
                let '(m2, lm) := alloc (Obj CNdarray (VArr DBool shape ms')) m1 in
                Ok (alloc (Obj pt (VMasked ld lm)) m2)))
          | _ => Err Unmodelled
          end)))
    end).

(** ** Load functions a loader can be registered with *)
Inductive loadfn :=
| LScalar | LNone | LList | L4xString | LPickled | LNothing | LRecover
| LNpScalar | LNpDtype | LNdarray
| LNdarrayMasked.    (** load_numpy.py:244-272, hickle 4.0.0 masked arrays *)
Global Instance loadfn_eq_dec : EqDecision loadfn.
Proof. solve_decision. Defined.

Definition load_fn (E : env) (fuel : nat) (fn : loadfn) (a : attrs) (d : hdata) (orig : bytes)
    (pt : cls) (m : mem) : res (mem * loc) :=
  match fn with
  | LScalar => load_scalar d pt m
  | LNone => load_none m
  | LList => load_list fuel a d pt m
  | L4xString => load_4x_string fuel a d pt m
  | LPickled => load_pickled E a d m
  | LNothing => Ok (m, nobody)          (* lookup.py:95-99 *)
  | LRecover => recover_dataset a d orig m
  | LNpScalar => load_np_scalar a d m
  | LNpDtype => load_np_dtype d m
  | LNdarray => load_ndarray a d pt m
  | LNdarrayMasked => Err Unmodelled    (* needs the file: [load_dataset], LoadModel.v *)
  end.

(** ** PyContainer classes *)
Inductive contk :=
| KList | KSet | KDict
| KExpand      (** lookup.py:1424-1458, ExpandReferenceContainer *)
| KFirst       (** lookup.py:1412-1421 _DictItemContainer, hickle.py:253-260 RootContainer *)
| KNo          (** lookup.py:1401-1409, NoContainer *)
| KRecover     (** lookup.py:1535-1571, RecoverGroupContainer *)
| KNDArray | KMasked     (** load_numpy.py:274-311 *)
| KSparse.               (** load_scipy.py:54-114 *)
Global Instance contk_eq_dec : EqDecision contk.
Proof. solve_decision. Defined.

(** An entry of the content list of DictLikeContainer: [nobody_is_my_name], a new pair
    of key object and item, or an item taken as pair. *)
Inductive dslot := SHole | SPair (k v : loc) | SItem (l : loc).

Inductive cstate :=
| SList (xs : list loc)
| SSet (s : list (hv * loc))
| SDict (slots : list dslot)
| SNd (l : loc)                        (** NDArrayLikeContainer after "data" *)
| SNamed (kvs : list (pystr * loc))
| SSlots (xs : list (option loc))      (** SparseMatrixContainer *)
| SRec (items : list (pystr * (loc * option attrs))).

(** [nobody_is_my_name * num_items], load_builtins.py:434-438. *)
Definition num_items (a : attrs) : nat :=
  match a !! a_num_items with Some (AInt z) => Z.to_nat z | _ => O end.

Definition cont_init (k : contk) (a : attrs) : cstate :=
  match k with
  | KList | KNDArray => SList (repeat nobody (num_items a))
  | KSet => SSet []
  | KDict => SDict []
  | KExpand | KFirst | KNo => SList []
  | KRecover => SRec []
  | KMasked => SNamed []
  | KSparse => SSlots (repeat None 4)
  end.

(** [re.compile(r'\d+$').search(name)]. *)
Fixpoint leading_digits (s : pystr) : pystr :=
  match s with c :: r => if is_digit c then c :: leading_digits r else [] | [] => [] end.
Definition trailing_int (nm : pystr) : option N := N_parse (rev (leading_digits (rev nm))).

(** Extend to at least [i+1] entries and set entry [i]; [IndexError] if already set,
    load_builtins.py:451-455 and :515-519. *)
Definition set_slot {A} (hole : A) (is_hole : A -> bool) (i : nat) (x : A) (xs : list A) : res (list A) :=
  let xs' := xs ++ repeat hole (i + 1 - length xs) in
  match xs' !! i with
  | Some y => if is_hole y then Ok (<[i := x]> xs') else Err IndexError
  | None => Err Unmodelled
  end.

Definition index_of (v : option attrv) : res (option nat) :=
  match v with
  | None => Ok None
  | Some (AInt z) => if (z <? 0)%Z then Err Unmodelled else Ok (Some (Z.to_nat z))
  | Some _ => Err TypeError
  end.

(** load_builtins.py:440-456, ListLikeContainer.append. *)
Definition list_append (nm : pystr) (item : loc) (a : attrs) (xs : list loc) : res (list loc) :=
  res_bind (index_of (a !! a_item_index)) (fun oi =>
    let put i := set_slot nobody (N.eqb nobody) i item xs in
    match oi with
    | Some i => put i
    | None =>
        match trailing_int nm with
        | Some i => put (N.to_nat i)
        | None => if item =? nobody then Ok xs else Err KeyError
        end
    end).

(** load_builtins.py:477-523, DictLikeContainer.append. *)
Definition swap_slashes (s : pystr) : pystr := map (fun c => if c =? 92 then 47 else c) s.
Definition strip_ends (s : pystr) : pystr := removelast (tail s).      (* s[1:-1] *)
Definition strip_b (s : pystr) : pystr := removelast (tail (tail s)).  (* s[2:-1] *)

Definition load_key (E : env) (kt : pystr) (s : pystr) : res obj :=
  if bool_decide (kt = str "float") then
    match e_fparse E s with Some f => Ok (Obj CFloat (VNum (NF f))) | None => Err ValueError end
  else if bool_decide (kt = str "bool") then
    Ok (Obj CBool (VNum (NB (match s with [] => false | _ => true end))))   (* bool(name) *)
  else if bool_decide (kt = str "int") then
    res_map (fun z => Obj CInt (VNum (NZ z))) (Z_parse s)
  else if bool_decide (kt = str "complex") then
    match e_cparse E s with Some (a, b) => Ok (Obj CComplex (VNum (NC a b))) | None => Err ValueError end
  else if bool_decide (kt = str "NoneType") then Ok (Obj CNoneType VNone)
  else if bool_decide (kt = str "tuple") then Err Unmodelled               (* ast.literal_eval *)
  else Err ValueError.

(** The key object made from name and [key_base_type]; [None]: the item is the pair. *)
Definition dict_key (E : env) (nm : pystr) (kt : pystr) : res (option obj) :=
  if bool_decide (kt = str "str") then
    Ok (Some (Obj CStr (VStr (match nm with
                              | 34 :: _ => strip_ends nm
                              | _ => strip_ends (swap_slashes nm)
                              end))))
  else if bool_decide (kt = str "bytes") then
    match nm with
    | 98 :: 34 :: _ => res_map (fun b => Some (Obj CBytes (VBytes b))) (utf8_encode (strip_b nm))
    | _ => Ok (Some (Obj CStr (VStr (strip_ends (swap_slashes nm)))))
    end
  else if bool_decide (kt = key_value_type) then Ok None
  else res_map Some (load_key E kt (swap_slashes nm)).

Definition slot_is_hole (s : dslot) : bool :=
  match s with SHole => true | SItem l => l =? nobody | SPair _ _ => false end.

Definition dict_append (E : env) (nm : pystr) (item : loc) (a : attrs) (slots : list dslot) (m : mem)
  : res (mem * list dslot) :=
  let kt := match a !! a_key_base_type with Some (ABytes b) => b | Some (AStr s) => s | _ => [] end in
  res_bind (dict_key E nm kt) (fun ok =>
    let '(m1, slot) := match ok with
                       | Some o => let '(m1, l) := alloc o m in (m1, SPair l item)
                       | None => (m, SItem item)
                       end in
    res_bind (index_of (a !! a_key_idx)) (fun oi =>
      match oi with
      | Some i => res_map (fun s => (m1, s)) (set_slot SHole slot_is_hole i slot slots)
      | None =>
          match slot with
          | SPair _ v => if v =? nobody then Ok (m1, slots) else Err KeyError
          | _ => Err Unmodelled
          end
      end)).

(** load_numpy.py:282-290, NDArrayLikeContainer.append. *)
Definition nd_append (nm : pystr) (item : loc) (a : attrs) (cs : cstate) : res cstate :=
  if bool_decide (a !! a_base_type = Some (ABytes (str "pickle"))) || bool_decide (nm = str "data") then Ok (SNd item)
  else match cs with
       | SList xs => res_map SList (list_append nm item a xs)
       | _ => Err Unmodelled
       end.

(** load_scipy.py:109-111, SparseMatrixContainer.append. *)
Definition sparse_index (nm : pystr) : option nat :=
  if bool_decide (nm = str "data") then Some 0%nat
  else if bool_decide (nm = str "indices") then Some 1%nat
  else if bool_decide (nm = str "indptr") then Some 2%nat
  else if bool_decide (nm = str "shape") then Some 3%nat
  else None.

Definition is_recovered (m : mem) (l : loc) : bool :=
  match m_heap m !! l with Some o => isinst (ocls o) CRecoverCustom | None => false end.

Definition cont_append (E : env) (fuel : nat) (k : contk) (nm : pystr) (item : loc) (a : attrs)
    (cs : cstate) (m : mem) : res (mem * cstate) :=
  match k, cs with
  | KList, SList xs => res_map (fun xs => (m, SList xs)) (list_append nm item a xs)
  | KSet, SSet s => res_map (fun s => (m, SSet s)) (set_add fuel (m_heap m) s item)
  | KDict, SDict slots => res_map (fun '(m, s) => (m, SDict s)) (dict_append E nm item a slots m)
  | (KExpand | KFirst | KNo), SList xs => Ok (m, SList (xs ++ [item]))
  | KRecover, SRec items =>
      Ok (m, SRec (alist_set nm (item, if is_recovered m item then None else Some (rec_attrs a)) items))
  | KNDArray, _ => res_map (fun cs => (m, cs)) (nd_append nm item a cs)
  | KMasked, SNamed kvs => Ok (m, SNamed (alist_set nm item kvs))
  | KSparse, SSlots xs =>
      match sparse_index nm with
      | Some i => Ok (m, SSlots (<[i := Some item]> xs))
      | None => Err TypeError
      end
  | _, _ => Err Unmodelled
  end.

(** ** convert *)

(** An element of the sequence handed to [dict(...)] as a pair. *)
Definition slot_pair (h : heap) (s : dslot) : res (loc * loc) :=
  match s with
  | SHole => Err ValueError                 (* () has length 0, 2 is required *)
  | SPair k v => Ok (k, v)
  | SItem l =>
      match h !! l with
      | Some (Obj c (VSeq [k; v])) =>
          if isinst c CSet then Err Unmodelled else Ok (k, v)
      | Some (Obj _ (VSeq _)) => Err ValueError
      | Some (Obj _ (VNum _)) | Some (Obj _ VNone) => Err TypeError
      | _ => Err Unmodelled
      end
  end.

(** [collections.Counter(content)] counts the elements of the list, i.e. the pairs. *)
Fixpoint count_put (k : hv) (l : loc) (d : list (hv * (loc * Z))) : list (hv * (loc * Z)) :=
  match d with
  | [] => [(k, (l, 1%Z))]
  | (k', (l', n)) :: r =>
      if bool_decide (k = k') then (k', (l', (n + 1)%Z)) :: r else (k', (l', n)) :: count_put k l r
  end.
Fixpoint count_slots (fuel : nat) (slots : list dslot) (d : list (hv * (loc * Z))) (m : mem)
  : res (mem * list (hv * (loc * Z))) :=
  match slots with
  | [] => Ok (m, d)
  | s :: r =>
      let '(m1, l) := match s with
                      | SHole => (m, nobody)
                      | SPair k v => alloc (Obj CTuple (VSeq [k; v])) m
                      | SItem l => (m, l)
                      end in
      res_bind (hval fuel (m_heap m1) l) (fun k => count_slots fuel r (count_put k l d) m1)
  end.

(** load_builtins.py:521-523. *)
Definition dict_convert (fuel : nat) (pt : cls) (slots : list dslot) (m : mem) : res (mem * loc) :=
  match base_cls pt with
  | CDict | COrderedDict =>
      res_bind (res_mapM (slot_pair (m_heap m)) slots) (fun ps =>
        res_map (fun d => alloc (Obj pt (VDict (map snd d))) m) (dict_of fuel (m_heap m) [] ps))
  | CCounter =>
      res_map (fun '(m1, d) =>
          let '(m2, vs) := alloc_list (map (fun '(_, (_, n)) => Obj CInt (VNum (NZ n))) d) m1 in
          alloc (Obj pt (VDict (zip (map (fun '(_, (l, _)) => l) d) vs))) m2)
        (count_slots fuel slots [] m)
  | CDefaultDict => Err TypeError          (* first argument must be callable or None *)
  | _ => Err Unmodelled
  end.

(** Shape numpy discovers when converting nested lists and tuples to an array: dimensions
    are added as long as all elements are sequences or arrays of the same length.
    Simplification: instances of classes hickle does not know are no sequences. *)
Fixpoint common_prefix (a b : list N) : list N :=
  match a, b with
  | x :: a', y :: b' => if x =? y then x :: common_prefix a' b' else []
  | _, _ => []
  end.
Definition common_dims (ss : list (list N)) : list N :=
  match ss with [] => [] | s :: r => foldr common_prefix s r end.
Fixpoint discover (fuel : nat) (h : heap) (l : loc) : list N :=
  match fuel with
  | O => []
  | S f =>
      match h !! l with
      | Some (Obj c (VSeq xs)) =>
          if isinst c CList || isinst c CTuple
          then N.of_nat (length xs) :: common_dims (map (discover f h) xs)
          else []
      | Some (Obj _ (VArr _ shape _ | VStrArr _ shape _ | VObjArr shape _)) => take fuel shape
      | _ => []
      end
  end.
(** The elements found [depth] levels down; [None]: an array is taken apart.
    Simplification: the elements of such an array are not modelled. *)
Fixpoint leaves (depth : nat) (h : heap) (l : loc) : option (list loc) :=
  match depth with
  | O => Some [l]
  | S d =>
      match h !! l with
      | Some (Obj _ (VSeq xs)) => option_map (@concat loc) (mapM (leaves d h) xs)
      | _ => None
      end
  end.
Definition str_of (h : heap) (l : loc) : res pystr :=
  match h !! l with Some (Obj _ (VStr s)) => Ok s | _ => Err Unmodelled end.
(** Simplification: what numpy does with elements that are arrays without dimensions,
    masked arrays, sparse matrices, dtypes or recovered datasets is not modelled. *)
Definition awkward (h : heap) (l : loc) : bool :=
  match h !! l with
  | Some (Obj _ (VArr _ [] _ | VStrArr _ [] _ | VObjArr [] _ | VMasked _ _ | VSparse _ _ _ _ | VDtype _ | VRecD _ _)) => true
  | _ => false
  end.

(** load_numpy.py:292-294, [np.array(self._content, dtype=...)]; at most 32 dimensions. *)
Definition nd_convert (a : attrs) (pt : cls) (cs : cstate) (m : mem) : res (mem * loc) :=
  let '(m1, l) := match cs with
                  | SNd l => (m, l)
                  | SList xs => alloc (Obj CList (VSeq xs)) m
                  | _ => (m, nobody)
                  end in
  let h := m_heap m1 in
  res_bind (attr_dtype a) (fun s => res_bind (parse_adtype s) (fun ad =>
    let shape := discover 32 h l in
    match leaves (length shape) h l with
    | None => Err Unmodelled
    | Some ls =>
        if existsb (awkward h) ls then Err Unmodelled
        else
          let build v := if bool_decide (pt = CNdarray) || bool_decide (pt = moc_lambda) then Ok (alloc (Obj CNdarray v) m1) else Err Unmodelled in
          match ad with
          | ADObj => build (VObjArr shape ls)
          | ADStr w =>
              res_bind (res_mapM (str_of h) ls) (fun ss =>
                build (VStrArr w shape (map (np_clip w) ss)))
          | ADNum _ => Err Unmodelled
          end
    end)).

(** load_numpy.py:307-311. *)
Definition masked_convert (pt : cls) (kvs : list (pystr * loc)) (m : mem) : res (mem * loc) :=
  match alist_get (str "data") kvs, alist_get (str "mask") kvs with
  | Some d, Some k => Ok (alloc (Obj pt (VMasked d k)) m)
  | _, _ => Err KeyError
  end.

(** load_scipy.py:113-114. *)
Definition sparse_convert (pt : cls) (xs : list (option loc)) (m : mem) : res (mem * loc) :=
  match xs with
  | [Some d; Some i; Some p; Some s] => Ok (alloc (Obj pt (VSparse d i p s)) m)
  | None :: _ => Err AttributeError         (* None.dtype *)
  | _ => Err Unmodelled
  end.

Definition cont_convert (fuel : nat) (k : contk) (a : attrs) (orig : bytes) (pt : cls) (cs : cstate) (m : mem)
  : res (mem * loc) :=
  match k, cs with
  | KList, SList xs =>
      if bool_decide (pt = CList) then Ok (alloc (Obj CList (VSeq xs)) m) else construct_seq fuel pt xs m
  | KSet, SSet s =>
      if bool_decide (pt = CSet) then Ok (alloc (Obj CSet (VSeq (map snd s))) m)
      else construct_seq fuel pt (map snd s) m
  | KDict, SDict slots => dict_convert fuel pt slots m
  | (KExpand | KFirst), SList xs => match xs with x :: _ => Ok (m, x) | [] => Err IndexError end
  | KNo, _ => load_none m
  | KRecover, SRec items =>
      Ok (alloc (Obj CRecoveredGroup (VRecG items (rec_attrs (<[a_base_type := ABytes orig]> a)))) m)
  | KNDArray, _ => nd_convert a pt cs m
  | KMasked, SNamed kvs => masked_convert pt kvs m
  | KSparse, SSlots xs => sparse_convert pt xs m
  | _, _ => Err Unmodelled
  end.
