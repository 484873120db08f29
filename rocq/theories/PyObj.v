(** * PyObj: classes, the object heap, equality and hashing of keys

    The part of the Python object model hickle looks at: [obj.__class__],
    [type.mro(cls)], [cls.__module__], [cls.__name__], [isinstance], [id(obj)] and the
    contents of builtin containers.  Nothing here is hickle code. *)
From Verif Require Import Base Num.

(** ** Classes

    [CSub m n b] is a class [n] of module [m] with the single base [b] and an empty
    body ("class n(b): pass"); [COpaque m n] any other class whose only base is
    [object].  Simplification: multiple inheritance and metaclasses are not modelled. *)
Inductive sparse_kind := SCsr | SCsc | SBsr.

Inductive cls :=
| CObject
| CNoneType | CBool | CInt | CFloat | CComplex
| CStr | CBytes | CList | CTuple | CSet | CDict
| COrderedDict | CCounter | CDefaultDict
| CNamedTuple (m n : pystr) (nfields : N)
| CNpGeneric | CNpNumber
| CNp (d : dtype)                 (** np.bool_, np.int8, ..., np.complex128 *)
| CNpStr | CNpBytes               (** np.str_, np.bytes_ *)
| CNdarray | CMatrix | CMasked | CNpDtype
| CSparse (k : sparse_kind)
| CType                           (** the class of classes *)
| CFunction
| CNodeReference | CDictItem | CRecoverCustom   (** lookup.py:119,126,187 *)
| CRecoveredGroup | CRecoveredDataset           (** lookup.py:202,215 *)
| CSub (m n : pystr) (base : cls)
| COpaque (m n : pystr).

Global Instance sparse_kind_eq_dec : EqDecision sparse_kind.
Proof. solve_decision. Defined.
Global Instance cls_eq_dec : EqDecision cls.
Proof. solve_decision. Defined.

(** [type.mro(cls)].  Simplification: intermediate abstract numpy classes hickle never
    refers to (floating, inexact, character, ...) are left out. *)
Fixpoint mro (c : cls) : list cls :=
  match c with
  | CObject => [CObject]
  | CBool => [CBool; CInt; CObject]
  | COrderedDict | CCounter | CDefaultDict => [c; CDict; CObject]
  | CNamedTuple _ _ _ => [c; CTuple; CObject]
  | CNpGeneric => [CNpGeneric; CObject]
  | CNpNumber => [CNpNumber; CNpGeneric; CObject]
  | CNp DBool => [c; CNpGeneric; CObject]
  | CNp (DFloat F8) => [c; CNpNumber; CNpGeneric; CFloat; CObject]
  | CNp (DComplex C16) => [c; CNpNumber; CNpGeneric; CComplex; CObject]
  | CNp _ => [c; CNpNumber; CNpGeneric; CObject]
  | CNpStr => [c; CStr; CNpGeneric; CObject]
  | CNpBytes => [c; CBytes; CNpGeneric; CObject]
  | CMatrix | CMasked => [c; CNdarray; CObject]
  | CRecoveredGroup => [c; CDict; CRecoverCustom; CObject]
  | CRecoveredDataset => [c; CNdarray; CRecoverCustom; CObject]
  | CSub _ _ b => c :: mro b
  | _ => [c; CObject]
  end.

(** [isinstance(x, b)] where [c] is [x.__class__]. *)
Definition isinst (c b : cls) : bool := bool_decide (b ∈ mro c).

(** [cls.__module__]. *)
Definition cls_module (c : cls) : pystr :=
  match c with
  | COrderedDict | CCounter | CDefaultDict => str "collections"
  | CNamedTuple m _ _ => m
  | CNpGeneric | CNpNumber | CNp _ | CNpStr | CNpBytes | CNdarray | CNpDtype => str "numpy"
  | CMatrix => str "numpy"
  | CMasked => str "numpy.ma.core"
  | CSparse SCsr => str "scipy.sparse._csr"
  | CSparse SCsc => str "scipy.sparse._csc"
  | CSparse SBsr => str "scipy.sparse._bsr"
  | CNodeReference | CDictItem | CRecoverCustom | CRecoveredGroup | CRecoveredDataset =>
      str "hickle.lookup"
  | CSub m _ _ => m
  | COpaque m _ => m
  | _ => str "builtins"
  end.

(** [cls.__name__]. *)
Definition dtype_clsname (d : dtype) : pystr :=
  str match d with
      | DBool => "bool_"
      | DInt W1 => "int8" | DInt W2 => "int16" | DInt W4 => "int32" | DInt W8 => "int64"
      | DUInt W1 => "uint8" | DUInt W2 => "uint16" | DUInt W4 => "uint32" | DUInt W8 => "uint64"
      | DFloat F2 => "float16" | DFloat F4 => "float32" | DFloat F8 => "float64"
      | DComplex C8 => "complex64" | DComplex C16 => "complex128"
      end.
Definition cls_name (c : cls) : pystr :=
  match c with
  | CObject => str "object" | CNoneType => str "NoneType" | CBool => str "bool"
  | CInt => str "int" | CFloat => str "float" | CComplex => str "complex"
  | CStr => str "str" | CBytes => str "bytes" | CList => str "list" | CTuple => str "tuple"
  | CSet => str "set" | CDict => str "dict" | COrderedDict => str "OrderedDict"
  | CCounter => str "Counter" | CDefaultDict => str "defaultdict"
  | CNamedTuple _ n _ => n
  | CNpGeneric => str "generic" | CNpNumber => str "number"
  | CNp d => dtype_clsname d
  | CNpStr => str "str_" | CNpBytes => str "bytes_"
  | CNdarray => str "ndarray" | CMatrix => str "matrix" | CMasked => str "MaskedArray"
  | CNpDtype => str "dtype"
  | CSparse SCsr => str "csr_matrix" | CSparse SCsc => str "csc_matrix"
  | CSparse SBsr => str "bsr_matrix"
  | CType => str "type" | CFunction => str "function"
  | CNodeReference => str "NodeReference" | CDictItem => str "_DictItem"
  | CRecoverCustom => str "AttemptRecoverCustom"
  | CRecoveredGroup => str "RecoveredGroup" | CRecoveredDataset => str "RecoveredDataset"
  | CSub _ n _ => n
  | COpaque _ n => n
  end.

(** ** What an HDF5 attribute or dataset can hold

    Declared here because recovered objects (lookup.py:202-236) carry file contents.
    Bytes written by [pickle.dumps] are represented by what was pickled; that
    [pickle.loads] gives it back is an assumption about pickle. *)
Notation addr := N (only parsing).   (** identity of an HDF5 object, [h_node.id] *)

Inductive attrv :=
| AInt (z : Z)
| ABool (b : bool)
| ABytes (b : bytes)
| AStr (s : pystr)
| ARef (a : addr)        (** object reference *)
| APickle (c : cls).     (** hickle 4.x: the class pickled into the attribute; [CFunction]:
                             a lambda, which [pickle.loads] refuses with TypeError *)
Global Instance attrv_eq_dec : EqDecision attrv.
Proof. solve_decision. Defined.
Notation attrs := (gmap (list N) attrv) (only parsing).

(** How instances of a class hickle knows nothing about compare and hash. *)
Inductive ohash := OByValue | OById | OUnhashable.
Global Instance ohash_eq_dec : EqDecision ohash.
Proof. solve_decision. Defined.

Inductive null_kind := KVoid | KInt | KS1.
Global Instance null_kind_eq_dec : EqDecision null_kind.
Proof. solve_decision. Defined.

Inductive hdata :=
| DNull (k : null_kind)                              (** shape None, no elements *)
| DScalar (d : dtype) (n : num)                      (** shape () *)
| DArray (d : dtype) (shape : list N) (vs : list num)
| DU8 (b : bytes)                                    (** 1-D array of uint8 *)
| DS1 (b : bytes)                                    (** shape (1,n), dtype 'S1' *)
| DRefTo (a : addr)                                  (** scalar of reference dtype *)
| DPickle (c : cls) (k : ohash) (n : N)              (** 1-D uint8, a pickled instance *)
| DPickleCls (c : cls)                               (** (1,n) 'S1', a pickled class *)
| DVlen (b : bytes)                                  (** variable length string (hickle 4) *)
| DFixed (w : N) (shape : list N) (vs : list bytes). (** array of dtype 'S{w}' (hickle 4), the elements
                                                         as numpy shows them, without trailing NULs *)
Global Instance hdata_eq_dec : EqDecision hdata.
Proof. solve_decision. Defined.

(** ** Objects *)
Notation loc := N (only parsing).    (** [id(obj)] *)

Inductive val :=
| VNone
| VNum (n : num)
| VStr (s : pystr)
| VBytes (b : bytes)
| VSeq (xs : list loc)              (** list, tuple; set: in iteration order *)
| VDict (kvs : list (loc * loc))    (** in insertion order *)
| VArr (d : dtype) (shape : list N) (vs : list num)      (** numeric ndarray, C order *)
| VStrArr (width : N) (shape : list N) (vs : list pystr) (** ndarray of dtype '<U{width}' *)
| VObjArr (shape : list N) (vs : list loc)               (** ndarray of dtype object *)
| VDtype (d : dtype)                                     (** np.dtype instance *)
| VMasked (data mask : loc)                              (** masked array, [.data], [.mask] *)
| VSparse (data indices indptr shape : loc)              (** scipy.sparse *)
| VRecG (items : list (pystr * (loc * option attrs))) (at_ : attrs)  (** RecoveredGroup *)
| VRecD (d : hdata) (at_ : attrs)                        (** RecoveredDataset *)
| VOpaque (k : ohash) (state : N).  (** any other instance; its state is a number *)

Record obj := Obj { ocls : cls; oval : val }.

(** The heap.  Location 0 holds the empty tuple, of which CPython has exactly one
    instance; hickle uses it as "no data" marker [nobody_is_my_name]
    (helpers.py:20). *)
Notation heap := (gmap N obj) (only parsing).
Definition nobody : loc := 0.
(** lookup.py:1574-1594: the function standing for pickled lambdas in files of hickle 4,
    represented by a class of that name. *)
Definition moc_lambda : cls := COpaque (str "hickle.lookup") (str "_moc_numpy_array_object_lambda").
(** load_scipy.py:14-18: the function that is the type of the sparse matrices in files of
    hickle 4, represented in the same way. *)
Definition return_first : cls := COpaque (str "hickle.loaders.load_scipy") (str "return_first").
Definition empty_tuple : obj := Obj CTuple (VSeq []).

(** ** [np.dtype(cls)] *)
Inductive npdtype := PNum (d : dtype) | PStr | PBytes | PObject.
Global Instance npdtype_eq_dec : EqDecision npdtype.
Proof. solve_decision. Defined.

Fixpoint np_generic_dtype (c : cls) : option npdtype :=
  match c with
  | CNp d => Some (PNum d)
  | CNpStr => Some PStr
  | CNpBytes => Some PBytes
  | CSub _ _ b => np_generic_dtype b
  | _ => None
  end.
(** Exactly the builtin classes and the numpy scalar classes (with their subclasses)
    have a dtype of their own; every other class gives object. *)
Definition np_dtype_of_cls (c : cls) : npdtype :=
  match c with
  | CBool => PNum DBool
  | CInt => PNum (DInt W8)
  | CFloat => PNum (DFloat F8)
  | CComplex => PNum (DComplex C16)
  | CStr => PStr
  | CBytes => PBytes
  | _ => match np_generic_dtype c with Some d => d | None => PObject end
  end.

(** ** Equality of hashable objects, as seen by set and dict

    Two objects are the same key when they are identical or compare equal.  [hval]
    computes a canonical form such that key equality is equality of forms.  NaN is
    equal to nothing but itself as an object.  A tuple is [HCons a (HCons b .. HNil)]. *)
Inductive hv :=
| HNone
| HNum (re im : dy)
| HNan (l : loc)
| HStr (s : pystr)
| HBytes (b : bytes)
| HNil
| HCons (a r : hv)
| HId (l : loc)
| HVal (c : cls) (n : N)
| HDtype (d : dtype).
Global Instance hv_eq_dec : EqDecision hv.
Proof. solve_decision. Defined.

Definition unsigned_zero (f : dy) : dy := match f with FZero _ => FZero false | _ => f end.
Definition is_nan (f : dy) : bool := match f with FNaN => true | _ => false end.
Definition num_nan (n : num) : bool := let '(a, b) := num_val n in is_nan a || is_nan b.
Definition num_hv (l : loc) (n : num) : hv :=
  let '(a, b) := num_val n in
  if is_nan a || is_nan b then HNan l else HNum (unsigned_zero a) (unsigned_zero b).

(** Tuples and their subclasses are hashable when their elements are; lists, sets,
    dicts and arrays are not. *)
Fixpoint hval (fuel : nat) (h : heap) (l : loc) : res hv :=
  match fuel with
  | O => Err OutOfFuel
  | S f =>
      match h !! l with
      | None => Err Unmodelled
      | Some (Obj c v) =>
          match v with
          | VNone => Ok HNone
          | VNum n => Ok (num_hv l n)
          | VStr s => Ok (HStr s)
          | VBytes b => Ok (HBytes b)
          | VSeq xs =>
              if isinst c CTuple
              then res_map (foldr HCons HNil) (res_mapM (hval f h) xs)
              else Err TypeError
          | VDict _ | VArr _ _ _ | VStrArr _ _ _ | VObjArr _ _ | VMasked _ _ | VRecG _ _ | VRecD _ _ =>
              Err TypeError
          | VSparse _ _ _ _ => Ok (HId l)
          | VDtype d => Ok (HDtype d)
          | VOpaque OByValue n => Ok (HVal c n)
          | VOpaque OById _ => Ok (HId l)
          | VOpaque OUnhashable _ => Err TypeError
          end
      end
  end.

(** [set.add] on the elements in order, keeping the first of equal ones. *)
Fixpoint has_key (k : hv) (l : list (hv * loc)) : bool :=
  match l with [] => false | (k', _) :: r => bool_decide (k = k') || has_key k r end.
Definition set_add (fuel : nat) (h : heap) (s : list (hv * loc)) (x : loc) : res (list (hv * loc)) :=
  res_map (fun k => if has_key k s then s else s ++ [(k, x)]) (hval fuel h x).
Fixpoint set_of (fuel : nat) (h : heap) (s : list (hv * loc)) (xs : list loc) : res (list (hv * loc)) :=
  match xs with
  | [] => Ok s
  | x :: r => res_bind (set_add fuel h s x) (fun s' => set_of fuel h s' r)
  end.

(** [dict(pairs)]: an existing key keeps its object and position, the value is
    replaced. *)
Fixpoint dict_put (k : hv) (kl vl : loc) (d : list (hv * (loc * loc))) : list (hv * (loc * loc)) :=
  match d with
  | [] => [(k, (kl, vl))]
  | (k', (kl', vl')) :: r =>
      if bool_decide (k = k') then (k', (kl', vl)) :: r else (k', (kl', vl')) :: dict_put k kl vl r
  end.
Fixpoint dict_of (fuel : nat) (h : heap) (d : list (hv * (loc * loc))) (ps : list (loc * loc))
  : res (list (hv * (loc * loc))) :=
  match ps with
  | [] => Ok d
  | (kl, vl) :: r => res_bind (hval fuel h kl) (fun k => dict_of fuel h (dict_put k kl vl d) r)
  end.
