(** * Spec: what "the same object graph" means

    Independent of how hickle works: a relation between a heap before dumping and the heap
    of the process that loaded the file, and the class of object graphs for which the
    round trip is claimed.  Both only use the Python object model of PyObj.v. *)
From Verif Require Import Base Utf8 Num PyObj Env LoadFns Registry.

(** ** References held by an object *)
Definition refs (o : obj) : list loc :=
  match oval o with
  | VSeq xs => xs
  | VDict kvs => map fst kvs ++ map snd kvs
  | VObjArr _ xs => xs
  | VMasked d m => [d; m]
  | VSparse d i p s => [d; i; p; s]
  | _ => []
  end.

(** ** Equality of graphs *)

(** Class and value of a number belong together. *)
Definition number_ok (c : cls) (n : num) : Prop :=
  match base_cls c, n with
  | CBool, NB _ => True
  | CInt, NZ _ => True
  | CFloat, NF f => fits F8 f = true
  | CComplex, NC a b => fits F8 a = true /\ fits F8 b = true
  | CNp d, _ => c = CNp d /\ num_of_dtype d n = true
  | _, _ => False
  end.

(** [x] in [h] and [y] in [h'] are numbers of equal value, of whatever class; [y] is a
    number its class can have. *)
Definition same_number (h h' : heap) (x y : loc) : Prop :=
  exists c n c' n', h !! x = Some (Obj c (VNum n)) /\ h' !! y = Some (Obj c' (VNum n')) /\
                    num_val n' = num_val n /\ number_ok c' n'.
(** None, numbers, strings and bytes. *)
Definition plain (o : obj) : Prop :=
  match oval o with VNone | VNum _ | VStr _ | VBytes _ => True | _ => False end.
(** Plain objects of the same class and contents. *)
Definition same_leaf (h h' : heap) (x y : loc) : Prop :=
  exists o, h !! x = Some o /\ plain o /\ h' !! y = Some o.

(** Numbers with a numpy dtype of their own only: builtin and numpy number classes. *)
Definition all_numbers (h : heap) (xs : list loc) : Prop :=
  forall x, x ∈ xs -> exists c n d, h !! x = Some (Obj c (VNum n)) /\ np_dtype_of_cls c = PNum d.
(** Numpy scalars of one class. *)
Definition numpy_of (h : heap) (d : dtype) (xs : list loc) : Prop :=
  forall x, x ∈ xs -> exists n, h !! x = Some (Obj (CNp d) (VNum n)).
(** Numbers of classes with one numpy dtype: of one numpy class, or of a builtin class and the
    numpy class numpy takes it for. *)
Definition of_dtype (h : heap) (d : dtype) (xs : list loc) : Prop :=
  forall x, x ∈ xs -> exists c n, h !! x = Some (Obj c (VNum n)) /\ np_dtype_of_cls c = PNum d.
(** The numbers [xs] have become numpy scalars of one class with the same values; if they
    had one dtype it is the dtype of that class. *)
Definition same_numbers (h h' : heap) (xs ys : list loc) : Prop :=
  all_numbers h xs /\ Forall2 (same_number h h') xs ys /\
  exists d, numpy_of h' d ys /\ forall d', of_dtype h d' xs -> xs = [] \/ d' = d.

Definition same_items (h h' : heap) (R : loc -> loc -> Prop) (xs ys : list loc) : Prop :=
  Forall2 R xs ys \/ same_numbers h h' xs ys.

(** Numbers of one builtin class. *)
Definition python_of (h : heap) (c : cls) (xs : list loc) : Prop :=
  c ∈ [CBool; CInt; CFloat; CComplex] /\ forall x, x ∈ xs -> exists n, h !! x = Some (Obj c (VNum n)).
(** A row of an array of objects; if it consists of numbers, they may have become numbers of
    one class, be it a numpy or a builtin one.  Numbers of one builtin class that have become
    builtin numbers keep it. *)
Definition same_row (h h' : heap) (R : loc -> loc -> Prop) (xs ys : list loc) : Prop :=
  same_items h h' R xs ys \/
  all_numbers h xs /\ Forall2 (same_number h h') xs ys /\
  exists c, python_of h' c ys /\ forall c', python_of h c' xs -> xs = [] \/ c' = c.
(** The elements of an array with the given [shape] have been kept row by row. *)
Definition same_rows (h h' : heap) (R : loc -> loc -> Prop) (shape : list N) (xs ys : list loc) : Prop :=
  exists rows rows', xs = concat rows /\ ys = concat rows' /\
    Forall (fun r => N.of_nat (length r) = last shape 1) rows /\ Forall2 (same_row h h' R) rows rows'.

(** The classes whose instances are identified as dict keys by their [repr]. *)
Definition builtin_scalars : list cls := [CFloat; CBool; CInt; CComplex; CNoneType].

Definition same_pair (h h' : heap) (R : loc -> loc -> Prop) (p q : loc * loc) : Prop :=
  (R (fst p) (fst q) \/ same_leaf h h' (fst p) (fst q)) /\ R (snd p) (snd q) \/
  same_numbers h h' [fst p; snd p] [fst q; snd q] /\
  forall o, h !! fst p = Some o -> ocls o ∉ builtin_scalars.

(** Objects [o] and [o'] agree, their parts being related by [R].  The order of list,
    tuple and dict items is kept, that of set elements need not be. *)
Definition same_obj (h h' : heap) (R : loc -> loc -> Prop) (o o' : obj) : Prop :=
  ocls o' = ocls o /\
  match oval o, oval o' with
  | VSeq xs, VSeq ys =>
      if isinst (ocls o) CSet
      then exists ys', Permutation ys ys' /\ same_items h h' R xs ys'
      else same_items h h' R xs ys
  | VDict kvs, VDict kvs' => Forall2 (same_pair h h' R) kvs kvs'
  | VObjArr shape xs, VObjArr shape' ys =>
      shape' = shape /\ same_rows h h' R shape xs ys
  | VMasked d m, VMasked d' m' => R d d' /\ R m m'
  | VSparse d i p s, VSparse d' i' p' s' => R d d' /\ R i i' /\ R p p' /\ R s s'
  | v, v' => refs o = [] /\ v' = v
  end.

(** Numbers and [None], which hickle does not track by identity. *)
Definition scalar (o : obj) : Prop :=
  match oval o with VNone | VNum _ => True | _ => False end.

(** The graph reachable from [x] in [h] and the one reachable from [y] in [h'] are the
    same, including which references lead to one and the same object. *)
Definition isomorphic (h : heap) (x : loc) (h' : heap) (y : loc) : Prop :=
  exists R : loc -> loc -> Prop,
    R x y /\
    (forall a b, R a b -> exists o o', h !! a = Some o /\ h' !! b = Some o' /\ same_obj h h' R o o') /\
    (forall a b b', R a b -> R a b' -> (forall o, h !! a = Some o -> ~ scalar o) -> b = b') /\
    (forall a a' b, R a b -> R a' b -> (forall o, h !! a = Some o -> ~ scalar o) -> a = a').

(** ** Graphs for which the round trip is claimed *)

(** Every class in the mro comes from outside the package hickle. *)
Definition outside_hickle (c : cls) : Prop :=
  forall k, k ∈ mro c -> part 0 (cls_module k) <> str "hickle".

(** numpy has a common dtype for the items that represents all of them. *)
Definition lossless (h : heap) (xs : list loc) : Prop :=
  (forall x c z, x ∈ xs -> h !! x = Some (Obj c (VNum (NZ z))) -> (Z.abs z <= 2 ^ 53)%Z) \/
  (forall x c n d, x ∈ xs -> h !! x = Some (Obj c (VNum n)) -> np_dtype_of_cls c = PNum d ->
     d = DBool \/ exists w, d = DInt w) \/
  (exists d, forall x c n, x ∈ xs -> h !! x = Some (Obj c (VNum n)) -> np_dtype_of_cls c = PNum d).

(** Key equality with all NaN objects taken as equal. *)
Fixpoint coarse (k : hv) : hv :=
  match k with
  | HNan _ => HNan 0
  | HCons a r => HCons (coarse a) (coarse r)
  | _ => k
  end.
Definition hashes (h : heap) (x : loc) (k : hv) : Prop := exists fuel, hval fuel h x = Ok k.
Definition distinct_keys (h : heap) (xs : list loc) : Prop :=
  exists ks, Forall2 (hashes h) xs ks /\ NoDup (map coarse ks).

(** Dict keys: no False, no instances of subclasses of bytes, and no class other than the
    builtin ones called float, bool, int, complex or NoneType. *)
Definition key_ok (h : heap) (k : loc) : Prop :=
  exists o, h !! k = Some o /\
    o <> Obj CBool (VNum (NB false)) /\
    (base_cls (ocls o) = CBytes -> ocls o = CBytes) /\
    (cls_name (ocls o) ∈ map str ["float"; "bool"; "int"; "complex"; "NoneType"]%string ->
     ocls o ∈ builtin_scalars).

(** ** Arrays of strings and of objects *)

Definition size_of (shape : list N) : N := foldr N.mul 1 shape.
(** At most 32 dimensions, as numpy has it; an array without elements has a size of 0 in its
    last dimension only, and another dimension. *)
Definition shape_ok (shape : list N) : Prop :=
  (length shape <= 32)%nat /\ Forall (fun n => n <> 0) (removelast shape) /\ shape <> [0].
(** The string fits into [w] code points and does not end with NUL. *)
Definition fits_width (w : N) (t : pystr) : Prop := N.of_nat (length t) <= w /\ last t 1 <> 0.

(** Length of what numpy takes for a sequence. *)
Definition outer_len (h : heap) (x : loc) : option N :=
  match h !! x with
  | Some (Obj c (VSeq xs)) =>
      if isinst c CList || isinst c CTuple then Some (N.of_nat (length xs)) else None
  | Some (Obj _ (VArr _ (n :: _) _ | VStrArr _ (n :: _) _ | VObjArr (n :: _) _)) => Some n
  | _ => None
  end.
(** Elements numpy puts into an array as they are, unless they are sequences. *)
Definition element_ok (h : heap) (x : loc) : Prop :=
  match h !! x with
  | Some (Obj _ (VArr _ [] _ | VStrArr _ [] _ | VObjArr [] _ | VMasked _ _ | VSparse _ _ _ _ | VDtype _ | VRecD _ _)) => False
  | _ => True
  end.
(** There is no element at all, one that is no sequence, or two of different length. *)
Definition not_uniform (h : heap) (xs : list loc) : Prop :=
  xs = [] \/ exists x y, x ∈ xs /\ y ∈ xs /\ (outer_len h x = None \/ outer_len h x <> outer_len h y).
(** The [i]th row along the last dimension. *)
Definition row (shape : list N) (xs : list loc) (i : nat) : list loc :=
  let w := N.to_nat (last shape 1) in take w (drop (i * w) xs).

Inductive storable (h : heap) : obj -> Prop :=
| st_none : storable h (Obj CNoneType VNone)
| st_num c n : number_ok c n -> storable h (Obj c (VNum n))
| st_str s : storable h (Obj CStr (VStr s))
| st_bytes c b : base_cls c = CBytes -> cls_name c <> str "str" -> storable h (Obj c (VBytes b))
| st_seq c xs :
    base_cls c = CList \/ base_cls c = CTuple ->
    (all_numbers h xs -> lossless h xs) -> storable h (Obj c (VSeq xs))
| st_set c xs :
    base_cls c = CSet -> distinct_keys h xs ->
    (all_numbers h xs -> lossless h xs) -> storable h (Obj c (VSeq xs))
| st_dict c kvs :
    base_cls c = CDict \/ base_cls c = COrderedDict ->
    distinct_keys h (map fst kvs) -> Forall (key_ok h) (map fst kvs) ->
    Forall (fun p => all_numbers h [fst p; snd p] -> lossless h [fst p; snd p]) kvs ->
    storable h (Obj c (VDict kvs))
| st_arr c d shape vs :
    c = CNdarray \/ base_cls c = CMatrix ->
    (shape = [] -> length vs = 1%nat) -> Forall (fun v => num_of_dtype d v = true) vs ->
    storable h (Obj c (VArr d shape vs))
| st_strarr w shape vs :
    shape_ok shape -> N.of_nat (length vs) = size_of shape -> 1 <= w -> Forall (fits_width w) vs ->
    storable h (Obj CNdarray (VStrArr w shape vs))
| st_objarr shape xs :
    shape_ok shape -> N.of_nat (length xs) = size_of shape ->
    Forall (element_ok h) xs -> not_uniform h xs ->
    (forall i, all_numbers h (row shape xs i) -> lossless h (row shape xs i)) ->
    storable h (Obj CNdarray (VObjArr shape xs))
| st_dtype d : storable h (Obj CNpDtype (VDtype d))
| st_masked c d m : base_cls c = CMasked -> storable h (Obj c (VMasked d m))
| st_sparse c k d i p s : base_cls c = CSparse k -> storable h (Obj c (VSparse d i p s))
| st_opaque c k n :
    match base_cls c with COpaque _ _ | CFunction | CType | CObject => True | _ => False end ->
    storable h (Obj c (VOpaque k n)).

(** All objects reachable from [x] are storable, of importable classes defined outside
    hickle, and there is no cycle.  CPython has one empty tuple only. *)
Inductive graph_ok (E : env) (h : heap) : loc -> Prop :=
| graph_ok_intro x o :
    h !! x = Some o ->
    storable h o -> outside_hickle (ocls o) -> e_imports E (ocls o) = true ->
    (o = empty_tuple -> x = nobody) ->
    (forall y, y ∈ refs o -> graph_ok E h y) ->
    graph_ok E h x.
