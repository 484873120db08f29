(** * Accept: which object graphs [dump] has to accept

    Independent of how hickle stores things: the documented types, with the limits of the
    file format and of numpy written out as conditions on the objects. *)
From Verif Require Import Base Utf8 Num PyObj H5 Env LoadFns Registry Spec.

(** No item is a bytes object of length 0 or 1, for which numpy has the dtypes 'S0' and
    'S1', or a list or tuple numpy takes for a ragged array; and if all items are numbers
    then those of class int fit into 64 bit, numpy having no larger integers.  [np.ndim]
    is asked while the heap may already hold further objects, hence [h']. *)
Definition item_fine (E : env) (h : heap) (y : loc) : Prop :=
  forall o, h !! y = Some o ->
    match oval o with
    | VBytes b => 2 <= N.of_nat (length b)
    | VSeq _ => forall h', h ⊆ h' -> e_ragged E h' y = false
    | _ => True
    end.
Definition int64_items (h : heap) (xs : list loc) : Prop :=
  forall x z, x ∈ xs -> h !! x = Some (Obj CInt (VNum (NZ z))) -> (- 2 ^ 63 <= z < 2 ^ 63)%Z.
Definition items_fine (E : env) (h : heap) (xs : list loc) : Prop :=
  (forall x, x ∈ xs -> item_fine E h x) /\ (all_numbers h xs -> int64_items h xs).

(** A dict entry.  Keys that are numbers of the builtin classes or None can always be used;
    a str or bytes key must not contain NUL unless it contains a slash (str: or a
    backslash) or (bytes) is not UTF-8; for these and all other keys the pair is subject
    to the same conditions as the tuple (k, v). *)
Definition entry_fine (E : env) (h : heap) (k v : loc) : Prop :=
  exists o, h !! k = Some o /\
    match oval o with
    | VStr s => if has_char 47 s || has_char 92 s then items_fine E h [k; v] else has_char 0 s = false
    | VBytes b =>
        if has_char 47 b then items_fine E h [k; v]
        else match utf8_decode b with Ok s => has_char 0 s = false | Err _ => items_fine E h [k; v] end
    | _ => ocls o ∈ builtin_scalars \/ (cls_name (ocls o) ∉ map cls_name builtin_scalars /\ items_fine E h [k; v])
    end.

(** numpy does not take the lists made of an array of objects, such as those that are
    the items of [tolist()], for ragged arrays.  That is so if no element is a sequence,
    see [ok_nested] in Env.v; but elements may be lists of different lengths. *)
Definition rows_not_ragged (E : env) (h : heap) (shape : list N) (xs : list loc) : Prop :=
  forall h' dims ys z, h ⊆ h' -> dims <> [] -> (length dims < length shape)%nat -> (forall y, y ∈ ys -> y ∈ xs) ->
    nested h' dims ys z -> e_ragged E h' z = false.

Definition ascii_name (c : cls) : Prop := Forall (fun ch => ch < 128) (cls_name c).

(** [kw]: names of the keyword arguments handed on to h5py. *)
Definition contents_fine (E : env) (kw : kwargs) (h : heap) (c : cls) (v : val) : Prop :=
  match v with
  | VNone => c = CNoneType
  | VNum n => number_ok c n
  | VStr s => (base_cls c = CStr \/ base_cls c = CNpStr) /\ encodable s = true /\ ascii_name c
  | VBytes b => (base_cls c = CBytes \/ base_cls c = CNpBytes) /\ ascii_name c
  | VSeq xs =>
      (base_cls c = CList \/ base_cls c = CTuple \/ base_cls c = CSet \/ exists m n k, base_cls c = CNamedTuple m n k) /\
      items_fine E h xs
  | VDict kvs =>
      (base_cls c = CDict \/ base_cls c = COrderedDict \/ base_cls c = CCounter \/ base_cls c = CDefaultDict) /\
      distinct_keys h (map fst kvs) /\ Forall (fun p => entry_fine E h (fst p) (snd p)) kvs
  | VArr d shape vs =>
      (base_cls c = CNdarray \/ base_cls c = CMatrix) /\
      (shape = [] -> length vs = 1%nat /\ Forall (fun k => k ∉ filter_keys) kw)
  | VStrArr _ shape vs =>
      base_cls c = CNdarray /\ (length shape <= 32)%nat /\ N.of_nat (length vs) = size_of shape /\
      Forall (fun s => encodable s = true) vs
  | VObjArr shape xs =>
      base_cls c = CNdarray /\ (length shape <= 32)%nat /\ N.of_nat (length xs) = size_of shape /\
      rows_not_ragged E h shape xs /\ forall i, items_fine E h (row shape xs i)
  | VDtype d => c = CNpDtype
  | VMasked d m => base_cls c = CMasked /\ exists c' dt shape vs, h !! d = Some (Obj c' (VArr dt shape vs))
  | VSparse _ _ _ _ => exists k, base_cls c = CSparse k
  | VOpaque _ n =>
      match base_cls c with COpaque _ _ | CFunction | CType | CObject => True | _ => False end /\
      e_pickles E c n = true
  | _ => False
  end.

Definition is_opaque (v : val) : bool := match v with VOpaque _ _ => true | _ => false end.
(** The class is defined outside hickle and, unless the object is pickled as a whole, can
    itself be pickled. *)
Definition acceptable (E : env) (kw : kwargs) (h : heap) (o : obj) : Prop :=
  outside_hickle (ocls o) /\ (is_opaque (oval o) = false -> e_pickles_cls E (ocls o) = true) /\
  contents_fine E kw h (ocls o) (oval o).

(** Everything reachable from [x] is acceptable; cycles are allowed. *)
Definition acceptable_graph (E : env) (kw : kwargs) (h : heap) (x : loc) : Prop :=
  exists U : gset N, x ∈ U /\
    forall y, y ∈ U -> exists o, h !! y = Some o /\ acceptable E kw h o /\ forall z, z ∈ refs o -> z ∈ U.
