(** * PartSpec: what is left of a graph some of whose classes cannot be imported

    Objects whose class can be imported come back as Spec.v says; in place of each of the
    others there is a recovered dataset or group that still shows what was stored. *)
From Verif Require Import Base Utf8 Dec Num PyObj H5 Env Create LoadFns Registry Spec.

(** The name hickle keeps for the kind of object an instance of [c] was. *)
Definition base_name (c : cls) : option bytes :=
  match base_cls c with
  | CBool => Some (str "bool") | CInt => Some (str "int") | CFloat => Some (str "float")
  | CComplex => Some (str "complex") | CBytes => Some (str "bytes")
  | CList => Some (str "list") | CTuple => Some (str "tuple") | CSet => Some (str "set")
  | CDict | COrderedDict => Some (str "dict")
  | CMatrix => Some (str "np_matrix") | CMasked => Some (str "ndarray_masked")
  | CSparse SCsr => Some (str "csr_matrix") | CSparse SCsc => Some (str "csc_matrix")
  | CSparse SBsr => Some (str "bsr_matrix")
  | _ => None
  end.

(** The dataset shows the value of [o]. *)
Definition data_kept (h : heap) (o : obj) (d : hdata) : Prop :=
  match oval o with
  | VNum n => (exists dt v, d = DScalar dt v /\ num_val v = num_val n) \/ (exists z, n = NZ z /\ d = DU8 (Z_dec z))
  | VBytes b => d = DS1 b
  | VSeq xs =>
      (xs = [] /\ exists k, d = DNull k) \/
      exists dt vs, d = DArray dt [N.of_nat (length xs)] vs /\
        Forall2 (fun x v => exists c n, h !! x = Some (Obj c (VNum n)) /\ num_val v = num_val n) xs vs
  | VArr dt shape vs => d = DArray dt shape vs \/ exists v, shape = [] /\ vs = [v] /\ d = DScalar dt v
  | VOpaque k n => d = DPickle (ocls o) k n
  | _ => False
  end.

(** One member for each of [parts], and no other. *)
Definition has_members {A : Type} (items : list (pystr * (loc * option attrs))) (parts : list A)
    (P : A -> pystr -> loc -> option attrs -> Prop) : Prop :=
  exists nms, NoDup nms /\ Permutation (map fst items) nms /\
    Forall2 (fun p nm => exists v oa, (nm, (v, oa)) ∈ items /\ P p nm v oa) parts nms.

Definition named_part (R : loc -> loc -> Prop) (p : pystr * loc) (nm : pystr) (v : loc) (_ : option attrs) : Prop :=
  nm = fst p /\ R (snd p) v.
Definition seq_part (R : loc -> loc -> Prop) (p : N * loc) (nm : pystr) (v : loc) (oa : option attrs) : Prop :=
  nm = data_name (fst p) /\ R (snd p) v /\ forall a, oa = Some a -> a !! a_item_index = Some (AInt (Z.of_N (fst p))).
(** The name shows a key that is a string or an integer. *)
Definition shows_key (ko : obj) (nm : pystr) (oa : option attrs) : Prop :=
  match ko with
  | Obj CStr (VStr t) => nm = str """" ++ t ++ str """" /\ forall a, oa = Some a -> a !! a_key_base_type = Some (ABytes (str "str"))
  | Obj CInt (VNum (NZ z)) => nm = Z_dec z /\ forall a, oa = Some a -> a !! a_key_base_type = Some (ABytes (str "int"))
  | _ => True
  end.
(** A pair of a dict: the value under a name made from the key, or a tuple of key and value. *)
Definition dict_part (h h' : heap) (R : loc -> loc -> Prop) (p : N * (loc * loc)) (nm : pystr) (v : loc) (oa : option attrs) : Prop :=
  let '(i, (k, w)) := p in
  (forall a, oa = Some a -> a !! a_key_idx = Some (AInt (Z.of_N i))) /\
  (((forall ko, h !! k = Some ko -> shows_key ko nm oa) /\ R w v) \/
   exists ys, h' !! v = Some (Obj CTuple (VSeq ys)) /\ same_items h h' R [k; w] ys).

(** The group shows the parts of [o]. *)
Definition group_kept (h h' : heap) (R : loc -> loc -> Prop) (o : obj) (items : list (pystr * (loc * option attrs))) : Prop :=
  match oval o with
  | VSeq xs => has_members items (enumerate xs) (seq_part R)
  | VDict kvs => has_members items (enumerate kvs) (dict_part h h' R)
  | VMasked d m => has_members items [(str "data", d); (str "mask", m)] (named_part R)
  | VSparse d i p s =>
      has_members items [(str "data", d); (str "indices", i); (str "indptr", p); (str "shape", s)] (named_part R)
  | _ => False
  end.

(** The attributes of a member are next to it unless the member has them itself. *)
Definition with_attrs (h' : heap) (it : pystr * (loc * option attrs)) : Prop :=
  exists o', h' !! fst (snd it) = Some o' /\ (snd (snd it) = None <-> isinst (ocls o') CRecoverCustom = true).

Definition kind_kept (o : obj) (a : attrs) : Prop :=
  a !! a_type = None /\ forall b, base_name (ocls o) = Some b -> a !! a_base_type = Some (ABytes b).

(** [o'] is what an object [o] of a class that cannot be imported is loaded as. *)
Definition recovered_as (h h' : heap) (R : loc -> loc -> Prop) (o o' : obj) : Prop :=
  (exists d a, o' = Obj CRecoveredDataset (VRecD d a) /\ kind_kept o a /\ data_kept h o d) \/
  (exists items a, o' = Obj CRecoveredGroup (VRecG items a) /\ kind_kept o a /\ group_kept h h' R o items /\
     Forall (with_attrs h') items).

Definition stands_for (E : env) (h h' : heap) (R : loc -> loc -> Prop) (o o' : obj) : Prop :=
  if e_imports E (ocls o) then same_obj h h' R o o' else recovered_as h h' R o o'.

(** What [isomorphic] says, as far as the classes are there. *)
Definition restored (E : env) (h : heap) (x : loc) (h' : heap) (y : loc) : Prop :=
  exists R : loc -> loc -> Prop,
    R x y /\
    (forall a b, R a b -> exists o o', h !! a = Some o /\ h' !! b = Some o' /\ stands_for E h h' R o o') /\
    (forall a b b', R a b -> R a b' -> (forall o, h !! a = Some o -> ~ scalar o) -> b = b') /\
    (forall a a' b, R a b -> R a' b -> (forall o, h !! a = Some o -> ~ scalar o) -> a = a').

(** ** Graphs for which it is claimed *)

Definition imported (E : env) (h : heap) (x : loc) : Prop := exists o, h !! x = Some o /\ e_imports E (ocls o) = true.
(** Recovered objects are no elements of sets, no keys and no elements or parts of arrays.
    Classes of numpy's string and object arrays, dtypes, None and strings are always there. *)
Definition parts_ok (E : env) (h : heap) (o : obj) : Prop :=
  if e_imports E (ocls o) then
    match oval o with
    | VSeq xs => isinst (ocls o) CSet = true -> forall x, x ∈ xs -> graph_ok E h x
    | VDict kvs => forall k, k ∈ map fst kvs -> graph_ok E h k
    | VObjArr _ xs => forall x, x ∈ xs -> imported E h x
    | VMasked d m => imported E h d /\ imported E h m
    | VSparse d i p s => imported E h d /\ imported E h i /\ imported E h p /\ imported E h s
    | _ => True
    end
  else
    match oval o with
    | VNum _ => forall d, ocls o <> CNp d
    | VBytes _ | VSeq _ | VDict _ | VMasked _ _ | VSparse _ _ _ _ | VOpaque _ _ => True
    | VArr _ _ _ => ocls o <> CNdarray
    | _ => False
    end.

(** As [graph_ok], but the classes need not be importable. *)
Inductive graph_part (E : env) (h : heap) : loc -> Prop :=
| graph_part_intro x o :
    h !! x = Some o ->
    storable h o -> outside_hickle (ocls o) -> parts_ok E h o ->
    (o = empty_tuple -> x = nobody) ->
    (forall y, y ∈ refs o -> graph_part E h y) ->
    graph_part E h x.

Lemma graph_ok_imported E h x : graph_ok E h x -> imported E h x.
Proof. intros Hg. inversion Hg as [? o Ho _ _ Hi _ _]; subst. by exists o. Qed.
Lemma graph_ok_part E h x : graph_ok E h x -> graph_part E h x.
Proof.
  induction 1 as [x o Ho Hs Hout Hi He Hch IH]. econstructor; eauto. unfold parts_ok. rewrite Hi. unfold refs in Hch.
  destruct (oval o) as [| | | |xs|kvs| | |sh xs| |d m|d i p s| | |]; auto.
  - intros k Hk. apply Hch, elem_of_app. by left.
  - intros y Hy. by apply graph_ok_imported, Hch.
  - split; apply graph_ok_imported, Hch; [left|right; left].
  - split; [|split; [|split]]; apply graph_ok_imported, Hch; [left|right; left|do 2 right; left|do 3 right; left].
Qed.
