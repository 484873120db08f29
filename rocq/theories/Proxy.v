(** * Proxy: [H5NodeFilterProxy], attributes replaced while loading

    hickle/helpers.py:143-183, hickle/loaders/load_scipy.py:80-107. *)
From Verif Require Import Base Utf8 Dec Num PyObj H5 Env Create LoadFns.

(** [collections.ChainMap({}, h5_node.attrs)], helpers.py:162: the dict the proxy owns and
    the attributes of the wrapped node.  The node's attributes are not copied, the chain
    refers to them. *)
Record proxy := Proxy { px_own : attrs; px_node : attrs }.
Definition wrap (a : attrs) : proxy := Proxy ∅ a.

(** What a user of the proxy can do with [proxy.attrs], and what code holding the node
    itself can do with [node.attrs] at the same time. *)
Inductive proxy_op :=
| PSet (k : pystr) (v : attrv)             (** [proxy.attrs[k] = v] *)
| PDel (k : pystr)                         (** [del proxy.attrs[k]] *)
| PGet (k : pystr)                         (** [proxy.attrs[k]] *)
| PPop (k : pystr)                         (** [proxy.attrs.pop(k)] *)
| PSetdefault (k : pystr) (v : attrv)      (** [proxy.attrs.setdefault(k, v)] *)
| PUpdate (kvs : list (pystr * attrv))     (** [proxy.attrs.update(kvs)] *)
| PClear                                   (** [proxy.attrs.clear()] *)
| PAssign                                  (** [proxy.attrs = anything], helpers.py:178 *)
| NSet (k : pystr) (v : attrv)             (** [node.attrs[k] = v] *)
| NDel (k : pystr).                        (** [del node.attrs[k]] *)

(** [ChainMap.__getitem__]: the first map having the key. *)
Definition px_get (p : proxy) (k : pystr) : option attrv :=
  match px_own p !! k with Some v => Some v | None => px_node p !! k end.
(** [ChainMap.__contains__] *)
Definition px_mem (p : proxy) (k : pystr) : bool :=
  bool_decide (is_Some (px_own p !! k)) || bool_decide (is_Some (px_node p !! k)).
(** [ChainMap.get(k, default)] *)
Definition px_get_default (p : proxy) (k : pystr) (d : attrv) : attrv :=
  if px_mem p k then default d (px_get p k) else d.
(** [ChainMap.__iter__]: the keys of the last map, then the new ones of the first.
    Simplification: within one map the order of the finite map. *)
Definition px_keys (p : proxy) : list pystr :=
  map fst (map_to_list (px_node p)) ++
  List.filter (fun k => negb (bool_decide (is_Some (px_node p !! k)))) (map fst (map_to_list (px_own p))).

Definition px_put (k : pystr) (v : attrv) (p : proxy) : proxy := Proxy (<[k := v]> (px_own p)) (px_node p).

(** One step: the proxy afterwards and what the call gives: [Some v] for a value. *)
Definition px_step (p : proxy) (o : proxy_op) : proxy * res (option attrv) :=
  match o with
  | PSet k v => (px_put k v p, Ok None)
  | PDel k =>                                  (* del self.maps[0][key] *)
      match px_own p !! k with
      | Some _ => (Proxy (delete k (px_own p)) (px_node p), Ok None)
      | None => (p, Err KeyError)
      end
  | PGet k => (p, match px_get p k with Some v => Ok (Some v) | None => Err KeyError end)
  | PPop k =>                                  (* self.maps[0].pop(key) *)
      match px_own p !! k with
      | Some v => (Proxy (delete k (px_own p)) (px_node p), Ok (Some v))
      | None => (p, Err KeyError)
      end
  | PSetdefault k v =>
      match px_get p k with
      | Some w => (p, Ok (Some w))
      | None => (px_put k v p, Ok (Some v))
      end
  | PUpdate kvs => (Proxy (attrs_update kvs (px_own p)) (px_node p), Ok None)
  | PClear => (Proxy ∅ (px_node p), Ok None)
  | PAssign => (p, Err AttributeError)
  | NSet k v => (Proxy (px_own p) (<[k := v]> (px_node p)), Ok None)
  | NDel k =>
      match px_node p !! k with
      | Some _ => (Proxy (px_own p) (delete k (px_node p)), Ok None)
      | None => (p, Err KeyError)
      end
  end.
Definition px_run (p : proxy) (os : list proxy_op) : proxy := foldl (fun p o => fst (px_step p o)) p os.

(** ** load_scipy.py:80-107, [_redirect_to_ndarray]

    What hickle uses the proxy for: the members of a sparse matrix written by hickle 4
    carry the type of the matrix and are loaded as ndarrays (tuple for the shape).
    [dt]: [item.dtype.str.encode('ascii')].  [None]: the member is not passed on. *)
Definition redirect (nm : pystr) (dt : bytes) (a : attrs) : res (option proxy) :=
  let p := wrap a in
  let with_dtype p := match px_get p a_np_dtype with
                      | None => px_put a_np_dtype (ABytes dt) p
                      | Some _ => p
                      end in
  let go p :=
    if bool_decide (nm = str "shape")
    then px_put a_base_type (ABytes (str "tuple")) (px_put a_type (APickle CTuple) p)
    else with_dtype (px_put a_base_type (ABytes (str "ndarray")) (px_put a_type (APickle CNdarray) p)) in
  if bool_decide (nm = str "data") then
    match px_get p a_type, px_get p a_base_type with
    | Some _, Some _ => Ok (Some (go (with_dtype p)))
    | _, _ => Err KeyError
    end
  else match sparse_index nm with
       | None => Ok None
       | Some _ => Ok (Some (go p))
       end.
