(** * Create: the [create_*_dataset] functions of the loader modules

    hickle/loaders/load_builtins.py:47-307, load_numpy.py:21-159, load_scipy.py:22-48
    and [create_pickled_dataset] (lookup.py:1461-1501).

    Each Python function gets [(py_obj, h_group, name, **kwargs)], creates one node and
    returns it with an iterable of sub items.  Here each is a pure function returning a
    [plan]: what to create and which sub items follow; Dump.v executes it.
    Simplification: Python evaluates the iterable lazily while dumping, the plan is
    computed at once; the iterables only read the object being dumped. *)
From Verif Require Import Base Utf8 Dec Num PyObj H5 Env.

(** ** Helpers *)

(** helpers.py:189-205, [no_compression(kwargs)]. *)
Definition no_compression (kw : kwargs) : kwargs := List.filter (fun k => negb (is_filter k)) kw.

Definition sub := (pystr * loc * list (pystr * attrv))%type.

(** [p_temps]: objects the create function itself builds (key/value tuples, results of
    [tolist]), to be put at consecutive fresh locations.  [p_nocomp]: kwargs are passed
    through [no_compression].  [p_fail]: exception raised after the node exists. *)
Record plan := Plan {
  p_temps : list obj;
  p_nocomp : bool;
  p_data : option hdata;              (** [None]: create_group *)
  p_attrs : list (pystr * attrv);     (** attributes set by the create function *)
  p_fail : option exn;
  p_subs : list sub
}.
Definition plan_data (nocomp : bool) (d : hdata) (a : list (pystr * attrv)) : plan :=
  Plan [] nocomp (Some d) a None [].
Definition plan_group (a : list (pystr * attrv)) (subs : list sub) : plan :=
  Plan [] false None a None subs.

(** Names of attributes. *)
Definition a_type : pystr := str "type".
Definition a_base_type : pystr := str "base_type".
Definition a_str_type : pystr := str "str_type".
Definition a_num_items : pystr := str "num_items".
Definition a_item_index : pystr := str "item_index".
Definition a_key_idx : pystr := str "key_idx".
Definition a_key_base_type : pystr := str "key_base_type".
Definition a_np_dtype : pystr := str "np_dtype".

(** ["data{:d}".format(i)]. *)
Definition data_name (i : N) : pystr := str "data" ++ N_dec i.

(** [s.encode("ascii")]. *)
Definition ascii_encode (s : pystr) : res bytes :=
  if forallb (fun c => c <? 128) s then Ok s else Err UnicodeError.

(** [int.bit_length(z) > 63]. *)
Definition needs_str (z : Z) : bool := (2 ^ 63 <=? Z.abs z)%Z.

(** ** load_builtins.py:47-75, create_scalar_dataset *)
Definition create_scalar (o : obj) : res plan :=
  match oval o with
  | VNum n =>
      let plain := plan_data true
        (DScalar match n with
                 | NB _ => DBool | NZ _ => DInt W8 | NF _ => DFloat F8 | NC _ _ => DComplex C16
                 end n) [] in
      match n with
      | NZ z =>
          if isinst (ocls o) CInt && needs_str z
          then Ok (plan_data false (DU8 (Z_dec z)) [])
          else Ok plain
      | _ => Ok plain
      end
  | _ => Err Unmodelled
  end.

(** ** load_builtins.py:78-99, create_none_dataset *)
Definition create_none : plan := plan_data true (DNull KVoid) [].

(** ** load_builtins.py:102-142, check_iterable_item_type *)

(** [operator.length_hint(x)], 0 for objects without length.
    Simplification: 0 also for classes hickle does not know; their dtype is object, so
    the result is None anyway. *)
Definition length_hint (o : obj) : N :=
  match oval o with
  | VStr s => N.of_nat (length s)
  | VBytes b => N.of_nat (length b)
  | VSeq xs => N.of_nat (length xs)
  | VDict kvs => N.of_nat (length kvs)
  | VArr _ (n :: _) _ | VStrArr _ (n :: _) _ | VObjArr (n :: _) _ => n
  | _ => 0
  end.

(** [np.ndim(x) != 0]; ValueError for ragged nested sequences, see [e_ragged]. *)
Definition has_dims (E : env) (h : heap) (l : loc) (o : obj) : res bool :=
  match oval o with
  | VSeq _ =>
      if isinst (ocls o) CList || isinst (ocls o) CTuple
      then if e_ragged E h l then Err ValueError else Ok true
      else Ok false
  | VArr _ shape _ | VStrArr _ shape _ | VObjArr shape _ =>
      Ok (match shape with [] => false | _ => true end)
  | VMasked _ _ | VSparse _ _ _ _ => Ok true
  | _ => Ok false
  end.

(** [np.result_type(a, b)]: object absorbs everything, strings absorb numbers and
    bytes, bytes absorb numbers. *)
Definition result_type (a b : npdtype) : npdtype :=
  match a, b with
  | PObject, _ | _, PObject => PObject
  | PStr, _ | _, PStr => PStr
  | PBytes, _ | _, PBytes => PBytes
  | PNum x, PNum y => PNum (promote x y)
  end.

Fixpoint check_rest (E : env) (h : heap) (d : npdtype) (items : list loc) : res (option npdtype) :=
  match items with
  | [] => Ok (Some d)
  | l :: r =>
      match h !! l with
      | None => Err Unmodelled
      | Some o =>
          res_bind (has_dims E h l o) (fun dims =>
            if dims then Ok None
            else
              match result_type (np_dtype_of_cls (ocls o)) d with
              | PObject => Ok None
              | PStr => Ok None
              | PBytes =>
                  match oval o with
                  | VNum _ => Err TypeError     (* len(item) of a number *)
                  | _ => if 1 <? length_hint o then Ok None else check_rest E h PBytes r
                  end
              | PNum x => check_rest E h (PNum x) r
              end)
      end
  end.

Definition check_iterable_item_type (E : env) (h : heap) (first : loc) (rest : list loc)
  : res (option npdtype) :=
  match h !! first with
  | None => Err Unmodelled
  | Some o =>
      let is_text := isinst (ocls o) CStr || isinst (ocls o) CBytes in
      if (1 <? length_hint o) || ((length_hint o =? 1) && negb is_text) then Ok None
      else
        res_bind (has_dims E h first o) (fun dims =>
          if dims then Ok None
          else
            match np_dtype_of_cls (ocls o) with
            | PObject | PStr => Ok None
            | d => check_rest E h d rest
            end)
  end.

(** ** load_builtins.py:144-204, create_listlike_dataset *)

(** bytes and str, :169-178.  [b]: the raw bytes of the object. *)
Definition create_text (o : obj) : res plan :=
  let raw := match oval o with
             | VStr s => utf8_encode s
             | VBytes b => Ok b
             | _ => Err Unmodelled
             end in
  res_map (fun b =>
    match ascii_encode (cls_name (ocls o)) with
    | Ok n => plan_data false (DS1 b) [(a_str_type, ABytes n)]
    | Err e => Plan [] false (Some (DS1 b)) [] (Some e) []
    end) raw.

(** The loop [dataset[index] = item_dtype.type(item)], :195-196: the values written
    and the exception stopping it, if any. *)
Fixpoint write_items (h : heap) (d : dtype) (items : list loc) : list num * option exn :=
  match items with
  | [] => ([], None)
  | l :: r =>
      match h !! l with
      | Some (Obj _ (VNum n)) =>
          match cast d n with
          | Ok m => let '(ms, e) := write_items h d r in (m :: ms, e)
          | Err e => ([], Some e)
          end
      | _ => ([], Some Unmodelled)
      end
  end.
Definition pad (d : dtype) (n : nat) (vs : list num) : list num :=
  vs ++ repeat (dtype_zero d) (n - length vs).

(** :199-204, sub items of a list like object. *)
Definition list_subs (items : list loc) : list sub :=
  map (fun '(i, l) => (data_name i, l, [(a_item_index, AInt (Z.of_N i))])) (enumerate items).

(** list, tuple and (with the item dtype determined by iteration) set, :180-204.
    Simplification: datasets of dtype 'S0'/'S<n>', which h5py handles in its own way,
    are not modelled; they arise only for containers with bytes of length at most one
    among numbers or such bytes. *)
Definition create_list_items (E : env) (h : heap) (items : list loc) : res plan :=
  match items with
  | [] => Ok (plan_data true (DNull KInt) [])
  | first :: rest =>
      res_bind (check_iterable_item_type E h first rest) (fun od =>
        match od with
        | Some (PNum d) =>
            let '(vs, e) := write_items h d items in
            Ok (Plan [] false (Some (DArray d [N.of_nat (length items)] (pad d (length items) vs)))
                     [] e [])
        | Some _ => Err Unmodelled
        | None =>
            Ok (plan_group [(a_num_items, AInt (Z.of_nat (length items)))] (list_subs items))
        end)
  end.

Definition create_listlike (E : env) (h : heap) (o : obj) : res plan :=
  if isinst (ocls o) CStr || isinst (ocls o) CBytes then create_text o
  else match oval o with
       | VSeq items => create_list_items E h items
       | _ => Err Unmodelled
       end.

(** ** load_builtins.py:207-245, create_setlike_dataset *)
Definition create_setlike (E : env) (h : heap) (o : obj) : res plan :=
  match oval o with
  | VSeq items => create_list_items E h items
  | _ => Err Unmodelled
  end.

(** ** load_builtins.py:248-307, create_dictlike_dataset *)

(** [_str_slashes]: slash or backslash; [_byte_slashes]: the pattern is not a raw
    string, so the backslash only escapes the slash and only slashes match. *)
Definition str_slashes (s : pystr) : bool := has_char 47 s || has_char 92 s.
Definition byte_slashes (s : bytes) : bool := has_char 47 s.

(** Keys of [dict_key_types_dict], :31-43. *)
Definition key_type_names : list pystr :=
  map str ["float"; "bool"; "int"; "complex"; "NoneType"]%string.
Definition key_value_type : bytes := str "key_value".

(** [repr(key)], only needed for builtin scalars. *)
Definition scalar_repr (E : env) (o : obj) : res pystr :=
  match oval o with
  | VNone => Ok (str "None")
  | VNum n => Ok (num_repr E n)
  | _ => Err Unmodelled
  end.

(** The name under which the value is stored directly, :285-303; [None]: the pair is
    stored as a tuple instead. *)
Definition key_name (E : env) (o : obj) : res (option pystr) :=
  if isinst (ocls o) CStr then
    match oval o with
    | VStr s => Ok (if str_slashes s then None else Some ([34] ++ s ++ [34]))
    | _ => Err Unmodelled
    end
  else if isinst (ocls o) CBytes then
    match oval o with
    | VBytes b =>
        Ok (if byte_slashes b then None
            else match utf8_decode b with
                 | Ok s => Some ([98; 34] ++ s ++ [34])
                 | Err _ => None
                 end)
    | _ => Err Unmodelled
    end
  else if bool_decide (cls_name (ocls o) ∈ key_type_names) then
    res_map (fun r => if str_slashes r then None else Some r) (scalar_repr E o)
  else Ok None.

Fixpoint dict_subs (E : env) (h : heap) (nx : loc) (idx : N) (kvs : list (loc * loc))
  : res (list obj * list sub) :=
  match kvs with
  | [] => Ok ([], [])
  | (k, v) :: r =>
      match h !! k with
      | None => Err Unmodelled
      | Some ko =>
          res_bind (key_name E ko) (fun onm =>
            match onm with
            | Some nm =>
                res_bind (utf8_encode (cls_name (ocls ko))) (fun kb =>
                  res_map (fun '(ts, ss) =>
                      (ts, (nm, v, [(a_key_idx, AInt (Z.of_N idx)); (a_key_base_type, ABytes kb)]) :: ss))
                    (dict_subs E h nx (idx + 1) r))
            | None =>
                res_map (fun '(ts, ss) =>
                    (Obj CTuple (VSeq [k; v]) :: ts,
                     (data_name idx, nx,
                      [(a_key_idx, AInt (Z.of_N idx)); (a_key_base_type, ABytes key_value_type)]) :: ss))
                  (dict_subs E h (nx + 1) (idx + 1) r)
            end)
      end
  end.

Definition create_dictlike (E : env) (h : heap) (nx : loc) (o : obj) : res plan :=
  match oval o with
  | VDict kvs =>
      res_map (fun '(ts, ss) => Plan ts false None [] None ss) (dict_subs E h nx 0 kvs)
  | _ => Err Unmodelled
  end.

(** ** lookup.py:1461-1501, create_pickled_dataset
    Simplification: the objects reachable from the pickled one are part of its state
    number; sharing with the rest of the dumped structure is lost, as with pickle. *)
Definition create_pickled (E : env) (o : obj) : res plan :=
  match oval o with
  | VOpaque k n =>
      if e_pickles E (ocls o) n then Ok (plan_data false (DPickle (ocls o) k n) [])
      else Err PicklingError
  | _ => Err Unmodelled
  end.

(** ** load_numpy.py:21-46, create_np_scalar_dataset *)
Definition create_np_scalar (o : obj) : res plan :=
  match oval o, np_dtype_of_cls (ocls o) with
  | VNum n, PNum d => Ok (plan_data true (DScalar d n) [(a_np_dtype, ABytes (dtype_str d))])
  | _, _ => Err Unmodelled
  end.

(** ** load_numpy.py:49-71, create_np_dtype *)
Definition create_np_dtype (o : obj) : res plan :=
  match oval o with
  | VDtype d => Ok (plan_data false (DU8 (dtype_str d)) [])
  | _ => Err Unmodelled
  end.

(** ** load_numpy.py:74-130, create_np_array_dataset *)
Definition prodN (s : list N) : N := foldr N.mul 1 s.
Definition str_dtype (w : N) : bytes := str "<U" ++ N_dec w.
Definition obj_dtype : bytes := str "|O".

Fixpoint chunks {A} (n : nat) (sz : nat) (l : list A) : list (list A) :=
  match n with O => [] | S n' => take sz l :: chunks n' sz (drop sz l) end.

(** [ndarray.tolist()] for an array of at least one dimension: the list objects built
    for the inner dimensions (placed from [nx] on) and the elements of the outermost
    list. *)
Fixpoint tolist (shape : list N) (leaves : list loc) (nx : loc) : list obj * list loc :=
  match shape with
  | [] => ([], [])
  | [_] => ([], leaves)
  | n :: rest =>
      (fix go (cs : list (list loc)) (nx : loc) : list obj * list loc :=
         match cs with
         | [] => ([], [])
         | c :: cs' =>
             let '(ts, els) := tolist rest c nx in
             let me := nx + N.of_nat (length ts) in
             let '(ts', ls) := go cs' (me + 1) in
             (ts ++ Obj CList (VSeq els) :: ts', me :: ls)
         end) (chunks (N.to_nat n) (N.to_nat (prodN rest)) leaves) nx
  end.

Definition with_temps (ts : list obj) (a : list (pystr * attrv)) (p : plan) : plan :=
  Plan (ts ++ p_temps p) (p_nocomp p) (p_data p) (p_attrs p ++ a) (p_fail p) (p_subs p).
Definition temps_heap (h : heap) (nx : loc) (ts : list obj) : heap :=
  foldl (fun h '(i, o) => <[nx + i := o]> h) h (enumerate ts).

Definition create_np_array (E : env) (h : heap) (nx : loc) (o : obj) : res plan :=
  match oval o with
  | VArr d shape vs =>
      let a := [(a_np_dtype, ABytes (dtype_str d))] in
      match shape, vs with
      | [], [v] => Ok (plan_data false (DScalar d v) a)
      | [], _ => Err Unmodelled
      | _, _ => Ok (plan_data false (DArray d shape vs) a)
      end
  | VStrArr w shape vs =>
      let a := [(a_np_dtype, ABytes (str_dtype w))] in
      match shape, vs with
      | [], [s] => res_map (fun b => plan_data false (DS1 b) a) (utf8_encode s)
      | [], _ => Err Unmodelled
      | _, _ =>
          let ss := map (fun s => Obj CStr (VStr s)) vs in
          let ls := map (fun '(i, _) => nx + i) (enumerate vs) in
          let '(ts, els) := tolist shape ls (nx + N.of_nat (length vs)) in
          let ts := ss ++ ts in
          res_map (with_temps ts a) (create_list_items E (temps_heap h nx ts) els)
      end
  | VObjArr shape ls =>
      let a := [(a_np_dtype, ABytes obj_dtype)] in
      match shape, ls with
      | [], [l] =>
          match h !! l with
          | None => Err Unmodelled
          | Some io =>
              if isinst (ocls io) CList
              then res_map (with_temps [] a) (create_listlike E h io)
              else Ok (plan_group a [(str "data", l, [])])
          end
      | [], _ => Err Unmodelled
      | _, _ =>
          let '(ts, els) := tolist shape ls nx in
          res_map (with_temps ts a) (create_list_items E (temps_heap h nx ts) els)
      end
  | _ => Err Unmodelled
  end.

(** ** load_numpy.py:132-159, create_np_masked_array_dataset
    Simplification: [.data] and [.mask] are attributes holding fixed objects, in numpy
    each access makes a new view. *)
Definition arr_dtype_str (o : obj) : option bytes :=
  match oval o with
  | VArr d _ _ => Some (dtype_str d)
  | VStrArr w _ _ => Some (str_dtype w)
  | VObjArr _ _ => Some obj_dtype
  | _ => None
  end.
Definition create_np_masked (h : heap) (o : obj) : res plan :=
  match oval o with
  | VMasked d m =>
      match h !! d with
      | Some dobj =>
          match arr_dtype_str dobj with
          | Some s =>
              Ok (plan_group [(a_np_dtype, ABytes s)] [(str "data", d, []); (str "mask", m, [])])
          | None => Err Unmodelled
          end
      | None => Err Unmodelled
      end
  | _ => Err Unmodelled
  end.

(** ** load_scipy.py:22-48, create_sparse_dataset *)
Definition create_sparse (o : obj) : res plan :=
  match oval o with
  | VSparse d i p s =>
      Ok (plan_group [] [(str "data", d, []); (str "indices", i, []);
                         (str "indptr", p, []); (str "shape", s, [])])
  | _ => Err Unmodelled
  end.

(** ** Dump functions a loader can be registered with *)
Inductive dumpfn :=
| FScalar | FNone | FList | FSet | FDict
| FPickle
| FNpScalar | FNpDtype | FNpArray | FNpMasked
| FSparse
| FNothing         (** lookup.py:104-108, dump_nothing: returns (), unpacking it fails *)
| FNotDumpable     (** helpers.py:210-222, raises RuntimeError *)
| FNotHicklable.   (** a custom function raising NotHicklable *)
Global Instance dumpfn_eq_dec : EqDecision dumpfn.
Proof. solve_decision. Defined.

Definition create (E : env) (fn : dumpfn) (h : heap) (nx : loc) (o : obj) : res plan :=
  match fn with
  | FScalar => create_scalar o
  | FNone => Ok create_none
  | FList => create_listlike E h o
  | FSet => create_setlike E h o
  | FDict => create_dictlike E h nx o
  | FPickle => create_pickled E o
  | FNpScalar => create_np_scalar o
  | FNpDtype => create_np_dtype o
  | FNpArray => create_np_array E h nx o
  | FNpMasked => create_np_masked h o
  | FSparse => create_sparse o
  | FNothing => Err ValueError
  | FNotDumpable => Err RuntimeError
  | FNotHicklable => Err NotHicklable
  end.
