(** * LoadModel: [ReferenceManager.resolve_type] and [_load]

    hickle/lookup.py:677-820 and hickle/hickle.py:402-466. *)
From Verif Require Import Base Utf8 Dec Num PyObj H5 Env Create LoadFns Proxy.

(** What the [LoaderManager] offers when loading: [load_loader] reduced to the class and
    the memoise flag, [hkl_types_dict] and [hkl_container_dict] (Registry.v). *)
Record loader := Loader {
  ld_load : cls -> bytes -> res (cls * bool);
  ld_types : bytes -> option loadfn;
  ld_conts : bytes -> option contk;
  ld_legacy : bool            (** a hickle 4.x file: pickle_loads is fix_lambda_obj_type *)
}.

Definition b_pickle : bytes := str "pickle".
Definition b_recover : bytes := str "!recover!".
Definition b_reference : bytes := str "!node-reference!".

(** Class, base_type used to select the loader, original base_type
    ([base_type_type=-1]), is_container. *)
Record resolved := Resolved { r_cls : cls; r_base : bytes; r_orig : bytes; r_cont : bool }.

(** [h_node.attrs.get('base_type', b'pickle')] *)
Definition base_attr (a : attrs) : bytes :=
  match a !! a_base_type with
  | Some (ABytes b) => b
  | Some (AStr s) => s
  | _ => b_pickle
  end.

(** lookup.py:786-805, base_type of a type table entry. *)
Definition entry_base (f : file) (e : node) : res bytes :=
  match nd_attrs e !! a_base_type with
  | None => Ok b_pickle
  | Some (ARef b) =>
      match get_node f b with
      | Some n => ascii_encode (nd_name n)
      | None => Err ReferenceErr
      end
  | Some _ => Err ReferenceErr
  end.

(** lookup.py:677-820.  [_py_obj_type_link] and [_base_type_link] only cache what is read
    from the table, which does not change while loading; they are left out. *)
Definition resolve_type (E : env) (legacy : bool) (f : file) (n : node) : res resolved :=
  match nd_attrs n !! a_type with
  | None =>
      match nd_body n with
      | BData (DRefTo _) => Ok (Resolved CNodeReference b_reference b_reference true)
      | BData _ => Ok (Resolved CObject b_pickle b_pickle false)
      | BGroup _ =>
          if legacy
          then let b := base_attr (nd_attrs n) in Ok (Resolved CObject b b true)
          else Err ReferenceErr
      end
  | Some (APickle c) =>
      if bool_decide (c = CFunction) then      (* a lambda: TypeError, fix_lambda_obj_type *)
        if legacy
        then let b := base_attr (nd_attrs n) in Ok (Resolved moc_lambda b b (is_group n))
        else Err ReferenceErr
      else if e_imports E c
      then let b := base_attr (nd_attrs n) in Ok (Resolved c b b (is_group n))
      else Ok (Resolved CRecoverCustom b_recover b_recover (is_group n))
  | Some (ARef e) =>
      match get_node f e with
      | None => Err ReferenceErr
      | Some en =>
          res_bind (entry_base f en) (fun b =>
            match nd_body en with
            | BData (DPickleCls c) =>
                Ok (if e_imports E c then Resolved c b b (is_group n)
                    else Resolved CRecoverCustom b_recover b (is_group n))
            | _ => Err Unmodelled
            end)
      end
  | Some _ => Err ReferenceErr
  end.

(** State of a running load; [l_memo]: [h_node.id] to loaded object.
    An exception ends the whole load, so errors carry no state. *)
Record lst := Lst { l_mem : mem; l_memo : gmap addr loc }.
Definition set_mem (m : mem) (s : lst) : lst := Lst m (l_memo s).
Definition memo_put (a : addr) (l : loc) (s : lst) : lst := Lst (l_mem s) (<[a := l]> (l_memo s)).

(** [py_subcontainer.filter(h_node)]: the members in h5py's order; for a reference the
    node it refers to (lookup.py:1430-1446). *)
Definition members (E : env) (f : file) (k : contk) (a : addr) (n : node) : res (list (pystr * addr)) :=
  match k, nd_body n with
  | KExpand, BData (DRefTo t) =>
      match get_node f t with
      | Some tn => Ok [(nd_name tn, t)]
      | None => Err ReferenceErr
      end
  | KExpand, _ => Err Unmodelled
  | _, BGroup l => Ok (e_order E a l)
  | _, BData _ => Err AttributeError      (* Dataset has no items() *)
  end.

(** The loop over the members, hickle.py:447-448; [rec] loads a node, its parent then
    appends the result together with the attributes of the member node. *)
Fixpoint load_members (E : env) (fuel : nat) (f : file) (rec : addr -> lst -> res (lst * loc))
    (k : contk) (ms : list (pystr * addr)) (cs : cstate) (s : lst) : res (lst * cstate) :=
  match ms with
  | [] => Ok (s, cs)
  | (nm, a) :: r =>
      match get_node f a with
      | None => Err Unmodelled
      | Some n =>
          res_bind (rec a s) (fun '(s1, l) =>
            res_bind (cont_append E fuel k nm l (nd_attrs n) cs (l_mem s1)) (fun '(m, cs') =>
              load_members E fuel f rec k r cs' (set_mem m s1)))
      end
  end.

(** load_numpy.py:264-267: [h_node.parent.get(h_node.name + '_mask')], the dataset next to
    [a] whose name is that of [a] with '_mask' appended.
    Simplification: the first group having [a] as a member; HDF5 files written by hickle are
    trees, so there is one. *)
Definition parent_link (f : file) (a : addr) : option (node * pystr) :=
  head (omap (fun '(_, n) => option_map (fun '(nm, _) => (n, nm)) (head (List.filter (fun '(_, b) => b =? a) (links n))))
             (map_to_list (f_nodes f))).
Definition mask_name (nm : pystr) : pystr := nm ++ str "_mask".
Definition mask_data (f : file) (a : addr) : res (option hdata) :=
  match parent_link f a with
  | None => Err Unmodelled
  | Some (pn, nm) =>
      match alist_get (mask_name nm) (links pn) with
      | None => Ok None
      | Some b =>
          match get_node f b with
          | Some (Node _ _ (BData d)) => Ok (Some d)
          | _ => Err Unmodelled
          end
      end
  end.

(** hickle.py:459-460: [load_fn(h_node, base_type, py_obj_type)]. *)
Definition load_dataset (E : env) (fuel : nat) (f : file) (a : addr) (fn : loadfn) (at_ : attrs) (d : hdata) (orig : bytes)
    (pt : cls) (m : mem) : res (mem * loc) :=
  match fn with
  | LNdarrayMasked => res_bind (mask_data f a) (fun mk => load_ndarray_masked at_ d mk pt m)
  | _ => load_fn E fuel fn at_ d orig pt m
  end.

(** load_scipy.py:70-77 and 79-107: the container of a sparse matrix whose type is
    [return_first] passes its members on with other attributes (Proxy.v) and takes the class
    of the matrix from the member 'data'. *)
Definition redirected (k : contk) (pt : cls) : bool := bool_decide (k = KSparse) && bool_decide (pt = return_first).
(** [pickle.loads(item.attrs['type'])] *)
Definition matrix_class (E : env) (a : attrs) : res cls :=
  match a !! a_type with
  | Some (APickle c) =>
      match base_cls c with
      | CSparse _ => if e_imports E c then Ok c else Err AttributeError
      | _ => Err Unmodelled
      end
  | _ => Err TypeError
  end.
(** hickle.py:425-466 for such a member; Simplification: arrays of numbers only. *)
Definition load_redirected (E : env) (fuel : nat) (LD : loader) (f : file) (a : addr) (n : node) (d : hdata) (at_ : attrs) (s : lst)
  : res (lst * loc) :=
  match l_memo s !! a with
  | Some l => Ok (s, l)
  | None =>
      res_bind (resolve_type E (ld_legacy LD) f (Node (nd_name n) at_ (BData d))) (fun r =>
        res_bind (ld_load LD (r_cls r) (r_base r)) (fun '(pt, memoise) =>
          res_map (fun '(m, l) => (if memoise : bool then memo_put a l (set_mem m s) else set_mem m s, l))
            (load_dataset E fuel f a (default LRecover (ld_types LD (r_base r))) at_ d (r_orig r) pt (l_mem s))))
  end.
Fixpoint redirect_members (E : env) (fuel : nat) (LD : loader) (f : file) (ms : list (pystr * addr)) (pt : cls)
    (cs : cstate) (s : lst) : res (lst * cstate * cls) :=
  match ms with
  | [] => Ok (s, cs, pt)
  | (nm, a) :: r =>
      match get_node f a with
      | None => Err Unmodelled
      | Some n =>
          let dt := match nd_body n with BData (DScalar d _ | DArray d _ _) => dtype_str d | _ => [] end in
          res_bind (redirect nm dt (nd_attrs n)) (fun op =>
            match op, nd_body n with
            | None, _ => redirect_members E fuel LD f r pt cs s
            | Some p, BData (DScalar _ _ as d | DArray _ _ _ as d) =>
                let at_ := px_own p ∪ px_node p in
                res_bind (if bool_decide (nm = str "data") then matrix_class E (nd_attrs n) else Ok pt) (fun pt' =>
                  res_bind (load_redirected E fuel LD f a n d at_ s) (fun '(s1, l) =>
                    res_bind (cont_append E fuel KSparse nm l at_ cs (l_mem s1)) (fun '(m, cs') =>
                      redirect_members E fuel LD f r pt' cs' (set_mem m s1))))
            | _, _ => Err Unmodelled
            end)
      end
  end.

(** hickle.py:402-466, [_load] without the final append, which is done by the caller.
    Simplification: Python appends before it stores the object in the memo, the other
    way round here; append does not look at the memo. *)
Fixpoint load_ (fuel : nat) (E : env) (LD : loader) (f : file) (a : addr) (s : lst) : res (lst * loc) :=
  match fuel with
  | O => Err OutOfFuel
  | S fu =>
      match l_memo s !! a with
      | Some l => Ok (s, l)
      | None =>
          match get_node f a with
          | None => Err Unmodelled
          | Some n =>
              res_bind (resolve_type E (ld_legacy LD) f n) (fun r =>
                res_bind (ld_load LD (r_cls r) (r_base r)) (fun '(pt, memoise) =>
                  res_map (fun '(s', l) => (if memoise : bool then memo_put a l s' else s', l))
                    (if r_cont r then
                       let k := default KRecover (ld_conts LD (r_base r)) in
                       res_bind (members E f k a n) (fun ms =>
                         if redirected k pt then
                           if ld_legacy LD then
                             res_bind (redirect_members E fu LD f ms pt (cont_init k (nd_attrs n)) s)
                               (fun '(s1, cs, pt') =>
                                  res_map (fun '(m, l) => (set_mem m s1, l))
                                    (cont_convert fu k (nd_attrs n) (r_orig r) pt' cs (l_mem s1)))
                           else Err TypeError          (* type.mro of a function *)
                         else
                         res_bind (load_members E fu f (load_ fu E LD f) k ms
                                                (cont_init k (nd_attrs n)) s)
                           (fun '(s1, cs) =>
                              res_map (fun '(m, l) => (set_mem m s1, l))
                                (cont_convert fu k (nd_attrs n) (r_orig r) pt cs (l_mem s1))))
                     else
                       match nd_body n with
                       | BData d =>
                           res_map (fun '(m, l) => (set_mem m s, l))
                             (load_dataset E fu f a (default LRecover (ld_types LD (r_base r)))
                                      (nd_attrs n) d (r_orig r) pt (l_mem s))
                       | BGroup _ => Err Unmodelled
                       end)))
          end
      end
  end.
