(** * V3Astropy: the Astropy loader of hickle 3

    hickle/legacy_v3/loaders/load_astropy.py.  Each object is one dataset with attributes;
    its functions are pure as those of Astropy.v, whose objects and oracles are used here.
    The writers are the ones hickle 3 had; only [type(py_obj)] itself is looked up
    (legacy_v3/hickle.py:312-329), instances of subclasses are pickled (hickle.py:391-410). *)
From Verif Require Import Base Utf8 Dec Num PyObj H5 Env Create LegacyV3 Astropy.

(** Attributes: arrays of bytes of fixed length (a list of bytes), arrays of str (a list of
    str), arrays of numbers, and what the meta data of a table has. *)
Inductive wattr :=
| WB (l : list bytes)
| WS (l : list pystr)
| WN (l : list num)
| WMeta (m : meta).
Record wnode := WNode { wn_data : apay; wn_attrs : gmap pystr wattr }.

(** [h_group.create_dataset] without keyword arguments. *)
Definition new_node (p : apay) : res wnode := if pay_text p then Err TypeError else Ok (WNode p ∅).
Definition set_w (k : string) (v : wattr) (n : wnode) : wnode := WNode (wn_data n) (<[str k := v]> (wn_attrs n)).
(** [d.attrs[k] = [s.encode('ascii')]]; numpy drops trailing NULs. *)
Definition put_bytes (k : string) (s : pystr) (n : wnode) : res wnode :=
  res_map (fun b => set_w k (WB [drop_nuls b]) n) (ascii_encode s).
(** [d.attrs[k] = [s]]; h5py refuses NUL in strings of variable length. *)
Definition put_text (k : string) (s : pystr) (n : wnode) : res wnode :=
  if has_char 0 s then Err ValueError else Ok (set_w k (WS [s]) n).
Definition put_type (t : string) (n : wnode) : wnode := set_w "type" (WB [str t]) n.

(** [attrs[k][0].decode('ascii')]. *)
Definition ascii_decode (b : bytes) : res pystr := ascii_encode b.
Definition get_bytes (k : string) (n : wnode) : res pystr :=
  match wn_attrs n !! str k with
  | None => Err KeyError
  | Some (WB (b :: _)) => ascii_decode b
  | Some (WB [] | WS [] | WN []) => Err IndexError
  | Some _ => Err AttributeError
  end.
(** [attrs[k][0]] given to Astropy, which takes bytes (in ASCII) and str. *)
Definition get_text (k : string) (n : wnode) : res pystr :=
  match wn_attrs n !! str k with
  | None => Err KeyError
  | Some (WB (b :: _)) => ascii_decode b
  | Some (WS (s :: _)) => Ok s
  | Some (WB [] | WS [] | WN []) => Err IndexError
  | Some _ => Err TypeError
  end.

(** ** Quantity and Angle, load_astropy.py:11-45, 147-151, 164-168 (the same code) *)
Definition create_quantity3 (A : astro) (ty : string) (q : quantity) : res wnode :=
  res_bind (res_mapM (cast (DFloat F8)) (q_vals q)) (fun vs =>
  res_bind (new_node (YNum (DFloat F8) (q_shape q) vs)) (fun n =>
  put_bytes "unit" (a_unit_str A (q_unit q)) (put_type ty n))).
Definition load_quantity3 (A : astro) (c : pystr) (n : wnode) : res quantity :=
  res_bind (get_text "unit" n) (fun us =>
  res_bind (a_unit A us) (fun u =>
  match wn_data n with
  | YNum d sh vs => res_map (fun vs => Quantity c (a_default A c) d sh vs u) (a_norm A c (a_default A c) u vs)
  | _ => Err TypeError
  end)).

(** ** SkyCoord, load_astropy.py:47-70, 170-175 *)
Definition create_skycoord3 (A : astro) (s : skycoord) : res wnode :=
  match s_repr s with
  | RCartesian => Err AttributeError
  | _ =>
      res_bind (res_mapM (cast (DFloat F8)) (stack (s_lon s) (s_lat s))) (fun vs =>
      res_bind (new_node (YNum (DFloat F8) (s_shape s ++ [2]) vs)) (fun n =>
      res_bind (put_bytes "lon_unit" (a_unit_str A (s_lon_unit s)) (put_type "astropy_skycoord" n)) (fun n =>
      put_bytes "lat_unit" (a_unit_str A (s_lat_unit s)) n)))
  end.
Definition load_skycoord3 (A : astro) (n : wnode) : res skycoord :=
  match wn_data n with
  | YNum _ sh vs =>
      res_bind (get_text "lon_unit" n) (fun s1 => res_bind (get_text "lat_unit" n) (fun s2 =>
      res_bind (a_unit A s1) (fun u1 => res_bind (a_unit A s2) (fun u2 =>
      res_bind (a_norm A c_longitude (a_default A c_longitude) u1 (firsts vs)) (fun lon =>
      res_bind (a_norm A c_latitude (a_default A c_latitude) u2 (seconds vs)) (fun lat =>
      Ok (SkyCoord icrs RUnit (removelast sh) lon lat u1 u2)))))))
  | _ => Err TypeError
  end.

(** ** Time, load_astropy.py:72-102, 153-162

    A single time has a Python str or float as value, without dtype (AttributeError).  Text
    is written item by item as an array of one dimension.
    Simplification: for arrays of text with more dimensions, whose items are arrays again,
    the result (the first characters of how numpy prints these) is [Err Unmodelled]. *)
Definition create_time3 (A : astro) (t : time) : res wnode :=
  match t_shape t with
  | [] => Err AttributeError
  | k :: more =>
      res_bind
        (match a_value A (t_format t) (t_scale t) (t_prec t) (t_at t) with
         | TText w vs =>
             match more with
             | [] => res_bind (res_mapM ascii_encode vs) (fun bs => new_node (YBytes w [k] (map drop_nuls bs)))
             | _ => Err Unmodelled
             end
         | TNums d vs => new_node (YNum d (t_shape t) vs)
         | TObjects => Err TypeError
         end) (fun n =>
      res_bind (put_bytes "format" (t_format t) (put_type "astropy_time" n)) (fun n =>
      put_bytes "scale" (t_scale t) n))
  end.
Definition load_time3 (A : astro) (n : wnode) : res time :=
  res_bind (get_bytes "format" n) (fun fmt => res_bind (get_bytes "scale" n) (fun scale =>
  match wn_data n with
  | YBytes k sh bs => res_map (Time fmt scale default_prec sh) (a_instant A fmt scale (TText k bs))
  | YNum dt sh vs => res_map (Time fmt scale default_prec sh) (a_instant A fmt scale (TNums dt vs))
  | YRows _ _ => Err TypeError
  end)).

(** ** Constant, load_astropy.py:104-123, 177-190 *)
Definition create_constant3 (A : astro) (k : constant) : res wnode :=
  res_bind (cast (DFloat F8) (k_value k)) (fun v =>
  res_bind (new_node (YNum (DFloat F8) [] [v])) (fun n =>
  res_bind (put_text "unit" (a_unit_str A (k_unit k)) (put_type "astropy_constant" n)) (fun n =>
  res_bind (put_text "abbrev" (k_abbrev k) n) (fun n =>
  res_bind (put_text "name" (k_name k) n) (fun n =>
  res_bind (put_text "reference" (k_reference k) n) (fun n =>
  let n := set_w "uncertainty" (WN [k_uncertainty k]) n in
  match k_system k with
  | None | Some [] => Ok n
  | Some s => put_text "system" s n
  end)))))).
Definition load_constant3 (A : astro) (n : wnode) : res constant :=
  res_bind (get_text "unit" n) (fun us => res_bind (get_text "abbrev" n) (fun abbrev =>
  res_bind (get_text "name" n) (fun name => res_bind (get_text "reference" n) (fun ref =>
  match wn_attrs n !! str "uncertainty" with
  | Some (WN (unc :: _)) =>
      let go sys :=
        match wn_data n with
        | YNum _ [] [v] => res_map (fun u => Constant abbrev name v u unc ref sys) (a_unit A us)
        | _ => Err TypeError
        end in
      match wn_attrs n !! str "system" with
      | None => go None
      | Some _ => res_bind (get_text "system" n) (fun s => go (Some s))
      end
  | Some _ => Err TypeError
  | None => Err KeyError
  end)))).

(** ** Table, load_astropy.py:126-144, 192-204 *)
Definition meta_wattr (m : meta) : res wattr :=
  match m with
  | MStrs l => Ok (WS l)
  | MNums l => Ok (WN l)
  | MOther => Err TypeError
  | m => Ok (WMeta m)
  end.
(** Bytes are read as str, lists as arrays, which are not told apart from lists here. *)
Definition wattr_meta (a : wattr) : meta :=
  match a with
  | WB _ => MOther
  | WS l => MStrs l
  | WN l => MNums l
  | WMeta (MBytes b) => MStr b
  | WMeta m => m
  end.
Fixpoint put_meta3 (l : list (pystr * meta)) (a : gmap pystr wattr) : res (gmap pystr wattr) :=
  match l with
  | [] => Ok a
  | (k, v) :: r => res_bind (meta_wattr v) (fun x => put_meta3 r (<[k := x]> a))
  end.
Definition create_table3 (t : table) : res wnode :=
  res_bind (new_node (YRows (tb_cols t) (tb_rows t))) (fun n =>
  res_bind (res_mapM ascii_encode (map fst (tb_cols t))) (fun names =>
  res_map (WNode (wn_data n)) (put_meta3 (map_to_list (tb_meta t))
    (wn_attrs (set_w "colnames" (WB (map drop_nuls names)) (put_type "astropy_table" n)))))).
Definition not_meta3 : gset pystr := {[ str "type"; str "colnames" ]}.
Definition load_table3 (n : wnode) : res table :=
  match wn_attrs n !! str "colnames", wn_data n with
  | Some (WB bs), YRows cols rows =>
      res_bind (res_mapM ascii_decode bs) (fun names =>
      if bool_decide (length names = length cols) then
        Ok (Table (zip names (map snd cols)) (map (fun _ => None) cols) rows
              (wattr_meta <$> filter (fun kv => kv.1 ∉ not_meta3) (wn_attrs n)))
      else Err ValueError)
  | Some _, YRows _ _ => Err AttributeError
  | None, YRows _ _ => Err KeyError
  | _, _ => Err TypeError
  end.

(** ** Looking up the functions, load_astropy.py:224-237 and hickle.py:312-329, 457-471 *)
Inductive aobj :=
| OQuantity (q : quantity) | OSky (s : skycoord) | OTime (t : time) | OConstant (k : constant) | OTable (t : table).
Definition c_quantity : pystr := str "Quantity".
Definition c_angle : pystr := str "Angle".
Definition create3 (A : astro) (x : aobj) : res wnode :=
  match x with
  | OQuantity q =>
      if bool_decide (q_cls q = c_quantity) then create_quantity3 A "astropy_quantity" q
      else if bool_decide (q_cls q = c_angle) then create_quantity3 A "astropy_angle" q
      else Err Unmodelled                 (* pickled *)
  | OSky s => create_skycoord3 A s
  | OTime t => create_time3 A t
  | OConstant k => create_constant3 A k
  | OTable t => create_table3 t
  end.
(** legacy_v3/hickle.py:549-565 with helpers.py:14-17.  Which error a 'type' that is no
    array of bytes leads to is not told apart. *)
Definition load3 (A : astro) (n : wnode) : res aobj :=
  match wn_attrs n !! str "type" with
  | Some (WB (ty :: _)) =>
      if bool_decide (ty = str "astropy_quantity") then res_map OQuantity (load_quantity3 A c_quantity n)
      else if bool_decide (ty = str "astropy_angle") then res_map OQuantity (load_quantity3 A c_angle n)
      else if bool_decide (ty = str "astropy_skycoord") then res_map OSky (load_skycoord3 A n)
      else if bool_decide (ty = str "astropy_time") then res_map OTime (load_time3 A n)
      else if bool_decide (ty = str "astropy_constant") then res_map OConstant (load_constant3 A n)
      else if bool_decide (ty = str "astropy_table") then res_map OTable (load_table3 n)
      else Err RuntimeError
  | Some (WB [] | WS [] | WN []) => Err IndexError
  | Some _ => Err RuntimeError
  | None => Err KeyError
  end.
