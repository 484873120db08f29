(** * Astropy: the functions of load_astropy.py

    A separate model: each Astropy object is dumped as one dataset with attributes and has
    no sub items, so the functions are pure.  [_dump] adds the attribute 'type' and those the
    container of the object asks for (hickle.py:122-132, [finish]).
    h5py (version 3): Python str and bytes written as attribute are read as str, lists of
    them as arrays of str ([load_str_attr_ascii] is [AttributeManager.get] then,
    helpers.py:230-232). *)
From Verif Require Import Base Utf8 Dec Num PyObj H5 Env Create.

(** ** Nodes *)

(** Values of attributes: str, numbers, lists of str, lists of numbers, the reference to the
    entry of the type table. *)
Inductive aattr :=
| XStr (s : pystr)
| XNum (n : num)
| XStrs (l : list pystr)
| XNums (l : list num)
| XType.
Global Instance aattr_eq_dec : EqDecision aattr.
Proof. solve_decision. Defined.
Notation aattrs := (gmap pystr aattr).

(** Columns of structured arrays: numbers, bytes of a fixed length, text (which h5py
    refuses). *)
Inductive coltype := ColNum (d : dtype) | ColBytes (n : N) | ColText (n : N).
Inductive cell := CellNum (n : num) | CellText (s : pystr).

Inductive apay :=
| YNum (d : dtype) (shape : list N) (vs : list num)
| YBytes (n : N) (shape : list N) (vs : list bytes)
| YRows (cols : list (pystr * coltype)) (rows : list (list cell)).

Record anode := ANode { an_data : apay; an_attrs : aattrs }.

(** h5py refuses chunk and filter options for scalar datasets, and text in arrays. *)
Definition filtered (kw : kwargs) : bool := existsb is_filter kw.
Definition pay_scalar (p : apay) : bool :=
  match p with YNum _ [] _ | YBytes _ [] _ => true | _ => false end.
Definition pay_text (p : apay) : bool :=
  match p with
  | YRows cols _ => existsb (fun c => match snd c with ColText _ => true | _ => false end) cols
  | _ => false
  end.
Definition new_dataset (kw : kwargs) (p : apay) : res anode :=
  if pay_text p then Err TypeError
  else if pay_scalar p && filtered kw then Err TypeError
  else Ok (ANode p ∅).
Definition put (k : string) (v : aattr) (n : anode) : anode := ANode (an_data n) (<[str k := v]> (an_attrs n)).
Definition put_ascii (k : string) (s : pystr) (n : anode) : res anode :=
  res_map (fun b => put k (XStr b) n) (ascii_encode s).

(** hickle.py:122-132: the type and the attributes given by the container. *)
Definition finish (extra : aattrs) (n : anode) : anode :=
  ANode (an_data n) (delete (str "type") extra ∪ <[str "type" := XType]> (an_attrs n)).

Definition get_str (k : string) (n : anode) : res pystr :=
  match an_attrs n !! str k with
  | Some (XStr s) => Ok s
  | Some _ => Err TypeError
  | None => Err KeyError
  end.

(** ** What is left to Astropy

    [a_unit_str u]: [u.to_string()]; [a_unit s]: [Unit(s)].
    [a_norm c e u vs]: what the constructor of class [c] makes of the values; [e] is the
    state of the object beyond values and unit (the wrap angle of a Longitude), with
    [a_default c] if it is not given.
    [a_value fmt scale prec t]: [Time.value] of an instant; [a_instant fmt scale v]: the instant
    the constructor of Time reads. *)
Definition unit_ : Type := N.
Definition instant : Type := Z * Z.
Inductive tvals := TText (n : N) (vs : list pystr) | TNums (d : dtype) (vs : list num) | TObjects.
Record astro := Astro {
  a_unit_str : unit_ -> pystr;
  a_unit : pystr -> res unit_;
  a_norm : pystr -> N -> unit_ -> list num -> res (list num);
  a_default : pystr -> N;
  a_value : pystr -> pystr -> N -> list instant -> tvals;
  a_instant : pystr -> pystr -> tvals -> res (list instant)
}.

(** ** Quantity and Angle *)
Record quantity := Quantity {
  q_cls : pystr; q_extra : N;
  q_dtype : dtype; q_shape : list N; q_vals : list num; q_unit : unit_
}.

(** load_astropy.py:16-43, 46-69 (the same code). *)
Definition create_quantity (A : astro) (kw : kwargs) (q : quantity) : res anode :=
  res_bind (res_mapM (cast (DFloat F8)) (q_vals q)) (fun vs =>
  res_bind (new_dataset (no_compression kw) (YNum (DFloat F8) (q_shape q) vs)) (fun n =>
  put_ascii "unit" (a_unit_str A (q_unit q)) n)).

(** load_astropy.py:222-243, 285-306. *)
Definition load_quantity (A : astro) (c : pystr) (n : anode) : res quantity :=
  res_bind (get_str "unit" n) (fun us =>
  res_bind (a_unit A us) (fun u =>
  match an_data n with
  | YNum d sh vs => res_map (fun vs => Quantity c (a_default A c) d sh vs u) (a_norm A c (a_default A c) u vs)
  | _ => Err TypeError
  end)).

(** ** SkyCoord

    The data of a SkyCoord: on the sphere without or with distance, or Cartesian. *)
Inductive repr := RUnit | RDistance (d : list num) | RCartesian.
Record skycoord := SkyCoord {
  s_frame : pystr; s_repr : repr; s_shape : list N;
  s_lon : list num; s_lat : list num; s_lon_unit : unit_; s_lat_unit : unit_
}.
(** [np.stack((lon, lat), axis=-1)], [data[..., 0]] and [data[..., 1]]. *)
Fixpoint stack (xs ys : list num) : list num :=
  match xs, ys with x :: xs, y :: ys => x :: y :: stack xs ys | _, _ => [] end.
Fixpoint firsts (l : list num) : list num := match l with x :: _ :: r => x :: firsts r | _ => [] end.
Fixpoint seconds (l : list num) : list num := match l with _ :: y :: r => y :: seconds r | _ => [] end.

(** load_astropy.py:76-107.  A Cartesian representation has no [lon]. *)
Definition create_skycoord (A : astro) (kw : kwargs) (s : skycoord) : res anode :=
  match s_repr s with
  | RCartesian => Err AttributeError
  | _ =>
      res_bind (res_mapM (cast (DFloat F8)) (stack (s_lon s) (s_lat s))) (fun vs =>
      res_bind (new_dataset kw (YNum (DFloat F8) (s_shape s ++ [2]) vs)) (fun n =>
      res_bind (put_ascii "lon_unit" (a_unit_str A (s_lon_unit s)) n) (fun n =>
      put_ascii "lat_unit" (a_unit_str A (s_lat_unit s)) n)))
  end.

Definition c_longitude : pystr := str "Longitude".
Definition c_latitude : pystr := str "Latitude".
Definition icrs : pystr := str "icrs".
(** load_astropy.py:309-332.  [SkyCoord(lon, lat, unit=...)]: frame ICRS, the values go
    through Longitude and Latitude. *)
Definition load_skycoord (A : astro) (n : anode) : res skycoord :=
  match an_data n with
  | YNum _ sh vs =>
      res_bind (get_str "lon_unit" n) (fun s1 => res_bind (get_str "lat_unit" n) (fun s2 =>
      res_bind (a_unit A s1) (fun u1 => res_bind (a_unit A s2) (fun u2 =>
      res_bind (a_norm A c_longitude (a_default A c_longitude) u1 (firsts vs)) (fun lon =>
      res_bind (a_norm A c_latitude (a_default A c_latitude) u2 (seconds vs)) (fun lat =>
      Ok (SkyCoord icrs RUnit (removelast sh) lon lat u1 u2)))))))
  | _ => Err TypeError
  end.

(** ** Time *)
Record time := Time {
  t_format : pystr; t_scale : pystr; t_prec : N; t_shape : list N; t_at : list instant
}.
(** [precision] if none is given to the constructor. *)
Definition default_prec : N := 3.
(** [dtype.str]: '<U23' and the like. *)
Definition text_dtype (n : N) : pystr := str "<U" ++ N_dec n.
Definition tvals_dtype (v : tvals) : res pystr :=
  match v with
  | TText n _ => Ok (text_dtype n)
  | TNums d _ => Ok (dtype_str d)
  | TObjects => Err AttributeError
  end.
(** load_astropy.py:110-149.  Only text is written with the keyword arguments of dump.
    Simplification: values that are Python objects (format 'datetime') have no dtype h5py
    could store; the error is AttributeError for a scalar, TypeError for an array. *)
Definition create_time (A : astro) (kw : kwargs) (t : time) : res anode :=
  let v := a_value A (t_format t) (t_scale t) (t_prec t) (t_at t) in
  res_bind
    (match v with
     | TText n vs =>
         res_bind (res_mapM ascii_encode vs) (fun bs => new_dataset kw (YBytes n (t_shape t) bs))
     | TNums d vs => new_dataset [] (YNum d (t_shape t) vs)
     | TObjects => Err (match t_shape t with [] => AttributeError | _ => TypeError end)
     end) (fun n =>
  res_bind (tvals_dtype v) (fun d =>
  res_bind (put_ascii "np_dtype" d n) (fun n =>
  res_bind (put_ascii "format" (t_format t) n) (fun n =>
  put_ascii "scale" (t_scale t) n)))).

(** load_astropy.py:246-282.  Text is read in the width given by np_dtype.
    Simplification: np_dtype is the one written, which is compared and not parsed. *)
Definition load_time (A : astro) (n : anode) : res time :=
  res_bind (get_str "format" n) (fun fmt => res_bind (get_str "scale" n) (fun scale =>
  res_bind (get_str "np_dtype" n) (fun d =>
  match an_data n with
  | YBytes k sh bs =>
      if bool_decide (d = text_dtype k) then
        res_map (Time fmt scale default_prec sh) (a_instant A fmt scale (TText k bs))
      else Err Unmodelled
  | YNum dt sh vs =>
      if bool_decide (d = dtype_str dt) then
        res_map (Time fmt scale default_prec sh) (a_instant A fmt scale (TNums dt vs))
      else Err Unmodelled
  | YRows _ _ => Err TypeError
  end))).

(** ** Constant *)
Record constant := Constant {
  k_abbrev : pystr; k_name : pystr; k_value : num; k_unit : unit_; k_uncertainty : num;
  k_reference : pystr; k_system : option pystr
}.
(** load_astropy.py:152-184. *)
Definition create_constant (A : astro) (kw : kwargs) (k : constant) : res anode :=
  res_bind (cast (DFloat F8) (k_value k)) (fun v =>
  res_bind (new_dataset (no_compression kw) (YNum (DFloat F8) [] [v])) (fun n =>
  res_bind (put_ascii "unit" (a_unit_str A (k_unit k)) n) (fun n =>
  res_bind (put_ascii "abbrev" (k_abbrev k) n) (fun n =>
  res_bind (put_ascii "name" (k_name k) n) (fun n =>
  res_bind (put_ascii "reference" (k_reference k) n) (fun n =>
  let n := put "uncertainty" (XNum (k_uncertainty k)) n in
  match k_system k with
  | None | Some [] => Ok n
  | Some s => put_ascii "system" s n
  end)))))).
(** load_astropy.py:335-366. *)
Definition load_constant (A : astro) (n : anode) : res constant :=
  res_bind (get_str "unit" n) (fun us => res_bind (get_str "abbrev" n) (fun abbrev =>
  res_bind (get_str "name" n) (fun name => res_bind (get_str "reference" n) (fun ref =>
  match an_attrs n !! str "uncertainty" with
  | Some (XNum unc) =>
      let go sys :=
        match an_data n with
        | YNum _ [] [v] => res_map (fun u => Constant abbrev name v u unc ref sys) (a_unit A us)
        | _ => Err TypeError
        end in
      match an_attrs n !! str "system" with
      | None => go None
      | Some (XStr s) => go (Some s)
      | Some _ => Err TypeError
      end
  | Some _ => Err TypeError
  | None => Err KeyError
  end)))).

(** ** Table *)

(** Values of the meta data: str, bytes, numbers, lists, anything else. *)
Inductive meta :=
| MStr (s : pystr) | MBytes (b : bytes) | MNum (n : num) | MStrs (l : list pystr) | MNums (l : list num)
| MOther.
Record table := Table {
  tb_cols : list (pystr * coltype);
  tb_units : list (option unit_);
  tb_rows : list (list cell);
  tb_meta : gmap pystr meta
}.
(** [d.attrs[key] = value]. *)
Definition meta_attr (m : meta) : res aattr :=
  match m with
  | MStr s => Ok (XStr s)
  | MBytes b => Ok (XStr b)
  | MNum n => Ok (XNum n)
  | MStrs l => Ok (XStrs l)
  | MNums l => Ok (XNums l)
  | MOther => Err TypeError
  end.
(** What is read.  A list comes back as an array, which is not told apart here. *)
Definition attr_meta (a : aattr) : meta :=
  match a with
  | XStr s => MStr s
  | XNum n => MNum n
  | XStrs l => MStrs l
  | XNums l => MNums l
  | XType => MOther
  end.
Fixpoint put_meta (l : list (pystr * meta)) (a : aattrs) : res aattrs :=
  match l with
  | [] => Ok a
  | (k, v) :: r => res_bind (meta_attr v) (fun x => put_meta r (<[k := x]> a))
  end.
(** load_astropy.py:187-215.  [as_array()] has the columns without their units.
    Simplification: masked tables (whose mask h5py drops) do not occur. *)
Definition create_table (kw : kwargs) (t : table) : res anode :=
  res_bind (new_dataset kw (YRows (tb_cols t) (tb_rows t))) (fun n =>
  res_bind (res_mapM ascii_encode (map fst (tb_cols t))) (fun names =>
  res_map (ANode (an_data n)) (put_meta (map_to_list (tb_meta t)) (an_attrs (put "colnames" (XStrs names) n))))).

Definition not_meta : gset pystr := {[ str "type"; str "base_type"; str "colnames" ]}.
(** load_astropy.py:369-392.  [names]: as many as the array has columns. *)
Definition load_table_ (n : anode) : res table :=
  match an_attrs n !! str "colnames", an_data n with
  | Some (XStrs names), YRows cols rows =>
      if bool_decide (length names = length cols) then
        Ok (Table (zip names (map snd cols)) (map (fun _ => None) cols) rows
              (attr_meta <$> filter (fun kv => kv.1 ∉ not_meta) (an_attrs n)))
      else Err ValueError
  | Some _, YRows _ _ => Err ValueError
  | _, _ => Err TypeError
  end.
