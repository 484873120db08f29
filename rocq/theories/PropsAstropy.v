(** * PropsAstropy: Astropy objects (C52-C56)

    [back (create x) load extra]: [x] is dumped and loaded; [extra]: the attributes the
    container of [x] sets, none at the top.  What is left to Astropy is the record [A]. *)
From Verif Require Import Base Utf8 Dec Num PyObj H5 Env Create Astropy AstropyProofs.
From Coq Require Import Lia ZifyBool ZifyN.
Local Open Scope N_scope.
Local Open Scope list_scope.

(** ** An instance: three units, degrees wrapped, times within one minute *)
Definition u_deg : unit_ := 0.
Definition u_m : unit_ := 1.
Definition u_none : unit_ := 2.
Definition unit_names : list (N * pystr) := [(u_deg, str "deg"); (u_m, str "m"); (u_none, str "")].
Definition whole (v : num) : option Z :=
  match v with
  | NF (FZero _) => Some 0%Z
  | NF (FFin neg m (Z0 as e)) | NF (FFin neg m (Zpos _ as e)) => Some ((if neg then -1 else 1) * Zpos m * 2 ^ e)%Z
  | _ => None
  end.
Definition wrap (w : Z) (v : num) : num :=
  match whole v with
  | Some z => NF (dy_of_Z ((z - (w - 360)) mod 360 + (w - 360)))
  | None => v
  end.
Definition minute : pystr := str "2020-01-01T00:00:".
Definition pad (k : nat) (s : pystr) : pystr := repeat 48 (k - length s) ++ s.
(** The first [prec] of nine decimals. *)
Definition clock (prec : N) (t : instant) : pystr :=
  minute ++ pad 2 (N_dec (Z.to_N (fst t))) ++ str "." ++
  pad (N.to_nat prec) (N_dec (Z.to_N (snd t) / 10 ^ (9 - prec))).
Definition read_clock (s : pystr) : res instant :=
  let s := drop (length minute) s in
  match N_parse (take 2 s), N_parse (drop 3 s) with
  | Some a, Some b => Ok (Z.of_N a, Z.of_N (b * 10 ^ (9 - N.of_nat (length (drop 3 s)))))
  | _, _ => Err ValueError
  end.
Definition A0 : astro :=
  {| a_unit_str := fun u => default (str "?") (alist_get u unit_names);
     a_unit := fun s => match List.find (fun p => bool_decide (snd p = s)) unit_names with Some p => Ok (fst p) | None => Err ValueError end;
     a_norm := fun c e _ vs => if bool_decide (c = c_longitude) then Ok (map (wrap (Z.of_N e)) vs) else Ok vs;
     a_default := fun c => if bool_decide (c = c_longitude) then 360 else 0;
     a_value := fun fmt _ prec ts =>
       if bool_decide (fmt = str "isot") then TText (20 + prec) (map (clock prec) ts)
       else if bool_decide (fmt = str "datetime") then TObjects
       else TNums (DFloat F8) (map (fun t => NF (dy_of_Z (fst t))) ts);
     a_instant := fun _ _ v =>
       match v with
       | TText _ vs => res_mapM read_clock vs
       | TNums _ vs => res_mapM (fun n => match whole n with Some z => Ok (z, 0%Z) | None => Err ValueError end) vs
       | TObjects => Err ValueError
       end |}.
Definition in_list : aattrs := <[a_item_index := XNum (NZ 0)]> ∅.
Ltac here := (vm_compute; reflexivity) || (vm_compute; exact I).

Lemma in_list_attrs : container_attrs in_list.
Proof. intros k v. unfold in_list. rewrite lookup_insert_Some, lookup_empty. intros [[<- _]|[_ H]]; [by left|done]. Qed.

(** ** C52: quantities and angles

    Of class Quantity, Angle and their subclasses.  A quantity of 64 bit floats whose unit
    Astropy can read and whose state beyond values and unit is the one the constructor
    gives comes back, inside any container.  Missing: other dtypes and states. *)
Theorem C52_quantities_partial A kw q extra :
  container_attrs extra -> unit_ok A (q_unit q) ->
  q_dtype q = DFloat F8 -> floats (q_vals q) -> q_extra q = a_default A (q_cls q) ->
  a_norm A (q_cls q) (q_extra q) (q_unit q) (q_vals q) = Ok (q_vals q) ->
  back (create_quantity A kw q) (load_quantity A (q_cls q)) extra = Ok q.
Proof.
  intros He Hu Hd Hf Hx Hn. rewrite (quantity_back A kw q extra (q_vals q) He Hu (cast_floats _ Hf)). rewrite <- Hx, Hn, <- Hd.
  by destruct q.
Qed.
Print Assumptions C52_quantities_partial.

Definition q_lengths : quantity := Quantity (str "Quantity") 0 (DFloat F8) [2] [NF (FFin false 3 (-1)); NF FNaN] u_m.
Example C52_applies :
  container_attrs in_list /\ unit_ok A0 u_m /\ unit_ok A0 u_none /\ floats (q_vals q_lengths) /\
  a_norm A0 (q_cls q_lengths) 0 u_m (q_vals q_lengths) = Ok (q_vals q_lengths) /\
  back (create_quantity A0 [str "compression"] q_lengths) (load_quantity A0 (str "Quantity")) in_list = Ok q_lengths.
Proof.
  split; [exact in_list_attrs|]. split; [split; here|]. split; [split; here|]. split; [|split; here].
  repeat (constructor; [by eexists|]). constructor.
Qed.

(** False in general: a quantity of 32 bit floats becomes one of 64 bit floats; integers
    beyond 2^53 change; -10 degrees of a Longitude wrapped at 180 degrees become 350. *)
Theorem C52_refuted :
  exists A q32 qz lon,
    (q_dtype q32 = DFloat F4 /\ exists q, back (create_quantity A [] q32) (load_quantity A (q_cls q32)) ∅ = Ok q /\ q_dtype q = DFloat F8) /\
    (q_vals qz = [NZ (2 ^ 53 + 1)] /\ exists q, back (create_quantity A [] qz) (load_quantity A (q_cls qz)) ∅ = Ok q /\
       q_vals q = [NF (dy_of_Z (2 ^ 53))]) /\
    (q_vals lon = [NF (dy_of_Z (-10))] /\ a_norm A (q_cls lon) (q_extra lon) (q_unit lon) (q_vals lon) = Ok (q_vals lon) /\
     exists q, back (create_quantity A [] lon) (load_quantity A (q_cls lon)) ∅ = Ok q /\ q_vals q = [NF (dy_of_Z 350)]).
Proof.
  exists A0, (Quantity (str "Quantity") 0 (DFloat F4) [] [NF (FFin false 3 (-1))] u_m),
    (Quantity (str "Quantity") 0 (DInt W8) [1] [NZ (2 ^ 53 + 1)] u_m),
    (Quantity c_longitude 180 (DFloat F8) [1] [NF (dy_of_Z (-10))] u_deg).
  split; [split; [done|eexists; split; here]|]. split; [split; [done|eexists; split; here]|].
  split; [done|]. split; [here|]. eexists; split; here.
Qed.
Print Assumptions C52_refuted.

(** ** C53: sky coordinates: those of the frame ICRS without distance come back *)
Theorem C53_sky_partial A kw s extra :
  container_attrs extra -> unit_ok A (s_lon_unit s) -> unit_ok A (s_lat_unit s) ->
  s_frame s = icrs -> s_repr s = RUnit ->
  length (s_lon s) = length (s_lat s) -> floats (s_lon s) -> floats (s_lat s) ->
  a_norm A c_longitude (a_default A c_longitude) (s_lon_unit s) (s_lon s) = Ok (s_lon s) ->
  a_norm A c_latitude (a_default A c_latitude) (s_lat_unit s) (s_lat s) = Ok (s_lat s) ->
  back (create_skycoord A kw s) (load_skycoord A) extra = Ok s.
Proof.
  intros He U1 U2 Hfr Hr Hl F1 F2 N1 N2. rewrite (skycoord_back A kw s extra (s_lon s) (s_lat s)); try done; [|by rewrite Hr].
  rewrite <- Hr, <- Hfr. by destruct s.
Qed.
Print Assumptions C53_sky_partial.

Definition two_stars (frame : pystr) (r : repr) : skycoord :=
  SkyCoord frame r [2] [NF (dy_of_Z 10); NF (dy_of_Z 359)] [NF (dy_of_Z (-33)); NF (dy_of_Z 90)] u_deg u_deg.
Example C53_applies :
  a_norm A0 c_longitude (a_default A0 c_longitude) u_deg (s_lon (two_stars icrs RUnit)) = Ok (s_lon (two_stars icrs RUnit)) /\
  a_norm A0 c_latitude (a_default A0 c_latitude) u_deg (s_lat (two_stars icrs RUnit)) = Ok (s_lat (two_stars icrs RUnit)) /\
  back (create_skycoord A0 [str "compression"] (two_stars icrs RUnit)) (load_skycoord A0) in_list = Ok (two_stars icrs RUnit).
Proof. repeat split; here. Qed.

(** False in general: every other frame is read as ICRS, distances are dropped without
    complaint, for all coordinates that can be dumped. *)
Theorem C53_frame_and_distance_refuted A kw s extra s' :
  back (create_skycoord A kw s) (load_skycoord A) extra = Ok s' -> s_frame s' = icrs /\ s_repr s' = RUnit.
Proof.
  unfold back, load_skycoord. destruct (create_skycoord A kw s) as [n|]; [|done]. cbn [res_bind].
  destruct (an_data (finish extra n)) as [d sh vs| |]; [|done|done].
  destruct (get_str "lon_unit" (finish extra n)); [|done]. cbn [res_bind]. destruct (get_str "lat_unit" (finish extra n)); [|done]. cbn [res_bind].
  destruct (a_unit A _); [|done]. cbn [res_bind]. destruct (a_unit A _); [|done]. cbn [res_bind].
  destruct (a_norm A _ _ _ _); [|done]. cbn [res_bind]. destruct (a_norm A _ _ _ _); [|done]. by intros [= <-].
Qed.
Print Assumptions C53_frame_and_distance_refuted.
Example C53_refuted_applies :
  back (create_skycoord A0 [] (two_stars (str "fk5") (RDistance [NF (dy_of_Z 1); NF (dy_of_Z 2)]))) (load_skycoord A0) ∅ = Ok (two_stars icrs RUnit) /\
  create_skycoord A0 [] (two_stars icrs RCartesian) = Err AttributeError.
Proof. repeat split; here. Qed.

(** ** C54: times

    Format, scale and shape come back, and the instants Astropy reads from the value of the
    time; a single time printed as text has to be dumped without compression.  If Astropy prints these as before, the value is that of the time dumped. *)
Theorem C54_times_partial A kw t extra at_ :
  container_attrs extra -> ascii (t_format t) -> ascii (t_scale t) ->
  (forall n vs, a_value A (t_format t) (t_scale t) (t_prec t) (t_at t) = TText n vs -> Forall ascii vs) ->
  a_value A (t_format t) (t_scale t) (t_prec t) (t_at t) <> TObjects ->
  (forall n vs, a_value A (t_format t) (t_scale t) (t_prec t) (t_at t) = TText n vs -> t_shape t <> [] \/ filtered kw = false) ->
  a_instant A (t_format t) (t_scale t) (a_value A (t_format t) (t_scale t) (t_prec t) (t_at t)) = Ok at_ ->
  a_value A (t_format t) (t_scale t) default_prec at_ = a_value A (t_format t) (t_scale t) (t_prec t) (t_at t) ->
  exists t', back (create_time A kw t) (load_time A) extra = Ok t' /\
    t_format t' = t_format t /\ t_scale t' = t_scale t /\ t_shape t' = t_shape t /\
    a_value A (t_format t') (t_scale t') (t_prec t') (t_at t') = a_value A (t_format t) (t_scale t) (t_prec t) (t_at t).
Proof.
  intros He Hf Hs Ht Ho Hk Hi Hv. rewrite (time_back A kw t extra at_ He Hf Hs Ht Ho Hk Hi). eexists. split; [done|]. done.
Qed.
Print Assumptions C54_times_partial.

Definition a_time (prec : N) (shape : list N) (ns : Z) : time := Time (str "isot") (str "utc") prec shape [(7%Z, ns)].
Example C54_applies :
  let t := a_time 3 [1] 123456789 in
  (forall n vs, a_value A0 (t_format t) (t_scale t) (t_prec t) (t_at t) = TText n vs -> Forall ascii vs) /\
  a_value A0 (t_format t) (t_scale t) (t_prec t) (t_at t) = TText 23 [str "2020-01-01T00:00:07.123"] /\
  a_instant A0 (t_format t) (t_scale t) (TText 23 [str "2020-01-01T00:00:07.123"]) = Ok [(7%Z, 123000000%Z)] /\
  a_value A0 (t_format t) (t_scale t) default_prec [(7%Z, 123000000%Z)] = TText 23 [str "2020-01-01T00:00:07.123"] /\
  back (create_time A0 [str "compression"] t) (load_time A0) in_list = Ok (a_time 3 [1] 123000000).
Proof.
  cbv zeta. split; [|repeat split; here].
  intros n vs Hv. vm_compute in Hv. inversion Hv. repeat (constructor; [here|]). constructor.
Qed.

(** False in general: what the format does not print is lost; the precision is lost, so that
    a time dumped with nine decimals is printed with three; a single time as text cannot be
    dumped with compression; times of format 'datetime' cannot be dumped. *)
Theorem C54_refuted :
  exists A,
    back (create_time A [] (a_time 3 [1] 123456789)) (load_time A) ∅ = Ok (a_time 3 [1] 123000000) /\
    (exists t', back (create_time A [] (a_time 9 [1] 123456789)) (load_time A) ∅ = Ok t' /\
       a_value A (str "isot") (str "utc") 9 [(7%Z, 123456789%Z)] = TText 29 [str "2020-01-01T00:00:07.123456789"] /\
       a_value A (str "isot") (str "utc") (t_prec t') (t_at t') = TText 23 [str "2020-01-01T00:00:07.123"]) /\
    create_time A [str "compression"] (a_time 3 [] 0) = Err TypeError /\
    (exists e, create_time A [] (Time (str "datetime") (str "utc") 3 [1] [(7%Z, 0%Z)]) = Err e).
Proof.
  exists A0. split; [here|]. split; [eexists; split; [here|split; here]|]. split; [here|]. eexists; here.
Qed.
Print Assumptions C54_refuted.

(** ** C55: constants *)
Theorem C55_constants A kw k extra :
  container_attrs extra -> unit_ok A (k_unit k) -> floats [k_value k] ->
  ascii (k_abbrev k) -> ascii (k_name k) -> ascii (k_reference k) -> (forall s, k_system k = Some s -> ascii s /\ s <> []) ->
  back (create_constant A kw k) (load_constant A) extra = Ok k.
Proof.
  intros He U Hv H1 H2 H3 H4. rewrite constant_back; try done; [|intros s Hs; by apply H4].
  destruct k as [ab nm v u unc ref [[|c s]|]]; [|done|done]. simpl in *. by destruct (H4 [] eq_refl).
Qed.
Print Assumptions C55_constants.
Definition some_constant : constant :=
  Constant (str "e") (str "Electron charge") (NF (FFin false 3 (-7))) u_none (NF (FFin false 1 (-9))) (str "CODATA 2018") (Some (str "esu")).
Example C55_applies :
  unit_ok A0 u_none /\ floats [k_value some_constant] /\ ascii (k_name some_constant) /\
  back (create_constant A0 [str "compression"] some_constant) (load_constant A0) in_list = Ok some_constant.
Proof. split; [split; here|]. split; [constructor; [by eexists|constructor]|]. split; here. Qed.

(** ** C56: tables

    Columns, rows and meta data come back, except for the units of the columns.  Bytes in
    the meta data are read as str, and the attributes set by the container of the table are
    added to the meta data.  Missing: text columns, and meta data that uses one of the names
    type, base_type and colnames. *)
Theorem C56_tables_partial kw t extra :
  container_attrs extra -> Forall ascii (map fst (tb_cols t)) ->
  Forall (fun c => match snd c with ColText _ => False | _ => True end) (tb_cols t) ->
  (forall k v, tb_meta t !! k = Some v -> storable v = true /\ k ∉ not_meta) ->
  exists t', back (create_table kw t) load_table_ extra = Ok t' /\
    tb_cols t' = tb_cols t /\ tb_rows t' = tb_rows t /\
    tb_meta t' = (attr_meta <$> extra) ∪ (as_attribute <$> tb_meta t).
Proof. intros He Hn Hc Hm. rewrite (table_back kw t extra He Hn Hc Hm). by eexists. Qed.
Print Assumptions C56_tables_partial.

(** At the top, with units only where there are none and without bytes: the same table. *)
Theorem C56_top_partial kw t :
  Forall ascii (map fst (tb_cols t)) ->
  Forall (fun c => match snd c with ColText _ => False | _ => True end) (tb_cols t) ->
  tb_units t = map (fun _ => None) (tb_cols t) ->
  (forall k v, tb_meta t !! k = Some v -> storable v = true /\ k ∉ not_meta /\ as_attribute v = v) ->
  back (create_table kw t) load_table_ ∅ = Ok t.
Proof.
  intros Hn Hc Hu Hm. rewrite (table_back kw t ∅); try done; [|intros k v Hk; by apply Hm in Hk as (? & ? & _)].
  rewrite fmap_empty, (left_id_L ∅ (∪)), <- Hu. destruct t as [cols us rows me]. simpl in *. f_equal. f_equal.
  apply map_eq. intros k. rewrite lookup_fmap. destruct (me !! k) as [v|] eqn:E; [|done]. simpl. by destruct (Hm _ _ E) as (_ & _ & ->).
Qed.
Print Assumptions C56_top_partial.

Definition a_table (units : list (option unit_)) (m : gmap pystr meta) : table :=
  Table [(str "a", ColNum (DInt W8)); (str "b", ColBytes 2)] units
    [[CellNum (NZ 1); CellText (str "x")]; [CellNum (NZ 2); CellText (str "yy")]] m.
Definition plain_meta : gmap pystr meta := <[str "name" := MStr (str "test_thing")]> (<[str "n" := MNum (NZ 5)]> ∅).
Example C56_applies :
  Forall ascii (map fst (tb_cols (a_table [None; None] plain_meta))) /\
  (forall k v, plain_meta !! k = Some v -> storable v = true /\ k ∉ not_meta /\ as_attribute v = v) /\
  back (create_table [str "compression"] (a_table [None; None] plain_meta)) load_table_ ∅ = Ok (a_table [None; None] plain_meta).
Proof.
  assert (forall k v, plain_meta !! k = Some v -> storable v = true /\ k ∉ not_meta /\ as_attribute v = v) as Hm.
  { intros k v. unfold plain_meta. rewrite !lookup_insert_Some, lookup_empty.
    intros [[<- <-]|[_ [[<- <-]|[_ H]]]]; [| |done]; (split; [done|split; [apply (bool_decide_unpack _); here|done]]). }
  assert (Forall ascii (map fst (tb_cols (a_table [None; None] plain_meta)))) as Ha.
  { repeat (constructor; [here|]). constructor. }
  split; [exact Ha|]. split; [exact Hm|].
  apply C56_top_partial; [exact Ha| |done|exact Hm]. repeat (constructor; [exact I|]). constructor.
Qed.

(** False in general: the first item of a list gains the entry item_index; units are lost;
    bytes become str; an entry named colnames renames the columns, one named base_type is
    lost; text columns cannot be dumped. *)
Theorem C56_refuted :
  exists t bytes_meta names_meta base_meta,
    (tb_meta t = ∅ /\ exists t', back (create_table [] t) load_table_ in_list = Ok t' /\ tb_meta t' !! a_item_index = Some (MNum (NZ 0))) /\
    (tb_units t = [Some u_m; None] /\ exists t', back (create_table [] t) load_table_ ∅ = Ok t' /\ tb_units t' = [None; None]) /\
    (bytes_meta !! str "k" = Some (MBytes (str "x")) /\ exists t', back (create_table [] (a_table [None; None] bytes_meta)) load_table_ ∅ = Ok t' /\
       tb_meta t' !! str "k" = Some (MStr (str "x"))) /\
    (exists t', back (create_table [] (a_table [None; None] names_meta)) load_table_ ∅ = Ok t' /\ map fst (tb_cols t') = [str "x"; str "y"]) /\
    (base_meta !! str "base_type" = Some (MNum (NZ 1)) /\ exists t', back (create_table [] (a_table [None; None] base_meta)) load_table_ ∅ = Ok t' /\
       tb_meta t' !! str "base_type" = None) /\
    create_table [] (Table [(str "a", ColText 3)] [None] [] ∅) = Err TypeError.
Proof.
  exists (a_table [Some u_m; None] ∅), (<[str "k" := MBytes (str "x")]> ∅), (<[str "colnames" := MStrs [str "x"; str "y"]]> ∅),
    (<[str "base_type" := MNum (NZ 1)]> ∅).
  split; [split; [done|eexists; split; [reflexivity|here]]|].
  split; [split; [done|eexists; split; [reflexivity|here]]|].
  split; [split; [here|eexists; split; [reflexivity|here]]|].
  split; [eexists; split; [reflexivity|here]|].
  split; [split; [here|eexists; split; [reflexivity|here]]|here].
Qed.
Print Assumptions C56_refuted.
