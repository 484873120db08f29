(** * PropsV3Astropy: Astropy objects in files of hickle 3 (C62)

    [back3 A x]: [x] is written by hickle 3 and loaded by load.  What is left to Astropy is
    the record [A]. *)
From Verif Require Import Base Utf8 Dec Num PyObj H5 Env Create LegacyV3 Astropy AstropyProofs V3Astropy V3AstropyProofs PropsAstropy.
From Coq Require Import Lia ZifyBool ZifyN.
Local Open Scope N_scope.
Local Open Scope list_scope.

(** ** C62: the object loaded is the one that was dumped, for the objects of [keeps]:
    quantities and angles of 64 bit floats, ICRS coordinates without distance, arrays of
    times in the default precision, constants, tables without units and text columns.
    Missing: all others, see below. *)
Theorem C62_astropy_partial A x : keeps A x -> back3 A x = Ok x.
Proof. exact (astropy3 A x). Qed.
Print Assumptions C62_astropy_partial.

Lemma deg_kept : unit_kept A0 u_deg.
Proof. split; [split; here|split; here]. Qed.
Lemma m_kept : unit_kept A0 u_m.
Proof. split; [split; here|split; here]. Qed.
Ltac all_floats := repeat (constructor; [by eexists|]); constructor.
Definition an_angle : quantity := Quantity c_angle 0 (DFloat F8) [] [NF (dy_of_Z 30)] u_deg.
Example C62_applies :
  keeps A0 (OQuantity q_lengths) /\ keeps A0 (OQuantity an_angle) /\ keeps A0 (OSky (two_stars icrs RUnit)) /\
  keeps A0 (OTime (a_time 3 [1] 123000000)) /\ keeps A0 (OConstant some_constant) /\
  keeps A0 (OTable (a_table [None; None] plain_meta)).
Proof.
  split; [split; [by left|]; split; [exact m_kept|]; split; [done|]; split; [all_floats|]; split; here|].
  split; [split; [by right|]; split; [exact deg_kept|]; split; [done|]; split; [all_floats|]; split; here|].
  split; [split; [exact deg_kept|]; split; [exact deg_kept|]; split; [done|]; split; [done|]; split; [done|]; split; [all_floats|]; split; [all_floats|]; split; here|].
  split; [split; [split; here|]; split; [split; here|]; split; [done|]; split; [done|]; split; [here|]|].
  { split; [|done]. repeat (constructor; [split; here|]). constructor. }
  split; [split; [split; here|]; split; [here|]; split; [all_floats|]; split; [here|]; split; [here|]; split; [here|]|].
  { intros s [= <-]. split; [here|done]. }
  split; [repeat (constructor; [split; here|]); constructor|]. split; [repeat (constructor; [exact I|]); constructor|].
  split; [done|]. intros k v. cbn [tb_meta a_table]. unfold plain_meta. rewrite !lookup_insert_Some, lookup_empty.
  intros [[<- <-]|[_ [[<- <-]|[_ H]]]]; [done|done|done].
Qed.

(** Whatever is loaded has a frame and precision of its own: coordinates come back in ICRS
    without distance, times in the default precision, tables without units. *)
Theorem C62_forgotten_refuted A x x' : back3 A x = Ok x' ->
  match x' with
  | OQuantity q => q_extra q = a_default A (q_cls q) /\ (q_cls q = c_quantity \/ q_cls q = c_angle)
  | OSky s => s_frame s = icrs /\ s_repr s = RUnit
  | OTime t => t_prec t = default_prec
  | OConstant _ => True
  | OTable t => Forall (fun u => u = None) (tb_units t)
  end.
Proof.
  unfold back3. destruct (create3 A x) as [n|]; [|done]. cbn [res_bind]. unfold load3.
  destruct (wn_attrs n !! str "type") as [[[|ty l]|[|? ?]|[|? ?]|]|]; try done.
  assert (forall c, res_map OQuantity (load_quantity3 A c n) = Ok x' ->
    exists q, x' = OQuantity q /\ q_extra q = a_default A c /\ q_cls q = c) as HQ.
  { intros c. unfold load_quantity3. destruct (get_text "unit" n); [|done]. cbn [res_bind]. destruct (a_unit A _); [|done]. cbn [res_bind].
    destruct (wn_data n); [|done|done]. destruct (a_norm A _ _ _ _); [|done]. cbn [res_map res_bind]. intros [= <-]. by eexists. }
  destruct (bool_decide _).
  { intros (q & -> & Hx & Hc)%HQ. rewrite Hc. split; [done|by left]. }
  destruct (bool_decide _).
  { intros (q & -> & Hx & Hc)%HQ. rewrite Hc. split; [done|by right]. }
  destruct (bool_decide _).
  { unfold load_skycoord3. destruct (wn_data n); [|done|done]. destruct (get_text "lon_unit" n); [|done]. cbn [res_bind].
    destruct (get_text "lat_unit" n); [|done]. cbn [res_bind].
    destruct (a_unit A _); [|done]. cbn [res_bind]. destruct (a_unit A _); [|done]. cbn [res_bind].
    destruct (a_norm A _ _ _ _); [|done]. cbn [res_bind]. destruct (a_norm A _ _ _ _); [|done]. by intros [= <-]. }
  destruct (bool_decide _).
  { unfold load_time3. destruct (get_bytes "format" n); [|done]. cbn [res_bind]. destruct (get_bytes "scale" n); [|done]. cbn [res_bind].
    destruct (wn_data n); [| |done]; (destruct (a_instant A _ _ _); [|done]; by intros [= <-]). }
  destruct (bool_decide _).
  { destruct (load_constant3 A n); [|done]. by intros [= <-]. }
  destruct (bool_decide _); [|done].
  unfold load_table3. destruct (wn_attrs n !! str "colnames") as [[]|], (wn_data n); try done.
  destruct (res_mapM ascii_decode l0); [|done]. cbn [res_bind]. destruct (bool_decide _); [|done]. cbn [res_map res_bind]. intros [= <-]. cbn [tb_units].
  clear. induction cols; by constructor.
Qed.
Print Assumptions C62_forgotten_refuted.

(** A single time could never be dumped. *)
Theorem C62_single_time_refuted A t : t_shape t = [] -> back3 A (OTime t) = Err AttributeError.
Proof. intros H. unfold back3, create3, create_time3. by rewrite H. Qed.
Print Assumptions C62_single_time_refuted.

(** A file may be written and not be read: a table with an entry named type in its meta
    data.  Further losses: 32 bit floats, frame and distance, units of columns, and a
    meta entry that is bytes. *)
Theorem C62_refuted :
  exists A typed, typed !! str "type" = Some (MStr (str "x")) /\
    (exists n, create3 A (OTable (a_table [None; None] typed)) = Ok n /\ exists e, load3 A n = Err e) /\
    (exists q, back3 A (OQuantity (Quantity c_quantity 0 (DFloat F4) [] [NF (FFin false 3 (-1))] u_m)) = Ok (OQuantity q) /\ q_dtype q = DFloat F8) /\
    back3 A (OSky (two_stars (str "fk5") (RDistance [NF (dy_of_Z 1); NF (dy_of_Z 2)]))) = Ok (OSky (two_stars icrs RUnit)) /\
    (exists t, back3 A (OTable (a_table [Some u_m; None] ∅)) = Ok (OTable t) /\ tb_units t = [None; None]) /\
    (exists t, back3 A (OTable (a_table [None; None] (<[str "k" := MBytes (str "x")]> ∅))) = Ok (OTable t) /\
       tb_meta t !! str "k" = Some (MStr (str "x"))).
Proof.
  exists A0, (<[str "type" := MStr (str "x")]> ∅).
  split; [here|]. split; [eexists; split; [reflexivity|eexists; reflexivity]|].
  split; [eexists; split; [reflexivity|here]|]. split; [here|].
  split; [eexists; split; [reflexivity|here]|eexists; split; [reflexivity|here]].
Qed.
Print Assumptions C62_refuted.
