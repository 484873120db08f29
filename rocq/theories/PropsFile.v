(** * PropsFile: several objects in one file, formats, options (C17, C18, C24, C26, C34) *)
From Verif Require Import Base Utf8 Dec Num PyObj H5 Env Create Dump LoadFns LoadModel Registry RegistryStd Spec RoundTrip
  Api DumpClosed ApiProofs DumpEnv Reach Instance Samples SampleProofs Cyclic ApiTop RegistryProofs FileProofs.
From Coq Require Import Lia ZifyBool ZifyN.
Local Open Scope N_scope.
Local Open Scope list_scope.

(** Two objects in one file, at "/a/b" and "/c". *)
Definition f_two : file :=
  let '(f, m, _) := dump_file C0 [] [] 1 (str "/a/b") m_ex f0 in
  let '(f, _, _) := dump_file C0 [] [] 1 (str "/c") m f in f.
(** What is at a path, without attributes. *)
Definition members_at (f : file) (cs : list pystr) : option (list pystr) :=
  match content f cs with
  | Some (_, BGroup l) => Some (map fst l)
  | _ => None
  end.

(** ** C17: dump changes nothing but the group it is told to write to

    [cs]: the path of any node of the file; [content]: its attributes and its dataset or
    links.  [r]: the dump may have failed at any point. *)
Theorem C17_dump_frame C kw opts x p m f f' m' r cs at_ b :
  tree f -> c_world C = std_world -> free_above m -> dump_file C kw opts x p m f = (f', m', r) ->
  content f cs = Some (at_, b) ->
  (~ cs `prefix_of` components p -> content f' cs = Some (at_, b)) /\
  (cs <> components p ->
     content f' cs = Some (at_, b) \/
     exists l ls, b = BGroup l /\ content f' cs = Some (at_, BGroup (l ++ ls)) /\ Forall (fun k => f_next f <= snd k) ls).
Proof. exact (dump_file_content C kw opts x p m f f' m' r cs at_ b). Qed.
Print Assumptions C17_dump_frame.

Theorem C17_dump_refuses_nonempty C kw opts x p m f at_ b :
  tree f -> content f (components p) = Some (at_, b) -> b <> BGroup [] ->
  exists e, (e = ValueError \/ e = AttributeError) /\ dump_file C kw opts x p m f = (f, m, Err e).
Proof. exact (dump_file_refuse C kw opts x p m f at_ b). Qed.
Print Assumptions C17_dump_refuses_nonempty.

Example C17_applies :
  members_at f_two [str "a"; str "b"] = Some [n_table; n_data] /\ members_at f_two [str "c"] = Some [n_table; n_data] /\
  members_at f_two [] = Some [str "a"; str "c"] /\
  snd (dump_file C0 [] [] 1 (str "/c") m_ex f_two) = Err ValueError /\
  snd (dump_file C0 [] [] 1 (str "/c/data") m_ex f_two) = Err ValueError /\
  snd (dump_file C0 [] [] 1 (str "/c/data/data0") m_ex f_two) = Err AttributeError.
Proof. repeat split; look. Qed.

(** ** C18: objects dumped to different groups of a file do not influence each other

    Between the dump of [x] to [p] and the load any number of further dumps may take place
    or fail, to any paths but those inside what was written for [x]. *)
Theorem C18_independent_dumps C kw opts x p m f f1 m1 ps f2 m2 o fp cp im :
  let E' := other_loader (c_env C) o fp cp im in
  env_ok E' -> c_world C = std_world -> c_pyver C <> [] ->
  tree f -> not_v3 f -> no_options (target_attrs f p) -> Forall (fun o => snd o = false) opts ->
  free_above m -> graph_ok E' (m_heap m) x ->
  dump_file C kw opts x p m f = (f1, m1, Ok tt) ->
  history ps (f1, m1) (f2, m2) -> Forall (fun p2 => ~ into p p2) ps ->
  exists N, forall C' writable m3,
    c_env C' = E' -> c_world C' = std_world -> (N <= c_fuel C')%nat -> mem_ok m3 ->
    exists m4 v, load_file C' writable f2 p m3 = (f2, Ok (m4, v), false) /\
      m_heap m3 ⊆ m_heap m4 /\ isomorphic (m_heap m) x (m_heap m4) v.
Proof. exact (history_load C kw opts x p m f f1 m1 ps f2 m2 o fp cp im). Qed.
Print Assumptions C18_independent_dumps.

(** A second dump into a subgroup of the first path, a failing third one. *)
Definition h_one : file * mem * res unit := dump_file C0 [] [] 1 (str "/a") m_ex f0.
Definition h_two : file * mem * res unit := dump_file C0 [] [] 2 (str "/a/more") (snd (fst h_one)) (fst (fst h_one)).
Definition h_three : file * mem * res unit := dump_file C0 [] [] 2 (str "/a") (snd (fst h_two)) (fst (fst h_two)).
Lemma triple {A B C : Type} (p : A * B * C) : p = (fst (fst p), snd (fst p), snd p).
Proof. by destruct p as [[]]. Qed.
Lemma h_two_eq : dump_file C0 [] [] 2 (str "/a/more") (snd (fst h_one)) (fst (fst h_one)) = (fst (fst h_two), snd (fst h_two), snd h_two).
Proof. unfold h_two. apply triple. Qed.
Lemma h_three_eq : dump_file C0 [] [] 2 (str "/a") (snd (fst h_two)) (fst (fst h_two)) = (fst (fst h_three), snd (fst h_three), snd h_three).
Proof. unfold h_three. apply triple. Qed.
Lemma h_all : history [str "/a/more"; str "/a"] (fst (fst h_one), snd (fst h_one)) (fst (fst h_three), snd (fst h_three)).
Proof.
  apply (hist_dump C0 _ _ _ _ _ _ _ _ _ _ _ (eq_refl _) h_two_eq).
  apply (hist_dump C0 _ _ _ _ _ _ _ _ _ _ _ (eq_refl _) h_three_eq). apply hist_none.
Qed.
Example C18_applies :
  history [str "/a/more"; str "/a"] (fst (fst h_one), snd (fst h_one)) (fst (fst h_three), snd (fst h_three)) /\
  snd h_one = Ok tt /\ snd h_two = Ok tt /\ snd h_three = Err ValueError /\
  Forall (fun p2 => ~ into (str "/a") p2) [str "/a/more"; str "/a"] /\
  (let '(_, r, _) := load_file C0 true (fst (fst h_three)) (str "/a") m0 in res_map (fun '(m, v) => see m v) r) = loaded (fst (dumped m_ex 1)) /\
  (let '(_, r, _) := load_file C0 true (fst (fst h_three)) (str "/a/more") m0 in res_map (fun '(m, v) => see m v) r) = Ok (WNum CInt (NZ 5)).
Proof.
  split; [exact h_all|].
  split; [look|]. split; [look|]. split; [look|]. split; [|split; look].
  assert (forall p2, bool_decide (into (str "/a") p2) = false -> ~ into (str "/a") p2) as H.
  { intros p2. by rewrite bool_decide_eq_false. }
  apply Forall_cons; [apply H; look|]. apply Forall_cons; [apply H; look|]. by apply Forall_nil.
Qed.

(** ** C24: load does not modify the file: false for an open writable file whose group has
    no type table

    A hickle 4.0 file holding None, opened with mode r+. *)
Definition f_old : file :=
  let f := update_node f0 root_addr (set_attrs [(a_version, AStr (str "4.0.0")); (a_pyversion, AStr (str "3.8"))]) in
  match create_node f root_addr n_data (BData (DNull KS1)) with
  | Ok (f', a) => update_node f' a (set_attrs [(a_type, APickle CNoneType); (a_base_type, ABytes (str "None"))])
  | Err _ => f
  end.
Theorem C24_load_modifies_refuted :
  exists f p m, (exists r, r = snd (fst (load_file C0 true f p m)) /\ res_map (fun '(m, v) => see m v) r = Ok WNone) /\
    members_at f [] = Some [n_data] /\ members_at (fst (fst (load_file C0 true f p m))) [] = Some [n_data; n_table].
Proof. exists f_old, (str "/"), m0. split; [eexists; split; [reflexivity|]; look|]. split; look. Qed.
Print Assumptions C24_load_modifies_refuted.

(** What holds: nothing changes in a read-only file, or if the group has a type table,
    as every group written by hickle 5 has. *)
Theorem C24_load_keeps_file_partial C writable f p m f' r o :
  writable = false \/ has_table f p -> load_file C writable f p m = (f', r, o) -> f' = f.
Proof. exact (load_file_same C writable f p m f' r o). Qed.
Print Assumptions C24_load_keeps_file_partial.

Example C24_applies : has_table f_two (str "/c") /\ ~ has_table f_old (str "/").
Proof.
  split.
  - exists (default 99 (get_path f_two (str "/c"))), (default 99 (child f_two (default 99 (get_path f_two (str "/c"))) n_table)).
    split; look.
  - intros (root & t & H1 & H2). assert (get_path f_old (str "/") = Some 0) as E by look. rewrite E in H1. inversion H1; subst.
    assert (child f_old 0 n_table = None) as E2 by look. congruence.
Qed.

(** ** C26: options chosen at dump are in force at load *)
Theorem C26_options_kept C kw opts x p m f f' m' :
  tree f -> c_world C = std_world -> free_above m -> no_options (target_attrs f p) ->
  dump_file C kw opts x p m f = (f', m', Ok tt) ->
  exists root chain, get_path f' p = Some root /\ options_of f' root false = Ok chain /\
    forall o, Some o ∈ chain <-> (o, true) ∈ opts.
Proof. intros Ht Hw. apply dump_file_options; [done|]. rewrite Hw. apply std_world_ok. Qed.
Print Assumptions C26_options_kept.

Theorem C26_unknown_option_refused C kw opts x p m f f' m' r o :
  (o, true) ∈ opts -> o <> str "hickle-4.x" -> o <> str "custom" ->
  dump_file C kw opts x p m f = (f', m', r) -> r <> Ok tt.
Proof.
  intros Ho H1 H2. apply (dump_file_unknown _ _ _ _ _ _ _ _ _ _ o Ho).
  unfold known_option. apply bool_decide_eq_false. unfold known_options, opt_4x, optional_loaders. cbn [map].
  rewrite !elem_of_cons, elem_of_nil. intros [[=]|[[= ?]|[[= ?]|[]]]]; congruence.
Qed.
Print Assumptions C26_unknown_option_refused.

Example C26_applies :
  snd (dump_file C0 [] [(str "custom", true)] 1 (str "/") m_ex f0) = Ok tt /\
  options_of (fst (fst (dump_file C0 [] [(str "custom", true)] 1 (str "/") m_ex f0))) root_addr false = Ok [Some (str "custom"); None] /\
  snd (dump_file C0 [] [(str "costum", true)] 1 (str "/") m_ex f0) = Err LookupErr.
Proof. repeat split; look. Qed.

(** ** C34: the right loader generation is chosen

    [fa], [ra]: attributes of the file and of the group that is loaded. *)
Theorem C34_v3_exactly fa ra : detect fa ra = Ok V3 <->
  v3_file fa = true /\ (exists v, fa !! str "CLASS" = Some v /\ is_text v (str "hickle")) /\
  (exists v, fa !! str "VERSION" = Some v /\ v3_major v = Ok 3%Z).
Proof. exact (detect_v3 fa ra). Qed.
Print Assumptions C34_v3_exactly.
Theorem C34_v4_v5_exactly fa ra v : v <> V3 -> detect fa ra = Ok v <->
  v3_file fa = false /\ v4_group ra = true /\
  exists s z, ra !! a_version = Some (AStr s) /\ major_of s = Ok z /\ (v = V4 <-> z = 4%Z).
Proof. exact (detect_v4 fa ra v). Qed.
Print Assumptions C34_v4_v5_exactly.
Theorem C34_refused C w e f p m root n :
  get_path f p = Some root -> get_node f root = Some n -> is_group n = true ->
  detect (node_attrs f root_addr) (nd_attrs n) = Err e -> load_file C w f p m = (f, Err e, false).
Proof. intros H1 H2 H3 H4. by eapply detect_refused. Qed.
Print Assumptions C34_refused.
(** The 4.x loaders are active for a 4.x file and for no other. *)
Theorem C34_legacy_loaders legacy ats chain : load_options legacy ats = Ok chain ->
  ~ (exists nm v, (nm, v) ∈ ats /\ attr_true v = true /\ option_of_attr nm = Some (str "hickle-4.x")) ->
  (opt_4x ∈ chain <-> legacy = true).
Proof. exact (load_options_4x legacy ats chain). Qed.
Print Assumptions C34_legacy_loaders.

Definition v3_attributes : attrs :=
  list_to_map [(str "CLASS", AStr (str "hickle")); (str "VERSION", AStr (str "3.4.9")); (str "PYTHON_VERSION", AStr (str "3.7"))].
Definition v4_attributes (v : string) : attrs := list_to_map [(a_version, AStr (str v)); (a_pyversion, AStr (str "3.7"))].
Example C34_applies :
  detect v3_attributes ∅ = Ok V3 /\ detect ∅ (v4_attributes "4.0.4") = Ok V4 /\ detect ∅ (v4_attributes "5.0.0") = Ok V5 /\
  detect v3_attributes (v4_attributes "5.0.0") = Ok V3 /\ detect ∅ ∅ = Err FileError /\ detect ∅ (v4_attributes "x") = Err ValueError /\
  detect (<[str "VERSION" := AStr (str "2.1")]> v3_attributes) ∅ = Err RuntimeError.
Proof. repeat split; look. Qed.
