(** * RecoverStd: the standard loaders can recover, samples *)
From Verif Require Import Base Utf8 Dec Num PyObj H5 Env Create Dump LoadFns LoadModel Registry RegistryStd Spec PartSpec RoundTrip
  Api DumpClosed ApiProofs DumpEnv Reach Instance Samples SampleProofs Cyclic FileProofs Damage DamageApi Recover.
From Coq Require Import Lia ZifyBool ZifyN.
Local Open Scope N_scope.
Local Open Scope list_scope.

(** Entries for [k] without option only. *)
Definition plain_only {K V} `{EqDecision K} (k : K) (t : list ((opt * K) * V)) : bool :=
  forallb (fun e => negb (bool_decide (snd (fst e) = k)) || bool_decide (fst (fst e) = None)) t.

Lemma plain_only_get {K V} `{EqDecision K} (k : K) (t : list ((opt * K) * V)) o :
  plain_only k t = true -> o <> None -> alist_get (o, k) t = None.
Proof.
  intros Hp Ho. induction t as [|[[o' k'] v] t IH]; [done|]. simpl in Hp |- *.
  apply andb_prop in Hp as [He Hp]. destruct (decide ((o, k) = (o', k'))) as [[= <- <-]|N]; [|by apply IH].
  rewrite bool_decide_true in He by done. simpl in He. apply bool_decide_eq_true in He. done.
Qed.
Lemma plain_only_chain {K V} `{EqDecision K} (k : K) (t : list ((opt * K) * V)) opts :
  plain_only k t = true -> None ∈ opts -> chain_get opts k t = alist_get (None, k) t.
Proof.
  intros Hp. induction opts as [|o opts IH]; [intros H; by apply elem_of_nil in H|].
  intros Hi. simpl. destruct (decide (o = None)) as [-> |N].
  - destruct (alist_get (None, k) t) eqn:Eg; [done|].
    clear IH Hi. induction opts as [|o opts IH]; [done|]. simpl. destruct (decide (o = None)) as [-> |N]; [by rewrite Eg|].
    by rewrite (plain_only_get k t o Hp N).
  - rewrite (plain_only_get k t o Hp N). apply IH. by apply elem_of_cons in Hi as [?|?].
Qed.

(** Whatever options are active. *)
Lemma std_can_recover opts legacy : None ∈ opts -> can_recover (loader_of std_world opts legacy).
Proof.
  intros Hi. unfold can_recover, loader_of. cbn [ld_load ld_types ld_conts].
  assert (chain_get opts CRecoverCustom (g_py (full_registry std_world)) = None) as Hp.
  { rewrite plain_only_chain; [look|look|exact Hi]. }
  assert (chain_get opts b_recover (g_fn (full_registry std_world)) = Some LRecover) as Hf.
  { rewrite plain_only_chain; [look|look|exact Hi]. }
  assert (chain_get opts b_recover (g_ct (full_registry std_world)) = Some KRecover) as Hc.
  { rewrite plain_only_chain; [look|look|exact Hi]. }
  split; [|split; [exact Hf|exact Hc]].
  exists true. unfold load_loader.
  change (mro CRecoverCustom) with [CRecoverCustom; CObject]. cbn [load_loader_mro].
  unfold load_loader_step at 1. rewrite Hp. change (bool_decide (part 0 (cls_module CRecoverCustom) = str "hickle")) with true.
  cbn iota. change (bool_decide (length (module_parts (cls_module CRecoverCustom)) = 1%nat)) with false. cbn iota.
  change (negb (bool_decide (part 1 (cls_module CRecoverCustom) = str "loaders"))) with true. cbn iota.
  unfold in_tables. rewrite Hf. reflexivity.
Qed.

Lemma insert_options_none names : forall chain r, None ∈ chain -> insert_options names chain = Ok r -> None ∈ r.
Proof.
  induction names as [|n names IH]; intros chain r Hi; cbn [insert_options]; [by intros [= <-]|].
  destruct (known_option _); [|discriminate]. apply IH. by right.
Qed.
(** Every chain of options a load works with. *)
Lemma options_of_none f root legacy chain : options_of f root legacy = Ok chain -> None ∈ chain.
Proof.
  unfold options_of, load_options. destruct (insert_options _ _) as [r|] eqn:Er; [|discriminate].
  apply insert_options_none in Er; [|by left]. intros [= <-]. destruct legacy; [by right|done].
Qed.

(** ** Samples

    {"ab": [7, 7]} with subclasses of dict and list, loaded where these cannot be imported. *)
Definition c_my (b : cls) : cls := CSub (str "mymod") (str "My") b.
Definition m_my : mem := mem_of [Obj (c_my CDict) (VDict [(2, 3)]); o_str "ab"; Obj (c_my CList) (VSeq [4; 4]); o_int 7].
Definition f_my : file := fst (dumped m_my 1).
Definition E_my : env :=
  other_loader ienv (e_order ienv) (e_fparse ienv) (e_cparse ienv) (fun c => match c with CSub _ _ _ => false | _ => true end).
Definition C_my : config := Config E_my std_world (str "3.9.0") (fun _ _ _ => Err Unmodelled) 60.

(** What is recovered, without the maps. *)
Inductive peeked :=
| PeekD (d : hdata) (base : option attrv) (type : option attrv)
| PeekG (items : list (pystr * (peeked * bool))) (base : option attrv) (type : option attrv)
| PeekOther.
Fixpoint peek (fuel : nat) (h : heap) (l : loc) : peeked :=
  match fuel, h !! l with
  | S fu, Some (Obj CRecoveredGroup (VRecG items a)) =>
      PeekG (map (fun '(nm, (l, oa)) => (nm, (peek fu h l, match oa with Some _ => true | None => false end))) items)
            (a !! a_base_type) (a !! a_type)
  | S fu, Some (Obj CRecoveredDataset (VRecD d a)) => PeekD d (a !! a_base_type) (a !! a_type)
  | _, _ => PeekOther
  end.
Definition peeked_of (r : res (mem * loc)) : res peeked := res_map (fun '(m, l) => peek 5 (m_heap m) l) r.
Definition recovered (C : config) (f : file) : res peeked := peeked_of (snd (fst (load_file C false f (str "/") m0))).

(** A file of hickle 4: {} of a subclass of dict. *)
Definition f_my4 : file := File
  {[ 0 := Node (str "/") (<[a_version := AStr (str "4.0.4")]> (<[a_pyversion := AStr (str "3.6.9")]> ∅)) (BGroup [(n_data, 1)]);
     1 := Node n_data (<[a_type := APickle (c_my CDict)]> (<[a_base_type := ABytes (str "dict")]> ∅)) (BGroup []) ]} 2.

Lemma missing_here f a c b : 
  match get_node f a with
  | Some n =>
      match nd_attrs n !! a_type with
      | Some (ARef e) =>
          match get_node f e with
          | Some en => entry_base f en = Ok b /\ nd_body en = BData (DPickleCls c)
          | None => False
          end
      | _ => False
      end
  | None => False
  end -> e_imports E_my c = false -> exists n, get_node f a = Some n /\ class_missing E_my f n c b.
Proof.
  destruct (get_node f a) as [n|]; [|done]. intros H Hi. exists n. split; [done|].
  destruct (nd_attrs n !! a_type) as [[]|] eqn:Ea; try done.
  match goal with |- class_missing _ _ _ _ _ => idtac end.
  match type of H with match get_node f ?e with _ => _ end => destruct (get_node f e) as [en|] eqn:Ee; [|done]; exists e, en end.
  destruct H. auto.
Qed.
Lemma f_my_missing :
  (exists n, get_node f_my 2 = Some n /\ class_missing E_my f_my n (c_my CDict) (str "dict") /\ is_group n = true /\
     map fst (links n) = [str """ab"""]) /\
  (exists n, get_node f_my 5 = Some n /\ class_missing E_my f_my n (c_my CList) (str "list") /\ is_group n = false).
Proof.
  split.
  - destruct (missing_here f_my 2 (c_my CDict) (str "dict")) as (n & Hn & Hc); [vm_compute; split; reflexivity|look|].
    exists n. split; [exact Hn|]. split; [exact Hc|].
    destruct (node_here f_my 2 (fun n => is_group n = true /\ map fst (links n) = [str """ab"""])) as (n' & Hn' & H);
      [vm_compute; split; reflexivity|]. rewrite Hn in Hn'. injection Hn' as <-. exact H.
  - destruct (missing_here f_my 5 (c_my CList) (str "list")) as (n & Hn & Hc); [vm_compute; split; reflexivity|look|].
    exists n. split; [exact Hn|]. split; [exact Hc|].
    destruct (node_here f_my 5 (fun n => is_group n = false)) as (n' & Hn' & H); [look|].
    rewrite Hn in Hn'. injection Hn' as <-. exact H.
Qed.
Lemma f_my_loaded : recovered C_my f_my =
  Ok (PeekG [(str """ab""", (PeekD (DArray (DInt W8) [2] [NZ 7; NZ 7]) (Some (ABytes (str "list"))) None, false))]
            (Some (ABytes (str "dict"))) None).
Proof. look. Qed.
Lemma f_my4_loaded : recovered C_my f_my4 = Ok (PeekG [] (Some (ABytes b_recover)) None).
Proof. look. Qed.

(** {"ab", A()} and {A(): "ab"} with a class A that is pickled and cannot be imported later. *)
Definition m_key : mem :=
  mem_of [o_set [2; 3]; o_str "ab"; Obj (COpaque (str "mymod") (str "A")) (VOpaque OByValue 7); o_dict [(3, 2)]].
Definition C_key : config :=
  Config (other_loader ienv (e_order ienv) (e_fparse ienv) (e_cparse ienv) (fun c => match c with COpaque _ _ => false | _ => true end))
         std_world (str "3.9.0") (fun _ _ _ => Err Unmodelled) 60.

(** The base_type of the list class in the table is one no loader is registered for. *)
Definition f_foo : file :=
  update_node f_my (at_path f_my "/hickle_types_table/list") (fun n => Node (str "foo") (nd_attrs n) (nd_body n)).
Lemma loader_missing_here E LD f a c b d pt memo :
  match get_node f a with
  | Some n =>
      nd_body n = BData d /\
      match nd_attrs n !! a_type with
      | Some (ARef e) =>
          match get_node f e with
          | Some en => entry_base f en = Ok b /\ nd_body en = BData (DPickleCls c)
          | None => False
          end
      | _ => False
      end
  | None => False
  end -> e_imports E c = true -> ld_load LD c b = Ok (pt, memo) -> ld_types LD b = None -> ld_conts LD b = None ->
  exists n, get_node f a = Some n /\ loader_missing E LD f n c b /\ nd_body n = BData d.
Proof.
  destruct (get_node f a) as [n|]; [|by intros []]. intros [Hb H] Hi Hl Ht Hc. exists n. split; [reflexivity|]. split; [|exact Hb].
  destruct (nd_attrs n !! a_type) as [[]|] eqn:Ea; try (by destruct H).
  match type of H with match get_node f ?e with _ => _ end => destruct (get_node f e) as [en|] eqn:Ee; [|by destruct H]; exists e, en end.
  destruct H. exists pt, memo. auto 10.
Qed.
Lemma f_foo_missing :
  (exists n, get_node f_foo 5 = Some n /\ loader_missing ienv LD0 f_foo n (c_my CList) (str "foo") /\
     nd_body n = BData (DArray (DInt W8) [2] [NZ 7; NZ 7])) /\
  peeked_of (res_map (fun '(s, v) => (l_mem s, v)) (load_ 10 ienv LD0 f_foo 5 (Lst m0 ∅))) =
    Ok (PeekD (DArray (DInt W8) [2] [NZ 7; NZ 7]) (Some (ABytes (str "foo"))) None).
Proof.
  split; [|look].
  apply (loader_missing_here ienv LD0 f_foo 5 (c_my CList) (str "foo") _ (c_my CList) true);
    [vm_compute; repeat split; reflexivity|look|look|look|look].
Qed.

(** [My([7, "ab"]), the same object, A(), "ab"], loaded where neither My nor A can be
    imported. *)
Definition m_part : mem :=
  mem_of [o_list [2; 2; 3; 4]; Obj (c_my CList) (VSeq [5; 4]); Obj (COpaque (str "mymod") (str "A")) (VOpaque OByValue 7); o_str "ab"; o_int 7].
Definition E_part : env :=
  other_loader ienv (e_order ienv) (e_fparse ienv) (e_cparse ienv)
    (fun c => match c with CSub _ _ _ | COpaque _ _ => false | _ => true end).
Definition C_part : config := Config E_part std_world (str "3.9.0") (fun _ _ _ => Err Unmodelled) 60.

Ltac part_leaf k :=
  eapply graph_part_intro; [look|k|intros ? Hk; repeat (apply elem_of_cons in Hk as [-> |Hk]; [done|]); by apply elem_of_nil in Hk
    |first [exact I|intros Hc; vm_compute in Hc; discriminate Hc|intros ?; discriminate]|done
    |intros ? Hk; repeat (apply elem_of_cons in Hk as [-> |Hk]; [try assumption|]); by apply elem_of_nil in Hk].
Lemma graph_ok_child E h x o y : graph_ok E h x -> h !! x = Some o -> y ∈ refs o -> graph_ok E h y.
Proof. intros Hg Ho. inversion Hg as [? o' Ho' _ _ _ _ Hch]; subst. rewrite Ho in Ho'. injection Ho' as <-. apply Hch. Qed.
Lemma m_part_ok : graph_part E_part (m_heap m_part) 1 /\ ~ graph_ok E_part (m_heap m_part) 1.
Proof.
  set (h := m_heap m_part). split.
  - assert (graph_part E_part h 5) as G5 by part_leaf ltac:(by apply st_num).
    assert (graph_part E_part h 4) as G4 by part_leaf ltac:(apply st_str).
    assert (graph_part E_part h 3) as G3 by part_leaf ltac:(by apply st_opaque).
    assert (graph_part E_part h 2) as G2.
    { part_leaf ltac:(apply st_seq; [by left|]). intros Ha.
      destruct (Ha 4 ltac:(right; left)) as (c & n & d & Hl & _). vm_compute in Hl. done. }
    part_leaf ltac:(apply st_seq; [by left|]).
    + intros Ha. destruct (Ha 4 ltac:(do 3 right; left)) as (c & n & d & Hl & _). vm_compute in Hl. done.
  - intros Hg. assert (graph_ok E_part h 2) as G2 by (apply (graph_ok_child E_part h 1 (o_list [2; 2; 3; 4]) 2 Hg); [look|left]).
    destruct (graph_ok_imported _ _ _ G2) as (o & Ho & Hi).
    assert (h !! 2 = Some (Obj (c_my CList) (VSeq [5; 4]))) as Ho' by look. rewrite Ho' in Ho. injection Ho as <-.
    vm_compute in Hi. discriminate.
Qed.
Definition seen_part (r : res (mem * loc)) : res (bool * peeked * peeked * view) :=
  res_map (fun '(m, l) => match m_heap m !! l with
                          | Some (Obj CList (VSeq [a; b; c; d])) => (bool_decide (a = b), peek 5 (m_heap m) a, peek 5 (m_heap m) c, see m d)
                          | _ => (false, PeekOther, PeekOther, WNone)
                          end) r.
Lemma m_part_loaded :
  snd (dumped m_part 1) = Ok tt /\
  seen_part (snd (fst (load_file C_part false (fst (dumped m_part 1)) (str "/") m0))) =
  Ok (true, PeekG [(str "data1", (PeekOther, true)); (str "data0", (PeekOther, true))] (Some (ABytes (str "list"))) None,
      PeekD (DPickle (COpaque (str "mymod") (str "A")) OByValue 7) None None, WStr CStr (str "ab")).
Proof. split; look. Qed.
