(** * PropsGetRoot: a node of a dump leads back to the group dumped to (C67)

    [get_root f a] is what [ReferenceManager.get_root] returns for the node [a] (GetRoot.v),
    [below f c a] says that [a] is the node [c] or inside it (Layout.v), [root_addr] is the
    group '/' of the file. *)
From Verif Require Import Base Utf8 Dec Num PyObj H5 Env Create Dump LoadFns LoadModel Registry RegistryStd Spec
  Api DumpClosed ApiProofs Instance Samples SampleProofs Layout DumpSamples Listed GetRoot GetRootProofs.
From Coq Require Import Lia ZifyBool ZifyN.
Local Open Scope N_scope.
Local Open Scope list_scope.

(** Whatever is dumped, to whatever path of whatever file: from every node of the dump one
    gets the group dumped to.  Exception: the data node itself, if it has no type (the
    object was pickled) and the group is not '/'. *)
Theorem C67_get_root_partial C kw opts x p m f f' m' :
  tree f -> c_world C = std_world -> free_above m -> Forall (fun o => snd o = false) opts ->
  dump_file C kw opts x p m f = (f', m', Ok tt) ->
  exists root c, get_path f' p = Some root /\ child f' root n_data = Some c /\
    forall a n, below f' c a -> get_node f' a = Some n ->
      a <> c \/ nd_attrs n !! a_type <> None \/ root = root_addr -> get_root f' a = Some root.
Proof. exact (dump_file_get_root C kw opts x p m f f' m'). Qed.
Print Assumptions C67_get_root_partial.

Example C67_get_root_applies :
  tree f0 /\ c_world C0 = std_world /\ free_above m_np /\ snd (dump_file C0 [str "compression"] [] 1 p_ab m_np f0) = Ok tt.
Proof. exact nodes_sample. Qed.

(** Conversely the data node of a pickled object leads to '/' in every file without links
    made by hand, unless somebody gave the group a type. *)
Theorem C67_pickled_object f root rn c n :
  tree f -> child f root n_data = Some c -> get_node f c = Some n -> nd_attrs n !! a_type = None -> is_group n = false ->
  get_node f root = Some rn -> nd_attrs rn !! a_type = None -> get_root f c = Some root_addr.
Proof. exact (pickled_get_root f root rn c n). Qed.
Print Assumptions C67_pickled_object.

(** A group without type leads to itself if the group it is in has no type either or is '/':
    such are the groups dump creates along a path, which it asks about before it writes. *)
Theorem C67_group_itself f p a n :
  tree f -> get_path f p = Some a -> get_node f a = Some n -> is_group n = true -> nd_attrs n !! a_type = None ->
  (forall b bn nm, get_node f b = Some bn -> (nm, a) ∈ links bn -> b = root_addr \/ nd_attrs bn !! a_type = None) ->
  get_root f a = Some a.
Proof. exact (group_get_root f p a n). Qed.
Print Assumptions C67_group_itself.

(** What [get_root] makes of a dump of object 1 to /a/b: the group, the data node, its root
    and those of its members. *)
Definition roots_of (m : mem) : option (addr * addr * option addr * list (option addr)) :=
  let f := fst (fst (dump_file C0 [] [] 1 p_ab m f0)) in
  match get_path f p_ab with
  | None => None
  | Some root =>
      match child f root n_data with
      | None => None
      | Some c =>
          match get_node f c with
          | None => None
          | Some n => Some (root, c, get_root f c, map (fun l => get_root f (snd l)) (links n))
          end
      end
  end.

(** The full claim fails: an object without loader dumped to /a/b.  Its node leads to '/'. *)
Definition m_alone : mem := mem_of [Obj (COpaque (str "m") (str "A")) (VOpaque OById 4)].
Theorem C67_pickled_refuted :
  snd (dump_file C0 [] [] 1 p_ab m_alone f0) = Ok tt /\ roots_of m_alone = Some (2, 4, Some root_addr, []).
Proof. split; vm_compute; reflexivity. Qed.
Print Assumptions C67_pickled_refuted.

(** Inside a list the same object leads to the group, as do a reference to it and a string. *)
Example C67_members :
  roots_of (mem_of [o_list [2; 2; 3]; Obj (COpaque (str "m") (str "A")) (VOpaque OById 4); o_str "abc"]) =
  Some (2, 4, Some 2, [Some 2; Some 2; Some 2]).
Proof. vm_compute. reflexivity. Qed.

(** Such a file is left by that dump, in a group other than '/'. *)
Example C67_pickled_object_applies : exists f root rn c n,
  tree f /\ child f root n_data = Some c /\ get_node f c = Some n /\ nd_attrs n !! a_type = None /\ is_group n = false /\
  get_node f root = Some rn /\ nd_attrs rn !! a_type = None /\ root <> root_addr.
Proof.
  destruct (dump_file C0 [] [] 1 p_ab m_alone f0) as [[f' m'] r] eqn:Hd.
  assert (r = Ok tt) as -> by (change r with (snd (f', m', r)); rewrite <- Hd; vm_compute; reflexivity).
  destruct (dump_file_listed C0 _ _ _ _ _ _ _ _ f0_tree std_world_ok (mem_of_free _) Hd) as (_ & _ & _ & _ & _ & _ & Ht & _).
  assert (match get_node f' 4, get_node f' 2, child f' 2 n_data with
          | Some n, Some rn, Some c =>
              bool_decide (c = 4) && bool_decide (nd_attrs n !! a_type = None) && negb (is_group n) && bool_decide (nd_attrs rn !! a_type = None)
          | _, _, _ => false end = true) as Hb.
  { change f' with (fst (fst (f', m', @Ok unit tt))). rewrite <- Hd. vm_compute. reflexivity. }
  destruct (get_node f' 4) as [n|] eqn:En; [|done]. destruct (get_node f' 2) as [rn|] eqn:Er; [|done].
  destruct (child f' 2 n_data) as [c|] eqn:Ec; [|done]. apply andb_prop in Hb as [Hb B4]. apply andb_prop in Hb as [Hb B3].
  apply andb_prop in Hb as [B1 B2]. apply bool_decide_eq_true in B1, B2, B4. subst c. apply negb_true_iff in B3.
  exists f', 2, rn, 4, n. split_and!; done.
Qed.

(** Its groups /a and /a/b lead to themselves, as does '/'. *)
Example C67_group_itself_shows :
  let f := fst (fst (dump_file C0 [] [] 1 p_ab m_alone f0)) in
  get_path f p_ab = Some 2 /\ map (get_root f) [0; 1; 2] = [Some 0; Some 1; Some 2].
Proof. vm_compute. split; reflexivity. Qed.
Example C67_group_itself_applies : exists f n, tree f /\ get_path f p_ab = Some 2 /\
  get_node f 2 = Some n /\ is_group n = true /\ nd_attrs n !! a_type = None /\
  (forall b bn nm, get_node f b = Some bn -> (nm, 2) ∈ links bn -> b = root_addr \/ nd_attrs bn !! a_type = None).
Proof.
  destruct (dump_file C0 [] [] 1 p_ab m_alone f0) as [[f' m'] r] eqn:Hd.
  assert (r = Ok tt) as -> by (change r with (snd (f', m', r)); rewrite <- Hd; vm_compute; reflexivity).
  destruct (dump_file_listed C0 _ _ _ _ _ _ _ _ f0_tree std_world_ok (mem_of_free _) Hd) as (_ & _ & _ & _ & _ & _ & Ht & _).
  assert (match get_node f' 1, get_node f' 2, get_path f' p_ab with
          | Some bn, Some n, Some a =>
              bool_decide (a = 2) && bool_decide (nd_attrs n !! a_type = None) && is_group n && bool_decide (nd_attrs bn !! a_type = None)
              && bool_decide (links bn = [(str "b", 2)])
          | _, _, _ => false end = true) as Hb.
  { change f' with (fst (fst (f', m', @Ok unit tt))). rewrite <- Hd. vm_compute. reflexivity. }
  clear Hd.
  destruct (get_node f' 1) as [bn|] eqn:E1; [|done]. destruct (get_node f' 2) as [n|] eqn:E2; [|done].
  destruct (get_path f' p_ab) as [a|] eqn:Ep; [|done]. apply andb_prop in Hb as [Hb B5]. apply andb_prop in Hb as [Hb B4].
  apply andb_prop in Hb as [Hb B3]. apply andb_prop in Hb as [B1 B2]. apply bool_decide_eq_true in B1, B2, B4, B5. subst a.
  exists f', n. split; [exact Ht|]. split; [exact Ep|]. split; [exact E2|]. split; [exact B3|]. split; [exact B2|]. intros b bn' nm Hb Hin. right.
  destruct (tr_one _ Ht _ _ _ _ _ _ _ E1 Hb ltac:(rewrite B5; by left) Hin) as [<- _]. rewrite E1 in Hb. inversion Hb; subst bn'. exact B4.
Qed.
