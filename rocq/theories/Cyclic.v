(** * Cyclic: a list containing itself *)
From Verif Require Import Base Utf8 Dec Num PyObj H5 Env Create Dump LoadFns LoadModel Registry Spec Instance Api Samples.

(** x = []; x.append(x) *)
Definition m_cyclic : mem := mem_of [o_list [1]].
Definition f_cyclic : file := fst (dumped m_cyclic 1).

Lemma pair_snd {A B : Type} (p : A * B) b : snd p = b -> p = (fst p, b).
Proof. destruct p. by intros <-. Qed.
Lemma cyclic_dumped : dumped m_cyclic 1 = (f_cyclic, Ok tt).
Proof.
  unfold f_cyclic. refine (pair_snd (dumped m_cyclic 1) (Ok tt) _). vm_compute. reflexivity.
Qed.

(** The list is stored in node 2, its item is node 5, a reference to node 2. *)
Definition n2 : node := default (Node [] ∅ (BGroup [])) (get_node f_cyclic 2).
Definition n5 : node := default (Node [] ∅ (BGroup [])) (get_node f_cyclic 5).
Definition r2 : resolved := Resolved CList (str "list") (str "list") true.
Definition r5 : resolved := Resolved CNodeReference b_reference b_reference true.
Lemma node_there f a : (if get_node f a then true else false) = true ->
  get_node f a = Some (default (Node [] ∅ (BGroup [])) (get_node f a)).
Proof. by destruct (get_node f a). Qed.
Lemma node2 : get_node f_cyclic 2 = Some n2. Proof. apply node_there. vm_compute. reflexivity. Qed.
Lemma node5 : get_node f_cyclic 5 = Some n5. Proof. apply node_there. vm_compute. reflexivity. Qed.
Lemma type2 : resolve_type ienv (ld_legacy std_loader) f_cyclic n2 = Ok r2. Proof. vm_compute. reflexivity. Qed.
Lemma type5 : resolve_type ienv (ld_legacy std_loader) f_cyclic n5 = Ok r5. Proof. vm_compute. reflexivity. Qed.
Lemma load2 : ld_load std_loader CList (str "list") = Ok (CList, true). Proof. vm_compute. reflexivity. Qed.
Lemma load5 : exists mm, ld_load std_loader CNodeReference b_reference = Ok mm. Proof. vm_compute. eexists. reflexivity. Qed.
Lemma cont2 : default KRecover (ld_conts std_loader (str "list")) = KList. Proof. vm_compute. reflexivity. Qed.
Lemma cont5 : default KRecover (ld_conts std_loader b_reference) = KExpand. Proof. vm_compute. reflexivity. Qed.
Lemma members2 : members ienv f_cyclic KList 2 n2 = Ok [(str "data0", 5)]. Proof. vm_compute. reflexivity. Qed.
Lemma members5 : members ienv f_cyclic KExpand 5 n5 = Ok [(str "data", 2)]. Proof. vm_compute. reflexivity. Qed.
Lemma path_data : get_path f_cyclic (str "/") = Some 0 /\ child f_cyclic 0 n_data = Some 2.
Proof. split; vm_compute; reflexivity. Qed.
Local Opaque std_loader f_cyclic n2 n5 ienv resolve_type members.

Lemma cyclic_load fuel : forall m,
  load_ fuel ienv std_loader f_cyclic 2 (Lst m ∅) = Err OutOfFuel /\
  load_ fuel ienv std_loader f_cyclic 5 (Lst m ∅) = Err OutOfFuel.
Proof.
  induction fuel as [|fuel IH]; intros m; [split; reflexivity|]. destruct (IH m) as [I2 I5].
  cbn [load_ l_memo]. rewrite !lookup_empty, node2, node5, type2, type5. unfold r2, r5.
  cbn [res_bind r_cls r_base r_cont r_orig]. rewrite load2. destruct load5 as [[pt mm] ->]. cbn [res_bind].
  rewrite cont2, cont5, members2, members5. cbn [res_bind load_members]. rewrite node5, node2, I2, I5. split; reflexivity.
Qed.

Lemma cyclic_refutes :
  exists m x f root c, dumped m x = (f, Ok tt) /\ get_path f (str "/") = Some root /\ child f root n_data = Some c /\
    forall fuel m2, load_ fuel ienv std_loader f c (Lst m2 ∅) = Err OutOfFuel.
Proof.
  exists m_cyclic, 1, f_cyclic, 0, 2. split; [exact cyclic_dumped|]. split; [apply path_data|]. split; [apply path_data|].
  intros fuel m2. exact (proj1 (cyclic_load fuel m2)).
Qed.
