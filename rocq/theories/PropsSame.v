(** * PropsSame: what load returns is determined by the file (C60) *)
From Verif Require Import Base Utf8 Dec Num PyObj H5 Env Create Dump LoadFns LoadModel Registry RegistryStd Spec RoundTrip
  Api DumpClosed ApiProofs Instance Samples SampleProofs Fresh Same PropsFresh.
From Coq Require Import Lia ZifyBool ZifyN.
Local Open Scope N_scope.
Local Open Scope list_scope.

(** ** C60: load does not depend on what is in memory

    Two processes with the same Python environment and the same registered loaders, but
    different objects in memory, [m1] and [m2], load the same path of the same file.  Both
    leave the same file behind, and either both raise the same error or both return the
    same structure: the objects of one correspond to those of the other one to one, with
    the same classes and values, and objects are shared in the one exactly where they are
    in the other ([same_graph], Same.v). *)
Theorem C60_load_determined C writable f p m1 m2 f1 r1 leak1 f2 r2 leak2 :
  mem_ok m1 -> mem_ok m2 -> not_v3 f ->
  load_file C writable f p m1 = (f1, r1, leak1) -> load_file C writable f p m2 = (f2, r2, leak2) ->
  f1 = f2 /\ leak1 = leak2 /\
  match r1, r2 with
  | Ok (m1', x1), Ok (m2', x2) => same_graph (m_heap m1') x1 (m_heap m2') x2
  | Err e1, Err e2 => e1 = e2
  | _, _ => False
  end.
Proof.
  intros A1 A2 Hv H1 H2. pose proof (load_file_same C writable f p m1 m2 A1 A2 Hv) as X. rewrite H1, H2 in X. exact X.
Qed.
Print Assumptions C60_load_determined.

(** Loading the same path once more, in the same process.  The second call returns as well,
    with the same structure as the first, which is still there unchanged. *)
Theorem C60_load_twice C writable f p m m1 v1 leak :
  mem_ok m -> not_v3 f -> load_file C writable f p m = (f, Ok (m1, v1), leak) ->
  exists m2 v2, load_file C writable f p m1 = (f, Ok (m2, v2), leak) /\
    same_graph (m_heap m1) v1 (m_heap m2) v2 /\ m_heap m1 ⊆ m_heap m2.
Proof.
  intros Hm Hv H. destruct (load_file_fresh _ _ _ _ _ _ _ _ _ Hm Hv H) as (_ & Hm1 & _ & _).
  destruct (load_file C writable f p m1) as [[f2 r2] leak2] eqn:H2.
  destruct (C60_load_determined _ _ _ _ _ _ _ _ _ _ _ _ Hm Hm1 Hv H H2) as (<- & <- & X).
  destruct r2 as [[m2 v2]|]; [|done]. exists m2, v2. split; [done|]. split; [done|].
  by destruct (load_file_fresh _ _ _ _ _ _ _ _ _ Hm1 Hv H2) as (A & _).
Qed.
Print Assumptions C60_load_twice.

(** The list of Samples.v, loaded by a process with nothing in memory and by the process
    that dumped it. *)
Example C60_applies :
  mem_ok m0 /\ mem_ok m_ex /\ not_v3 f_ex /\
  (let see_ r := match r : file * res (mem * loc) * bool with (_, Ok (m, v), _) => Some (see m v, m_next m) | _ => None end in
   let w := WSeq CList [WNum CInt (NZ 5); WStr CStr (str "abc"); WStr CStr (str "abc");
                WDict CDict [(WStr CStr (str "abc"), WNum CInt (NZ 5));
                             (WNum CInt (NZ 5), WSeq CSet [WStr CStr (str "abc"); WNum CInt (NZ 5)])]] in
   option_map fst (see_ (load_file C0 false f_ex (str "/") m0)) = Some w /\
   option_map fst (see_ (load_file C0 false f_ex (str "/") m_ex)) = Some w /\
   bool_decide (option_map snd (see_ (load_file C0 false f_ex (str "/") m0)) =
                option_map snd (see_ (load_file C0 false f_ex (str "/") m_ex))) = false).
Proof.
  split; [split; [apply mem_of_free|look]|]. split; [split; [apply mem_of_free|look]|].
  split; [look|]. cbv zeta. split; [|split]; look.
Qed.

(** Sharing counts: the list [[x, x]] is not the same structure as a list of two equal
    strings. *)
Example C60_sharing_counts :
  let h1 : heap := <[1 := Obj CList (VSeq [2; 2])]> (<[2 := Obj CStr (VStr (str "a"))]> ∅) in
  let h2 : heap := <[1 := Obj CList (VSeq [2; 3])]> (<[2 := Obj CStr (VStr (str "a"))]> (<[3 := Obj CStr (VStr (str "a"))]> ∅)) in
  same_graph h1 1 h1 1 /\ ~ same_graph h1 1 h2 1 /\ ~ same_graph h2 1 h1 1.
Proof.
  intros h1 h2. split; [|split].
  - exists (fun l => l). split; [done|]. split; [|done]. intros z _. destruct (h1 !! z) as [[c v]|]; [|done]. simpl. unfold moved. simpl.
    f_equal. f_equal. destruct v as [| | | | |kvs| | | | | | | | |]; simpl; f_equal; rewrite ?map_id; try done.
    + induction kvs as [|[? ?] ? IH]; [done|]. simpl. by rewrite <- IH.
    + match goal with |- _ = map _ ?i => induction i as [|[? [? ?]] ? IH]; [done|]; simpl; by rewrite <- IH end.
  - intros (g & G1 & G2 & _). specialize (G2 1 (part_self _ _)). rewrite G1 in G2. vm_compute in G2. congruence.
  - intros (g & G1 & G2 & G3).
    specialize (G2 1 (part_self _ _)). rewrite G1 in G2. vm_compute in G2. injection G2 as E1 E2.
    assert (part_of h2 1 2 /\ part_of h2 1 3) as [P2 P3].
    { split; (eapply part_step; [done| |apply part_self]); [apply elem_of_cons; by left|]. apply elem_of_cons; right. apply elem_of_cons; by left. }
    assert (2 = 3) by (apply G3; [done..|congruence]). done.
Qed.
