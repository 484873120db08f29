(** * PropsFresh: load makes new objects (C58) *)
From Verif Require Import Base Utf8 Dec Num PyObj H5 Env Create Dump LoadFns LoadModel Registry RegistryStd Spec RoundTrip
  Api DumpClosed ApiProofs Instance Samples SampleProofs Fresh.
From Coq Require Import Lia ZifyBool ZifyN.
Local Open Scope N_scope.
Local Open Scope list_scope.

(** ** C58: loaded objects are new

    For every process, whatever loaders are registered in it, every file not of hickle 3,
    written by dump or not, and every path.  The one object a loaded structure can have in
    common with the memory [m] of the process before is the empty tuple, of which Python
    has one only. *)
Theorem C58_loaded_objects_are_new C writable f p m f' m' v leak :
  mem_ok m -> not_v3 f -> load_file C writable f p m = (f', Ok (m', v), leak) ->
  (forall x o, m_heap m !! x = Some o -> m_heap m' !! x = Some o) /\
  forall y, part_of (m_heap m') v y -> y = nobody \/ m_heap m !! y = None.
Proof.
  intros Hm Hv H. destruct (load_file_fresh _ _ _ _ _ _ _ _ _ Hm Hv H) as (A & _ & B & _).
  split; [|exact B]. intros x o Hx. by eapply lookup_weaken.
Qed.
Print Assumptions C58_loaded_objects_are_new.

(** Two loads, of the same path or not and of the same file or not, one after the other. *)
Theorem C58_loads_share_nothing C1 w1 f1 p1 m f1' m1 v1 l1 C2 w2 f2 p2 f2' m2 v2 l2 :
  mem_ok m -> not_v3 f1 -> not_v3 f2 ->
  load_file C1 w1 f1 p1 m = (f1', Ok (m1, v1), l1) -> load_file C2 w2 f2 p2 m1 = (f2', Ok (m2, v2), l2) ->
  forall x y o, part_of (m_heap m1) v1 x -> m_heap m1 !! x = Some o -> part_of (m_heap m2) v2 y -> y <> nobody ->
    x <> y /\ m_heap m2 !! x = Some o.
Proof.
  intros Hm Hv1 Hv2 H1 H2 x y o Hx Ho Hy Hne.
  destruct (load_file_fresh _ _ _ _ _ _ _ _ _ Hm Hv1 H1) as (_ & Hm1 & _ & _).
  destruct (load_file_fresh _ _ _ _ _ _ _ _ _ Hm1 Hv2 H2) as (A & _ & B & _).
  split; [|by eapply lookup_weaken]. intros ->. destruct (B y Hy) as [?|Hn]; [done|]. congruence.
Qed.
Print Assumptions C58_loads_share_nothing.

(** The file of [m_ex] loaded twice; the two lists are different objects with parts of
    their own. *)
Definition f_ex : file := fst (fst (dump_file C0 [] [] 1 (str "/") m_ex f0)).
Definition twice : res (mem * loc * loc) :=
  match load_file C0 false f_ex (str "/") m0 with
  | (_, Ok (m1, v1), _) => match load_file C0 true f_ex (str "/") m1 with
                           | (_, Ok (m2, v2), _) => Ok (m2, v1, v2)
                           | _ => Err Unmodelled
                           end
  | _ => Err Unmodelled
  end.
Definition items_of (m : mem) (l : loc) : list loc :=
  match m_heap m !! l with Some (Obj _ (VSeq xs)) => xs | _ => [] end.
Example C58_applies :
  mem_ok m0 /\ not_v3 f_ex /\
  res_map (fun '(m, v, w) => (bool_decide (v = w), see m v, see m w)) twice =
    (let s := WSeq CList [WNum CInt (NZ 5); WStr CStr (str "abc"); WStr CStr (str "abc");
                WDict CDict [(WStr CStr (str "abc"), WNum CInt (NZ 5));
                             (WNum CInt (NZ 5), WSeq CSet [WStr CStr (str "abc"); WNum CInt (NZ 5)])]] in Ok (false, s, s)) /\
  res_map (fun '(m, v, w) => forallb (fun a => negb (existsb (N.eqb a) (items_of m w))) (items_of m v)) twice = Ok true.
Proof. split; [|split; [|split]]; [|look..]. split; [|look]. apply mem_of_free. Qed.
