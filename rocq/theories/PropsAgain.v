(** * PropsAgain: what was loaded makes the round trip, too (C59) *)
From Verif Require Import Base Utf8 Dec Num PyObj H5 Env Create Dump LoadFns LoadModel Registry RegistryStd Spec RoundTrip
  Api DumpClosed ApiProofs DumpEnv Reach Instance Samples SampleProofs DumpSamples ApiTop Fresh Again AgainProofs.
From Coq Require Import Lia ZifyBool ZifyN.
Local Open Scope N_scope.
Local Open Scope list_scope.

(** ** C59: a loaded object can be dumped and loaded like the one it was made from

    After the round trip of C01, [v] is the loaded object in the memory [m3] of the loading
    process.  Whenever this or another process [C2] having [v] in its memory dumps [v], to
    any path [p2] of any file [g], and the dump returns, then load gives the object back in
    the sense of C01.  The first dump and load only have to be such as C01 is about. *)
Theorem C59_second_trip C kw opts x p m f f' m' o fp cp im :
  let E' := other_loader (c_env C) o fp cp im in
  env_ok E' -> c_world C = std_world -> c_pyver C <> [] ->
  tree f -> not_v3 f -> no_options (target_attrs f p) -> Forall (fun o => snd o = false) opts ->
  free_above m -> graph_ok E' (m_heap m) x -> (forall d, e_imports E' (CNp d) = true) ->
  dump_file C kw opts x p m f = (f', m', Ok tt) ->
  exists N, forall C' writable m2,
    c_env C' = E' -> c_world C' = std_world -> (N <= c_fuel C')%nat -> mem_ok m2 -> one_empty_tuple (m_heap m2) ->
    exists m3 v, load_file C' writable f' p m2 = (f', Ok (m3, v), false) /\ isomorphic (m_heap m) x (m_heap m3) v /\
    forall C2 kw2 opts2 p2 g g' m4 o2 fp2 cp2 im2,
      let E2 := other_loader (c_env C2) o2 fp2 cp2 im2 in
      env_ok E2 -> c_world C2 = std_world -> c_pyver C2 <> [] -> (forall c, e_imports E' c = true -> e_imports E2 c = true) ->
      tree g -> not_v3 g -> no_options (target_attrs g p2) -> Forall (fun o => snd o = false) opts2 ->
      dump_file C2 kw2 opts2 v p2 m3 g = (g', m4, Ok tt) ->
      exists N2, forall C3 writable2 m5,
        c_env C3 = E2 -> c_world C3 = std_world -> (N2 <= c_fuel C3)%nat -> mem_ok m5 ->
        exists m6 u, load_file C3 writable2 g' p2 m5 = (g', Ok (m6, u), false) /\
          m_heap m5 ⊆ m_heap m6 /\ isomorphic (m_heap m3) v (m_heap m6) u.
Proof. exact (second_trip C kw opts x p m f f' m' o fp cp im). Qed.
Print Assumptions C59_second_trip.

(** The list of Samples.v, dumped, loaded, dumped to another path and loaded once more. *)
Definition again (m : mem) (x : loc) : res (view * res unit * res view) :=
  match dump_file C0 [] [] x (str "/") m f0 with
  | (f, _, Ok _) =>
      match load_file C0 false f (str "/") m0 with
      | (_, Ok (m1, v), _) =>
          match dump_file C0 [] [] v (str "/a/b") m1 f0 with
          | (g, _, r) => Ok (see m1 v, r, let '(_, r, _) := load_file C0 false g (str "/a/b") m0 in res_map (fun '(m, v) => see m v) r)
          end
      | _ => Err Unmodelled
      end
  | (_, _, Err e) => Err e
  end.
Example C59_second_trip_applies :
  env_ok ienv /\ tree f0 /\ not_v3 f0 /\ no_options (target_attrs f0 (str "/")) /\ no_options (target_attrs f0 (str "/a/b")) /\
  free_above m_ex /\ graph_ok ienv (m_heap m_ex) 1 /\ (forall d, e_imports ienv (CNp d) = true) /\
  mem_ok m0 /\ one_empty_tuple (m_heap m0) /\
  again m_ex 1 =
    (let s e f := WSeq CList [WNum CInt (NZ 5); WStr CStr (str "abc"); WStr CStr (str "abc");
                WDict CDict [(WStr CStr (str "abc"), WNum CInt (NZ 5)); (WNum CInt (NZ 5), WSeq CSet [e; f])]] in
     let a := WStr CStr (str "abc") in let b := WNum CInt (NZ 5) in Ok (s a b, Ok tt, Ok (s b a))).
Proof.
  split; [exact ienv_ok|]. split; [exact f0_tree|]. split; [look|]. split; [intros ? ? Hn; vm_compute in Hn; done|].
  split; [intros ? ? Hn; vm_compute in Hn; done|].
  split; [apply mem_of_free|]. split; [exact m_ex_ok|]. split; [by intros []|]. split; [split; [apply mem_of_free|look]|].
  split; [|look].
  intros y Hy. change (m_heap m0) with ({[nobody := empty_tuple]} : heap) in Hy. by apply lookup_singleton_Some in Hy as [<- _].
Qed.

(** ** The second dump need not return

    np.array([np.uint64(2**63)], dtype=object) is loaded as an array of the Python int 2**63,
    for which dump has no room. *)
Definition m_u64 : mem := mem_of [Obj CNdarray (VObjArr [1] [2]); Obj (CNp (DUInt W8)) (VNum (NZ (2 ^ 63)))].
Definition u64_file : file := fst (fst (dump_file C0 [] [] 1 (str "/") m_u64 f0)).
(** The elements of the loaded array, and the outcome of dumping it. *)
Definition u64_again : res (list (option obj) * res unit) :=
  match load_file C0 false u64_file (str "/") m0 with
  | (_, Ok (m1, v), _) =>
      match m_heap m1 !! v with
      | Some (Obj CNdarray (VObjArr [1] ws)) => Ok (map (fun w => m_heap m1 !! w) ws, snd (dump_file C0 [] [] v (str "/") m1 f0))
      | _ => Err Unmodelled
      end
  | _ => Err Unmodelled
  end.
Theorem C59_second_dump_refuted :
  snd (dump_file C0 [] [] 1 (str "/") m_u64 f0) = Ok tt /\
  u64_again = Ok ([Some (Obj CInt (VNum (NZ (2 ^ 63))))], Err OverflowError).
Proof. split; vm_compute; reflexivity. Qed.
Print Assumptions C59_second_dump_refuted.
