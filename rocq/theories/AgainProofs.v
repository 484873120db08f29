(** * AgainProofs: dump and load twice *)
From Verif Require Import Base Utf8 Dec Num PyObj H5 Env Create Dump LoadFns LoadModel Registry RegistryStd Spec RoundTrip
  Api DumpClosed ApiProofs DumpEnv Reach DumpCycle ApiTop Fresh Again.
From Coq Require Import Lia ZifyBool ZifyN.
Local Open Scope N_scope.
Local Open Scope list_scope.

Lemma graph_ok_imports E E2 h x :
  (forall c, e_imports E c = true -> e_imports E2 c = true) -> graph_ok E h x -> graph_ok E2 h x.
Proof. intros Hi. induction 1 as [x o Ho Hs Hout Him Het Hch IH]. apply (graph_ok_intro E2 h x o); auto. Qed.

(** ** The second round trip *)
Lemma second_trip C kw opts x p m f f' m' o fp cp im :
  let E' := other_loader (c_env C) o fp cp im in
  env_ok E' -> c_world C = std_world -> c_pyver C <> [] ->
  tree f -> not_v3 f -> no_options (target_attrs f p) -> Forall (fun o => snd o = false) opts ->
  free_above m -> graph_ok E' (m_heap m) x -> (forall d, e_imports E' (CNp d) = true) ->
  dump_file C kw opts x p m f = (f', m', Ok tt) ->
  exists N, forall C' writable m2,
    c_env C' = E' -> c_world C' = std_world -> (N <= c_fuel C')%nat -> mem_ok m2 -> one_empty_tuple (m_heap m2) ->
    exists m3 v, load_file C' writable f' p m2 = (f', Ok (m3, v), false) /\ isomorphic (m_heap m) x (m_heap m3) v /\
    forall C2 kw2 opts2 p2 g g' m4 o2 fp2 cp2 im2,
      let E2 := other_loader (c_env C2) o2 fp2 cp2 im2 in
      env_ok E2 -> c_world C2 = std_world -> c_pyver C2 <> [] -> (forall c, e_imports E' c = true -> e_imports E2 c = true) ->
      tree g -> not_v3 g -> no_options (target_attrs g p2) -> Forall (fun o => snd o = false) opts2 ->
      dump_file C2 kw2 opts2 v p2 m3 g = (g', m4, Ok tt) ->
      exists N2, forall C3 writable2 m5,
        c_env C3 = E2 -> c_world C3 = std_world -> (N2 <= c_fuel C3)%nat -> mem_ok m5 ->
        exists m6 u, load_file C3 writable2 g' p2 m5 = (g', Ok (m6, u), false) /\
          m_heap m5 ⊆ m_heap m6 /\ isomorphic (m_heap m3) v (m_heap m6) u.
Proof.
  intros E' HE HW Hpy Ht Hv Hno Hop Hm Hx Hnp Hd.
  destruct (dump_load_file C kw opts x p m f f' m' o fp cp im HE HW Hpy Ht Hv Hno Hop Hm Hx Hd) as (N & HN).
  exists N. intros C' w m2 H1 H2 H3 H4 Hone. destruct (HN C' w m2 H1 H2 H3 H4) as (m3 & v & L1 & L2 & L3).
  exists m3, v. split; [done|]. split; [done|].
  assert (not_v3 f') as Hv'. { eapply (dump_not_v3 C kw opts x p m f f' m' (Ok tt)); auto. rewrite HW. exact std_world_ok. }
  destruct (load_file_fresh _ _ _ _ _ _ _ _ _ H4 Hv' L1) as (_ & Hm3 & _ & Het).
  assert (graph_ok E' (m_heap m3) v) as Hg.
  { apply (isomorphic_ok E' (m_heap m) x); auto. intros y Hy. apply Hone, Het, Hy. }
  intros C2 kw2 opts2 p2 g g' m4 o2 fp2 cp2 im2 E2 HE2 HW2 Hpy2 Hi2 Ht2 Hv2 Hno2 Hop2 Hd2.
  apply (dump_load_file C2 kw2 opts2 v p2 m3 g g' m4 o2 fp2 cp2 im2); auto.
  - exact (proj1 Hm3).
  - by eapply graph_ok_imports.
Qed.
