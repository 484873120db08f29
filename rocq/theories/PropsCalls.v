(** * PropsCalls: calls of dump and load with all kinds of file arguments
    (C21-C23, C32, C33, C41, C42) *)
From Verif Require Import Base Utf8 Dec Num PyObj H5 Env Create Dump LoadFns LoadModel Registry RegistryStd Spec RoundTrip
  Api DumpClosed ApiProofs DumpEnv Reach Instance Samples SampleProofs Cyclic ApiTop RegistryProofs FileProofs FileIO FileIOProofs
  PropsFile.
From Coq Require Import Lia ZifyBool ZifyN.
Local Open Scope N_scope.
Local Open Scope list_scope.

(** A process with nothing open, a file "old" holding [f_old] and a file "text" that is
    not HDF5. *)
Definition H0 : host :=
  Host {[ str "old" := Some f_old; str "text" := None ]} ∅ 1 ∅ ∅ true m_ex.
Lemma H0_ok : host_ok H0.
Proof. split; [intros i _; apply lookup_empty|intros i Hi; inversion Hi..]. Qed.

(** ** C21: hickle closes exactly the files it opened

    [h_open]: the open h5py files of the process.  Any file argument, any outcome. *)
Theorem C21_dump_closes C H x f mode path fn opts kw H' r :
  host_ok H -> dump C H x f mode path fn opts kw = (H', r) -> h_open H' = h_open H.
Proof. intros Hok Hd. by destruct (dump_call _ _ _ _ _ _ _ _ _ _ _ Hok Hd) as (_ & _ & E & _). Qed.
Print Assumptions C21_dump_closes.
Theorem C21_load_closes C H f path fn H' r :
  host_ok H -> load C H f path fn = (H', r) -> h_open H' = h_open H.
Proof. intros Hok Hl. by destruct (load_call _ _ _ _ _ _ _ Hok Hl) as (_ & _ & E & _). Qed.
Print Assumptions C21_load_closes.

(** While the call runs the file is open. *)
Example C21_applies :
  host_ok H0 /\
  (let '(H1, r) := file_opener H0 (FPath (str "new")) (str "/a") (str "w") NameNone in
   size (h_open H1) = 1%nat /\ res_map (fun '(i, p, c) => (p, c)) r = Ok (str "/a", true)) /\
  snd (dump C0 H0 1 (FPath (str "new")) (str "w") (str "/a") NameNone [] []) = Ok tt /\
  snd (load C0 H0 (FPath (str "old")) (str "/b") NameNone) = Err ValueError.
Proof. split; [exact H0_ok|]. repeat split; look. Qed.

(** ** C22: load reports problems as ValueError

    ([Unmodelled]: the file has a content the model does not describe.) *)
Theorem C22_load_errors C H f path fn H1 o H' e :
  file_opener H f path (str "r") fn = (H1, Ok o) -> load C H f path fn = (H', Err e) -> e = ValueError \/ e = Unmodelled.
Proof. exact (load_errors C H f path fn H1 o H' e). Qed.
Print Assumptions C22_load_errors.

Example C22_applies :
  (exists H1 o, file_opener H0 (FPath (str "old")) (str "/b") (str "r") NameNone = (H1, Ok o)) /\
  snd (load C0 H0 (FPath (str "old")) (str "/b") NameNone) = Err ValueError /\
  snd (load C0 H0 (FPath (str "text")) (str "/") NameNone) = Err OSError.
Proof. split; [eexists _, _; reflexivity|]. split; look. Qed.

(** ** C23: no manager is left behind: false for hickle 4.0 files opened for reading by the
    caller

    The second load of such a file fails. *)
Definition H_open : host := fst (h5_open H0 false (str "old") (str "r")).
Theorem C23_manager_left_refuted :
  exists H C f path fn, host_ok H /\ h_lmgr H = ∅ /\ h_rmgr H = ∅ /\
    res_map (fun _ => tt) (snd (load C H f path fn)) = Ok tt /\
    elements (h_rmgr (fst (load C H f path fn))) = [1] /\
    snd (load C (fst (load C H f path fn)) f path fn) = Err ValueError.
Proof.
  exists H_open, C0, (FGroup 1 (str "/")), (str "/"), NameNone. split.
  { destruct (run_event_ok H0 (EOpen false (str "old") (str "r")) H0_ok) as [H _]. exact H. }
  repeat split; look.
Qed.
Print Assumptions C23_manager_left_refuted.
(** What holds, for every history of calls, failing ones included: no LoaderManager is left;
    no ReferenceManager is left if every group loaded from a file open for reading has a
    type table. *)
Theorem C23_no_manager_left_partial H es :
  host_ok H -> h_lmgr H = ∅ -> h_rmgr H = ∅ ->
  h_lmgr (run H es) = ∅ /\ (typed_run H es -> h_rmgr (run H es) = ∅).
Proof. intros Hok <- E. destruct (run_managers es H Hok) as [A B]. split; [done|]. rewrite <-E. exact B. Qed.
Print Assumptions C23_no_manager_left_partial.
(** While a manager is active the file is refused. *)
Theorem C23_busy_dump C H x f mode path fn opts kw H1 i p c H' r :
  file_opener H f path mode fn = (H1, Ok (i, p, c)) -> i ∈ h_lmgr H1 \/ i ∈ h_rmgr H1 ->
  dump C H x f mode path fn opts kw = (H', r) -> r <> Ok tt.
Proof. exact (busy_dump C H x f mode path fn opts kw H1 i p c H' r). Qed.
Print Assumptions C23_busy_dump.
Theorem C23_busy_load C H f path fn H1 i p c H' r h g root n :
  file_opener H f path (str "r") fn = (H1, Ok (i, p, c)) -> i ∈ h_lmgr H1 \/ i ∈ h_rmgr H1 ->
  content_of H1 i = Some (h, g) -> get_path g p = Some root -> get_node g root = Some n ->
  detect (node_attrs g root_addr) (nd_attrs n) <> Ok V3 ->
  load C H f path fn = (H', r) -> r = Err ValueError \/ r = Err Unmodelled.
Proof. exact (busy_load C H f path fn H1 i p c H' r h g root n). Qed.
Print Assumptions C23_busy_load.

(** A dump, a load of what it wrote, a failing load. *)
Definition es_ex : list event :=
  [ EDump C0 1 (FPath (str "new")) (str "w") (str "/a") NameNone [] [];
    ELoad C0 (FPath (str "new")) (str "/a") NameNone;
    ELoad C0 (FPath (str "text")) (str "/") NameNone ].
Definition typed_b (H : host) (f : fobj) (path : pystr) (fn : fname) : bool :=
  match file_opener H f path (str "r") fn with
  | (H1, Ok (i, p, c)) =>
      match content_of H1 i with
      | Some (h, g) => hd_write h || match get_path g p with
                                     | Some root => match child g root n_table with Some _ => true | None => false end
                                     | None => false
                                     end
      | None => true
      end
  | _ => true
  end.
Lemma typed_b_ok H f path fn : typed_b H f path fn = true -> typed_load H f path fn.
Proof.
  intros Ht H1 i p c h g Ho Hc. unfold typed_b in Ht. rewrite Ho, Hc in Ht. apply orb_true_iff in Ht as [?|Ht]; [by left|].
  right. destruct (get_path g p) as [root|] eqn:Hp; [|done]. destruct (child g root n_table) as [t|] eqn:Ht'; [|done]. by exists root, t.
Qed.
Example C23_applies : typed_run H0 es_ex.
Proof.
  split; [exact I|]. split; [|split; [|exact I]]; cbv beta iota; apply typed_b_ok.
  - vm_compute. reflexivity.
  - vm_compute. reflexivity.
Qed.

(** ** C32: the path and mode arguments select what they say *)

(** [p]: the absolute path dump and load work on; [c]: hickle closes the file. *)
Theorem C32_path_and_close H f path mode fn H1 i p c :
  file_opener H f path mode fn = (H1, Ok (i, p, c)) ->
  (c = true /\ is_group_arg f = false /\ components p = components path /\
     exists k w, opened H H1 i k w /\ (w = false <-> no_b mode = str "r")) \/
  (c = false /\ H1 = H /\ exists base h, f = FGroup i base /\ h_open H !! i = Some h /\
     components p = components base ++ components path /\
     (hd_write h = false -> exists r, mode = 114 :: r /\ 43 ∉ r)).
Proof. exact (file_opener_spec H f path mode fn H1 (Ok (i, p, c))). Qed.
Print Assumptions C32_path_and_close.
(** dump does not change a file open for reading only, and fails. *)
Theorem C32_read_only_dump C H x i base mode path fn opts kw h H' r :
  h_open H !! i = Some h -> hd_write h = false ->
  dump C H x (FGroup i base) mode path fn opts kw = (H', r) -> h_disk H' = h_disk H /\ r <> Ok tt.
Proof. exact (read_only_dump C H x i base mode path fn opts kw h H' r). Qed.
Print Assumptions C32_read_only_dump.
(** load changes no file it opens itself, whatever the outcome. *)
Theorem C32_load_keeps_files C H f path fn H' r :
  is_group_arg f = false -> load C H f path fn = (H', r) -> h_disk H' = h_disk H.
Proof. exact (load_disk C H f path fn H' r). Qed.
Print Assumptions C32_load_keeps_files.
Theorem C32_closed_refused C H x i base mode path fn opts kw :
  h_open H !! i = None ->
  dump C H x (FGroup i base) mode path fn opts kw = (H, Err ClosedFileError) /\
  load C H (FGroup i base) path fn = (H, Err ClosedFileError).
Proof. intros Hn. unfold dump, load, file_opener. by rewrite Hn. Qed.
Print Assumptions C32_closed_refused.
Theorem C32_invalid_mode_refused C H x k mode path fn opts kw :
  is_open H k = false -> no_b mode ∉ [str "r"; str "r+"; str "w"; str "w-"; str "x"; str "a"] ->
  dump C H x (FPath k) mode path fn opts kw = (H, Err ValueError).
Proof.
  intros Ho Hm. rewrite !not_elem_of_cons in Hm. destruct Hm as (? & ? & ? & ? & ? & ? & _).
  unfold dump, file_opener, h5_open. fold (no_b mode). rewrite Ho. by rewrite !bool_decide_false by done.
Qed.
Print Assumptions C32_invalid_mode_refused.

Example C32_applies :
  (let '(_, r) := file_opener H_open (FGroup 1 (str "/a/b")) (str "c//d/") (str "r") NameNone in
   res_map (fun '(i, p, c) => (components p, c)) r) = Ok ([str "a"; str "b"; str "c"; str "d"], false) /\
  snd (dump C0 H_open 1 (FGroup 1 (str "/")) (str "a") (str "/x") NameNone [] []) = Err FileError /\
  snd (dump C0 H_open 1 (FGroup 1 (str "/")) (str "r") (str "/x") NameNone [] []) = Err ValueError.
Proof. repeat split; look. Qed.

(** ** C33: every documented mode works with a file name: false for w+ and x+ *)
Theorem C33_documented_modes_refuted H k path fn :
  is_open H k = false ->
  Forall (fun mode => file_opener H (FPath k) path (str mode) fn = (H, Err ValueError)) ["w+"; "x+"; "wb+"; "w+b"; "xb+"]%string.
Proof. intros Ho. repeat (apply Forall_cons; [unfold file_opener, h5_open; by rewrite Ho|]). by apply Forall_nil. Qed.
Print Assumptions C33_documented_modes_refuted.
(** What holds: the other modes; reading needs an HDF5 file, x that there is no file. *)
Theorem C33_other_modes_partial H k path fn mode :
  is_open H k = false ->
  (mode ∈ ["w"; "wb"]%string \/
   (mode ∈ ["x"; "xb"]%string /\ h_disk H !! k = None) \/
   (mode ∈ ["a"; "ab"]%string /\ h_disk H !! k <> Some None) \/
   (mode ∈ ["r"; "rb"; "r+"; "rb+"; "r+b"]%string /\ exists f, h_disk H !! k = Some (Some f))) ->
  exists H1 i p, file_opener H (FPath k) path (str mode) fn = (H1, Ok (i, p, true)).
Proof.
  intros Ho Hm. unfold file_opener.
  assert (forall H1 i, h5_open H false k (no_b (str mode)) = (H1, Ok i) -> exists H1 j p,
    (let '(H', i) := h5_open H false k (List.filter (fun c => negb (c =? 98)) (str mode)) in (H', res_map (fun i => (i, with_slash path, true)) i)) = (H1, Ok (j, p, true))) as Hk.
  { intros H1 i E. fold (no_b (str mode)). rewrite E. simpl. by eexists _, _, _. }
  destruct Hm as [Hm|[[Hm Hd]|[[Hm Hd]|[Hm [f Hd]]]]]; rewrite !elem_of_cons, elem_of_nil in Hm.
  - eapply Hk. destruct Hm as [-> |[-> |[]]]; unfold h5_open; rewrite Ho; reflexivity.
  - eapply Hk. destruct Hm as [-> |[-> |[]]]; unfold h5_open; rewrite Ho, Hd; reflexivity.
  - destruct (h_disk H !! k) as [[f|]|] eqn:E; [|done|];
      (eapply Hk; destruct Hm as [-> |[-> |[]]]; unfold h5_open; rewrite Ho, E; reflexivity).
  - destruct Hm as [-> |[-> |[-> |[-> |[-> |[]]]]]]; (eapply Hk; unfold h5_open; rewrite Ho, Hd; reflexivity).
Qed.
Print Assumptions C33_other_modes_partial.

Example C33_applies : is_open H0 (str "new") = false /\ h_disk H0 !! str "new" = None.
Proof. split; look. Qed.

(** ** C41: dump and load leave the garbage collector as they found it: false if it was
    disabled *)
Theorem C41_gc_state_refuted :
  exists H C f path fn, h_gc H = false /\ h_gc (fst (load C H f path fn)) = true.
Proof.
  exists (Host (h_disk H0) ∅ 1 ∅ ∅ false m_ex), C0, (FPath (str "old")), (str "/"), NameNone. split; look.
Qed.
Print Assumptions C41_gc_state_refuted.
Lemma gc_opener H f path mode fn H1 r : file_opener H f path mode fn = (H1, r) -> h_gc H1 = h_gc H.
Proof.
  intros Ho. apply file_opener_spec in Ho. destruct r as [[[i p] c]|]; [|by subst].
  destruct Ho as [(_ & _ & _ & k & w & O & _)|(_ & -> & _)]; [|done]. apply O.
Qed.
Theorem C41_gc_stays_enabled_partial C H : h_gc H = true ->
  (forall x f mode path fn opts kw, h_gc (fst (dump C H x f mode path fn opts kw)) = true) /\
  (forall f path fn, h_gc (fst (load C H f path fn)) = true).
Proof.
  intros Hg. split.
  - intros x f mode path fn opts kw. unfold dump.
    destruct (file_opener _ _ _ _ _) as [H1 [[[i p] c]|e]] eqn:Ho; apply gc_opener in Ho; [|simpl; congruence].
    destruct (content_of H1 i) as [[h g]|]; [|done]. destruct (hd_write h); [|done].
    by destruct (dump_body _ _ _ _ _ _ _ _ _) as [[[g' m'] r] t].
  - intros f path fn. unfold load.
    destruct (file_opener _ _ _ _ _) as [H1 [[[i p] c]|e]] eqn:Ho; apply gc_opener in Ho; [|simpl; congruence].
    destruct (content_of H1 i) as [[h g]|]; [|done].
    by destruct (load_try _ _ _ _ _ _ _ _) as [[g' r] t].
Qed.
Print Assumptions C41_gc_stays_enabled_partial.

(** ** C42: dump to a file name and load from it, in any later process

    [H]: the dumping process; [H2]: any process in which the file still has the content
    dump gave it. *)
Theorem C42_by_file_name C kw opts x path mode fn k H H' o fp cp im :
  let E' := other_loader (c_env C) o fp cp im in
  env_ok E' -> c_world C = std_world -> c_pyver C <> [] -> Forall (fun o => snd o = false) opts ->
  host_ok H -> free_above (h_mem H) -> graph_ok E' (m_heap (h_mem H)) x ->
  no_b mode = str "w" \/ h_disk H !! k = None ->
  dump C H x (FPath k) mode path fn opts kw = (H', Ok tt) ->
  exists N, forall C' H2 fn2,
    c_env C' = E' -> c_world C' = std_world -> (N <= c_fuel C')%nat ->
    host_ok H2 -> mem_ok (h_mem H2) -> h_disk H2 !! k = h_disk H' !! k -> is_open H2 k = false ->
    exists H3 v, load C' H2 (FPath k) path fn2 = (H3, Ok v) /\
      m_heap (h_mem H2) ⊆ m_heap (h_mem H3) /\ isomorphic (m_heap (h_mem H)) x (m_heap (h_mem H3)) v /\
      h_disk H3 = h_disk H2 /\ h_open H3 = h_open H2.
Proof. exact (by_name C kw opts x path mode fn k H H' o fp cp im). Qed.
Print Assumptions C42_by_file_name.

Example C42_applies :
  host_ok H0 /\ free_above (h_mem H0) /\ graph_ok ienv (m_heap (h_mem H0)) 1 /\
  snd (dump C0 H0 1 (FPath (str "new")) (str "w") (str "a/b") NameNone [] []) = Ok tt.
Proof. split; [exact H0_ok|]. split; [apply mem_of_free|]. split; [exact m_ex_ok|]. look. Qed.
