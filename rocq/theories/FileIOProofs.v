(** * FileIOProofs: opening and closing, managers, whole calls of dump and load *)
From stdpp Require Import relations.
From Verif Require Import Base Utf8 Dec Num PyObj H5 Env Create Dump LoadFns LoadModel Registry RegistryStd Spec RoundTrip
  LoadFrame Api DumpProofs DumpClosed ApiProofs DumpEnv Reach ApiTop RegistryProofs FileProofs FileIO.
From Coq Require Import Lia ZifyBool ZifyN.
Local Open Scope N_scope.
Local Open Scope list_scope.
Local Opaque std_loader std_dump dump_loader_of loader_of.

(** ** Joined paths *)
Lemma split_char_join c s t : split_char c (s ++ c :: t) = split_char c s ++ split_char c t.
Proof.
  induction s as [|a s IH]; simpl; [by rewrite N.eqb_refl|]. destruct (a =? c); [by rewrite IH|].
  rewrite IH. assert (forall s, split_char c s <> []) as Hne.
  { clear. intros [|a s]; simpl; [done|]. destruct (a =? c); [done|]. by destruct (split_char c s). }
  specialize (Hne s). by destruct (split_char c s).
Qed.
Lemma filter_app_l {A} (g : A -> bool) l k : List.filter g (l ++ k) = List.filter g l ++ List.filter g k.
Proof. induction l as [|a l IH]; simpl; [done|]. destruct (g a); simpl; by rewrite IH. Qed.
Lemma components_join s t : components (s ++ slash :: t) = components s ++ components t.
Proof. unfold components, slash. by rewrite split_char_join, filter_app_l. Qed.
Lemma components_slash t : components (slash :: t) = components t.
Proof. exact (components_join [] t). Qed.
Lemma components_with_slash p : components (with_slash p) = components p.
Proof. unfold with_slash. destruct (is_prefix [slash] p); [done|apply components_slash]. Qed.
Lemma rstrip_spec p : exists n, p = rstrip_slash p ++ replicate n slash.
Proof.
  induction p as [|c p [n IH]]; simpl; [by exists 0%nat|]. destruct (rstrip_slash p) as [|a r].
  - destruct (N.eqb_spec c slash) as [->|]; [exists (S n)|exists n]; simpl; by rewrite IH at 1.
  - exists n. simpl. by rewrite IH at 1.
Qed.
Lemma components_replicate s n : components (s ++ replicate n slash) = components s.
Proof.
  revert s. induction n as [|n IH]; intros s; simpl; [by rewrite app_nil_r|].
  rewrite components_join. assert (components (replicate n slash) = []) as ->; [|by rewrite app_nil_r].
  change (replicate n slash) with ([] ++ replicate n slash). by rewrite IH.
Qed.
Lemma components_rstrip p : components (rstrip_slash p) = components p.
Proof. destruct (rstrip_spec p) as [n H]. rewrite H at 2. by rewrite components_replicate. Qed.
Lemma rstrip_head c p : rstrip_slash (c :: p) = [] \/ exists r, rstrip_slash (c :: p) = c :: r.
Proof. simpl. destruct (rstrip_slash p); [destruct (c =? slash)|]; eauto. Qed.
(** fileio.py:168: the path below the group handed over. *)
Lemma components_below base p : components (base ++ rstrip_slash (with_slash p)) = components base ++ components p.
Proof.
  assert (exists q, with_slash p = slash :: q) as [q Hq].
  { unfold with_slash. destruct p as [|c p]; [by exists []|]. cbn [is_prefix].
    destruct (N.eqb_spec slash c) as [<-|]; cbn [andb]; [by exists p|by exists (c :: p)]. }
  rewrite <-(components_with_slash p), <-(components_rstrip (with_slash p)), Hq.
  destruct (rstrip_head slash q) as [-> |[r ->]].
  - by rewrite !app_nil_r.
  - by rewrite components_join, components_slash.
Qed.

(** ** Opening *)
Record opened (H H1 : host) (i : fid) (k : key) (w : bool) : Prop := {
  op_i : i = h_next H;
  op_open : h_open H1 = <[i := Handle k w]> (h_open H);
  op_next : h_next H1 = h_next H + 1;
  op_l : h_lmgr H1 = h_lmgr H;
  op_r : h_rmgr H1 = h_rmgr H;
  op_gc : h_gc H1 = h_gc H;
  op_mem : h_mem H1 = h_mem H;
  op_disk : (exists f, h_disk H !! k = Some (Some f) /\ h_disk H1 = h_disk H) \/
            (w = true /\ h_disk H1 = <[k := Some new_file]> (h_disk H)) }.

Lemma h5_open_spec H like k mode H1 r : h5_open H like k mode = (H1, r) ->
  match r with
  | Ok i => exists w, opened H H1 i k w /\
      (w = true <-> mode <> str "r") /\ (mode = str "r" \/ mode = str "r+" -> h_disk H1 = h_disk H) /\
      (mode = str "w" -> h_disk H1 = <[k := Some new_file]> (h_disk H)) /\
      (mode = str "x" \/ mode = str "w-" -> h_disk H !! k = None) /\
      mode ∈ [str "r"; str "r+"; str "w"; str "w-"; str "x"; str "a"]
  | Err _ => H1 = H
  end.
Proof.
  unfold h5_open. destruct (is_open H k); [by intros [= <- <-]|].
  assert (forall w f, h_disk H !! k = Some (Some f) -> opened H (fst (open_handle H k w)) (h_next H) k w) as Ho.
  { intros w f Hf. split; try done. left. by exists f. }
  assert (opened H (fst (create_file H k)) (h_next H) k true) as Hc.
  { split; try done. by right. }
  repeat case_bool_decide; simpl; subst; try by intros [= <- <-].
  all: try (destruct (h_disk H !! k) as [[f|]|] eqn:Ef; try by intros [= <- <-]).
  all: intros [= <- <-]; eexists; (split; [first [exact Hc | by eapply Ho]|]);
       (split; [done|]); (split; [by intros [?|?]|]); (split; [by intros ?|]);
       (split; [by intros [?|?]|]); rewrite !elem_of_cons; tauto.
Qed.

(** The mode without the letter b. *)
Definition no_b (mode : pystr) : pystr := List.filter (fun c => negb (c =? 98)) mode.

Definition is_group_arg (f : fobj) : bool := match f with FGroup _ _ => true | _ => false end.
(** What file_opener gives: a file it has opened itself, or the file of the caller. *)
Definition opener_ok (H : host) (f : fobj) (path mode : pystr) (H1 : host) (i : fid) (p : pystr) (c : bool) : Prop :=
  (c = true /\ is_group_arg f = false /\ components p = components path /\
     exists k w, opened H H1 i k w /\ (w = false <-> no_b mode = str "r")) \/
  (c = false /\ H1 = H /\ exists base h, f = FGroup i base /\ h_open H !! i = Some h /\
     components p = components base ++ components path /\
     (hd_write h = false -> exists r, mode = 114 :: r /\ 43 ∉ r)).

Lemma not_true_false (b : bool) (P : Prop) : (b = true <-> ~ P) -> (b = false \/ b = true) -> Decision P -> (b = false <-> P).
Proof. intros H _ D. destruct b; split; try done; [intros HP; by apply H in HP|intros _]. destruct D as [?|Hn]; [done|]. by apply H in Hn. Qed.

Lemma open_like_spec H f path mode H1 r : open_like H f path mode = (H1, r) ->
  match r with
  | Ok (i, p, c) => c = true /\ p = path /\ exists k w, opened H H1 i k w /\ (w = false <-> no_b mode = str "r")
  | Err _ => H1 = H
  end.
Proof.
  unfold open_like. destruct f as [| |k closed reads seeks writes| | |]; try by intros [= <- <-].
  destruct closed; [by intros [= <- <-]|]. destruct (reads && seeks); [|by intros [= <- <-]].
  destruct mode as [|c m]; [by intros [= <- <-]|].
  destruct (_ && _); [by intros [= <- <-]|]. destruct (negb _ && _) eqn:Ec; [by intros [= <- <-]|].
  destruct (h5_open _ _ _ _) as [H2 [i|e]] eqn:Eo; apply h5_open_spec in Eo; [|intros [= <- <-]; by subst].
  simpl. intros [= <- <-]. split; [done|]. split; [done|]. destruct Eo as (w & O1 & O2 & _ & _ & _ & O6).
  exists k, w. split; [done|]. apply not_true_false; [|by destruct w; auto|apply _]. rewrite O2.
  destruct (N.eqb_spec c 114) as [->|Hc]; [done|]. change (str "r") with [114]. split; [intros _|intros _ ?; congruence].
  simpl. destruct (N.eqb_spec c 98) as [->|]; simpl; [|congruence].
  exfalso. revert Ec. rewrite andb_false_r. done.
Qed.
Lemma file_opener_spec H f path mode fn H1 r : file_opener H f path mode fn = (H1, r) ->
  match r with
  | Ok (i, p, c) => opener_ok H f path mode H1 i p c
  | Err _ => H1 = H
  end.
Proof.
  unfold file_opener.
  assert (forall g, is_group_arg f = false -> open_like H g (with_slash path) mode = (H1, r) ->
    match r with Ok (i, p, c) => opener_ok H f path mode H1 i p c | Err _ => H1 = H end) as Hlike.
  { intros g Hf Hg. apply open_like_spec in Hg. destruct r as [[[i p] c]|e]; [|done].
    destruct Hg as (-> & -> & Hk). left. split; [done|]. split; [done|]. split; [apply components_with_slash|done]. }
  destruct f as [k|i base|k ? ? ? ?|g s|g n|].
  - destruct (h5_open _ _ _ _) as [H2 [i|e]] eqn:Eo; apply h5_open_spec in Eo; [|intros [= <- <-]; by subst].
    simpl. intros [= <- <-]. left. split; [done|]. split; [done|]. split; [apply components_with_slash|].
    destruct Eo as (w & O1 & O2 & _). exists k, w. split; [done|]. apply not_true_false; [done|by destruct w; auto|apply _].
  - destruct (h_open H !! i) as [h|] eqn:Eh; [|by intros [= <- <-]].
    assert (hd_write h = true \/ (exists q, mode = 114 :: q /\ 43 ∉ q) ->
       (H, Ok (i, base ++ rstrip_slash (with_slash path), false)) = (H1, r) ->
       match r with Ok (j, p, c) => opener_ok H (FGroup i base) path mode H1 j p c | Err _ => H1 = H end) as Hok.
    { intros Hw [= <- <-]. right. split; [done|]. split; [done|]. exists base, h. split; [done|]. split; [done|].
      split; [apply components_below|]. intros Hf. destruct Hw as [?|?]; [congruence|done]. }
    destruct (hd_write h) eqn:Ew.
    { apply Hok. by left. }
    destruct mode as [|c m]; [by intros [= <- <-]|].
    destruct (N.eqb_spec c 114) as [->|]; [|by intros [= <- <-]]. simpl.
    case_bool_decide as Hin; [by intros [= <- <-]|].
    apply Hok. right. by exists m.
  - destruct fn; try (by intros [= <- <-]); by apply Hlike.
  - destruct fn; try (by intros [= <- <-]); by apply Hlike.
  - destruct fn; try (by intros [= <- <-]). destruct g as [g|], n as [n|]; try (by intros [= <- <-]). by apply Hlike.
  - destruct fn; try (by intros [= <- <-]); by apply Hlike.
Qed.

(** ** Whole calls *)
Record host_ok (H : host) : Prop := {
  ho_open : forall i, h_next H <= i -> h_open H !! i = None;
  ho_l : forall i, i ∈ h_lmgr H -> i < h_next H;
  ho_r : forall i, i ∈ h_rmgr H -> i < h_next H }.

Lemma enter_leave (t : gset fid) i : i ∉ t -> leave (enter t i) i = t.
Proof. unfold leave, enter. set_solver. Qed.

(** dump leaves the tables of managers as they are. *)
Lemma dump_body_tables C kw opts x p i t m f f' m' r t' :
  dump_body C kw opts x p i t m f = (f', m', r, t') -> t' = t.
Proof.
  destruct t as [l rr]. unfold dump_body. destruct (root_for_dump f p) as [f1 [root|e]]; [|by intros [= <- <- <- <-]].
  case_bool_decide as Hl; [by intros [= <- <- <- <-]|]. simpl in *.
  destruct (with_options _ _ _) as [f3 [chain|e]]; [|by intros [= <- <- <- <-]].
  case_bool_decide as Hr; simpl in *; [intros [= <- <- <- <-]; by rewrite enter_leave|].
  destruct (dump_into _ _ _ _ _ _ _) as [[f4 m4] r4]. intros [= <- <- <- <-]. by rewrite !enter_leave.
Qed.
(** Without a manager for the file, dump does what dump_file says. *)
Lemma dump_body_file C kw opts x p i t m f :
  i ∉ t_lmgr t -> i ∉ t_rmgr t -> dump_body C kw opts x p i t m f = (dump_file C kw opts x p m f, t).
Proof.
  intros Hl Hr. destruct t as [l rr]. simpl in *. unfold dump_body, dump_file, dump_root.
  destruct (root_for_dump f p) as [f1 [root|e]]; [|done]. rewrite bool_decide_false by done.
  destruct (with_options _ _ _) as [f3 [chain|e]]; [|done]. rewrite bool_decide_false by done.
  destruct (dump_into _ _ _ _ _ _ _) as [[f4 m4] r4]. simpl. by rewrite !enter_leave.
Qed.
(** With one it fails. *)
Lemma dump_body_busy C kw opts x p i t m f f' m' r t' :
  i ∈ t_lmgr t \/ i ∈ t_rmgr t -> dump_body C kw opts x p i t m f = (f', m', r, t') -> r <> Ok tt.
Proof.
  intros Hi. destruct t as [l rr]. unfold dump_body. simpl in *. destruct (root_for_dump f p) as [f1 [root|e]]; [|by intros [= <- <- <- <-]].
  case_bool_decide as Hl; [by intros [= <- <- <- <-]|].
  destruct (with_options _ _ _) as [f3 [chain|e]]; [|by intros [= <- <- <- <-]].
  rewrite bool_decide_true by tauto. by intros [= <- <- <- <-].
Qed.

Lemma load_try_tables C w i ov t f p m f' r t' : ov ∉ t_rmgr t -> i <> ov ->
  load_try C w i ov t f p m = (f', r, t') ->
  t_lmgr t' = t_lmgr t /\ (t_rmgr t' = t_rmgr t \/ (t_rmgr t' = {[i]} ∪ t_rmgr t /\ w = false /\ ~ has_table f p)).
Proof.
  intros Hov Hne. destruct t as [l rr]. simpl in *. unfold load_try. destruct (get_path f p) as [root|] eqn:Hp; [|intros [= <- <- <-]; auto].
  destruct (get_node f root) as [n|]; [|intros [= <- <- <-]; auto]. destruct (is_group n); [|intros [= <- <- <-]; auto].
  assert (forall legacy, load_body C w i ov (Tables l rr) f root legacy m = (f', r, t') ->
    t_lmgr t' = l /\ (t_rmgr t' = rr \/ (t_rmgr t' = {[i]} ∪ rr /\ w = false /\ ~ has_table f p))) as Hb.
  { intros legacy. unfold load_body. simpl. case_bool_decide as Hl; [intros [= <- <- <-]; auto|].
    destruct (options_of _ _ _) as [chain|]; [|intros [= <- <- <-]; auto].
    case_bool_decide as Hr; [intros [= <- <- <-]; simpl; rewrite enter_leave by done; auto|].
    destruct (load_table f root w) as [f1 [ovl|e]] eqn:Et.
    - intros [= <- <- <-]. simpl. rewrite enter_leave by done. split; [done|]. destruct ovl.
      + right. unfold leave, enter. split; [set_solver|].
        unfold load_table in Et. destruct (child f root n_table) as [t|] eqn:Ec.
        { destruct (get_node f t) as [tn|]; [|by inversion Et]. destruct (nd_body tn); [|by inversion Et].
          destruct w; inversion Et as [[E1 E2]]. destruct (check_entries _ _); done. }
        destruct w; [destruct (create_node _ _ _ _) as [[]|]; by inversion Et|]. split; [done|].
        intros (root' & t & H1 & H2). rewrite Hp in H1. inversion H1; subst. congruence.
      + left. by rewrite enter_leave.
    - intros [= <- <- <-]. simpl. rewrite enter_leave by done. auto. }
  destruct (detect _ _) as [[]|e]; [intros [= <- <- <-]; auto|apply Hb|apply Hb|intros [= <- <- <-]; auto].
Qed.
Lemma load_try_file C w i ov t f p m f' r t' :
  i ∉ t_lmgr t -> i ∉ t_rmgr t -> load_try C w i ov t f p m = (f', r, t') ->
  exists o, load_file C w f p m = (f', r, o).
Proof.
  intros Hl Hr. destruct t as [l rr]. simpl in *. unfold load_try, load_file. destruct (get_path f p) as [root|] eqn:Hp; [|intros [= <- <- <-]; eauto].
  destruct (get_node f root) as [n|] eqn:Hn; [|intros [= <- <- <-]; eauto]. destruct (is_group n); [|intros [= <- <- <-]; eauto].
  assert (node_attrs f root = nd_attrs n) as Ha by (unfold node_attrs; by rewrite Hn).
  destruct (detect _ _) as [v|e] eqn:Ed; [|intros [= <- <- <-]; unfold load_root; rewrite Ha, Ed; eauto].
  assert (forall legacy, legacy = match v with V4 => true | _ => false end -> v <> V3 -> load_body C w i ov (Tables l rr) f root legacy m = (f', r, t') ->
    exists o, load_root C w f root m = (f', r, o)) as Hb.
  { intros legacy -> Hv. unfold load_body. simpl. rewrite bool_decide_false by done. unfold load_root. rewrite Ha, Ed.
    destruct v; [done|..]; (destruct (options_of _ _ _) as [chain|]; [|intros [= <- <- <-]; eauto]; rewrite bool_decide_false by done;
      destruct (load_table f root w) as [f1 [ovl|e]]; intros [= <- <- <-]; eauto). }
  destruct v; [intros [= <- <- <-]; eauto|by apply (Hb true)|by apply (Hb false)].
Qed.

Lemma opened_ok H H1 i k w : host_ok H -> opened H H1 i k w -> host_ok H1.
Proof.
  intros [O L R] [-> E1 E2 E3 E4 _ _ _]. split.
  - intros j Hj. rewrite E1, lookup_insert_ne by lia. apply O. lia.
  - intros j. rewrite E3, E2. intros Hj%L. lia.
  - intros j. rewrite E4, E2. intros Hj%R. lia.
Qed.
Lemma opener_host H f path mode fn H1 i p c : host_ok H -> file_opener H f path mode fn = (H1, Ok (i, p, c)) ->
  host_ok H1 /\ h_next H <= h_next H1 /\ h_lmgr H1 = h_lmgr H /\ h_rmgr H1 = h_rmgr H /\ h_mem H1 = h_mem H /\ i < h_next H1 /\
  h_open (finish H1 i c) = h_open H /\ (c = true -> i = h_next H /\ h_open H !! i = None).
Proof.
  intros Hok Ho. apply file_opener_spec in Ho as [(-> & _ & _ & k & w & O & _)|(-> & -> & base & h & -> & Hh & _)].
  - split; [by eapply opened_ok|]. destruct O as [-> E1 E2 E3 E4 _ E5 _].
    assert (h_open H !! h_next H = None) as Hn by (apply Hok; lia).
    split; [lia|]. split; [done|]. split; [done|]. split; [done|]. split; [lia|].
    split; [|done]. simpl. rewrite E1. by apply delete_insert.
  - split; [done|]. split; [lia|]. split; [done|]. split; [done|]. split; [done|]. split; [|done].
    destruct (decide (i < h_next H)) as [?|Hge]; [done|]. rewrite (ho_open _ Hok) in Hh by lia. done.
Qed.

Lemma dump_call C H x f mode path fn opts kw H' r : host_ok H ->
  dump C H x f mode path fn opts kw = (H', r) ->
  host_ok H' /\ h_next H <= h_next H' /\ h_open H' = h_open H /\ h_lmgr H' = h_lmgr H /\ h_rmgr H' = h_rmgr H.
Proof.
  intros Hok. unfold dump. destruct (file_opener H f path mode fn) as [H1 [[[i p] c]|e]] eqn:Ho.
  2:{ apply file_opener_spec in Ho. subst H1. intros [= <- <-]. repeat (split; [done || lia|]). done. }
  destruct (opener_host _ _ _ _ _ _ _ _ _ Hok Ho) as (Hok1 & Hnx & El & Er & Em & Hi & Ef & _).
  assert (forall d m g, host_ok (finish (Host d (h_open H1) (h_next H1) (h_lmgr H1) (h_rmgr H1) g m) i c) /\
     h_open (finish (Host d (h_open H1) (h_next H1) (h_lmgr H1) (h_rmgr H1) g m) i c) = h_open H) as Hfin.
  { intros d m g. assert (h_open (finish (Host d (h_open H1) (h_next H1) (h_lmgr H1) (h_rmgr H1) g m) i c) = h_open H) as E.
    { rewrite <-Ef. by destruct c. }
    split; [|done]. split.
    - intros j Hj. rewrite E. apply Hok. destruct c; simpl in Hj; lia.
    - intros j Hj. destruct c; simpl in *; by apply (ho_l _ Hok1).
    - intros j Hj. destruct c; simpl in *; by apply (ho_r _ Hok1). }
  assert (finish H1 i c = finish (Host (h_disk H1) (h_open H1) (h_next H1) (h_lmgr H1) (h_rmgr H1) (h_gc H1) (h_mem H1)) i c) as Eself by (by destruct H1).
  destruct (content_of H1 i) as [[h g]|].
  - destruct (hd_write h).
    + destruct (dump_body _ _ _ _ _ _ _ _ _) as [[[g' m'] r'] t] eqn:Eb. apply dump_body_tables in Eb. subst t. simpl.
      intros [= <- <-]. destruct (Hfin (<[hd_key h := Some g']> (h_disk H1)) m' (h_gc H1)) as [F1 F2].
      split; [done|]. split; [destruct c; simpl; lia|]. split; [done|]. by destruct c.
    + intros [= <- <-]. rewrite Eself. destruct (Hfin (h_disk H1) (h_mem H1) (h_gc H1)) as [F1 F2].
      split; [done|]. split; [destruct c; simpl; lia|]. split; [done|]. by destruct c.
  - intros [= <- <-]. rewrite Eself. destruct (Hfin (h_disk H1) (h_mem H1) (h_gc H1)) as [F1 F2].
    split; [done|]. split; [destruct c; simpl; lia|]. split; [done|]. by destruct c.
Qed.

(** The group a load call reads has a type table, or the file is open for writing. *)
Definition typed_load (H : host) (f : fobj) (path : pystr) (fn : fname) : Prop :=
  forall H1 i p c h g, file_opener H f path (str "r") fn = (H1, Ok (i, p, c)) -> content_of H1 i = Some (h, g) ->
    hd_write h = true \/ has_table g p.

Lemma load_call C H f path fn H' r : host_ok H -> load C H f path fn = (H', r) ->
  host_ok H' /\ h_next H <= h_next H' /\ h_open H' = h_open H /\ h_lmgr H' = h_lmgr H /\
  (typed_load H f path fn -> h_rmgr H' = h_rmgr H).
Proof.
  intros Hok. unfold load, typed_load. destruct (file_opener H f path (str "r") fn) as [H1 [[[i p] c]|e]] eqn:Ho.
  2:{ apply file_opener_spec in Ho. subst H1. intros [= <- <-]. repeat (split; [done || lia|]). done. }
  destruct (opener_host _ _ _ _ _ _ _ _ _ Hok Ho) as (Hok1 & Hnx & El & Er & Em & Hi & Ef & _).
  destruct (content_of H1 i) as [[h g]|] eqn:Ec.
  - destruct (load_try _ _ _ _ _ _ _ _) as [[g' r'] t] eqn:Eb.
    apply load_try_tables in Eb as [Et1 Et2]; [|simpl; intros Hin%(ho_r _ Hok1); lia|lia]. simpl in Et1, Et2.
    intros [= <- <-].
    set (K := finish _ i c).
    assert (h_open K = h_open H) as Eo. { rewrite <-Ef. unfold K. by destruct c. }
    assert (h_lmgr K = h_lmgr H1) as Elk. { unfold K. rewrite Et1. by destruct c. }
    assert (h_rmgr K = t_rmgr t) as Erk. { unfold K. by destruct c. }
    assert (h_next K = h_next H1 + 1) as Enk. { unfold K. by destruct c. }
    split; [split|].
    + intros j Hj. rewrite Eo. apply Hok. lia.
    + intros j. rewrite Elk, Enk. intros Hj%(ho_l _ Hok1). lia.
    + intros j. rewrite Erk, Enk. destruct Et2 as [-> |(-> & _)]; [intros Hj%(ho_r _ Hok1); lia|].
      rewrite elem_of_union, elem_of_singleton. intros [-> |Hj%(ho_r _ Hok1)]; lia.
    + split; [lia|]. split; [done|]. split; [congruence|]. intros Ht. rewrite Erk.
      destruct Et2 as [-> |(-> & A & B)]; [done|]. destruct (Ht _ _ _ _ _ _ (eq_refl _) Ec) as [?|?]; congruence.
  - intros [= <- <-]. split; [split|].
    + intros j Hj. rewrite Ef. apply Hok. destruct c; simpl in Hj; lia.
    + intros j Hj. destruct c; simpl in *; by apply (ho_l _ Hok1).
    + intros j Hj. destruct c; simpl in *; by apply (ho_r _ Hok1).
    + split; [destruct c; simpl; lia|]. split; [done|]. destruct c; simpl; by rewrite El, Er.
Qed.

(** Once the file is open, load fails with ValueError. *)
Lemma load_errors C H f path fn H1 o H' e :
  file_opener H f path (str "r") fn = (H1, Ok o) -> load C H f path fn = (H', Err e) -> e = ValueError \/ e = Unmodelled.
Proof.
  intros Ho. unfold load. rewrite Ho. destruct o as [[i p] c]. destruct (content_of H1 i) as [[h g]|]; [|intros [= <- <-]; by right].
  destruct (load_try _ _ _ _ _ _ _ _) as [[g' r'] t]. intros [= <- E]. destruct r' as [[]|e']; [done|]. simpl in E.
  destruct e'; inversion E; auto.
Qed.
(** A manager for the file: dump and load fail. *)
Lemma busy_dump C H x f mode path fn opts kw H1 i p c H' r :
  file_opener H f path mode fn = (H1, Ok (i, p, c)) -> i ∈ h_lmgr H1 \/ i ∈ h_rmgr H1 ->
  dump C H x f mode path fn opts kw = (H', r) -> r <> Ok tt.
Proof.
  intros Ho Hi. unfold dump. rewrite Ho. destruct (content_of H1 i) as [[h g]|]; [|by intros [= <- <-]].
  destruct (hd_write h).
  - destruct (dump_body _ _ _ _ _ _ _ _ _) as [[[g' m'] r'] t] eqn:Eb. apply dump_body_busy in Eb; [|done]. by intros [= <- <-].
  - intros [= <- <-]. unfold dump_body_ro. destruct (get_path g p) as [a|]; [|done]. destruct (get_node g a) as [n|]; [|done].
    by destruct (nd_body n) as [[]|].
Qed.
Lemma busy_load C H f path fn H1 i p c H' r h g root n :
  file_opener H f path (str "r") fn = (H1, Ok (i, p, c)) -> i ∈ h_lmgr H1 \/ i ∈ h_rmgr H1 ->
  content_of H1 i = Some (h, g) -> get_path g p = Some root -> get_node g root = Some n ->
  detect (node_attrs g root_addr) (nd_attrs n) <> Ok V3 ->
  load C H f path fn = (H', r) -> r = Err ValueError \/ r = Err Unmodelled.
Proof.
  intros Ho Hi Hc Hp Hn Hv. unfold load. rewrite Ho, Hc.
  destruct (load_try _ _ _ _ _ _ _ _) as [[g' r'] t] eqn:Eb. intros [= <- <-].
  assert (exists e, r' = Err e) as [e ->].
  { unfold load_try in Eb. rewrite Hp, Hn in Eb. destruct (is_group n); [|inversion Eb; eauto].
    assert (forall legacy, load_body C (hd_write h) i (h_next H1) (Tables (h_lmgr H1) (h_rmgr H1)) g root legacy (h_mem H1) = (g', r', t) -> exists e, r' = Err e) as Hb.
    { intros legacy. unfold load_body. simpl. case_bool_decide as Hl; [intros [= <- <- <-]; eauto|].
      destruct (options_of _ _ _) as [chain|]; [|intros [= <- <- <-]; eauto]. rewrite bool_decide_true by tauto. intros [= <- <- <-]; eauto. }
    destruct (detect _ _) as [[]|e]; [done|by apply (Hb true)|by apply (Hb false)|inversion Eb; eauto]. }
  simpl. destruct e; auto.
Qed.

(** ** Histories of calls *)
Inductive event :=
| EDump (C : config) (x : loc) (f : fobj) (mode path : pystr) (fn : fname) (opts : list (pystr * bool)) (kw : kwargs)
| ELoad (C : config) (f : fobj) (path : pystr) (fn : fname)
| EOpen (like : bool) (k : key) (mode : pystr)      (** the caller opens a file with h5py *)
| EClose (i : fid)                                  (** the caller closes a file *)
| EMem (m : mem).                                   (** the caller does something else *)
Definition run_event (H : host) (e : event) : host :=
  match e with
  | EDump C x f mode path fn opts kw => fst (dump C H x f mode path fn opts kw)
  | ELoad C f path fn => fst (load C H f path fn)
  | EOpen like k mode => fst (h5_open H like k mode)
  | EClose i => close_file H i
  | EMem m => Host (h_disk H) (h_open H) (h_next H) (h_lmgr H) (h_rmgr H) (h_gc H) m
  end.
Definition run (H : host) (es : list event) : host := fold_left run_event es H.
Fixpoint typed_run (H : host) (es : list event) : Prop :=
  match es with
  | [] => True
  | e :: r => (match e with ELoad _ f path fn => typed_load H f path fn | _ => True end) /\ typed_run (run_event H e) r
  end.

Lemma run_event_ok H e : host_ok H ->
  host_ok (run_event H e) /\ h_lmgr (run_event H e) = h_lmgr H /\
  ((match e with ELoad _ f path fn => typed_load H f path fn | _ => True end) -> h_rmgr (run_event H e) = h_rmgr H).
Proof.
  intros Hok. destruct e as [C x f mode path fn opts kw|C f path fn|like k mode|i|m]; simpl.
  - destruct (dump _ _ _ _ _ _ _ _ _) as [H' r] eqn:E. apply dump_call in E as (A & _ & _ & B & D); done.
  - destruct (load _ _ _ _ _) as [H' r] eqn:E. apply load_call in E as (A & _ & _ & B & D); done.
  - destruct (h5_open _ _ _ _) as [H' [i|e]] eqn:E; apply h5_open_spec in E; [|by subst]. destruct E as (w & O & _).
    split; [by eapply opened_ok|]. destruct O. done.
  - split; [|done]. split; simpl; [|apply Hok|apply Hok]. intros j Hj. rewrite lookup_delete_None. right. by apply Hok.
  - split; [|done]. split; apply Hok.
Qed.
Lemma run_managers es : forall H, host_ok H ->
  h_lmgr (run H es) = h_lmgr H /\ (typed_run H es -> h_rmgr (run H es) = h_rmgr H).
Proof.
  induction es as [|e es IH]; intros H Hok; simpl; [done|]. destruct (run_event_ok H e Hok) as (A & B & D).
  destruct (IH _ A) as [I1 I2]. unfold run in *. simpl. split; [congruence|]. intros [T1 T2]. rewrite I2 by done. by apply D.
Qed.

(** ** The content of the files *)
Lemma dump_call_file C H x f mode path fn opts kw H1 i p c h g H' r : host_ok H ->
  file_opener H f path mode fn = (H1, Ok (i, p, c)) -> content_of H1 i = Some (h, g) -> hd_write h = true ->
  i ∉ h_lmgr H -> i ∉ h_rmgr H -> dump C H x f mode path fn opts kw = (H', r) ->
  exists g', h_disk H' = <[hd_key h := Some g']> (h_disk H1) /\ dump_file C kw opts x p (h_mem H) g = (g', h_mem H', r).
Proof.
  intros Hok Ho Hc Hw Hl Hr. destruct (opener_host _ _ _ _ _ _ _ _ _ Hok Ho) as (_ & _ & El & Er & Em & _).
  unfold dump. rewrite Ho, Hc, Hw. rewrite dump_body_file by (simpl; congruence). rewrite Em.
  destruct (dump_file _ _ _ _ _ _ _) as [[g' m'] r']. intros [= <- <-]. exists g'. by destruct c.
Qed.
Lemma load_call_file C H f path fn H1 i p c h g H' r : host_ok H ->
  file_opener H f path (str "r") fn = (H1, Ok (i, p, c)) -> content_of H1 i = Some (h, g) ->
  i ∉ h_lmgr H -> i ∉ h_rmgr H -> load C H f path fn = (H', r) ->
  exists g' rr o, h_disk H' = <[hd_key h := Some g']> (h_disk H1) /\ load_file C (hd_write h) g p (h_mem H) = (g', rr, o) /\
    r = as_value_error (res_map snd rr) /\ (forall m v, rr = Ok (m, v) -> h_mem H' = m).
Proof.
  intros Hok Ho Hc Hl Hr. destruct (opener_host _ _ _ _ _ _ _ _ _ Hok Ho) as (_ & _ & El & Er & Em & _).
  unfold load. rewrite Ho, Hc. destruct (load_try _ _ _ _ _ _ _ _) as [[g' rr] t] eqn:Eb. rewrite Em in Eb.
  apply load_try_file in Eb as [o Eb]; [|simpl; congruence..]. intros [= <- <-]. exists g', rr, o.
  split; [by destruct c|]. split; [done|]. split; [done|]. intros m v ->. by destruct c.
Qed.

(** The root of a new file. *)
Lemma new_file_tree : tree new_file.
Proof.
  assert (forall a n, get_node new_file a = Some n -> a = root_addr /\ n = Node (str "/") ∅ (BGroup [])) as Hone.
  { intros a n. unfold get_node, new_file. simpl. rewrite lookup_singleton_Some. intros [<- <-]. done. }
  split.
  - intros a n Hn. apply Hone in Hn as [-> _]. done.
  - by eexists.
  - intros a n nm c Hn Hin. apply Hone in Hn as [_ ->]. inversion Hin.
  - intros a n Hn. apply Hone in Hn as [_ ->]. constructor.
  - intros a n nm a' n' nm' c Hn _ Hin. apply Hone in Hn as [_ ->]. inversion Hin.
Qed.

(** Opening by name. *)
Lemma open_name H k path mode fn H1 i p c : file_opener H (FPath k) path mode fn = (H1, Ok (i, p, c)) ->
  p = with_slash path /\ c = true /\ exists w, opened H H1 i k w /\ (w = true <-> no_b mode <> str "r") /\
      (no_b mode = str "w" -> h_disk H1 = <[k := Some new_file]> (h_disk H)).
Proof.
  unfold file_opener. destruct (h5_open _ _ _ _) as [H2 [j|e]] eqn:Eo; [|done]. simpl. intros [= <- <- <- <-].
  apply h5_open_spec in Eo as (w & O1 & O2 & _ & O3 & _). split; [done|]. split; [done|]. by exists w.
Qed.
Lemma open_reading H k path fn f : is_open H k = false -> h_disk H !! k = Some (Some f) ->
  exists H1, file_opener H (FPath k) path (str "r") fn = (H1, Ok (h_next H, with_slash path, true)) /\
    content_of H1 (h_next H) = Some (Handle k false, f) /\ h_disk H1 = h_disk H.
Proof.
  intros Hc Hf. eexists. unfold file_opener. change (List.filter _ (str "r")) with (str "r").
  unfold h5_open. rewrite Hc, bool_decide_true by done. rewrite Hf. simpl. split; [done|]. split; [|done].
  unfold content_of. simpl. rewrite lookup_insert. simpl. by rewrite Hf.
Qed.

Lemma opened_content H H1 i k w : opened H H1 i k w -> (w = true /\ h_disk H !! k = None) \/ h_disk H1 = <[k := Some new_file]> (h_disk H) ->
  content_of H1 i = Some (Handle k w, new_file).
Proof.
  intros [_ E1 _ _ _ _ _ D] Hd. unfold content_of. rewrite E1, lookup_insert. simpl.
  destruct Hd as [[-> Hn]|Hd].
  - destruct D as [(f & D & _)|(_ & D)]; [congruence|]. by rewrite D, lookup_insert.
  - by rewrite Hd, lookup_insert.
Qed.

Lemma by_name C kw opts x path mode fn k H H' o fp cp im :
  let E' := other_loader (c_env C) o fp cp im in
  env_ok E' -> c_world C = std_world -> c_pyver C <> [] -> Forall (fun o => snd o = false) opts ->
  host_ok H -> free_above (h_mem H) -> graph_ok E' (m_heap (h_mem H)) x ->
  no_b mode = str "w" \/ h_disk H !! k = None ->
  dump C H x (FPath k) mode path fn opts kw = (H', Ok tt) ->
  exists N, forall C' H2 fn2,
    c_env C' = E' -> c_world C' = std_world -> (N <= c_fuel C')%nat ->
    host_ok H2 -> mem_ok (h_mem H2) -> h_disk H2 !! k = h_disk H' !! k -> is_open H2 k = false ->
    exists H3 v, load C' H2 (FPath k) path fn2 = (H3, Ok v) /\
      m_heap (h_mem H2) ⊆ m_heap (h_mem H3) /\ isomorphic (m_heap (h_mem H)) x (m_heap (h_mem H3)) v /\
      h_disk H3 = h_disk H2 /\ h_open H3 = h_open H2.
Proof.
  intros E' HE HW Hpy Hop Hok Hm Hx Hmode Hd. pose proof Hd as Hd0. unfold dump in Hd0.
  destruct (file_opener H (FPath k) path mode fn) as [H1 [[[i p] c]|e]] eqn:Ho; [|done].
  destruct (open_name _ _ _ _ _ _ _ _ _ Ho) as (-> & -> & w & O & Ow & Od).
  destruct (content_of H1 i) as [[h g]|] eqn:Hc; [|done].
  assert (hd_write h = true) as Hw.
  { destruct (hd_write h); [done|]. assert (dump_body_ro g (with_slash path) = Ok tt) as E by congruence. unfold dump_body_ro in E.
    destruct (get_path g _) as [a|]; [|done]. destruct (get_node g a) as [n|]; [|done]. by destruct (nd_body n) as [[]|]. }
  assert (h = Handle k true /\ g = new_file) as [-> ->].
  { assert (w = true) as ->.
    { unfold content_of in Hc. rewrite (op_open _ _ _ _ _ O), lookup_insert in Hc. simpl in Hc.
      destruct (h_disk H1 !! k) as [[]|]; [|done..]. inversion Hc; subst. done. }
    assert (content_of H1 i = Some (Handle k true, new_file)) as E.
    { eapply opened_content; [done|]. destruct Hmode as [Hm1|Hm1]; [right; by apply Od|by left]. }
    rewrite E in Hc. by inversion Hc. }
  assert (i = h_next H) as -> by apply O.
  assert (h_next H ∉ h_lmgr H) as Hl by (intros Hin%(ho_l _ Hok); lia).
  assert (h_next H ∉ h_rmgr H) as Hr by (intros Hin%(ho_r _ Hok); lia).
  destruct (dump_call_file _ _ _ _ _ _ _ _ _ _ _ _ _ _ _ _ _ Hok Ho Hc Hw Hl Hr Hd) as (g' & Ed & Ef).
  destruct (dump_load_file C kw opts x (with_slash path) (h_mem H) new_file g' (h_mem H') o fp cp im) as (N & HN); try done.
  { apply new_file_tree. }
  { unfold target_attrs. destruct (get_path new_file (with_slash path)) as [a|]; [|by intros ? ? ?].
    unfold node_attrs, new_file, get_node. simpl. destruct ({[root_addr := _]} !! a) as [n|] eqn:En; [|by intros ? ? ?].
    apply lookup_singleton_Some in En as [_ <-]. by intros ? ? ?. }
  exists N. intros C' H2 fn2 E1 E2 E3 Hok2 Hm2 Hk Hc2.
  assert (h_disk H2 !! k = Some (Some g')) as Hg. { rewrite Hk, Ed. apply lookup_insert. }
  destruct (open_reading H2 k path fn2 g' Hc2 Hg) as (H21 & Ho2 & Hcc & Hdd).
  destruct (load C' H2 (FPath k) path fn2) as [H3 r] eqn:El. destruct (load_call _ _ _ _ _ _ _ Hok2 El) as (_ & _ & Eo3 & _).
  destruct (load_call_file _ _ _ _ _ _ _ _ _ _ _ _ _ Hok2 Ho2 Hcc ltac:(intros Hin%(ho_l _ Hok2); lia) ltac:(intros Hin%(ho_r _ Hok2); lia) El)
    as (g2 & rr & oo & Ed3 & El3 & -> & Em3).
  destruct (HN C' false (h_mem H2) E1 E2 E3 Hm2) as (m3 & v & L1 & L2 & L3). simpl in El3. rewrite L1 in El3. inversion El3; subst.
  specialize (Em3 m3 v eq_refl). exists H3, v. split; [done|]. rewrite Em3. split; [done|]. split; [done|]. split; [|done].
  simpl in Ed3. rewrite Hdd in Ed3. rewrite Ed3. by rewrite insert_id.
Qed.

(** A file open for reading only is not changed. *)
Lemma read_only_dump C H x i base mode path fn opts kw h H' r : 
  h_open H !! i = Some h -> hd_write h = false ->
  dump C H x (FGroup i base) mode path fn opts kw = (H', r) -> h_disk H' = h_disk H /\ r <> Ok tt.
Proof.
  intros Hh Hw. unfold dump. destruct (file_opener _ _ _ _ _) as [H1 [[[j p] c]|e]] eqn:Ho; apply file_opener_spec in Ho.
  2:{ subst. by intros [= <- <-]. }
  destruct Ho as [(_ & [=] & _)|(-> & -> & base' & h' & E & Hh' & _)]. inversion E; subst j base'.
  rewrite Hh in Hh'. inversion Hh'; subst h'. unfold content_of. rewrite Hh.
  destruct (h_disk H !! hd_key h) as [[g|]|]; [|by intros [= <- <-]..]. rewrite Hw. intros [= <- <-]. split; [done|].
  unfold dump_body_ro. destruct (get_path g p) as [a|]; [|done]. destruct (get_node g a) as [n|]; [|done].
  by destruct (nd_body n) as [[]|].
Qed.
(** Nor is a file load opens itself. *)
Lemma load_try_same C i ov t f p m f' r t' : load_try C false i ov t f p m = (f', r, t') -> f' = f.
Proof.
  unfold load_try. destruct (get_path f p) as [root|]; [|by intros [= <- <- <-]].
  destruct (get_node f root) as [n|]; [|by intros [= <- <- <-]]. destruct (is_group n); [|by intros [= <- <- <-]].
  assert (forall legacy, load_body C false i ov t f root legacy m = (f', r, t') -> f' = f) as Hb.
  { intros legacy. unfold load_body. case_bool_decide; [by intros [= <- <- <-]|].
    destruct (options_of _ _ _); [|by intros [= <- <- <-]]. case_bool_decide; [by intros [= <- <- <-]|].
    destruct (load_table f root false) as [f1 [ovl|e]] eqn:Et; intros [= <- <- <-]; eapply load_table_same; eauto. }
  destruct (detect _ _) as [[]|e]; [by intros [= <- <- <-]|by apply (Hb true)|by apply (Hb false)|by intros [= <- <- <-]].
Qed.
Lemma load_disk C H f path fn H' r : is_group_arg f = false -> load C H f path fn = (H', r) -> h_disk H' = h_disk H.
Proof.
  intros Hf. unfold load. destruct (file_opener _ _ _ _ _) as [H1 [[[i p] c]|e]] eqn:Ho; apply file_opener_spec in Ho.
  2:{ subst. by intros [= <- <-]. }
  destruct Ho as [(-> & _ & _ & k & w & O & Hw)|(_ & _ & base & h & -> & _)]; [|done].
  assert (w = false) as -> by (by apply Hw).
  assert (h_disk H1 = h_disk H) as Ed. { destruct (op_disk _ _ _ _ _ O) as [(? & _ & ?)|([=] & _)]. done. }
  unfold content_of. rewrite (op_open _ _ _ _ _ O), lookup_insert. simpl.
  destruct (h_disk H1 !! k) as [[g|]|] eqn:Eg; [|by intros [= <- <-]..].
  destruct (load_try _ _ _ _ _ _ _ _) as [[g' r'] t] eqn:El. apply load_try_same in El. subst g'. intros [= <- <-].
  simpl. rewrite <-Ed. by apply insert_id.
Qed.
