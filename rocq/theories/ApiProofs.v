(** * ApiProofs: [dump] and [load] on an open file *)
From stdpp Require Import relations.
From Verif Require Import Base Utf8 Utf8Proofs Dec DecProofs Num NumProofs PyObj H5 Env Create Dump
  LoadFns LoadModel Registry DumpProofs DumpStored RegistryStd Spec PartSpec LoadBase LoadInv RoundTrip LoadFrame Api DumpClosed.
From Coq Require Import Lia ZifyBool ZifyN.
Local Open Scope N_scope.
Local Open Scope list_scope.
Lemma std_dump_eq : dump_loader_of std_world [None] = std_dump.
Proof. reflexivity. Qed.
Lemma std_loader_eq : loader_of std_world [None] false = std_loader.
Proof. reflexivity. Qed.
Local Opaque std_loader std_dump dump_loader_of loader_of.

(** ** Walking along paths *)
Definition keeps_links (f f' : file) : Prop :=
  forall a n, get_node f a = Some n -> exists n' ls, get_node f' a = Some n' /\ links n' = links n ++ ls.
Lemma keeps_links_refl f : keeps_links f f.
Proof. intros a n Hn. exists n, []. by rewrite app_nil_r. Qed.
Lemma keeps_links_trans f1 f2 f3 : keeps_links f1 f2 -> keeps_links f2 f3 -> keeps_links f1 f3.
Proof.
  intros H1 H2 a n Hn. destruct (H1 _ _ Hn) as (n' & l1 & Hn' & E1), (H2 _ _ Hn') as (n2 & l2 & Hn2 & E2).
  exists n2, (l1 ++ l2). by rewrite E2, E1, app_assoc.
Qed.
Lemma fsteps_keeps f f' : fsteps f f' -> wf_file f -> keeps_links f f'.
Proof.
  induction 1 as [f|f f1 f2 Hs _ IH]; intros Hw; [apply keeps_links_refl|].
  assert (wf_file f1 /\ keeps_links f f1) as [W1 K1].
  { destruct Hs as [f0 p nm b f1 a' Hc Hb|f0 a' n0 at_ Hn0].
    - split; [by eapply create_wf|].
      destruct (create_node_spec _ _ _ _ _ _ Hw Hc) as (pn & Hp & Hg & -> & Hnx & Hna & Hnp & Hne & Hoth).
      intros a n Hn. pose proof (Hw _ _ Hn). destruct (decide (a = p)) as [->|].
      + exists (extend pn [(nm, f_next f0)]), [(nm, f_next f0)]. rewrite Hp in Hn. inversion Hn; subst. by rewrite extend_links.
      + exists n, []. rewrite Hoth by lia. by rewrite app_nil_r.
    - unfold get_node, put_node in *. simpl. split.
      + intros c m. unfold get_node. simpl. rewrite lookup_insert_Some. intros [[<- _]|[_ Hm]]; by eapply Hw.
      + intros a n Hn. unfold get_node in *. simpl. destruct (decide (a' = a)) as [->|].
        * rewrite lookup_insert. eexists _, []. split; [done|]. rewrite Hn in Hn0. inversion Hn0; subst. by rewrite app_nil_r.
        * rewrite lookup_insert_ne by done. exists n, []. by rewrite app_nil_r. }
  eapply keeps_links_trans; eauto.
Qed.

Lemma fsteps_wf f f' : fsteps f f' -> wf_file f -> wf_file f' /\ f_next f <= f_next f'.
Proof.
  induction 1 as [f|f f1 f2 Hs _ IH]; intros Hw; [split; [done|lia]|].
  enough (wf_file f1 /\ f_next f <= f_next f1) as [W1 L1]. { destruct (IH W1). split; [done|lia]. }
  destruct Hs as [f0 p nm b f1 a' Hc Hb|f0 a' n0 at_ Hn0].
  - split; [by eapply create_wf|]. destruct (create_node_spec _ _ _ _ _ _ Hw Hc) as (pn & Hp & Hg & -> & Hnx & _). lia.
  - split; [|simpl; lia]. intros c m. unfold get_node, put_node. simpl. rewrite lookup_insert_Some. intros [[<- _]|[_ Hm]]; by eapply Hw.
Qed.
(** New links lead to new nodes. *)
Lemma fsteps_new_links f f' : fsteps f f' -> forall a n lo, wf_file f -> lo <= f_next f -> get_node f a = Some n ->
  exists n' ls, get_node f' a = Some n' /\ links n' = links n ++ ls /\ Forall (fun l => lo <= snd l) ls.
Proof.
  induction 1 as [f|f f1 f2 Hs Hss IH]; intros a n lo Hw Hlo Hn; [exists n, []; rewrite app_nil_r; split_and!; auto|].
  destruct (fsteps_wf f f1 (rtc_once _ _ Hs) Hw) as [W1 L1].
  assert (exists n' ls, get_node f1 a = Some n' /\ links n' = links n ++ ls /\ Forall (fun l => lo <= snd l) ls) as (n1 & l1 & A & B & C).
  { destruct Hs as [f0 p nm b f1 a' Hc Hb|f0 a' n0 at_ Hn0].
    - destruct (create_node_spec _ _ _ _ _ _ Hw Hc) as (pn & Hp & Hg & -> & Hnx & Hna & Hnp & Hne & Hoth).
      pose proof (Hw _ _ Hn). destruct (decide (a = p)) as [->|].
      + exists (extend pn [(nm, f_next f0)]), [(nm, f_next f0)]. rewrite Hp in Hn. inversion Hn; subst. rewrite extend_links by done.
        split_and!; auto.
      + exists n, []. rewrite Hoth by lia. rewrite app_nil_r. split_and!; auto.
    - unfold get_node, put_node in *. simpl. destruct (decide (a' = a)) as [->|].
      + rewrite lookup_insert. eexists _, []. split; [done|]. rewrite Hn in Hn0. inversion Hn0; subst. rewrite app_nil_r. split_and!; auto.
      + rewrite lookup_insert_ne by done. exists n, []. rewrite app_nil_r. split_and!; auto. }
  destruct (IH a n1 lo W1 ltac:(lia) A) as (n2 & l2 & D & E & F). exists n2, (l1 ++ l2). rewrite E, B, app_assoc. split_and!; auto.
  by apply Forall_app.
Qed.
(** Addresses are not reused. *)
Lemma fsteps_none f f' : fsteps f f' -> forall a, wf_file f -> a < f_next f -> get_node f a = None -> get_node f' a = None.
Proof.
  induction 1 as [g|g g1 g2 Hs _ IH]; intros a Hw Hl Hn; [done|].
  destruct (fsteps_wf g g1 (rtc_once _ _ Hs) Hw) as [W1 L1]. apply IH; [done|lia|].
  destruct Hs as [g p nm b g1 c Hc Hb|g c n0 at_ Hn0].
  - destruct (create_node_spec _ _ _ _ _ _ Hw Hc) as (pn & Hp & Hg & -> & Hnx & Hna & Hnp & Hne & Hoth).
    destruct (decide (a = p)) as [->|]; [congruence|]. rewrite Hoth by lia. done.
  - unfold get_node, put_node in *. simpl. rewrite lookup_insert_ne; [done|]. intros ->. congruence.
Qed.

Lemma alist_get_app {K V} `{EqDecision K} (k : K) (v : V) l1 l2 :
  alist_get k l1 = Some v -> alist_get k (l1 ++ l2) = Some v.
Proof. induction l1 as [|[k' v'] l1 IH]; simpl; [done|]. by destruct (decide (k = k')). Qed.
Lemma alist_get_app_none {K V} `{EqDecision K} (k : K) (l1 l2 : list (K * V)) :
  alist_get k l1 = None -> alist_get k (l1 ++ l2) = alist_get k l2.
Proof. induction l1 as [|[k' v'] l1 IH]; simpl; [done|]. by destruct (decide (k = k')). Qed.

Lemma child_keeps f f' a nm b : keeps_links f f' -> child f a nm = Some b -> child f' a nm = Some b.
Proof.
  unfold child. intros Hk. destruct (get_node f a) as [n|] eqn:Hn; [|done].
  destruct (Hk _ _ Hn) as (n' & ls & -> & ->). apply alist_get_app.
Qed.
Lemma walk_keeps f f' cs : forall a b, keeps_links f f' -> walk f a cs = Some b -> walk f' a cs = Some b.
Proof.
  induction cs as [|c cs IH]; intros a b Hk; simpl; [done|].
  destruct (child f a c) as [d|] eqn:Hc; [|done]. rewrite (child_keeps _ _ _ _ _ Hk Hc). by apply IH.
Qed.
Lemma walk_app f cs1 cs2 : forall a, walk f a (cs1 ++ cs2) = match walk f a cs1 with Some b => walk f b cs2 | None => None end.
Proof. induction cs1 as [|c cs1 IH]; intros a; simpl; [done|]. destruct (child f a c); [apply IH|done]. Qed.

(** ** Creating groups on the way *)

(** What happened to the nodes that were there before: nothing, but [a] may have gained
    links to new nodes. *)
Definition only_links (f f' : file) : Prop :=
  forall a n, get_node f a = Some n ->
    exists ls, get_node f' a = Some (extend n ls) /\ Forall (fun l => f_next f <= snd l) ls.

Lemma make_groups_spec f cs : forall a f' r,
  tree f -> is_Some (get_node f a) -> walk f a cs = None -> make_groups f a cs = (f', r) ->
  tree f' /\ fsteps f f' /\ f_next f <= f_next f' /\
  (exists p, (forall b n, get_node f b = Some n -> b <> p -> get_node f' b = Some n)
     /\ (forall n, get_node f p = Some n -> exists ls, get_node f' p = Some (extend n ls) /\ Forall (fun l => f_next f <= snd l) ls)
     /\ (exists cs1, walk f a cs1 = Some p /\ cs1 `prefix_of` cs)) /\
  (forall root, r = Ok root -> walk f' a cs = Some root /\ f_next f <= root /\
     exists nm, get_node f' root = Some (Node nm ∅ (BGroup []))).
Proof.
  revert f. induction cs as [|c cs IH]; intros f a f' r Ht [an Ha] Hw; [done|]. cbn [make_groups]. simpl in Hw.
  assert (forall e, (f, @Err addr e) = (f', r) ->
    tree f' /\ fsteps f f' /\ f_next f <= f_next f' /\
    (exists p, (forall b n, get_node f b = Some n -> b <> p -> get_node f' b = Some n)
       /\ (forall n, get_node f p = Some n -> exists ls, get_node f' p = Some (extend n ls) /\ Forall (fun l => f_next f <= snd l) ls)
       /\ (exists cs1, walk f a cs1 = Some p /\ cs1 `prefix_of` c :: cs)) /\
    (forall root, r = Ok root -> walk f' a (c :: cs) = Some root /\ f_next f <= root /\
       exists nm, get_node f' root = Some (Node nm ∅ (BGroup [])))) as Hsame.
  { intros e [= <- <-]. split_and!; auto; try apply Ht; try lia; try done. exists a. split_and!; auto.
    - intros n Hn. exists []. rewrite extend_nil. by split.
    - exists []. split; [done|]. apply prefix_nil. }
  destruct (child f a c) as [b|] eqn:Hc.
  - assert (is_Some (get_node f b)) as Hb.
    { unfold child in Hc. rewrite Ha in Hc. apply alist_get_in in Hc. by eapply (tr_link _ Ht). }
    destruct cs as [|c2 cs]; [by apply Hsame|]. intros Hm.
    destruct (IH f b f' r Ht Hb Hw Hm) as (T & S & N & (p & P1 & P2 & cs1 & P3 & P4) & R).
    split; [done|]. split; [done|]. split; [done|]. split.
    + exists p. split; [done|]. split; [done|]. exists (c :: cs1). simpl. rewrite Hc. split; [done|]. by apply prefix_cons.
    + intros root Hr. destruct (R root Hr) as (R1 & R2 & R3). split; [|done]. cbn [walk].
      rewrite (child_keeps f f' a c b); [done| |done]. apply fsteps_keeps; [done|apply Ht].
  - destruct (create_node f a c (BGroup [])) as [[f1 b]|e] eqn:Ecr.
    2: { destruct e; by apply Hsame. }
    apply fsteps_group in Ecr as S1.
    assert (wf_file f) as Hwf by apply Ht.
    pose proof (fsteps_tree _ _ S1 Ht) as T1.
    pose proof (create_node_fresh _ _ _ _ _ _ _ Ecr Ha) as Hfr.
    destruct (create_node_spec _ _ _ _ _ _ Hwf Ecr) as (pn & Hp & Hg & -> & Hnx & Hna & Hnp & Hne & Hoth).
    rewrite Ha in Hp. inversion Hp; subst pn. clear Hp.
    assert (child f1 a c = Some (f_next f)) as Hch.
    { unfold child. rewrite Hnp, extend_links by done. rewrite alist_get_app_none by done. simpl. by rewrite decide_True. }
    destruct cs as [|c2 cs].
    + intros [= <- <-]. split; [done|]. split; [done|]. split; [lia|]. split.
      * exists a. split; [|split].
        -- intros d n Hd Hda. pose proof (Hwf _ _ Hd). rewrite Hoth by lia. done.
        -- intros n Hn. rewrite Ha in Hn. inversion Hn; subst. eexists; split; [done|]. repeat constructor; simpl; lia.
        -- exists []. split; [done|apply prefix_nil].
      * intros root [= <-]. cbn [walk]. rewrite Hch. split; [done|]. split; [lia|by eexists].
    + intros Hm.
      assert (walk f1 (f_next f) (c2 :: cs) = None) as Hw1. { simpl. unfold child. rewrite Hna. done. }
      destruct (IH f1 (f_next f) f' r T1 ltac:(by eexists) Hw1 Hm) as (T & S & N & (p & P1 & P2 & cs1 & P3 & P4) & R).
      assert (p = f_next f) as ->.
      { destruct cs1 as [|c3 cs1]; [by inversion P3|]. simpl in P3. unfold child in P3. rewrite Hna in P3. done. }
      split; [done|]. split; [by etrans|]. split; [lia|]. split.
      * exists a. split; [|split].
        -- intros d n Hd Hda. pose proof (Hwf _ _ Hd). apply P1; [|lia]. rewrite Hoth by lia. done.
        -- intros n Hn. rewrite Ha in Hn. inversion Hn; subst. eexists; split; [apply P1; [done|lia]|].
           repeat constructor; simpl; lia.
        -- exists []. split; [done|apply prefix_nil].
      * intros root Hr. destruct (R root Hr) as (R1 & R2 & R3). split; [|split; [lia|done]].
        cbn [walk]. rewrite (child_keeps f1 f' a c (f_next f)); [done| |done]. apply fsteps_keeps; [done|apply T1].
Qed.

(** ** The group to dump to *)
Definition at_most_links (f f' : file) (p : addr) : Prop :=
  (forall b n, get_node f b = Some n -> b <> p -> get_node f' b = Some n) /\
  (forall n, get_node f p = Some n -> exists ls, get_node f' p = Some (extend n ls) /\ Forall (fun l => f_next f <= snd l) ls).

Lemma root_for_dump_spec f p f' r :
  tree f -> root_for_dump f p = (f', r) ->
  tree f' /\ fsteps f f' /\ f_next f <= f_next f' /\
  (exists q cs, at_most_links f f' q /\ walk f root_addr cs = Some q /\ cs `prefix_of` components p) /\
  (forall root, r = Ok root -> get_path f' p = Some root /\
     exists n, get_node f' root = Some n /\ is_group n = true /\ links n = [] /\
       (f' = f \/ (f_next f <= root /\ nd_attrs n = ∅))).
Proof.
  intros Ht. unfold root_for_dump. destruct (tr_root _ Ht) as (rn & Hr1 & Hr2).
  assert (forall r', (f, r') = (f', r) ->
    tree f' /\ fsteps f f' /\ f_next f <= f_next f' /\
    (exists q cs, at_most_links f f' q /\ walk f root_addr cs = Some q /\ cs `prefix_of` components p) /\ f' = f /\ r = r') as Hsame.
  { intros r' [= <- <-]. split; [done|]. split; [done|]. split; [lia|]. split; [|done]. exists root_addr, []. split; [|split; [done|apply prefix_nil]].
    split; [done|]. intros n Hn. exists []. by rewrite extend_nil. }
  destruct (get_path f p) as [a|] eqn:Hp.
  - destruct (get_node f a) as [n|] eqn:Hn.
    2: { intros H. destruct (Hsame _ H) as (? & ? & ? & ? & -> & ->). done. }
    destruct (nd_body n) as [[|l ls]|d] eqn:Hb; intros H; destruct (Hsame _ H) as (A1 & A2 & A3 & A4 & -> & ->);
      (split; [done|split; [done|split; [done|split; [done|]]]]); try done.
    intros root [= <-]. split; [done|]. exists n. unfold is_group, links. rewrite Hb. split_and!; auto.
  - intros Hc. unfold create_group in Hc.
    destruct (make_groups_spec f _ _ _ _ Ht ltac:(by eexists) Hp Hc) as (T & S & N & (q & P1 & P2 & cs & P3 & P4) & R).
    split; [done|]. split; [done|]. split; [done|]. split.
    + exists q, cs. done.
    + intros root Hr. destruct (R root Hr) as (R1 & R2 & nm & R3). split; [done|]. eexists. split; [exact R3|].
      split_and!; auto.
Qed.

(** ** Writing the attributes *)
Lemma update_node_fsteps f a g :
  (forall n, exists at_, g n = Node (nd_name n) at_ (nd_body n)) -> fsteps f (update_node f a g).
Proof.
  intros Hg. unfold update_node. destruct (get_node f a) as [n|] eqn:E; [|done].
  destruct (Hg n) as [at_ ->]. apply rtc_once. by eapply fs_attrs.
Qed.
Lemma update_node_get f a g n c :
  get_node f a = Some n -> get_node (update_node f a g) c = if decide (c = a) then Some (g n) else get_node f c.
Proof.
  intros Hn. unfold update_node. rewrite Hn. unfold get_node, put_node. simpl.
  case_decide; [subst; by rewrite lookup_insert|by rewrite lookup_insert_ne].
Qed.
Lemma update_node_next f a g : f_next (update_node f a g) = f_next f.
Proof. unfold update_node. by destruct (get_node f a). Qed.

(** The attributes of the root group after a dump. *)
Definition stamped (C : config) (a : attrs) : attrs :=
  <[a_pyversion := AStr (c_pyver C)]> (<[a_version := AStr hickle_version]> a).

Lemma with_options_spec C f root opts n f1 r :
  get_node f root = Some n -> with_options (stamp C f root) root opts = (f1, r) ->
  fsteps f f1 /\ f_next f1 = f_next f /\
  get_node f1 root = Some (Node (nd_name n) (fst (dump_options opts (stamped C (nd_attrs n)))) (nd_body n)) /\
  (forall a, a <> root -> get_node f1 a = get_node f a) /\ r = snd (dump_options opts (stamped C (nd_attrs n))).
Proof.
  intros Hn. unfold with_options.
  assert (forall c, get_node (stamp C f root) c =
    if decide (c = root) then Some (Node (nd_name n) (stamped C (nd_attrs n)) (nd_body n)) else get_node f c) as HS.
  { intros c. unfold stamp. rewrite (update_node_get _ _ _ _ _ Hn). done. }
  assert (node_attrs (stamp C f root) root = stamped C (nd_attrs n)) as ->.
  { unfold node_attrs. by rewrite HS, decide_True. }
  assert (fsteps f (stamp C f root)) as S0. { apply update_node_fsteps. intros m. by eexists. }
  destruct (dump_options opts (stamped C (nd_attrs n))) as [a r0]. intros [= <- <-]. simpl.
  split; [|split; [|split; [|split]]].
  - etrans; [exact S0|]. apply update_node_fsteps. intros m. by eexists.
  - rewrite update_node_next. unfold stamp. apply update_node_next.
  - rewrite (update_node_get _ _ _ (Node (nd_name n) (stamped C (nd_attrs n)) (nd_body n))), decide_True; [done..|].
    by rewrite HS, decide_True.
  - intros c Hc. rewrite (update_node_get _ _ _ (Node (nd_name n) (stamped C (nd_attrs n)) (nd_body n))), decide_False; [|done|by rewrite HS, decide_True].
    by rewrite HS, decide_False.
  - done.
Qed.

(** ** dump_into *)
Definition free_above (m : mem) : Prop := forall l, m_next m <= l -> m_heap m !! l = None.

Lemma start_wfs L m f tbl tn :
  wf_file f -> free_above m -> get_node f tbl = Some tn -> is_group tn = true ->
  wfs L tbl (Dst (m_heap m) (m_next m) f ∅ [] []).
Proof. intros Hw Hm Ht Hg. split; simpl; try done; by eexists. Qed.

Lemma start_closed lo m f :
  wf_file f -> (forall a n, lo <= a -> get_node f a = Some n -> nd_attrs n = ∅ /\ nd_body n = BGroup []) ->
  closed lo (Dst (m_heap m) (m_next m) f ∅ [] []).
Proof.
  intros Hw Hl. split; simpl; try done. intros a n Ha Hn. destruct (Hl a n Ha Hn) as [H1 H2]. split_and!.
  - unfold links. rewrite H2. intros nm c Hc. inversion Hc.
  - by rewrite H2.
  - rewrite H1. by intros k e.
Qed.

(** The frame of the whole dump into a group, whatever its outcome. *)
Lemma dump_into_frame C kw chain x root m f n f' m' r :
  tree f -> world_ok (c_world C) -> free_above m -> get_node f root = Some n ->
  dump_into C kw chain x root m f = (f', m', r) ->
  tree f' /\ fsteps f f' /\ f_next f <= f_next f' /\ free_above m' /\ m_heap m ⊆ m_heap m' /\
  (forall a, a <> root -> a < f_next f -> get_node f' a = get_node f a) /\
  (exists ls, get_node f' root = Some (extend n ls) /\ Forall (fun l => f_next f <= snd l) ls).
Proof.
  intros Ht HW Hm Hn. unfold dump_into. destruct (create_node f root n_table (BGroup [])) as [[f1 tbl]|e] eqn:Ec.
  2: { intros [= <- <- <-]. split; [done|]. split; [done|]. split; [lia|]. split; [done|]. split; [done|]. split; [done|]. exists []. by rewrite extend_nil. }
  assert (wf_file f) as Hwf by apply Ht.
  apply fsteps_group in Ec as S1. pose proof (fsteps_tree _ _ S1 Ht) as T1.
  destruct (create_node_spec _ _ _ _ _ _ Hwf Ec) as (pn & Hp & Hg & -> & Hnx & Hna & Hnp & Hne & Hoth).
  rewrite Hn in Hp. inversion Hp; subst pn. clear Hp.
  set (s := Dst (m_heap m) (m_next m) f1 ∅ [] []). set (tbl := f_next f) in *.
  destruct (dump_ (c_fuel C) (c_env C) (dump_loader_of (c_world C) chain) kw tbl x root n_data [] s) as [s' r'] eqn:Ed.
  pose proof (dump_fsteps (c_env C) (dump_loader_of (c_world C) chain) kw tbl (c_fuel C) x root n_data [] s) as S2.
  rewrite Ed in S2. simpl in S2. intros [= <- <- <-].
  pose proof (dump_loader_ok (c_env C) (c_world C) chain HW) as HL.
  assert (wfs (dump_loader_of (c_world C) chain) tbl s) as Hws.
  { eapply start_wfs; [apply T1|done|exact Hna|done]. }
  destruct (dump_frame _ _ _ _ HL _ _ _ _ _ _ _ _ Hws Hne at_none Ed) as (W & G & F).
  pose proof (Hwf _ _ Hn) as Hlt.
  split; [by eapply fsteps_tree|]. split; [by etrans|]. split; [pose proof (gr_fnext _ _ _ _ G); simpl in *; lia|].
  split; [exact (ws_heap _ _ _ W)|]. split; [exact (gr_heap _ _ _ _ G)|]. split.
  - intros a Har Hal. destruct (get_node f a) as [na|] eqn:Ha.
    + apply (gr_node _ _ _ _ G); [|congruence|lia]. unfold getn. simpl. rewrite Hoth by lia. done.
    + by eapply fsteps_none; [etrans; [exact S1|exact S2]|..].
  - destruct (F _ Hnp) as (ls & Hls & _). unfold getn in Hls. rewrite extend_app in Hls.
    exists ((n_table, tbl) :: ls). split; [exact Hls|].
    destruct (fsteps_new_links f (d_file s') (rtc_transitive _ _ _ S1 S2) root n (f_next f) Hwf ltac:(lia) Hn) as (n' & ls' & Hn' & El & Hf).
    rewrite Hls in Hn'. inversion Hn'; subst n'. rewrite extend_links in El by done. apply app_inv_head in El. by subst ls'.
Qed.

(** ** Frames of dump_root and dump_file *)
Lemma dump_root_frame C kw opts x root m f n f' m' r :
  tree f -> world_ok (c_world C) -> free_above m -> get_node f root = Some n ->
  dump_root C kw opts x root m f = (f', m', r) ->
  tree f' /\ fsteps f f' /\ f_next f <= f_next f' /\ free_above m' /\ m_heap m ⊆ m_heap m' /\
  (forall a, a <> root -> a < f_next f -> get_node f' a = get_node f a) /\
  (exists ls, get_node f' root = Some (extend (Node (nd_name n) (fst (dump_options opts (stamped C (nd_attrs n)))) (nd_body n)) ls) /\
     Forall (fun l => f_next f <= snd l) ls).
Proof.
  intros Ht HW Hm Hn. unfold dump_root.
  destruct (with_options (stamp C f root) root opts) as [f1 r1] eqn:Ew.
  destruct (with_options_spec _ _ _ _ _ _ _ Hn Ew) as (S1 & N1 & R1 & O1 & _).
  pose proof (fsteps_tree _ _ S1 Ht) as T1.
  destruct r1 as [chain|e].
  - intros Hd. destruct (dump_into_frame _ _ _ _ _ _ _ _ _ _ _ T1 HW Hm R1 Hd) as (T & S & N & M & H & A & ls & R & F).
    split; [done|]. split; [by etrans|]. split; [lia|]. split; [done|]. split; [done|]. split.
    + intros a Ha Hal. rewrite A by (done || lia). by apply O1.
    + exists ls. split; [done|]. rewrite N1 in F. done.
  - intros [= <- <- <-]. split; [done|]. split; [done|]. split; [lia|]. split; [done|]. split; [done|]. split; [auto|].
    exists []. rewrite extend_nil. done.
Qed.

(** ** A finished dump *)
Lemma check_entries_ok f l : Forall (fun p => check_entry f (snd p) = Ok tt) l -> check_entries f l = Ok tt.
Proof. induction 1 as [|[nm e] l He _ IH]; simpl; [done|]. simpl in He. rewrite He. done. Qed.

Definition finished (E : env) (kw : kwargs) (x : loc) (m : mem) (lo : addr) (f' : file) (c tbl : addr) : Prop :=
  inside lo f' c /\ inside lo f' tbl /\ sealed (inside lo f') f' /\
  (exists tn, get_node f' tbl = Some tn /\ is_group tn = true /\ check_entries f' (links tn) = Ok tt) /\
  exists N, forall fuel m2, (N <= fuel)%nat -> mem_ok m2 ->
    exists st v, load_ fuel E std_loader f' c (Lst m2 ∅) = Ok (st, v) /\ m_heap m2 ⊆ m_heap (l_mem st) /\
      restored E (m_heap m) x (m_heap (l_mem st)) v.

Lemma dump_into_ok C kw x root m f n f' m' :
  tree f -> env_ok (c_env C) -> c_world C = std_world -> free_above m -> graph_part (c_env C) (m_heap m) x ->
  get_node f root = Some n -> is_group n = true ->
  dump_into C kw [None] x root m f = (f', m', Ok tt) ->
  exists c tbl, get_node f' root = Some (extend n [(n_table, tbl); (n_data, c)]) /\
    finished (c_env C) kw x m (f_next f) f' c tbl.
Proof.
  intros Ht HE HW Hm Hx Hn Hgn Hd. pose proof Hd as Hd0. unfold dump_into in Hd.
  destruct (create_node f root n_table (BGroup [])) as [[f1 tbl]|e] eqn:Ec; [|done].
  rewrite HW, std_dump_eq in Hd.
  assert (wf_file f) as Hwf by apply Ht.
  apply fsteps_group in Ec as S1. pose proof (fsteps_tree _ _ S1 Ht) as T1.
  destruct (create_node_spec _ _ _ _ _ _ Hwf Ec) as (pn & Hp & Hg & -> & Hnx & Hna & Hnp & Hne & Hoth).
  rewrite Hn in Hp. inversion Hp; subst pn. clear Hp.
  set (s := Dst (m_heap m) (m_next m) f1 ∅ [] []) in *. set (tbl := f_next f) in *.
  destruct (dump_ (c_fuel C) (c_env C) std_dump kw tbl x root n_data [] s) as [s' r'] eqn:Ed.
  inversion Hd; subst f' m' r'. clear Hd.
  assert (wfs std_dump tbl s) as Hws. { eapply start_wfs; [apply T1|done|exact Hna|done]. }
  assert (tbl < f_next f1) as Htl by lia.
  assert (root < f_next f1) as Hrl. { pose proof (Hwf _ _ Hn). lia. }
  pose proof (dump_fsteps (c_env C) std_dump kw tbl (c_fuel C) x root n_data [] s) as S2. rewrite Ed in S2. simpl in S2.
  pose proof (fsteps_tree _ _ S2 T1) as T2.
  destruct (dump_load_part (c_env C) kw tbl (c_fuel C) x root n_data s s' HE Hws eq_refl Hne Htl Hrl Hx T2 Ed)
    as (c & pn & P1 & P2 & P3 & N & HL).
  unfold getn in P1, P2. simpl in P2. rewrite Hnp in P2. inversion P2; subst pn. clear P2.
  exists c, tbl. split; [by rewrite P1, extend_app|].
  assert (closed tbl s) as Hcl.
  { apply start_closed; [apply T1|]. intros a na Ha Hna'. destruct (decide (a = tbl)) as [->|].
    - rewrite Hna in Hna'. inversion Hna'; subst. done.
    - exfalso. destruct (decide (a = root)) as [->|]; [pose proof (Hwf _ _ Hn); lia|]. rewrite Hoth in Hna' by done.
      pose proof (Hwf _ _ Hna'). lia. }
  assert (tbl <= f_next (d_file s)) as Htn by (simpl; lia).
  destruct (dump_closed (c_env C) std_dump kw tbl tbl (c_fuel C) x root n_data [] s Htn Hcl at_none) as [Hcl' Hnx'].
  rewrite Ed in Hcl', Hnx'. simpl in Hcl', Hnx'.
  assert (tstate tbl s) as Hts.
  { split; [|done]. simpl. split; [apply T1|]. split; [by eexists|]. unfold tlinks. rewrite Hna. intros nm e He. inversion He. }
  assert (unlisted tbl root (d_file s)) as Hul.
  { split; [done|]. simpl. unfold tlinks. rewrite Hna. intros nm He. inversion He. }
  destruct (dump_table (c_env C) std_dump kw tbl (c_fuel C) x root n_data [] s s' Hts Hul Ed) as [[Ht' _] _].
  pose proof (closed_sealed _ _ Hcl') as Hse.
  split; [|split; [|split; [done|split]]].
  - assert ((n_data, c) ∈ links (extend (extend n [(n_table, tbl)]) [(n_data, c)])) as Hin.
    { rewrite extend_links by done. apply elem_of_app. right. by left. }
    destruct (fsteps_new_links _ _ S2 root _ (f_next f1) ltac:(apply T1) ltac:(lia) Hnp) as (n' & ls' & Hn' & El & Hf).
    rewrite P1 in Hn'. inversion Hn'; subst n'. rewrite extend_links in El by done. apply app_inv_head in El. subst ls'.
    inversion Hf as [|? ? Hge _]; subst. simpl in Hge.
    destruct (tr_link _ T2 _ _ _ _ P1 Hin) as [[cn Hcn] _]. pose proof (tr_wf _ T2 _ _ Hcn). unfold inside. lia.
  - unfold inside. lia.
  - destruct Ht' as (_ & [tn Htn'] & Hall). exists tn. split; [done|].
    destruct (fsteps_some _ _ S2 tbl _ Hna ltac:(apply T1)) as (tn' & E1 & _ & E2). rewrite Htn' in E1. inversion E1; subst tn'.
    split; [done|]. apply check_entries_ok. rewrite list.Forall_forall. intros [nm e] He. simpl.
    apply entry_good_check. destruct (Hall nm e) as [_ [?|?]]; [|done|done]. unfold tlinks. by rewrite Htn'.
  - exists N. intros fuel m2 Hfu Hm2. destruct (HL fuel m2 Hfu Hm2) as (st & v & L1 & L2 & L3). exists st, v. done.
Qed.

(** ** Walks in a tree *)
Lemma child_link f a nm b : child f a nm = Some b -> exists n, get_node f a = Some n /\ (nm, b) ∈ links n.
Proof. unfold child. destruct (get_node f a) as [n|]; [|done]. intros H. exists n. split; [done|]. by apply alist_get_in. Qed.
Lemma walk_snoc f cs c : forall a b, walk f a (cs ++ [c]) = Some b -> exists d, walk f a cs = Some d /\ child f d c = Some b.
Proof.
  intros a b. rewrite walk_app. destruct (walk f a cs) as [d|]; [|done]. simpl. destruct (child f d c) eqn:E; [|done].
  intros [= <-]. by exists d.
Qed.
Lemma walk_ge f cs : tree f -> forall a b, walk f a cs = Some b -> a <= b.
Proof.
  intros Ht. induction cs as [|c cs IH]; simpl; intros a b; [intros [= ->]; lia|].
  destruct (child f a c) as [d|] eqn:E; [|done]. intros Hw. apply IH in Hw.
  destruct (child_link _ _ _ _ E) as (n & Hn & Hin). destruct (tr_link _ Ht _ _ _ _ Hn Hin). lia.
Qed.
Lemma walk_some f cs a b : tree f -> is_Some (get_node f a) -> walk f a cs = Some b -> is_Some (get_node f b).
Proof.
  intros Ht. revert a. induction cs as [|c cs IH]; simpl; intros a Ha; [by intros [= <-]|].
  destruct (child f a c) as [d|] eqn:E; [|done]. apply IH.
  destruct (child_link _ _ _ _ E) as (n & Hn & Hin). by destruct (tr_link _ Ht _ _ _ _ Hn Hin).
Qed.
Lemma walk_inj f : tree f -> forall cs cs' b, walk f root_addr cs = Some b -> walk f root_addr cs' = Some b -> cs = cs'.
Proof.
  intros Ht. induction cs as [|c cs IH] using rev_ind; intros cs' b Hw Hw'.
  - simpl in Hw. inversion Hw; subst b. destruct cs' as [|c' cs' _] using rev_ind; [done|].
    apply walk_snoc in Hw' as (d & Hd & Hc). destruct (child_link _ _ _ _ Hc) as (n & Hn & Hin).
    destruct (tr_link _ Ht _ _ _ _ Hn Hin). apply (walk_ge _ _ Ht) in Hd. lia.
  - apply walk_snoc in Hw as (d & Hd & Hc). destruct (child_link _ _ _ _ Hc) as (n & Hn & Hin).
    destruct cs' as [|c' cs' _] using rev_ind.
    + simpl in Hw'. inversion Hw'; subst b. destruct (tr_link _ Ht _ _ _ _ Hn Hin). apply (walk_ge _ _ Ht) in Hd. lia.
    + apply walk_snoc in Hw' as (d' & Hd' & Hc'). destruct (child_link _ _ _ _ Hc') as (n' & Hn' & Hin').
      destruct (tr_one _ Ht _ _ _ _ _ _ _ Hn Hn' Hin Hin') as [-> ->]. f_equal. eauto.
Qed.

(** ** The frame of a dump, whatever its outcome *)
Definition one_changed (p : pystr) (f f' : file) : Prop :=
  exists q cs, walk f root_addr cs = Some q /\ cs `prefix_of` components p /\
    (forall a, a <> q -> a < f_next f -> get_node f' a = get_node f a) /\
    (forall n, get_node f q = Some n -> exists at_ ls,
       get_node f' q = Some (extend (Node (nd_name n) at_ (nd_body n)) ls) /\
       Forall (fun l => f_next f <= snd l) ls /\
       (at_ = nd_attrs n \/ (get_path f p = Some q /\ nd_body n = BGroup []))).
Lemma dump_file_frame C kw opts x p m f f' m' r :
  tree f -> world_ok (c_world C) -> free_above m -> dump_file C kw opts x p m f = (f', m', r) ->
  tree f' /\ fsteps f f' /\ f_next f <= f_next f' /\ free_above m' /\ m_heap m ⊆ m_heap m' /\ one_changed p f f'.
Proof.
  intros Ht HW Hm. unfold dump_file. destruct (root_for_dump f p) as [f1 r1] eqn:Er.
  destruct (root_for_dump_spec _ _ _ _ Ht Er) as (T1 & S1 & N1 & (q & cs & [Q1 Q2] & Q3 & Q4) & HR).
  assert (forall a, a <> q -> a < f_next f -> get_node f1 a = get_node f a) as Hsame.
  { intros a Ha Hal. destruct (get_node f a) as [n|] eqn:E; [by eapply Q1|]. by eapply fsteps_none; [exact S1|apply Ht|..]. }
  destruct r1 as [root|e].
  2: { intros [= <- <- <-]. split; [done|]. split; [done|]. split; [done|]. split; [done|]. split; [done|].
       exists q, cs. split; [done|]. split; [done|]. split; [done|]. intros n Hn. destruct (Q2 n Hn) as (ls & L1 & L2).
       exists (nd_attrs n), ls. split; [by destruct n|]. auto. }
  intros Hd. destruct (HR root eq_refl) as (P1 & n0 & P2 & P3 & P4 & P5).
  destruct (dump_root_frame _ _ _ _ _ _ _ _ _ _ _ T1 HW Hm P2 Hd) as (T & S & N & M & H & A & ls & R & F).
  split; [done|]. split; [by etrans|]. split; [lia|]. split; [done|]. split; [done|].
  destruct P5 as [-> |[P5 P6]].
  - exists root, (components p). split; [exact P1|]. split; [done|]. split; [exact A|].
    intros n Hn. rewrite P2 in Hn. inversion Hn; subst n0. eexists _, ls. split; [exact R|]. split; [done|]. right.
    split; [done|]. unfold links, is_group in *. destruct (nd_body n); [by subst|done].
  - exists q, cs. split; [done|]. split; [done|].
    assert (q < f_next f) as Hq.
    { destruct (tr_root _ Ht) as (rn & Hrn & _). destruct (walk_some f cs root_addr q Ht ltac:(by eexists) Q3) as [qn Hqn].
      by eapply (tr_wf _ Ht). }
    split.
    + intros a Ha Hal. rewrite A by lia. by apply Hsame.
    + intros n Hn. destruct (Q2 n Hn) as (ls1 & L1 & L2). exists (nd_attrs n), ls1. rewrite A by lia.
      split; [by destruct n|]. auto.
Qed.

(** ** A dumped object inside a file that changes *)
Definition into (p p2 : pystr) : Prop :=
  components p ++ [n_table] `prefix_of` components p2 \/ components p ++ [n_data] `prefix_of` components p2.

Definition between (lo hi a : addr) : Prop := lo <= a /\ a < hi.

Record kept (f : file) (p : pystr) (lo hi root tbl c : addr) (n : node) : Prop := {
  kp_path : get_path f p = Some root;
  kp_node : get_node f root = Some n;
  kp_group : is_group n = true;
  kp_table : alist_get n_table (links n) = Some tbl;
  kp_data : alist_get n_data (links n) = Some c;
  kp_root : root < lo;
  kp_tbl : between lo hi tbl;
  kp_c : between lo hi c;
  kp_hi : hi <= f_next f;
  kp_sealed : sealed (between lo hi) f;
  kp_enter : forall a na nm b, get_node f a = Some na -> (nm, b) ∈ links na -> between lo hi b ->
               between lo hi a \/ (a = root /\ (nm = n_table \/ nm = n_data));
}.

Lemma kept_walk f p lo hi root tbl c n : tree f -> kept f p lo hi root tbl c n ->
  forall cs b, walk f root_addr cs = Some b -> between lo hi b ->
    components p ++ [n_table] `prefix_of` cs \/ components p ++ [n_data] `prefix_of` cs.
Proof.
  intros Ht K. induction cs as [|k cs IH] using rev_ind; intros b Hw Hb.
  - simpl in Hw. inversion Hw; subst b. pose proof (walk_ge _ _ Ht _ _ (kp_path _ _ _ _ _ _ _ _ K)) as H1.
    pose proof (kp_root _ _ _ _ _ _ _ _ K). unfold between, root_addr in *. lia.
  - apply walk_snoc in Hw as (d & Hd & Hc). destruct (child_link _ _ _ _ Hc) as (dn & Hdn & Hin).
    destruct (kp_enter _ _ _ _ _ _ _ _ K _ _ _ _ Hdn Hin Hb) as [Hr|[-> Hk]].
    + destruct (IH _ Hd Hr) as [Hp|Hp]; [left|right]; by apply prefix_app_r.
    + pose proof (walk_inj _ Ht _ _ _ Hd (kp_path _ _ _ _ _ _ _ _ K)) as ->. destruct Hk as [-> | ->]; [by left|by right].
Qed.

Lemma links_extend n ls nm b : (nm, b) ∈ links (extend n ls) -> (nm, b) ∈ links n \/ (nm, b) ∈ ls.
Proof.
  destruct (is_group n) eqn:E; [rewrite extend_links by done; by rewrite elem_of_app|].
  unfold extend, is_group in *. destruct n as [? ? [|]]; simpl in *; [done|]. auto.
Qed.

(** A further dump that does not go into the dumped object leaves it alone. *)
Lemma kept_frame p2 f f' p lo hi root tbl c n :
  tree f -> kept f p lo hi root tbl c n -> ~ into p p2 ->
  tree f' -> fsteps f f' -> f_next f <= f_next f' -> one_changed p2 f f' ->
  agree (between lo hi) f f' /\ node_attrs f' root_addr = node_attrs f root_addr /\
  exists n', kept f' p lo hi root tbl c n' /\ nd_attrs n' = nd_attrs n.
Proof.
  intros Ht K Hni T S N (q & cs & Q1 & Q2 & Q3 & Q4).
  assert (~ between lo hi q) as Hq.
  { intros Hb. apply Hni. destruct (kept_walk _ _ _ _ _ _ _ _ Ht K _ _ Q1 Hb) as [H|H]; [left|right]; by etrans. }
  pose proof (kp_hi _ _ _ _ _ _ _ _ K) as Hhi.
  assert (agree (between lo hi) f f') as Ha.
  { intros a Hr. apply Q3; [by intros -> |]. unfold between in Hr. lia. }
  assert (keeps_links f f') as Hk by (apply fsteps_keeps; [done|apply Ht]).
  assert (is_Some (get_node f q)) as [qn Hqn].
  { destruct (tr_root _ Ht) as (rn & Hrn & _). by eapply (walk_some f cs root_addr q Ht). }
  destruct (Q4 qn Hqn) as (qa & ls & L1 & L2 & L3).
  destruct K as [K1 K2 K3 K4 K5 K6 K7 K8 K9 K10 K11].
  assert (exists n', get_node f' root = Some n' /\ nd_attrs n' = nd_attrs n /\ is_group n' = true) as (n' & R1 & R2 & R3).
  { destruct (decide (root = q)) as [<-|Hne].
    - rewrite K2 in Hqn. inversion Hqn; subst qn. eexists. split; [exact L1|].
      assert (qa = nd_attrs n) as ->.
      { destruct L3 as [->|[_ Hb]]; [done|]. unfold links in K4. rewrite Hb in K4. done. }
      rewrite extend_group. done.
    - exists n. rewrite Q3; [done|done|]. by eapply (tr_wf _ Ht). }
  assert (node_attrs f' root_addr = node_attrs f root_addr) as Hra.
  { unfold node_attrs. destruct (tr_root _ Ht) as (rn & Hrn & _). rewrite Hrn. destruct (decide (root_addr = q)) as [<-|Hne].
    - rewrite Hrn in Hqn. inversion Hqn; subst qn. rewrite L1.
      simpl. destruct L3 as [->|[_ Hb]]; [done|]. exfalso.
      unfold get_path in K1. destruct (components p) as [|k ks]; simpl in K1.
      + inversion K1; subst root. rewrite K2 in Hrn. inversion Hrn; subst rn. unfold links in K4. by rewrite Hb in K4.
      + unfold child in K1. rewrite Hrn in K1. unfold links in K1. by rewrite Hb in K1.
    - rewrite Q3; [by rewrite Hrn|done|]. by eapply (tr_wf _ Ht). }
  split; [done|]. split; [done|].
  exists n'. split; [|done].
  assert (forall nm b, alist_get nm (links n) = Some b -> alist_get nm (links n') = Some b) as Hal.
  { intros nm b Hb. destruct (Hk _ _ K2) as (n2 & l2 & E1 & E2). rewrite R1 in E1. inversion E1; subst n2. rewrite E2.
    by apply alist_get_app. }
  split; auto.
  - by eapply walk_keeps.
  - lia.
  - intros a na Hr Hna. rewrite (Ha _ Hr) in Hna. exact (K10 a na Hr Hna).
  - intros a na nm b Hna Hin Hb. destruct (decide (f_next f <= a)) as [Hge|Hlt].
    { (* a new group has no links to old nodes *)
      exfalso. unfold between in Hb. destruct (tr_link _ T _ _ _ _ Hna Hin). lia. }
    destruct (decide (a = q)) as [->|Hne].
    + rewrite L1 in Hna. inversion Hna; subst na. apply links_extend in Hin as [Hin|Hin].
      * eapply K11; [exact Hqn|exact Hin|done].
      * rewrite list.Forall_forall in L2. apply L2 in Hin. simpl in Hin. unfold between in Hb. lia.
    + rewrite Q3 in Hna by (done || lia). eapply K11; eauto.
Qed.

(** ** Loading what was dumped *)

(** No attribute switches an option on. *)
Definition no_options (a : attrs) : Prop :=
  forall nm v, a !! nm = Some v -> attr_true v = true -> option_of_attr nm = None.
Definition not_v3 (f : file) : Prop := forallb (attr_set (node_attrs f root_addr)) v3_attrs = false.
Definition target_attrs (f : file) (p : pystr) : attrs :=
  match get_path f p with Some a => node_attrs f a | None => ∅ end.

Lemma options_off opts a : Forall (fun o => snd o = false) opts -> dump_options opts a = (a, Ok [None]).
Proof.
  intros H. unfold dump_options. generalize [@None pystr].
  induction H as [|[o on] l E _ IH]; intros ch; simpl; [done|]. simpl in E. subst on. apply IH.
Qed.
Lemma omap_none {A B} (g : A -> option B) l : Forall (fun y => g y = None) l -> omap g l = [].
Proof. induction 1 as [|y l E _ IH]; [done|]. simpl. by rewrite E. Qed.
Lemma no_options_load a : no_options a -> load_options false (attr_items a) = Ok [None].
Proof.
  intros Ha. unfold load_options. rewrite omap_none; [done|]. rewrite list.Forall_forall. intros [nm v] Hin.
  unfold attr_items in Hin. apply elem_of_map_to_list in Hin. destruct (attr_true v) eqn:E; [|done]. by eapply Ha.
Qed.
Lemma no_options_stamped C a : no_options a -> no_options (stamped C a).
Proof.
  intros Ha nm v. unfold stamped. rewrite !lookup_insert_Some.
  intros [[<- _]|[_ [[<- _]|[_ H]]]]; [done|done|]. by apply Ha.
Qed.
Lemma stamped_other C a k : k <> a_version -> k <> a_pyversion -> stamped C a !! k = a !! k.
Proof. intros H1 H2. unfold stamped. by rewrite !lookup_insert_ne. Qed.
Lemma stamped_v3 C a : forallb (attr_set (stamped C a)) v3_attrs = forallb (attr_set a) v3_attrs.
Proof. unfold v3_attrs. cbn [map forallb]. unfold attr_set. by rewrite !stamped_other by done. Qed.
Lemma detect_stamped C fa a : forallb (attr_set fa) v3_attrs = false -> c_pyver C <> [] -> detect fa (stamped C a) = Ok V5.
Proof.
  intros Hfa Hp. unfold detect. rewrite Hfa.
  assert (forallb (attr_set (stamped C a)) v4_attrs = true) as ->.
  { unfold v4_attrs. cbn [forallb]. unfold attr_set, stamped. rewrite lookup_insert.
    rewrite lookup_insert_ne by done. rewrite lookup_insert. simpl. destruct (c_pyver C); done. }
  unfold stamped. rewrite lookup_insert_ne by done. rewrite lookup_insert. reflexivity.
Qed.

Record loadable (E : env) (f : file) (p : pystr) (lo hi root tbl c : addr) (n : node) (h : heap) (x : loc) : Prop := {
  lb_kept : kept f p lo hi root tbl c n;
  lb_detect : detect (node_attrs f root_addr) (nd_attrs n) = Ok V5;
  lb_options : load_options false (attr_items (nd_attrs n)) = Ok [None];
  lb_table : exists tn, get_node f tbl = Some tn /\ is_group tn = true /\ check_entries f (links tn) = Ok tt;
  lb_loads : exists N, forall fuel m2, (N <= fuel)%nat -> mem_ok m2 ->
    exists st v, load_ fuel E std_loader f c (Lst m2 ∅) = Ok (st, v) /\ m_heap m2 ⊆ m_heap (l_mem st) /\
      restored E h x (m_heap (l_mem st)) v }.

Lemma dump_file_loadable C kw opts x p m f f' m' :
  tree f -> env_ok (c_env C) -> c_world C = std_world -> c_pyver C <> [] -> free_above m ->
  graph_part (c_env C) (m_heap m) x -> not_v3 f -> no_options (target_attrs f p) ->
  Forall (fun o => snd o = false) opts ->
  dump_file C kw opts x p m f = (f', m', Ok tt) ->
  exists lo hi root tbl c n, loadable (c_env C) f' p lo hi root tbl c n (m_heap m) x.
Proof.
  intros Ht HE HW Hpy Hm Hx Hv3 Hno Hop Hd. pose proof Hd as Hd0. unfold dump_file in Hd.
  destruct (root_for_dump f p) as [f1 [root|e]] eqn:Er; [|done].
  destruct (root_for_dump_spec _ _ _ _ Ht Er) as (T1 & S1 & N1 & (q & cs & [Q1 Q2] & Q3 & Q4) & HR).
  destruct (HR root eq_refl) as (P1 & n0 & P2 & P3 & P4 & P5). clear HR.
  unfold dump_root in Hd. destruct (with_options (stamp C f1 root) root opts) as [f2 r2] eqn:Ew.
  destruct (with_options_spec _ _ _ _ _ _ _ P2 Ew) as (S2 & N2 & R2 & O2 & Hr2).
  rewrite options_off in R2, Hr2 by done. simpl in R2, Hr2. subst r2.
  pose proof (fsteps_tree _ _ S2 T1) as T2.
  destruct (dump_into_ok C kw x root m f2 _ f' m' T2 HE HW Hm Hx R2 P3 Hd) as (c & tbl & Hroot & Hfin).
  assert (world_ok (c_world C)) as Hwo by (rewrite HW; apply std_world_ok).
  destruct (dump_into_frame _ _ _ _ _ _ _ _ _ _ _ T2 Hwo Hm R2 Hd) as (T & S & N & _ & _ & A & _).
  destruct Hfin as (F1 & F2 & F3 & F4 & F5).
  assert (links n0 = []) as Hl0 by done.
  assert (root < f_next f2) as Hrl by (by eapply (tr_wf _ T2)).
  set (lo := f_next f2) in *. set (hi := f_next f') in *.
  exists lo, hi, root, tbl, c, (extend (Node (nd_name n0) (stamped C (nd_attrs n0)) (nd_body n0)) [(n_table, tbl); (n_data, c)]).
  assert (forall a, between lo hi a <-> inside lo f' a) as Hbi by done.
  assert (nd_body n0 = BGroup []) as Hb0. { unfold links, is_group in *. destruct (nd_body n0); [by subst|done]. }
  (* no path through the file root changes its attributes *)
  assert (forallb (attr_set (node_attrs f' root_addr)) v3_attrs = false) as Hv3'.
  { assert (forall g g' nn nn' ls, get_node g root_addr = Some nn -> get_node g' root_addr = Some nn' ->
      nn' = extend nn ls -> node_attrs g' root_addr = node_attrs g root_addr) as Hat.
    { intros g g' nn nn' ls E1 E2 ->. unfold node_attrs. by rewrite E1, E2. }
    destruct (tr_root _ Ht) as (rn & Hrn & _).
    assert (node_attrs f1 root_addr = node_attrs f root_addr) as Ha1.
    { destruct (decide (root_addr = q)) as [<-|Hne].
      - destruct (Q2 _ Hrn) as (ls & L1 & _). by eapply Hat.
      - unfold node_attrs. by rewrite (Q1 _ _ Hrn Hne), Hrn. }
    unfold not_v3 in Hv3. rewrite <-Ha1 in Hv3. clear Ha1.
    destruct (decide (root_addr = root)) as [<-|Hne].
    - unfold node_attrs. rewrite Hroot. cbn [nd_attrs extend]. rewrite stamped_v3. unfold node_attrs in Hv3. by rewrite P2 in Hv3.
    - assert (root_addr < f_next f2) as Hr0.
      { destruct (tr_root _ T2) as (r2 & Hr2 & _). by eapply (tr_wf _ T2). }
      unfold node_attrs. rewrite A by done. rewrite O2 by done. exact Hv3. }
  split.
  - split; try done.
    + apply (walk_keeps f1); [|exact P1]. apply fsteps_keeps; [by etrans|apply T1].
    + rewrite extend_group. exact P3.
    + rewrite extend_links by exact P3. unfold links at 1. simpl. by rewrite Hb0.
    + rewrite extend_links by exact P3. unfold links at 1. simpl. by rewrite Hb0.
    + intros a na nm b Hna Hin Hb. destruct (decide (lo <= a)) as [Hge|Hlt].
      { left. split; [done|]. by eapply (tr_wf _ T). }
      right. destruct (decide (a = root)) as [->|Hne].
      * split; [done|]. rewrite Hroot in Hna. inversion Hna; subst na. apply links_extend in Hin as [Hin|Hin].
        { unfold links in Hin. simpl in Hin. rewrite Hb0 in Hin. inversion Hin. }
        rewrite !elem_of_cons in Hin. destruct Hin as [[= -> _]|[[= -> _]|Hin]]; [by left|by right|inversion Hin].
      * exfalso. rewrite A in Hna by (done || lia). destruct (tr_link _ T2 _ _ _ _ Hna Hin) as [[bn Hbn] _].
        apply (tr_wf _ T2) in Hbn. unfold between in Hb. lia.
  - simpl. by apply detect_stamped.
  - simpl. apply no_options_load. apply no_options_stamped.
    destruct P5 as [-> |[_ ->]]; [|by intros ? ? ?].
    unfold target_attrs in Hno. rewrite P1 in Hno. unfold node_attrs in Hno. by rewrite P2 in Hno.
  - done.
  - done.
Qed.

(** What a later load gives. *)
Lemma loadable_load E f p lo hi root tbl c n h x :
  loadable E f p lo hi root tbl c n h x ->
  exists N, forall C writable m2, c_env C = E -> c_world C = std_world -> (N <= c_fuel C)%nat -> mem_ok m2 ->
    exists m3 v, load_file C writable f p m2 = (f, Ok (m3, v), false) /\ m_heap m2 ⊆ m_heap m3 /\
      restored E h x (m_heap m3) v.
Proof.
  intros [K D O (tn & T1 & T2 & T3) (N & HL)]. exists N. intros C w m2 HE HW HN Hm.
  destruct (HL (c_fuel C) m2 HN Hm) as (st & v & L1 & L2 & L3). exists (l_mem st), v. split; [|done].
  unfold load_file. rewrite (kp_path _ _ _ _ _ _ _ _ K), (kp_node _ _ _ _ _ _ _ _ K), (kp_group _ _ _ _ _ _ _ _ K), D.
  unfold load_root. unfold node_attrs at 2. rewrite (kp_node _ _ _ _ _ _ _ _ K), D.
  unfold options_of, node_attrs. rewrite (kp_node _ _ _ _ _ _ _ _ K), O.
  unfold load_table, child. rewrite (kp_node _ _ _ _ _ _ _ _ K), (kp_table _ _ _ _ _ _ _ _ K), T1.
  unfold is_group, links in T2, T3. destruct (nd_body tn) as [l|]; [|done]. rewrite T3.
  assert ((if w then res_map (fun _ => false) (Ok tt) else Ok false) = Ok false) as -> by (by destruct w).
  unfold load_data, child. rewrite (kp_node _ _ _ _ _ _ _ _ K), (kp_data _ _ _ _ _ _ _ _ K).
  rewrite HW, HE, std_loader_eq, L1. done.
Qed.

Lemma check_entry_agree R f f' e : sealed R f -> agree R f f' -> R e -> check_entry f' e = check_entry f e.
Proof.
  intros Hs Ha He. unfold check_entry. rewrite (Ha _ He). destruct (get_node f e) as [n|] eqn:Hn; [|done].
  destruct (Hs _ _ He Hn) as (_ & _ & Hr). destruct (nd_body n) as [l|d]; [done|].
  destruct d; try done; destruct (nd_attrs n !! a_base_type) as [[]|] eqn:Eb; try done; by rewrite (Ha _ (Hr _ _ Eb)).
Qed.

(** A loadable object stays loadable when more is dumped, wherever that goes except into
    the object itself. *)
Lemma loadable_frame E p2 f f' p lo hi root tbl c n h x :
  (forall a l, Permutation (e_order E a l) l) ->
  tree f -> ~ into p p2 -> tree f' -> fsteps f f' -> f_next f <= f_next f' -> one_changed p2 f f' ->
  loadable E f p lo hi root tbl c n h x -> exists n', loadable E f' p lo hi root tbl c n' h x.
Proof.
  intros HO Ht Hni HT HS HN Hone [K D O (tn & T1 & T2 & T3) (N & HL)].
  destruct (kept_frame _ _ _ _ _ _ _ _ _ _ Ht K Hni HT HS HN Hone) as (Ha & Hra & n' & K' & Hn').
  exists n'. split; [done| | | |].
  - by rewrite Hra, Hn'.
  - by rewrite Hn'.
  - exists tn. rewrite (Ha _ (kp_tbl _ _ _ _ _ _ _ _ K)). split; [done|]. split; [done|]. rewrite <-T3.
    destruct (kp_sealed _ _ _ _ _ _ _ _ K _ _ (kp_tbl _ _ _ _ _ _ _ _ K) T1) as (Hl & _ & _).
    assert (forall l, (forall nm e, (nm, e) ∈ l -> between lo hi e) -> check_entries f' l = check_entries f l) as Hc; [|by apply Hc].
    induction l as [|[nm e] l IH]; intros Hb; simpl; [done|].
    rewrite (check_entry_agree _ _ _ _ (kp_sealed _ _ _ _ _ _ _ _ K) Ha (Hb nm e ltac:(by left))). rewrite IH; [done|].
    intros nm' e' Hin. eapply Hb. by right.
  - exists N. intros fuel m2 Hf Hm2.
    rewrite (load_frame E HO _ _ _ (kp_sealed _ _ _ _ _ _ _ _ K) Ha std_loader fuel std_not_masked c _ (kp_c _ _ _ _ _ _ _ _ K)).
    by apply HL.
Qed.
Lemma loadable_dump E C kw opts y p2 m f f' m' r p lo hi root tbl c n h x :
  (forall a l, Permutation (e_order E a l) l) ->
  tree f -> world_ok (c_world C) -> free_above m -> ~ into p p2 ->
  dump_file C kw opts y p2 m f = (f', m', r) ->
  loadable E f p lo hi root tbl c n h x -> exists n', loadable E f' p lo hi root tbl c n' h x.
Proof.
  intros HO Ht HW Hm Hni Hd. destruct (dump_file_frame _ _ _ _ _ _ _ _ _ _ Ht HW Hm Hd) as (T & S & N & _ & _ & Q).
  by eapply loadable_frame.
Qed.
