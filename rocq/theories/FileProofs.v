(** * FileProofs: what load does to the file, which format it takes the file for, options *)
From stdpp Require Import relations.
From Verif Require Import Base Utf8 Dec Num PyObj H5 Env Create Dump LoadFns LoadModel Registry RegistryStd Spec RoundTrip
  LoadFrame Api DumpProofs DumpClosed ApiProofs DumpEnv Reach ApiTop RegistryProofs.
From Coq Require Import Lia ZifyBool ZifyN.
Local Open Scope N_scope.
Local Open Scope list_scope.
Local Opaque std_loader std_dump dump_loader_of loader_of.

(** ** load and the content of the file *)

(** The group at [p] has a type table. *)
Definition has_table (f : file) (p : pystr) : Prop :=
  exists root t, get_path f p = Some root /\ child f root n_table = Some t.

Lemma load_table_same f root w f' r : w = false \/ (exists t, child f root n_table = Some t) ->
  load_table f root w = (f', r) -> f' = f.
Proof.
  intros Hw. unfold load_table. destruct (child f root n_table) as [t|].
  - destruct (get_node f t) as [n|]; [|by intros [= <- <-]]. destruct (nd_body n); by intros [= <- <-].
  - destruct Hw as [-> |[t [=]]]. by intros [= <- <-].
Qed.
Lemma load_root_same C f root w m f' r o : w = false \/ (exists t, child f root n_table = Some t) ->
  load_root C w f root m = (f', r, o) -> f' = f.
Proof.
  intros Hw. unfold load_root.
  destruct (detect _ _) as [[]|e]; [by intros [= <- <- <-]| | |by intros [= <- <- <-]];
    (destruct (options_of _ _ _) as [chain|e]; [|by intros [= <- <- <-]]; destruct (load_table f root w) as [f1 [ov|e]] eqn:E;
     intros [= <- <- <-]; by eapply load_table_same).
Qed.
Lemma load_file_same C w f p m f' r o : w = false \/ has_table f p -> load_file C w f p m = (f', r, o) -> f' = f.
Proof.
  intros Hw. unfold load_file. destruct (get_path f p) as [root|] eqn:Hp; [|by intros [= <- <- <-]].
  destruct (get_node f root) as [n|]; [|by intros [= <- <- <-]].
  destruct (is_group n); [|by intros [= <- <- <-]].
  assert (w = false \/ (exists t, child f root n_table = Some t)) as Hw'.
  { destruct Hw as [?|(root' & t & H1 & H2)]; [by left|]. rewrite Hp in H1. inversion H1; subst. right. eauto. }
  destruct (detect _ _) as [[]|e]; [by intros [= <- <- <-]|..]; by apply load_root_same.
Qed.

(** ** Which format *)
Definition major_of (s : pystr) : res Z := Z_parse (default [] (head (split_char 46 s))).
Definition v3_file (fa : attrs) : bool := forallb (attr_set fa) v3_attrs.
Definition v4_group (ra : attrs) : bool := forallb (attr_set ra) v4_attrs.
Definition is_text (v : attrv) (s : pystr) : Prop := v = AStr s \/ v = ABytes s.

Lemma detect_v3 fa ra : detect fa ra = Ok V3 <->
  v3_file fa = true /\ (exists v, fa !! str "CLASS" = Some v /\ is_text v (str "hickle")) /\
  (exists v, fa !! str "VERSION" = Some v /\ v3_major v = Ok 3%Z).
Proof.
  unfold detect. fold (v3_file fa) (v4_group ra). destruct (v3_file fa) eqn:E3.
  - assert (exists v, fa !! str "VERSION" = Some v) as [vv Hvv].
    { unfold v3_file, v3_attrs in E3. cbn [map forallb] in E3. unfold attr_set in E3.
      destruct (fa !! str "VERSION"); [eauto|]. rewrite andb_false_r in E3. done. }
    rewrite Hvv. split.
    + destruct (fa !! str "CLASS") as [[]|] eqn:Ec; try done; (case_bool_decide as Hs; [|done]; subst; intros H;
        split; [done|]; split; [eexists; split; [done|]; unfold is_text; auto|]; exists vv; split; [done|];
        destruct (v3_major vv) as [z|]; simpl in H; [|done]; destruct (Z.eqb_spec z 3); [by subst|done]).
    + intros (_ & (v & H1 & H2) & v2 & [= <-] & H4). rewrite H1, H4. simpl.
      destruct H2 as [-> | ->]; by rewrite bool_decide_true.
  - split; [|intros ([=] & _)]. destruct (v4_group ra); [|done].
    destruct (ra !! a_version) as [[]|]; try done. destruct (Z_parse _); simpl; [|done]. by destruct (_ =? _)%Z.
Qed.
Lemma detect_v4 fa ra v : v <> V3 -> detect fa ra = Ok v <->
  v3_file fa = false /\ v4_group ra = true /\
  exists s z, ra !! a_version = Some (AStr s) /\ major_of s = Ok z /\ (v = V4 <-> z = 4%Z).
Proof.
  intros Hv. unfold detect. fold (v3_file fa) (v4_group ra). destruct (v3_file fa) eqn:E3.
  - split; [|intros ([=] & _)].
    destruct (fa !! str "CLASS") as [[]|]; try done; (case_bool_decide; [|done]; destruct (fa !! str "VERSION") as [vv|]; [|done];
      destruct (v3_major vv); simpl; [|done]; destruct (_ =? _)%Z; [congruence|done]).
  - destruct (v4_group ra) eqn:E4; [|split; [done|intros (_ & [=] & _)]].
    split.
    + destruct (ra !! a_version) as [[]|] eqn:Er; try done. fold (major_of s). destruct (major_of s) as [z|] eqn:Em; simpl; [|done].
      intros [= <-]. split; [done|]. split; [done|]. exists s, z. split; [done|]. split; [done|].
      destruct (Z.eqb_spec z 4); split; congruence.
    + intros (_ & _ & s & z & -> & Hm & Hz). unfold major_of in Hm. rewrite Hm. simpl. f_equal.
      destruct (Z.eqb_spec z 4) as [->|Hne].
      * symmetry. by apply Hz.
      * destruct v; try done. destruct Hne. by apply Hz.
Qed.
Lemma detect_refused C w fa ra e f p m root n : get_path f p = Some root -> get_node f root = Some n -> is_group n = true ->
  fa = node_attrs f root_addr -> ra = nd_attrs n -> detect fa ra = Err e -> load_file C w f p m = (f, Err e, false).
Proof.
  intros Hp Hn Hg -> -> Hd. unfold load_file. rewrite Hp, Hn, Hg, Hd. unfold load_root. unfold node_attrs at 2. by rewrite Hn, Hd.
Qed.
Lemma detect_old C w f p m root n : get_path f p = Some root -> get_node f root = Some n -> is_group n = true ->
  detect (node_attrs f root_addr) (nd_attrs n) = Ok V3 -> load_file C w f p m = (f, c_v3 C f p m, false).
Proof. intros Hp Hn Hg Hd. unfold load_file. by rewrite Hp, Hn, Hg, Hd. Qed.

(** The 4.x tables are in force when loading a 4.x file, and only then. *)
Lemma load_options_4x legacy ats chain : load_options legacy ats = Ok chain -> ~ (exists nm v, (nm, v) ∈ ats /\ attr_true v = true /\ option_of_attr nm = Some (str "hickle-4.x")) ->
  (opt_4x ∈ chain <-> legacy = true).
Proof.
  unfold load_options. set (names := omap _ _). intros H Hno.
  destruct (decide (Forall (fun n => known_option (Some n) = true) names)) as [Hk|Hk]; [|by rewrite insert_options_bad in H].
  rewrite insert_options_ok in H by done. simpl in H. inversion H as [Hc]. clear H.
  assert (opt_4x ∉ rev (map Some names) ++ [None]) as Hnot.
  { rewrite elem_of_app. setoid_rewrite (elem_of_Permutation_proper opt_4x _ _ (symmetry (Permutation_rev _))).
    rewrite elem_of_list_fmap, elem_of_list_singleton. intros [(n & A & B)|[=]]. inversion A; subst n. apply Hno.
    unfold names in B. apply elem_of_list_omap in B as ([nm v] & B1 & B2). destruct (attr_true v) eqn:E; [|done]. by exists nm, v. }
  destruct legacy; split; try done. intros _. by left.
Qed.

(** ** Options *)
Lemma no_options_active a : no_options a <-> forall o, ~ active a o.
Proof.
  split.
  - intros H o (nm & v & A & B & C). rewrite (H _ _ A B) in C. done.
  - intros H nm v A B. destruct (option_of_attr nm) as [o|] eqn:E; [|done]. exfalso. apply (H o). by exists nm, v.
Qed.

Lemma dump_file_options C kw opts x p m f f' m' :
  tree f -> world_ok (c_world C) -> free_above m -> no_options (target_attrs f p) ->
  dump_file C kw opts x p m f = (f', m', Ok tt) ->
  exists root chain, get_path f' p = Some root /\ options_of f' root false = Ok chain /\
    forall o, Some o ∈ chain <-> (o, true) ∈ opts.
Proof.
  intros Ht HW Hm Hno Hd. unfold dump_file in Hd.
  destruct (root_for_dump f p) as [f1 [root|e]] eqn:Er; [|done].
  destruct (root_for_dump_spec _ _ _ _ Ht Er) as (T1 & S1 & N1 & (q & cs & [Q1 Q2] & Q3 & Q4) & HR).
  destruct (HR root eq_refl) as (P1 & n0 & P2 & P3 & P4 & P5). clear HR.
  destruct (dump_root_frame _ _ _ _ _ _ _ _ _ _ _ T1 HW Hm P2 Hd) as (T & S & _ & _ & _ & _ & ls & Hr & _).
  exists root.
  unfold dump_root in Hd. destruct (with_options (stamp C f1 root) root opts) as [f2 r2] eqn:Ew.
  destruct (with_options_spec _ _ _ _ _ _ _ P2 Ew) as (_ & _ & _ & _ & Hr2). destruct r2 as [chain|e]; [|done].
  destruct (dump_options opts (stamped C (nd_attrs n0))) as [a' r] eqn:Eo. simpl in *. subst r.
  assert (no_options (nd_attrs n0)) as Hn0.
  { destruct P5 as [Ef |[_ En]]; [|rewrite En; by intros ? ? ?]. rewrite Ef in P1, P2.
    unfold target_attrs in Hno. rewrite P1 in Hno. unfold node_attrs in Hno. by rewrite P2 in Hno. }
  apply (no_options_stamped C) in Hn0. rewrite no_options_active in Hn0.
  destruct (options_round_trip _ _ _ _ (map_to_list a') Hn0 Eo (reflexivity _)) as (chain' & L1 & L2 & _).
  exists chain'. split; [|split].
  - apply (walk_keeps f1); [|exact P1]. apply fsteps_keeps; [exact S|apply T1].
  - unfold options_of, node_attrs. rewrite Hr. exact L1.
  - intros o. rewrite L2. split; [intros [[=]|(n & [= ->] & A)]; done|]. intros A. right. by exists o.
Qed.
Lemma dump_file_unknown C kw opts x p m f f' m' r o :
  (o, true) ∈ opts -> known_option (Some o) = false -> dump_file C kw opts x p m f = (f', m', r) -> r <> Ok tt.
Proof.
  intros Ho Hk. unfold dump_file. destruct (root_for_dump f p) as [f1 [root|e]]; [|by intros [= <- <- <-]].
  unfold dump_root, with_options. pose proof (options_refused opts (node_attrs (stamp C f1 root) root) o Ho Hk) as H.
  destruct (dump_options opts (node_attrs (stamp C f1 root) root)) as [a r0]. simpl in H. subst r0.
  by intros [= <- <- <-].
Qed.
