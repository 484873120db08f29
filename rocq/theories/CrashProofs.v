(** * CrashProofs: the operations of a dump, and what is left when it is interrupted *)
From stdpp Require Import relations.
From Verif Require Import Base Utf8 Utf8Proofs Dec DecProofs Num NumProofs PyObj H5 Env Create Dump
  LoadFns LoadModel Registry DumpProofs DumpStored LoadFrame Api DumpClosed RegistryProofs ApiProofs Crash.
From Coq Require Import Lia ZifyBool ZifyN.
Local Open Scope N_scope.
Local Open Scope list_scope.

(** ** Together the operations are the dump *)
Lemma perform_app f o1 o2 : perform_all f (o1 ++ o2) = perform_all (perform_all f o1) o2.
Proof. apply foldl_app. Qed.
Lemma perform_cons f o ops : perform_all f (o :: ops) = perform_all (perform f o) ops.
Proof. done. Qed.
Lemma perform_create f p nm b f' a : create_node f p nm b = Ok (f', a) -> perform f (OpCreate p nm b) = f'.
Proof. intros H. simpl. by rewrite H. Qed.
Lemma perform_dataset f p nm kw d f' a : create_dataset f p nm kw d = Ok (f', a) -> perform f (OpCreate p nm (BData d)) = f'.
Proof. intros H%create_dataset_node. by eapply perform_create. Qed.
Lemma update_same f a : update_node f a (fun n => n) = f.
Proof.
  unfold update_node. destruct (get_node f a) as [n|] eqn:H; [|done]. unfold put_node. rewrite insert_id by done. by destruct f.
Qed.
Lemma update_update f a g1 g2 : update_node (update_node f a g1) a g2 = update_node f a (fun n => g2 (g1 n)).
Proof.
  unfold update_node at 2 3. destruct (get_node f a) as [n|] eqn:H; unfold update_node.
  - unfold get_node, put_node. simpl. rewrite lookup_insert. by rewrite insert_insert.
  - by rewrite H.
Qed.
Lemma update_ext f a g1 g2 : (forall n, g1 n = g2 n) -> update_node f a g1 = update_node f a g2.
Proof. intros H. unfold update_node. destruct (get_node f a); [by rewrite H|done]. Qed.
Lemma perform_attrs a kvs : forall f, perform_all f (attr_ops a kvs) = update_node f a (set_attrs kvs).
Proof.
  induction kvs as [|[k v] kvs IH]; intros f.
  - simpl. rewrite <-(update_same f a) at 1. apply update_ext. intros [? ? ?]. done.
  - simpl. rewrite IH, update_update. apply update_ext. intros [? ? ?]. done.
Qed.
Lemma d_file_upd a g s : d_file (upd_node a g s) = update_node (d_file s) a g.
Proof. unfold upd_node, update_node. by destruct (get_node (d_file s) a). Qed.

Lemma base_performs tbl kw base s : perform_all (d_file s) (base_ops tbl kw base s) = d_file (fst (base_entry tbl kw base s)).
Proof.
  unfold base_ops, base_entry. destruct (alist_get base (d_bases s)); [done|]. destruct (ascii_encode base) as [nm|]; [|done].
  destruct (create_dataset _ _ _ _ _) as [[f b]|] eqn:H; [|done]. rewrite perform_cons. by rewrite (perform_dataset _ _ _ _ _ _ _ H).
Qed.
Lemma store_performs E tbl kw a pt base s :
  perform_all (d_file s) (store_ops E tbl kw a pt base s) = d_file (fst (store_type E tbl kw a pt base s)).
Proof.
  unfold store_ops, store_type. case_bool_decide; [done|].
  destruct (alist_get pt (d_types s)) as [e|]; [simpl; by rewrite d_file_upd|].
  case_bool_decide; [done|]. destruct (e_pickles_cls E pt); [|done]. cbn [negb]. cbv zeta.
  destruct (create_dataset _ _ _ _ _) as [[f e]|] eqn:Hc; [|done].
  rewrite perform_cons, (perform_dataset _ _ _ _ _ _ _ Hc), perform_app.
  change f with (d_file (set_file f s)) at 1. rewrite base_performs.
  destruct (base_entry tbl kw base (set_file f s)) as [s1 [b|x]]; [|done].
  cbn [fst]. rewrite d_file_upd. simpl. by rewrite d_file_upd.
Qed.
Lemma plan_performs kw p nm pl s : perform_all (d_file s) (plan_ops kw p nm pl s) = d_file (fst (run_plan kw p nm pl s)).
Proof.
  unfold plan_ops, run_plan. destruct (p_data pl) as [d|].
  - destruct (create_dataset _ _ _ _ _) as [[f a]|] eqn:H; [|done].
    rewrite perform_cons, (perform_dataset _ _ _ _ _ _ _ H), perform_attrs. by destruct (p_fail pl); simpl; rewrite d_file_upd.
  - destruct (create_node _ _ _ _) as [[f a]|] eqn:H; [|done].
    rewrite perform_cons, (perform_create _ _ _ _ _ _ H), perform_attrs. by destruct (p_fail pl); simpl; rewrite d_file_upd.
Qed.
Lemma ref_performs p nm at_ t s : perform_all (d_file s) (ref_ops p nm at_ t s) = d_file (fst (dump_ref p nm at_ t s)).
Proof.
  unfold ref_ops, dump_ref. destruct (create_dataset _ _ _ _ _) as [[f a]|] eqn:H; [|done].
  rewrite perform_cons, (perform_dataset _ _ _ _ _ _ _ H), perform_attrs. simpl. by rewrite d_file_upd.
Qed.
Lemma node_performs E L kw tbl o p nm at_ s :
  perform_all (d_file s) (node_ops E L kw tbl o p nm at_ s) = d_file (fst (dump_node E L kw tbl o p nm at_ s)).
Proof.
  unfold node_ops, dump_node. destruct (L (ocls o)) as [[pt [[fn base] memo]]|]; [|done].
  destruct (create E fn (d_heap s) (d_next s) o) as [pl|e].
  - rewrite perform_app, plan_performs. destruct (run_plan kw p nm pl s) as [s1 [a|x]]; [|done]. cbn [fst].
    rewrite perform_app, store_performs. destruct (store_type E tbl kw a pt base s1) as [s2 [u|x]]; [|done]. cbn [fst].
    by rewrite perform_attrs, d_file_upd.
  - destruct e; try done. destruct (create_pickled E o) as [pl|]; [|done].
    rewrite perform_app, plan_performs. destruct (run_plan kw p nm pl s) as [s1 [a|x]]; [|done]. cbn [fst].
    by rewrite perform_attrs, d_file_upd.
Qed.
Lemma dump_performs E L kw tbl fuel : forall x p nm at_ s,
  perform_all (d_file s) (dump_ops fuel E L kw tbl x p nm at_ s) = d_file (fst (dump_ fuel E L kw tbl x p nm at_ s)).
Proof.
  induction fuel as [|fuel IH]; intros x p nm at_ s; [done|]. cbn [dump_ dump_ops].
  destruct (d_memo s !! x) as [a|]; [apply ref_performs|]. destruct (d_heap s !! x) as [o|]; [|done].
  rewrite perform_app, node_performs. destruct (dump_node E L kw tbl o p nm at_ s) as [s1 [[[a memo] subs]|e]]; [|done]. cbn [fst].
  assert (forall subs s, perform_all (d_file s) (subs_ops (fun y nm at_ => dump_ fuel E L kw tbl y a nm at_)
            (fun y nm at_ => dump_ops fuel E L kw tbl y a nm at_) subs s) =
          d_file (fst (dump_subs (fun y nm at_ => dump_ fuel E L kw tbl y a nm at_) subs s))) as HS.
  { clear -IH. induction subs as [|[[nm y] at_] subs IHs]; intros s; [done|]. cbn [subs_ops dump_subs].
    rewrite perform_app, IH. destruct (dump_ fuel E L kw tbl y a nm at_ s) as [s1 [u|e]]; [|done]. apply IHs. }
  rewrite <-HS. by destruct memo.
Qed.
Lemma groups_performs cs : forall f a, perform_all f (groups_ops f a cs) = fst (make_groups f a cs).
Proof.
  induction cs as [|c cs IH]; intros f a; [done|]. cbn [groups_ops make_groups].
  destruct (child f a c) as [b|]; [destruct cs; [done|apply IH]|].
  destruct (create_node f a c (BGroup [])) as [[f' b]|e] eqn:H.
  - rewrite perform_cons, (perform_create _ _ _ _ _ _ H). destruct cs; [done|apply IH].
  - destruct e; done.
Qed.
Lemma options_perform root opts : forall f n chain, get_node f root = Some n ->
  perform_all f (option_ops root opts) =
  update_node f root (fun n => Node (nd_name n) (fst (set_options opts (nd_attrs n) chain)) (nd_body n)).
Proof.
  induction opts as [|[o on] opts IH]; intros f n chain Hn; cbn [option_ops set_options].
  - rewrite <-(update_same f root) at 1. apply update_ext. intros [? ? ?]. done.
  - destruct on; [|by eapply IH]. rewrite perform_cons. cbn [perform].
    destruct (known_option (Some o)) eqn:Hk.
    + erewrite IH.
      * rewrite update_update. apply update_ext. intros [? ? ?]. simpl. done.
      * unfold update_node. rewrite Hn. unfold get_node, put_node. simpl. by rewrite lookup_insert.
    + simpl. apply update_ext. intros [? ? ?]. done.
Qed.

Lemma file_performs C kw opts x p m f : tree f ->
  perform_all f (file_ops C kw opts x p m f) = fst (fst (dump_file C kw opts x p m f)).
Proof.
  intros Ht. unfold file_ops, dump_file.
  assert (perform_all f (root_ops f p) = fst (root_for_dump f p)) as Hr.
  { unfold root_ops, root_for_dump. destruct (get_path f p) as [a|] eqn:Hp; [|apply groups_performs].
    destruct (get_node f a) as [n|]; [|done]. by destruct (nd_body n) as [[|]|]. }
  rewrite perform_app, Hr. destruct (root_for_dump f p) as [f1 [root|e]] eqn:Er; [|done].
  destruct (root_for_dump_spec _ _ _ _ Ht Er) as (_ & _ & _ & _ & HR). destruct (HR root eq_refl) as (_ & n & Hn & _). clear HR.
  cbn [fst]. rewrite perform_app. unfold dump_root.
  assert (perform_all f1 [OpAttr root a_version (AStr hickle_version); OpAttr root a_pyversion (AStr (c_pyver C))] = stamp C f1 root) as ->.
  { simpl. unfold perform_all. simpl. rewrite update_update. done. }
  rewrite perform_app.
  assert (get_node (stamp C f1 root) root = Some (set_attr a_pyversion (AStr (c_pyver C)) (set_attr a_version (AStr hickle_version) n))) as Hs.
  { unfold stamp, update_node. rewrite Hn. unfold get_node, put_node. simpl. by rewrite lookup_insert. }
  rewrite (options_perform root opts _ _ [None] Hs).
  destruct (with_options (stamp C f1 root) root opts) as [f2 r2] eqn:Ew.
  assert (f2 = update_node (stamp C f1 root) root (fun n => Node (nd_name n) (fst (set_options opts (nd_attrs n) [None])) (nd_body n))) as <-.
  { unfold with_options in Ew. destruct (dump_options opts (node_attrs (stamp C f1 root) root)) as [a r] eqn:Eo. inversion Ew; subst f2 r2.
    unfold update_node. rewrite Hs. f_equal. unfold dump_options, node_attrs in Eo. rewrite Hs in Eo. by rewrite Eo. }
  destruct r2 as [chain|e]; [|done]. unfold dump_into.
  destruct (create_node f2 root n_table (BGroup [])) as [[f3 tbl]|e] eqn:Ec; [|done].
  rewrite perform_cons, (perform_create _ _ _ _ _ _ Ec).
  pose proof (dump_performs (c_env C) (dump_loader_of (c_world C) chain) kw tbl (c_fuel C) x root n_data [] (Dst (m_heap m) (m_next m) f3 ∅ [] [])) as Hd.
  cbn [d_file] in Hd. rewrite Hd. by destruct (dump_ _ _ _ _ _ _ _ _ _ _) as [s r].
Qed.

(** ** Where the operations take place *)

(** New nodes are made below [q] or below new nodes; attributes are set at new nodes, and at
    [q] if [touch]. *)
Definition op_in (lo q : addr) (touch : Prop) (o : hop) : Prop :=
  match o with
  | OpCreate p _ b => (p = q \/ lo <= p) /\ forall l, b = BGroup l -> l = []
  | OpAttr a _ _ => lo <= a \/ (a = q /\ touch)
  end.

Lemma create_next f p nm b f' a : create_node f p nm b = Ok (f', a) -> a = f_next f /\ f_next f' = f_next f + 1.
Proof.
  unfold create_node. destruct (get_node f p) as [n|]; [|done]. destruct (is_group n); [|done].
  destruct (name_ok nm); [|done]. simpl. destruct (alist_get nm (links n)); [done|]. intros [= <- <-]. done.
Qed.
Lemma dataset_next f p nm kw d f' a : create_dataset f p nm kw d = Ok (f', a) -> a = f_next f /\ f_next f' = f_next f + 1.
Proof. intros H%create_dataset_node. by eapply create_next. Qed.
Lemma fstep_next f f' : fstep f f' -> f_next f <= f_next f'.
Proof. intros [? ? ? ? ? ? Hc _|]; [apply create_next in Hc as [_ ->]; lia|done]. Qed.
Lemma fsteps_next f f' : fsteps f f' -> f_next f <= f_next f'.
Proof. induction 1 as [|x y z H _ IH]; [done|]. apply fstep_next in H. lia. Qed.

Section Where.
  Context (lo q : addr) (touch : Prop).
  Notation inn := (Forall (op_in lo q touch)).

  Lemma attr_ops_in a kvs : lo <= a -> inn (attr_ops a kvs).
  Proof. intros Ha. apply list.Forall_forall. intros o Ho. apply elem_of_list_fmap in Ho as ([k v] & -> & _). by left. Qed.
  Lemma create_data_in p nm d : p = q \/ lo <= p -> op_in lo q touch (OpCreate p nm (BData d)).
  Proof. intros H. split; [done|]. intros l. discriminate. Qed.
  Lemma create_group_in p nm : p = q \/ lo <= p -> op_in lo q touch (OpCreate p nm (BGroup [])).
  Proof. intros H. split; [done|]. by intros l [= <-]. Qed.

  Lemma base_ops_in tbl kw base s : lo <= tbl -> inn (base_ops tbl kw base s).
  Proof.
    intros Ht. unfold base_ops. destruct (alist_get base (d_bases s)); [constructor|]. destruct (ascii_encode base); [|constructor].
    destruct (create_dataset _ _ _ _ _); [|constructor]. constructor; [|constructor]. apply create_data_in. by right.
  Qed.
  Lemma store_ops_in E tbl kw a pt base s : lo <= f_next (d_file s) -> lo <= tbl -> lo <= a -> inn (store_ops E tbl kw a pt base s).
  Proof.
    intros Hf Ht Ha. unfold store_ops. case_bool_decide; [constructor|].
    destruct (alist_get pt (d_types s)) as [e|]; [constructor; [by left|constructor]|].
    case_bool_decide; [constructor|]. destruct (e_pickles_cls E pt); [|constructor]. cbn [negb]. cbv zeta.
    destruct (create_dataset _ _ _ _ _) as [[f e]|] eqn:Hc; [|constructor]. apply dataset_next in Hc as [-> Hn].
    constructor; [apply create_data_in; by right|]. apply Forall_app. split; [by apply base_ops_in|].
    destruct (base_entry _ _ _ _) as [s1 [b|]]; [|constructor]. constructor; [by left|]. constructor; [by left|constructor].
  Qed.
  Lemma plan_ops_in kw p nm pl s : lo <= f_next (d_file s) -> p = q \/ lo <= p -> inn (plan_ops kw p nm pl s).
  Proof.
    intros Hf Hp. unfold plan_ops. destruct (p_data pl) as [d|].
    - destruct (create_dataset _ _ _ _ _) as [[f a]|] eqn:Hc; [|constructor]. apply dataset_next in Hc as [-> Hn].
      constructor; [by apply create_data_in|by apply attr_ops_in].
    - destruct (create_node _ _ _ _) as [[f a]|] eqn:Hc; [|constructor]. apply create_next in Hc as [-> Hn].
      constructor; [by apply create_group_in|by apply attr_ops_in].
  Qed.
  Lemma run_plan_new kw p nm pl s s1 a : run_plan kw p nm pl s = (s1, Ok a) -> a = f_next (d_file s).
  Proof.
    unfold run_plan. destruct (p_data pl) as [d|].
    - destruct (create_dataset _ _ _ _ _) as [[f b]|] eqn:Hc; [|done]. apply dataset_next in Hc as [-> _].
      destruct (p_fail pl); [done|]. by intros [= _ <-].
    - destruct (create_node _ _ _ _) as [[f b]|] eqn:Hc; [|done]. apply create_next in Hc as [-> _].
      destruct (p_fail pl); [done|]. by intros [= _ <-].
  Qed.
  Lemma node_ops_in E L kw tbl o p nm at_ s :
    lo <= f_next (d_file s) -> p = q \/ lo <= p -> lo <= tbl -> inn (node_ops E L kw tbl o p nm at_ s).
  Proof.
    intros Hf Hp Ht. unfold node_ops. destruct (L (ocls o)) as [[pt [[fn base] memo]]|]; [|constructor].
    assert (forall pl s1 a, run_plan kw p nm pl s = (s1, Ok a) -> lo <= a /\ lo <= f_next (d_file s1)) as Hr.
    { intros pl s1 a H. pose proof (run_plan_new _ _ _ _ _ _ _ H) as ->. split; [done|].
      pose proof (run_plan_fsteps kw p nm pl s) as S. rewrite H in S. apply fsteps_next in S. simpl in S. lia. }
    destruct (create E fn (d_heap s) (d_next s) o) as [pl|e].
    - apply Forall_app. split; [by apply plan_ops_in|]. destruct (run_plan kw p nm pl s) as [s1 [a|x]] eqn:H; [|constructor].
      destruct (Hr _ _ _ H) as [H1 H2]. apply Forall_app. split; [by apply store_ops_in|].
      destruct (store_type _ _ _ _ _ _ _) as [s2 [u|]]; [by apply attr_ops_in|constructor].
    - destruct e; try constructor. destruct (create_pickled E o) as [pl|]; [|constructor].
      apply Forall_app. split; [by apply plan_ops_in|]. destruct (run_plan kw p nm pl s) as [s1 [a|x]] eqn:H; [|constructor].
      destruct (Hr _ _ _ H) as [H1 H2]. by apply attr_ops_in.
  Qed.
  Lemma dump_node_new E L kw tbl o p nm at_ s s1 a memo subs :
    dump_node E L kw tbl o p nm at_ s = (s1, Ok (a, memo, subs)) -> a = f_next (d_file s).
  Proof.
    unfold dump_node. destruct (L (ocls o)) as [[pt [[fn base] memo']]|]; [|done].
    destruct (create E fn (d_heap s) (d_next s) o) as [pl|e].
    - destruct (run_plan kw p nm pl s) as [s2 [b|x]] eqn:H; [|done]. apply run_plan_new in H as ->.
      destruct (store_type _ _ _ _ _ _ _) as [s3 [u|]]; [|done]. by intros [= _ <- _ _].
    - destruct e; try done. destruct (create_pickled E o) as [pl|]; [|done].
      destruct (run_plan kw p nm pl s) as [s2 [b|x]] eqn:H; [|done]. apply run_plan_new in H as ->. by intros [= _ <- _ _].
  Qed.
  Lemma ref_ops_in p nm at_ t s : lo <= f_next (d_file s) -> p = q \/ lo <= p -> inn (ref_ops p nm at_ t s).
  Proof.
    intros Hf Hp. unfold ref_ops. destruct (create_dataset _ _ _ _ _) as [[f a]|] eqn:Hc; [|constructor].
    apply dataset_next in Hc as [-> Hn]. constructor; [by apply create_data_in|by apply attr_ops_in].
  Qed.
  Lemma dump_ops_in E L kw tbl fuel : lo <= tbl -> forall x p nm at_ s,
    lo <= f_next (d_file s) -> p = q \/ lo <= p -> inn (dump_ops fuel E L kw tbl x p nm at_ s).
  Proof.
    intros Ht. induction fuel as [|fuel IH]; intros x p nm at_ s Hf Hp; [constructor|]. cbn [dump_ops].
    destruct (d_memo s !! x) as [a|]; [by apply ref_ops_in|]. destruct (d_heap s !! x) as [o|]; [|constructor].
    apply Forall_app. split; [by apply node_ops_in|].
    pose proof (dump_node_fsteps E L kw tbl o p nm at_ s) as S.
    destruct (dump_node E L kw tbl o p nm at_ s) as [s1 [[[a memo] subs]|e]] eqn:Hd; [|constructor].
    pose proof (dump_node_new _ _ _ _ _ _ _ _ _ _ _ _ _ Hd) as Ha. apply fsteps_next in S. cbn [fst] in S.
    assert (lo <= f_next (d_file (if memo then set_memo x a s1 else s1))) as Hf1 by (destruct memo; simpl; lia).
    revert Hf1. generalize (if memo then set_memo x a s1 else s1). clear Hd S s1.
    induction subs as [|[[nm' y] at'] subs IHs]; intros s1 Hf1; [constructor|]. cbn [subs_ops].
    apply Forall_app. split; [apply IH; [done|right; lia]|].
    pose proof (dump_fsteps E L kw tbl fuel y a nm' at' s1) as S1. apply fsteps_next in S1.
    destruct (dump_ fuel E L kw tbl y a nm' at' s1) as [s2 [u|e]]; [|constructor]. cbn [fst] in S1. apply IHs. lia.
  Qed.
  Lemma option_ops_in root opts : lo <= root \/ (root = q /\ touch) -> inn (option_ops root opts).
  Proof.
    intros H. induction opts as [|[o on] opts IH]; [constructor|]. cbn [option_ops]. destruct on; [|done].
    constructor; [done|]. destruct (known_option (Some o)); [done|constructor].
  Qed.
End Where.

(** ** The effect of such operations *)
Definition around (lo q : addr) (touch : Prop) (f f' : file) : Prop :=
  tree f' /\ fsteps f f' /\ f_next f <= f_next f' /\
  (forall a, a <> q -> a < lo -> get_node f' a = get_node f a) /\
  (forall n, get_node f q = Some n -> exists at_ ls,
     get_node f' q = Some (extend (Node (nd_name n) at_ (nd_body n)) ls) /\ Forall (fun l => lo <= snd l) ls /\
     (at_ = nd_attrs n \/ touch)).

Lemma extend_attrs n at_ ls : Node (nd_name (extend n ls)) at_ (nd_body (extend n ls)) = extend (Node (nd_name n) at_ (nd_body n)) ls.
Proof. by destruct n as [? ? [|]]. Qed.
Lemma around_refl lo q touch f : tree f -> around lo q touch f f.
Proof.
  intros Ht. split; [done|]. split; [done|]. split; [done|]. split; [done|]. intros n Hn. exists (nd_attrs n), [].
  rewrite extend_nil. split; [by destruct n|]. split; [constructor|by left].
Qed.
Lemma around_trans lo q touch f1 f2 f3 : around lo q touch f1 f2 -> around lo q touch f2 f3 -> around lo q touch f1 f3.
Proof.
  intros (T1 & S1 & N1 & A1 & Q1) (T2 & S2 & N2 & A2 & Q2). split; [done|]. split; [by etrans|]. split; [lia|]. split.
  - intros a Ha Hl. rewrite A2 by done. by apply A1.
  - intros n Hn. destruct (Q1 n Hn) as (at1 & ls1 & H1 & H2 & H3). destruct (Q2 _ H1) as (at2 & ls2 & H4 & H5 & H6).
    exists at2, (ls1 ++ ls2). split.
    + rewrite H4. rewrite extend_attrs. simpl. rewrite extend_app. done.
    + split; [by apply Forall_app|]. destruct H6 as [-> |H6]; [|by right]. destruct H3 as [-> |H3]; [left|by right]. done.
Qed.
Lemma around_perform lo q touch f o :
  tree f -> q < lo -> lo <= f_next f -> op_in lo q touch o -> around lo q touch f (perform f o).
Proof.
  intros Ht Hq Hlo Ho. pose proof (tr_wf _ Ht) as Hwf. destruct o as [p nm b|a k v]; simpl in *.
  - destruct Ho as [Hp Hb]. destruct (create_node f p nm b) as [[f' c]|e] eqn:Hc; [|by apply around_refl].
    assert (fsteps f f') as S by (apply rtc_once; by eapply fs_create).
    destruct (create_node_spec _ _ _ _ _ _ Hwf Hc) as (pn & H1 & H2 & -> & H4 & H5 & H6 & H7 & H8).
    split; [by eapply fsteps_tree|]. split; [done|]. split; [by apply fsteps_next|]. split.
    + intros a Ha Hl. apply H8; [|lia]. destruct Hp as [-> |Hp]; [done|lia].
    + intros n Hn. destruct (decide (p = q)) as [-> |Hne].
      * rewrite H1 in Hn. inversion Hn; subst pn. exists (nd_attrs n), [(nm, f_next f)]. split; [by destruct n|].
        split; [|by left]. constructor; [done|constructor].
      * exists (nd_attrs n), []. rewrite extend_nil. rewrite H8; [by destruct n; auto|done|]. apply Hwf in Hn. lia.
  - unfold update_node. destruct (get_node f a) as [n|] eqn:Hn; [|by apply around_refl].
    assert (fsteps f (put_node f a (set_attr k v n))) as S by (apply rtc_once; by eapply fs_attrs).
    split; [by eapply fsteps_tree|]. split; [done|]. split; [done|]. unfold get_node, put_node in *. simpl. split.
    + intros c Hc Hl. rewrite lookup_insert_ne; [done|]. intros ->. destruct Ho as [Ho|[Ho _]]; [lia|done].
    + intros nq Hnq. destruct (decide (a = q)) as [-> |Hne].
      * rewrite Hn in Hnq. inversion Hnq; subst nq. rewrite lookup_insert. eexists _, []. rewrite extend_nil. split; [done|].
        split; [constructor|]. destruct Ho as [Ho|[_ Ho]]; [lia|by right].
      * rewrite lookup_insert_ne by done. exists (nd_attrs nq), []. rewrite extend_nil. split; [by destruct nq|].
        split; [constructor|by left].
Qed.
Lemma around_all lo q touch ops : forall f, tree f -> q < lo -> lo <= f_next f -> Forall (op_in lo q touch) ops ->
  around lo q touch f (perform_all f ops).
Proof.
  induction ops as [|o ops IH]; intros f Ht Hq Hlo Ho; [by apply around_refl|]. inversion Ho; subst.
  pose proof (around_perform lo q touch f o Ht Hq Hlo ltac:(done)) as H. eapply around_trans; [exact H|].
  rewrite perform_cons. destruct H as (T & _ & N & _). apply IH; [done|done|lia|done].
Qed.

(** ** All operations of a dump *)
Lemma groups_below lo q touch cs : forall f a n, wf_file f -> get_node f a = Some n -> links n = [] -> lo <= a -> lo <= f_next f ->
  Forall (op_in lo q touch) (groups_ops f a cs).
Proof.
  induction cs as [|c cs IH]; intros f a n Hwf Hn Hl Ha Hlo; [constructor|]. cbn [groups_ops].
  assert (child f a c = None) as -> by (unfold child; by rewrite Hn, Hl).
  destruct (create_node f a c (BGroup [])) as [[f' b]|] eqn:Hc; [|constructor].
  constructor; [apply create_group_in; by right|].
  pose proof (create_wf _ _ _ _ _ _ Hwf Hc) as Hwf'.
  destruct (create_node_spec _ _ _ _ _ _ Hwf Hc) as (pn & H1 & H2 & -> & H4 & H5 & _).
  eapply IH; [done|exact H5|done|done|]. apply create_next in Hc as [_ ->]. lia.
Qed.
Lemma groups_ops_in touch cs : forall f a, tree f -> is_Some (get_node f a) ->
  exists q cs1, walk f a cs1 = Some q /\ cs1 `prefix_of` cs /\ Forall (op_in (f_next f) q touch) (groups_ops f a cs).
Proof.
  induction cs as [|c cs IH]; intros f a Ht [n Hn]; [exists a, []; split; [done|]; split; [done|constructor]|]. cbn [groups_ops].
  destruct (child f a c) as [b|] eqn:Hc.
  - assert (is_Some (get_node f b)) as Hb.
    { unfold child in Hc. rewrite Hn in Hc. apply alist_get_in in Hc. by eapply (tr_link _ Ht). }
    destruct (IH f b Ht Hb) as (q & cs1 & H1 & H2 & H3). exists q, (c :: cs1). simpl. rewrite Hc. split; [done|].
    split; [by apply prefix_cons|]. destruct cs; [constructor|done].
  - exists a, []. split; [done|]. split; [apply prefix_nil|].
    destruct (create_node f a c (BGroup [])) as [[f' b]|] eqn:Hcr; [|constructor].
    constructor; [apply create_group_in; by left|].
    pose proof (create_wf _ _ _ _ _ _ (tr_wf _ Ht) Hcr) as Hwf'.
    destruct (create_node_spec _ _ _ _ _ _ (tr_wf _ Ht) Hcr) as (pn & H1 & H2 & -> & H4 & H5 & _).
    eapply groups_below; [done|exact H5|done|done|]. apply create_next in Hcr as [_ ->]. lia.
Qed.

Lemma file_ops_in C kw opts x p m f : tree f ->
  exists q cs, walk f root_addr cs = Some q /\ cs `prefix_of` components p /\
    Forall (op_in (f_next f) q (get_path f p = Some q /\ forall n, get_node f q = Some n -> nd_body n = BGroup []))
      (file_ops C kw opts x p m f).
Proof.
  intros Ht. destruct (tr_root _ Ht) as (rn & Hrn & _). unfold file_ops.
  assert (forall q touch root f1, f_next f <= f_next f1 -> root = q \/ f_next f <= root -> f_next f <= root \/ (root = q /\ touch) ->
    Forall (op_in (f_next f) q touch)
      ([OpAttr root a_version (AStr hickle_version); OpAttr root a_pyversion (AStr (c_pyver C))] ++ option_ops root opts ++
      match with_options (stamp C f1 root) root opts with
      | (_, Err _) => []
      | (f2, Ok chain) =>
          match create_node f2 root n_table (BGroup []) with
          | Err _ => []
          | Ok (f3, tbl) =>
              OpCreate root n_table (BGroup []) ::
              dump_ops (c_fuel C) (c_env C) (dump_loader_of (c_world C) chain) kw tbl x root n_data []
                (Dst (m_heap m) (m_next m) f3 ∅ [] [])
          end
      end)) as Hrest.
  { intros q touch root f1 Hn Hr Hq. apply Forall_app. split; [constructor; [done|]; constructor; [done|constructor]|].
    apply Forall_app. split; [by apply option_ops_in|].
    destruct (with_options (stamp C f1 root) root opts) as [f2 [chain|e]] eqn:Ew; [|constructor].
    assert (f_next f2 = f_next f1) as Hn2.
    { unfold with_options in Ew. destruct (dump_options opts _) as [a r]. inversion Ew. rewrite update_node_next. unfold stamp. by rewrite update_node_next. }
    destruct (create_node f2 root n_table (BGroup [])) as [[f3 tbl]|] eqn:Hc; [|constructor].
    constructor; [by apply create_group_in|]. apply create_next in Hc as [-> Hn3].
    apply dump_ops_in; [lia|simpl; lia|done]. }
  destruct (get_path f p) as [a|] eqn:Hp.
  - exists a, (components p). split; [exact Hp|]. split; [done|]. unfold root_ops. rewrite Hp. simpl.
    destruct (root_for_dump f p) as [f1 [root|e]] eqn:Er; [|constructor].
    destruct (root_for_dump_spec _ _ _ _ Ht Er) as (_ & _ & N & _ & HR). destruct (HR root eq_refl) as (P1 & n & P2 & P3 & P4 & P5).
    unfold root_for_dump in Er. rewrite Hp in Er. destruct (get_node f a) as [na|] eqn:Hna; [|done].
    destruct (nd_body na) as [[|]|] eqn:Hb; inversion Er; subst f1 root.
    apply Hrest; [lia|by left|]. right. split; [done|]. split; [done|]. by intros n' [= <-].
  - destruct (groups_ops_in (None = Some root_addr /\ forall n, get_node f root_addr = Some n -> nd_body n = BGroup []) (components p) f root_addr Ht ltac:(by eexists)) as (q & cs & H1 & H2 & H3).
    exists q, cs. split; [done|]. split; [done|]. apply Forall_app. split.
    + unfold root_ops. rewrite Hp. eapply list.Forall_impl; [exact H3|]. intros o Ho. destruct o; [done|]. destruct Ho as [Ho|[_ [Ho _]]]; [by left|done].
    + destruct (root_for_dump f p) as [f1 [root|e]] eqn:Er; [|constructor].
      destruct (root_for_dump_spec _ _ _ _ Ht Er) as (_ & _ & N & _ & HR). destruct (HR root eq_refl) as (P1 & n & P2 & P3 & P4 & P5).
      destruct P5 as [-> |[P5 _]]; [congruence|]. apply Hrest; [lia|by right|by left].
Qed.

(** ** What an interrupted dump leaves *)
Lemma interrupted_frame C kw opts x p m f k : tree f ->
  let f' := interrupted C kw opts x p m f k in
  tree f' /\ fsteps f f' /\ f_next f <= f_next f' /\ one_changed p f f'.
Proof.
  intros Ht f'. destruct (file_ops_in C kw opts x p m f Ht) as (q & cs & H1 & H2 & H3).
  destruct (tr_root _ Ht) as (rn & Hrn & _). destruct (walk_some f cs root_addr q Ht ltac:(by eexists) H1) as [qn Hqn].
  pose proof (tr_wf _ Ht _ _ Hqn) as Hq.
  destruct (around_all (f_next f) q _ (take k (file_ops C kw opts x p m f)) f Ht Hq ltac:(lia) ltac:(by apply Forall_take)) as (T & S & N & A & Q).
  split; [done|]. split; [done|]. split; [done|]. exists q, cs. split; [done|]. split; [done|]. split; [done|].
  intros n Hn. destruct (Q n Hn) as (at_ & ls & L1 & L2 & L3). exists at_, ls. split; [done|]. split; [done|].
  destruct L3 as [L3|[L3 L4]]; [by left|right]. split; [done|]. by apply L4.
Qed.
Lemma interrupted_all C kw opts x p m f k : tree f -> (length (file_ops C kw opts x p m f) <= k)%nat ->
  interrupted C kw opts x p m f k = fst (fst (dump_file C kw opts x p m f)).
Proof. intros Ht Hk. unfold interrupted. rewrite take_ge by done. by apply file_performs. Qed.

(** ** Loading what an interrupted dump left *)

(** No operation of dump sets an attribute of hickle 3 on the file. *)
Definition no_v3_op (o : hop) : Prop := match o with OpAttr a k _ => a = root_addr -> k ∉ v3_attrs | OpCreate _ _ _ => True end.
Lemma perform_root_attr f o k : tree f -> no_v3_op o -> k ∈ v3_attrs -> node_attrs (perform f o) root_addr !! k = node_attrs f root_addr !! k.
Proof.
  intros Ht Ho Hk. destruct (tr_root _ Ht) as (rn & Hrn & _). destruct o as [p nm b|a k' v]; simpl in *.
  - destruct (create_node f p nm b) as [[f' c]|] eqn:Hc; [|done].
    destruct (create_node_spec _ _ _ _ _ _ (tr_wf _ Ht) Hc) as (pn & H1 & H2 & -> & _ & _ & H4 & H5 & H6).
    unfold node_attrs. rewrite Hrn. destruct (decide (root_addr = p)) as [<- |Hne].
    + rewrite H4. assert (pn = rn) as -> by congruence. done.
    + rewrite H6; [by rewrite Hrn|done|]. pose proof (tr_wf _ Ht _ _ Hrn). lia.
  - unfold update_node. destruct (get_node f a) as [n|] eqn:Hn; [|done]. unfold node_attrs. unfold get_node, put_node in *. simpl.
    destruct (decide (root_addr = a)) as [<- |Hne].
    + rewrite lookup_insert, Hrn. rewrite Hrn in Hn. inversion Hn; subst n. simpl. rewrite lookup_insert_ne; [done|]. intros ->. by apply Ho.
    + by rewrite lookup_insert_ne.
Qed.
Lemma perform_root_attrs lo q touch k ops : k ∈ v3_attrs -> forall f, tree f -> q < lo -> lo <= f_next f ->
  Forall (op_in lo q touch) ops -> Forall no_v3_op ops ->
  node_attrs (perform_all f ops) root_addr !! k = node_attrs f root_addr !! k.
Proof.
  intros Hk. induction ops as [|o ops IH]; intros f Ht Hq Hlo Ho Hv; [done|]. inversion Ho; subst. inversion Hv; subst.
  destruct (around_perform lo q touch f o Ht Hq Hlo ltac:(done)) as (T & _ & N & _).
  rewrite perform_cons, IH by (done || lia). by apply perform_root_attr.
Qed.
Lemma op_in_no_v3 lo q ops : root_addr < lo -> Forall (op_in lo q False) ops -> Forall no_v3_op ops.
Proof.
  intros Hr H. eapply list.Forall_impl; [exact H|]. intros [p nm b|a k v] Ho; [done|]. simpl. intros ->.
  destruct Ho as [Ho|[_ []]]. lia.
Qed.
Lemma option_attr_v3 o : option_attr o ∉ v3_attrs.
Proof.
  unfold option_attr, v3_attrs. cbn [map]. intros H. repeat (apply elem_of_cons in H as [H|H]; [vm_compute in H; done|]).
  by apply elem_of_nil in H.
Qed.
Lemma option_ops_no_v3 root opts : Forall no_v3_op (option_ops root opts).
Proof.
  induction opts as [|[o on] r IH]; [constructor|]. simpl. destruct on; [|done]. constructor; [intros _; apply option_attr_v3|].
  destruct (known_option (Some o)); [done|constructor].
Qed.
Lemma file_ops_no_v3 C kw opts x p m f : tree f -> Forall no_v3_op (file_ops C kw opts x p m f).
Proof.
  intros Ht. destruct (tr_root _ Ht) as (rn & Hrn & _). pose proof (tr_wf _ Ht _ _ Hrn) as Hr0.
  unfold file_ops. apply Forall_app. split.
  - unfold root_ops. destruct (get_path f p); [constructor|].
    destruct (groups_ops_in False (components p) f root_addr Ht ltac:(by eexists)) as (q & cs & _ & _ & H).
    by eapply op_in_no_v3.
  - destruct (root_for_dump f p) as [f1 [root|e]] eqn:Er; [|constructor].
    destruct (root_for_dump_spec _ _ _ _ Ht Er) as (_ & _ & N & _).
    apply Forall_app. split; [|apply Forall_app; split; [apply option_ops_no_v3|]].
    + constructor; [intros _; apply (bool_decide_unpack _); vm_compute; exact I|].
      constructor; [intros _; apply (bool_decide_unpack _); vm_compute; exact I|constructor].
    + destruct (with_options (stamp C f1 root) root opts) as [f2 [chain|e]] eqn:Ew; [|constructor].
      assert (f_next f2 = f_next f1) as Hn2.
      { unfold with_options in Ew. destruct (dump_options opts _) as [a r]. inversion Ew. rewrite update_node_next. unfold stamp. by rewrite update_node_next. }
      destruct (create_node f2 root n_table (BGroup [])) as [[f3 tbl]|] eqn:Hc; [|constructor].
      constructor; [done|]. apply create_next in Hc as [-> Hn3].
      eapply (op_in_no_v3 (f_next f) root); [done|]. apply dump_ops_in; [lia|simpl; lia|by left].
Qed.
Lemma interrupted_not_v3 C kw opts x p m f k : tree f -> not_v3 f -> not_v3 (interrupted C kw opts x p m f k).
Proof.
  intros Ht Hv. destruct (file_ops_in C kw opts x p m f Ht) as (q & cs & H1 & H2 & H3).
  destruct (tr_root _ Ht) as (rn & Hrn & _). destruct (walk_some f cs root_addr q Ht ltac:(by eexists) H1) as [qn Hqn].
  pose proof (tr_wf _ Ht _ _ Hqn) as Hq.
  assert (forall k0, k0 ∈ v3_attrs -> attr_set (node_attrs (interrupted C kw opts x p m f k) root_addr) k0 = attr_set (node_attrs f root_addr) k0) as H.
  { intros k0 Hk0. unfold attr_set, interrupted.
    erewrite perform_root_attrs; [done|done|done|exact Hq|done|by apply Forall_take|]. apply Forall_take. by apply file_ops_no_v3. }
  unfold not_v3 in *. rewrite <- Hv. clear -H. revert H. generalize v3_attrs as l. intros l. induction l as [|a l IH]; intros H; [done|].
  simpl. rewrite H by (by left). rewrite IH; [done|]. intros k0 Hk0. apply H. by right.
Qed.

(** Without the member 'data' nothing can be loaded. *)
Lemma load_no_data C w f p m f' r ov : tree f -> not_v3 f -> walk f root_addr (components p ++ [n_data]) = None ->
  load_file C w f p m = (f', r, ov) -> exists e, r = Err e.
Proof.
  intros Ht Hv Hw. rewrite walk_app in Hw. unfold load_file. fold (get_path f p) in Hw.
  destruct (get_path f p) as [root|] eqn:Hp; [|intros [= <- <- <-]; by eexists].
  destruct (get_node f root) as [n|] eqn:Hn; [|intros [= <- <- <-]; by eexists].
  destruct (is_group n); [|intros [= <- <- <-]; by eexists].
  assert (load_root C w f root m = (f', r, ov) -> exists e, r = Err e) as HL.
  { simpl in Hw. assert (child f root n_data = None) as Hd by (by destruct (child f root n_data)).
    unfold load_root. destruct (detect _ _) as [v|e]; [|intros [= <- <- <-]; by eexists].
    assert (forall legacy, match options_of f root legacy with
      | Err e => (f, Err e, false)
      | Ok chain => match load_table f root w with
          | (f', Err e) => (f', Err e, false)
          | (f', Ok overlay) => (f', load_data C chain legacy f' root m, overlay)
          end end = (f', r, ov) -> exists e, r = Err e) as HV.
    { intros legacy. destruct (options_of f root legacy) as [chain|e]; [|intros [= <- <- <-]; by eexists].
      destruct (load_table f root w) as [f1 [ovl|e]] eqn:Et; [|intros [= <- <- <-]; by eexists].
      intros [= <- <- <-]. unfold load_data.
      assert (child f1 root n_data = None) as ->; [|by eexists].
      unfold load_table in Et. destruct (child f root n_table) as [t|].
      - destruct (get_node f t) as [tn|]; [|done]. destruct (nd_body tn); inversion Et; by subst.
      - destruct w; [|inversion Et; by subst]. destruct (create_node f root n_table (BGroup [])) as [[f2 b]|] eqn:Hc; [|done].
        injection Et as -> _.
        destruct (create_node_spec _ _ _ _ _ _ (tr_wf _ Ht) Hc) as (pn & H1 & H2 & -> & _ & _ & H4 & _).
        unfold child in *. rewrite H4. rewrite Hn in H1, Hd. inversion H1; subst pn.
        unfold links, extend in *. destruct n as [nm at_ [l|]]; simpl in *; [|done].
        by rewrite alist_get_app_none. }
    destruct v; [intros [= <- <- <-]; by eexists|apply HV|apply HV]. }
  destruct (detect (node_attrs f root_addr) (nd_attrs n)) as [[| |]|] eqn:Hdet; try exact HL.
  intros _. exfalso. unfold detect in Hdet. rewrite Hv in Hdet.
  destruct (forallb (attr_set (nd_attrs n)) v4_attrs); [|congruence].
  destruct (nd_attrs n !! a_version) as [[]|]; try congruence. destruct (Z_parse _) as [z|]; cbn [res_map] in Hdet; [|congruence].
  destruct (z =? 4)%Z; congruence.
Qed.
