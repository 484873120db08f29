(** * CrashLeaf: what an interrupted dump leaves at the place of the data *)
From stdpp Require Import relations.
From Verif Require Import Base Utf8 Dec Num PyObj H5 Env Create Dump LoadFns LoadModel Registry DumpProofs DumpStored RegistryStd Spec Accept
  LoadBase DumpOk Api DumpClosed ApiProofs DumpCycle DumpAccept Count Crash CrashProofs ApiTop FailedDump.
From Coq Require Import Lia ZifyBool ZifyN.
Local Open Scope N_scope.
Local Open Scope list_scope.
Local Opaque std_loader std_dump dump_loader_of loader_of.

(** ** Plans: no function sets the attribute 'type' itself *)
Lemma create_shape E fn h nx o pl : create E fn h nx o = Ok pl ->
  (p_subs pl = [] \/ p_data pl = None) /\ Forall (fun kv => fst kv <> a_type) (p_attrs pl).
Proof.
  intros Hc.
  assert (forall h xs pl, create_list_items E h xs = Ok pl -> Forall (fun kv => fst kv <> a_type) (p_attrs pl)) as Hl.
  { intros h' xs pl' H. unfold create_list_items in H. destruct xs as [|x xs]; [injection H as <-; constructor|].
    destruct (check_iterable_item_type E h' x xs) as [[[d| | |]|]|e]; cbn [res_bind] in H; try discriminate H.
    - destruct (write_items _ _ _). injection H as <-. constructor.
    - injection H as <-. by repeat constructor. }
  assert (forall o pl, create_text o = Ok pl -> p_subs pl = [] /\ Forall (fun kv => fst kv <> a_type) (p_attrs pl)) as Ht.
  { intros o' pl' H. unfold create_text in H. destruct (oval o'); cbn [res_map] in H; try discriminate H; [destruct (utf8_encode s); cbn [res_map] in H; [|discriminate H]|];
      destruct (ascii_encode _); injection H as <-; (split; [done|]); by repeat constructor. }
  assert (forall o pl, create_listlike E h o = Ok pl -> (p_subs pl = [] \/ p_data pl = None) /\ Forall (fun kv => fst kv <> a_type) (p_attrs pl)) as Hll.
  { intros o' pl' H. unfold create_listlike in H. destruct (_ || _).
    - destruct (Ht _ _ H). split; [by left|done].
    - destruct (oval o'); try discriminate H. split; [by eapply list_plan_data|by eapply Hl]. }
  assert (forall a ts h' xs pl0, Forall (fun kv => fst kv <> a_type) a -> create_list_items E h' xs = Ok pl0 ->
    (p_subs (with_temps ts a pl0) = [] \/ p_data (with_temps ts a pl0) = None) /\ Forall (fun kv => fst kv <> a_type) (p_attrs (with_temps ts a pl0))) as Hw.
  { intros a ts h' xs pl0 Ha H. cbn [with_temps p_subs p_data p_attrs]. split; [by eapply list_plan_data|]. apply Forall_app. split; [by eapply Hl|done]. }
  destruct fn; cbn [create] in Hc; try discriminate Hc.
  - unfold create_scalar in Hc. destruct (oval o); try discriminate Hc. destruct n; [|destruct (_ && _)|..]; injection Hc as <-; (split; [by left|]); by repeat constructor.
  - injection Hc as <-. split; [by left|]. by repeat constructor.
  - by apply (Hll o).
  - unfold create_setlike in Hc. destruct (oval o); try discriminate Hc. split; [by eapply list_plan_data|by eapply Hl].
  - unfold create_dictlike in Hc. destruct (oval o); try discriminate Hc. destruct (dict_subs _ _ _ _ _) as [[ts ss]|]; [|discriminate Hc].
    injection Hc as <-. split; [by right|constructor].
  - unfold create_pickled in Hc. destruct (oval o); try discriminate Hc. destruct (e_pickles _ _ _); [|discriminate Hc].
    injection Hc as <-. split; [by left|constructor].
  - unfold create_np_scalar in Hc. destruct (oval o); try discriminate Hc. destruct (np_dtype_of_cls _); try discriminate Hc. injection Hc as <-.
    split; [by left|]. by repeat constructor.
  - unfold create_np_dtype in Hc. destruct (oval o); try discriminate Hc. injection Hc as <-. split; [by left|constructor].
  - unfold create_np_array in Hc.
    destruct (oval o) as [| | | | | |d shape vs|w shape vs|shape ls| | | | | |]; try discriminate Hc.
    + destruct shape, vs as [|? [|? ?]]; try discriminate Hc; injection Hc as <-; (split; [by left|]); by repeat constructor.
    + destruct shape as [|n shape].
      * destruct vs as [|s [|? ?]]; try discriminate Hc. destruct (utf8_encode s); [|discriminate Hc]. injection Hc as <-. split; [by left|]. by repeat constructor.
      * assert (forall d : list obj * list loc, (let '(ts, els) := d in
         res_map (with_temps (map (fun s => Obj CStr (VStr s)) vs ++ ts) [(a_np_dtype, ABytes (str_dtype w))])
            (create_list_items E (temps_heap h nx (map (fun s => Obj CStr (VStr s)) vs ++ ts)) els)) = Ok pl ->
         (p_subs pl = [] \/ p_data pl = None) /\ Forall (fun kv => fst kv <> a_type) (p_attrs pl)) as Hgo.
        { intros [ts els] H. destruct (create_list_items _ _ els) as [pl'|] eqn:Ei; [|discriminate H]. injection H as <-.
          eapply Hw; [|exact Ei]. by repeat constructor. }
        exact (Hgo (tolist (n :: shape) (map (fun '(i, _) => nx + i) (enumerate vs)) (nx + N.of_nat (length vs))) Hc).
    + destruct shape as [|n shape].
      * destruct ls as [|l [|? ?]]; try discriminate Hc. destruct (h !! l) as [io|] eqn:El; [|discriminate Hc].
        destruct (isinst (ocls io) CList); [|injection Hc as <-; split; [by right|by repeat constructor]].
        destruct (create_listlike E h io) as [pl'|] eqn:Eio; [|discriminate Hc]. injection Hc as <-.
        destruct (Hll _ _ Eio) as [H1 H2]. cbn [with_temps p_subs p_data p_attrs]. split; [done|]. apply Forall_app. split; [done|by repeat constructor].
      * destruct (tolist (n :: shape) ls nx) as [ts els]. destruct (create_list_items _ _ els) as [pl'|] eqn:Ei; [|discriminate Hc]. injection Hc as <-.
        eapply Hw; [|exact Ei]. by repeat constructor.
  - unfold create_np_masked in Hc. destruct (oval o); try discriminate Hc. destruct (h !! data); [|discriminate Hc]. destruct (arr_dtype_str _); [|discriminate Hc].
    injection Hc as <-. split; [by right|by repeat constructor].
  - unfold create_sparse in Hc. destruct (oval o); try discriminate Hc. injection Hc as <-. split; [by right|constructor].
Qed.

(** ** Files *)

(** Operations that make no group with members. *)
Definition op_ok (o : hop) : Prop := match o with OpCreate _ _ (BGroup l) => l = [] | _ => True end.
Lemma op_in_ok lo q touch ops : Forall (op_in lo q touch) ops -> Forall op_ok ops.
Proof. intros H. eapply list.Forall_impl; [exact H|]. intros [p nm [l|d]|a k v] Ho; [|done|done]. destruct Ho as [_ Ho]. by apply Ho. Qed.

Lemma perform_fsteps f o : op_ok o -> fsteps f (perform f o).
Proof.
  destruct o as [p nm b|a k v]; intros Ho; cbn [perform].
  - destruct (create_node f p nm b) as [[f' a]|] eqn:Hc; [|done]. apply rtc_once. eapply fs_create; [exact Hc|]. destruct b; [|done]. intros l' [= <-]. done.
  - apply update_node_fsteps. intros n. by eexists.
Qed.
Lemma performs_fsteps ops : forall f, Forall op_ok ops -> fsteps f (perform_all f ops).
Proof.
  induction ops as [|o ops IH]; intros f H; [done|]. rewrite perform_cons. inversion H; subst. etrans; [by apply perform_fsteps|by apply IH].
Qed.

Lemma perform_attr_child f a k v b nm : child (perform f (OpAttr a k v)) b nm = child f b nm.
Proof.
  cbn [perform]. unfold child. destruct (get_node f a) as [n|] eqn:Hn.
  - rewrite (update_node_get _ _ _ _ _ Hn). destruct (decide (b = a)) as [-> |]; [|done]. rewrite Hn. by destruct n.
  - unfold update_node. by rewrite Hn.
Qed.
Definition is_attr (a : addr) (o : hop) : Prop := match o with OpAttr b _ _ => b = a | OpCreate _ _ _ => False end.
Lemma performs_attr_child a ops : forall f b nm, Forall (is_attr a) ops -> child (perform_all f ops) b nm = child f b nm.
Proof.
  induction ops as [|o ops IH]; intros f b nm H; [done|]. inversion H as [|? ? Ho Hs]; subst. rewrite perform_cons, IH by done.
  destruct o; [done|]. apply perform_attr_child.
Qed.
Lemma performs_attr_walk a ops cs : forall f b, Forall (is_attr a) ops -> walk (perform_all f ops) b cs = walk f b cs.
Proof.
  induction cs as [|c cs IH]; intros f b H; [done|]. cbn [walk]. rewrite (performs_attr_child a) by done. destruct (child f b c); [|done]. by apply IH.
Qed.
Lemma is_attr_ok a ops : Forall (is_attr a) ops -> Forall op_ok ops.
Proof. intros H. eapply list.Forall_impl; [exact H|]. by intros []. Qed.

(** Groups made on the way to the target do not reach below it. *)
Lemma groups_take d cs : forall f a k, tree f -> is_Some (get_node f a) -> walk f a (cs ++ [d]) = None ->
  walk (perform_all f (take k (groups_ops f a cs))) a (cs ++ [d]) = None.
Proof.
  induction cs as [|c cs IH]; intros f a k Ht Ha Hw; [by destruct k|]. cbn [groups_ops].
  assert (forall f0 b0 cs0, tree f0 -> is_Some (get_node f0 b0) -> Forall op_ok (groups_ops f0 b0 cs0)) as Hok.
  { intros f0 b0 cs0 Ht0 Hb0. destruct (groups_ops_in True cs0 f0 b0 Ht0 Hb0) as (q & cs' & _ & _ & H). by eapply op_in_ok. }
  cbn [app walk] in Hw |- *. destruct (child f a c) as [b|] eqn:Hc.
  - assert (is_Some (get_node f b)) as Hb. { eapply (walk_some f [c] a b Ht); [done|]. cbn [walk]. by rewrite Hc. }
    destruct cs as [|c' cs]; [destruct k; cbn; by rewrite Hc|].
    set (ops := take k (groups_ops f b (c' :: cs))).
    assert (fsteps f (perform_all f ops)) as S by (apply performs_fsteps, Forall_take, Hok; done).
    rewrite (child_keeps _ _ _ _ _ (fsteps_keeps _ _ S (tr_wf _ Ht)) Hc). by apply IH.
  - destruct (create_node f a c (BGroup [])) as [[f1 b]|x] eqn:Ec; [|destruct k; cbn; by rewrite Hc].
    destruct k as [|k]; [cbn; by rewrite Hc|]. cbn [take]. rewrite perform_cons, (perform_create _ _ _ _ _ _ Ec).
    pose proof (fsteps_group _ _ _ _ _ Ec) as S1. pose proof (fsteps_tree _ _ S1 Ht) as T1.
    destruct (create_node_spec _ _ _ _ _ _ (tr_wf _ Ht) Ec) as (pn & P1 & P2 & P3 & P4 & P5 & P6 & P7 & P8).
    assert (child f1 a c = Some b) as Hc1. { eapply child_extend; [exact P6|done|]. unfold child in Hc. by rewrite P1 in Hc. }
    set (ops := take k (groups_ops f1 b cs)).
    assert (fsteps f1 (perform_all f1 ops)) as S by (apply performs_fsteps, Forall_take, Hok; [done|by eexists]).
    rewrite (child_keeps _ _ _ _ _ (fsteps_keeps _ _ S (tr_wf _ T1)) Hc1). apply IH; [done|by eexists|].
    destruct cs; cbn [app walk]; unfold child at 1; rewrite P5; done.
Qed.

(** ** The node of the object *)
Definition untyped (root a : addr) (g : file) : Prop :=
  child g root n_data = Some a /\ exists n, get_node g a = Some n /\ nd_attrs n !! a_type = None.
Definition quiet (a : addr) (o : hop) : Prop := match o with OpAttr b k _ => b = a -> k <> a_type | OpCreate _ _ _ => True end.
Lemma perform_untyped root a g o : wf_file g -> op_ok o -> quiet a o -> untyped root a g -> untyped root a (perform g o).
Proof.
  intros Hw Hok Hq [Hc (n & Hn & Ht)]. split; [exact (child_keeps _ _ _ _ _ (fsteps_keeps _ _ (perform_fsteps g o Hok) Hw) Hc)|].
  destruct o as [p nm b|b k v]; cbn [perform].
  - destruct (create_node g p nm b) as [[f1 c]|] eqn:Ec; [|by exists n].
    destruct (create_node_spec _ _ _ _ _ _ Hw Ec) as (pn & P1 & P2 & P3 & P4 & P5 & P6 & P7 & P8).
    destruct (decide (a = p)) as [-> |Hne].
    + exists (extend pn [(nm, c)]). split; [done|]. rewrite Hn in P1. injection P1 as <-. by destruct n as [? ? []].
    + exists n. split; [|done]. rewrite P8; [done|done|]. intros ->. pose proof (Hw _ _ Hn). lia.
  - unfold update_node. destruct (get_node g b) as [nb|] eqn:Hb; [|by exists n]. unfold get_node, put_node. cbn [f_nodes].
    destruct (decide (a = b)) as [-> |Hne].
    + rewrite lookup_insert. eexists. split; [reflexivity|]. rewrite Hb in Hn. injection Hn as ->. cbn [set_attr nd_attrs]. rewrite lookup_insert_ne; [done|]. by apply Hq.
    + rewrite lookup_insert_ne by done. by exists n.
Qed.
Lemma performs_untyped root a ops : forall g, wf_file g -> Forall op_ok ops -> Forall (quiet a) ops -> untyped root a g -> untyped root a (perform_all g ops).
Proof.
  induction ops as [|o ops IH]; intros g Hw Hok Hq Hu; [done|]. inversion Hok; inversion Hq; subst. rewrite perform_cons.
  apply IH; [|done|done|by apply perform_untyped]. eapply fsteps_wf; [by apply perform_fsteps|done].
Qed.
Lemma attrs_quiet a b kvs : Forall (fun kv => fst kv <> a_type) kvs -> Forall (quiet a) (attr_ops b kvs).
Proof. induction 1 as [|[k v] kvs Hk _ IH]; [constructor|]. constructor; [|done]. intros _. exact Hk. Qed.
(** The type is the last thing written. *)
Lemma store_split E tbl kw a pt base s : exists Q T, store_ops E tbl kw a pt base s = Q ++ T /\ Forall (quiet a) Q /\ (length T <= 1)%nat.
Proof.
  unfold store_ops. destruct (bool_decide _); [exists [], []; cbn; repeat split; [constructor|lia]|].
  destruct (alist_get pt (d_types s)) as [e|]; [exists []; eexists; cbn; repeat split; [constructor|cbn; lia]|].
  destruct (bool_decide _); [exists [], []; cbn; repeat split; [constructor|lia]|].
  destruct (negb _); [exists [], []; cbn; repeat split; [constructor|lia]|].
  destruct (create_dataset _ _ _ _ _) as [[f e]|]; [|exists [], []; cbn; repeat split; [constructor|lia]].
  assert (Forall (quiet a) (base_ops tbl kw base (set_file f s))) as Hb.
  { unfold base_ops. destruct (alist_get _ _); [constructor|]. destruct (ascii_encode _); [|constructor]. destruct (create_dataset _ _ _ _ _); by repeat constructor. }
  destruct (base_entry tbl kw base (set_file f s)) as [s1 [b|]].
  - eexists (_ :: _ ++ [_]), [_]. rewrite <- app_comm_cons, <- app_assoc. split; [reflexivity|]. split; [|cbn; lia].
    constructor; [done|]. apply Forall_app. split; [done|]. by repeat constructor.
  - eexists (_ :: _), []. rewrite !app_nil_r. split; [reflexivity|]. split; [by constructor|cbn; lia].
Qed.

Lemma ops_ok E L kw tbl fuel x p nm at_ s : Forall op_ok (dump_ops fuel E L kw tbl x p nm at_ s).
Proof. eapply (op_in_ok 0 0 True). apply dump_ops_in; [lia|lia|right; lia]. Qed.

Lemma dump_take E L kw tbl fuel x root s pn o k :
  wf_file (d_file s) -> get_node (d_file s) root = Some pn -> is_group pn = true -> child (d_file s) root n_data = None ->
  d_memo s = ∅ -> d_heap s !! x = Some o ->
  let ops := dump_ops fuel E L kw tbl x root n_data [] s in
  let g := perform_all (d_file s) (take k ops) in
  child g root n_data = None \/ (exists a, untyped root a g) \/
  ((plain_obj o -> refs o <> []) /\ exists a n, child g root n_data = Some a /\ get_node g a = Some n /\ is_group n = true) \/
  (length ops <= k)%nat.
Proof.
  intros Hw Hpn Hg Hch Hme Ho ops g. pose proof (ops_ok E L kw tbl fuel x root n_data [] s) as Hok. fold ops in Hok.
  assert (alist_get n_data (links pn) = None) as Hlk. { unfold child in Hch. by rewrite Hpn in Hch. }
  destruct k as [|k]; [left; subst g; by destruct ops|].
  (* a node is made, then come [Q] and [T] *)
  assert (forall b Q T, ops = OpCreate root n_data b :: Q ++ T -> (forall f1 a, create_node (d_file s) root n_data b = Ok (f1, a) -> Forall (quiet a) Q) ->
    (length T <= 1)%nat -> is_Some (match create_node (d_file s) root n_data b with Ok r => Some r | Err _ => None end) ->
    (exists a, untyped root a g) \/ (length ops <= S k)%nat) as Hleaf.
  { intros b Q T E0 Hq HT [[f1 a] Hc]. destruct (create_node (d_file s) root n_data b) as [[f1' a']|] eqn:Ec; [|discriminate Hc]. injection Hc as -> ->.
    subst g. rewrite E0. rewrite E0 in Hok. inversion Hok as [|? ? O1 O2]; subst. apply Forall_app in O2 as [O2 _].
    destruct (decide (k <= length Q)%nat) as [Hk|Hk]; [left|right; cbn [length]; rewrite app_length; lia].
    exists a. cbn [take]. rewrite perform_cons, (perform_create _ _ _ _ _ _ Ec). rewrite take_app_le by done.
    destruct (create_node_spec _ _ _ _ _ _ Hw Ec) as (pn' & P1 & P2 & P3 & P4 & P5 & P6 & P7 & P8).
    rewrite Hpn in P1. injection P1 as <-.
    apply performs_untyped.
    - eapply fsteps_wf; [|exact Hw]. pose proof (perform_fsteps (d_file s) _ O1) as S. by rewrite (perform_create _ _ _ _ _ _ Ec) in S.
    - by apply Forall_take.
    - apply Forall_take. by eapply Hq.
    - split; [by eapply child_extend|]. eexists. split; [exact P5|]. done. }
  (* a group, whatever follows *)
  assert (forall R, ops = OpCreate root n_data (BGroup []) :: R -> is_Some (match create_node (d_file s) root n_data (BGroup []) with Ok r => Some r | Err _ => None end) ->
    exists a n, child g root n_data = Some a /\ get_node g a = Some n /\ is_group n = true) as Hgrp.
  { intros R E0 [[f1 a] Hc]. destruct (create_node (d_file s) root n_data (BGroup [])) as [[f1' a']|] eqn:Ec; [|discriminate Hc]. injection Hc as -> ->.
    subst g. rewrite E0. rewrite E0 in Hok. inversion Hok as [|? ? O1 O2]; subst.
    cbn [take]. rewrite perform_cons, (perform_create _ _ _ _ _ _ Ec).
    destruct (create_node_spec _ _ _ _ _ _ Hw Ec) as (pn' & P1 & P2 & P3 & P4 & P5 & P6 & P7 & P8).
    rewrite Hpn in P1. injection P1 as <-.
    assert (wf_file f1) as W1. { eapply fsteps_wf; [|exact Hw]. by eapply fsteps_group. }
    assert (fsteps f1 (perform_all f1 (take k R))) as S by (by apply performs_fsteps, Forall_take).
    destruct (fsteps_group_stays _ _ _ _ S W1 P5 eq_refl) as (n' & Hn' & Hg'). exists a, n'. split; [|done].
    eapply child_keeps; [exact (fsteps_keeps _ _ S W1)|]. by eapply child_extend. }
  unfold ops in *. clear ops. destruct fuel as [|fuel]; [right; right; right; cbn; lia|]. cbn [dump_ops] in *. rewrite Hme, lookup_empty, Ho in *.
  unfold node_ops, dump_node in *. destruct (L (ocls o)) as [[pt [[fn base] memo]]|]; [|right; right; right; cbn; lia].
  assert (forall pl, match (match p_data pl with
           | Some d => create_dataset (d_file s) root n_data (if p_nocomp pl then no_compression kw else kw) d
           | None => create_node (d_file s) root n_data (BGroup [])
           end) with Ok (f, a) => create_node (d_file s) root n_data (plan_body pl) = Ok (f, a) /\
               plan_ops kw root n_data pl s = OpCreate root n_data (plan_body pl) :: attr_ops a (p_attrs pl) /\
               forall s1 b, run_plan kw root n_data pl s = (s1, Ok b) -> b = a
             | Err _ => plan_ops kw root n_data pl s = [] /\ exists s1 e, run_plan kw root n_data pl s = (s1, Err e) end) as Hplan.
  { intros pl. unfold plan_ops, run_plan, plan_body.
    destruct (p_data pl) as [d|].
    - destruct (create_dataset _ _ _ _ _) as [[f a]|] eqn:Ec; [|by split; [|eexists _, _]]. split; [by apply create_dataset_node in Ec|]. split; [done|].
      intros s1 b. destruct (p_fail pl); [discriminate|]. by intros [= _ <-].
    - destruct (create_node _ _ _ _) as [[f a]|] eqn:Ec; [|by split; [|eexists _, _]]. split; [done|]. split; [done|].
      intros s1 b. destruct (p_fail pl); [discriminate|]. by intros [= _ <-]. }
  destruct (create E fn (d_heap s) (d_next s) o) as [pl|x0] eqn:Ecr.
  - destruct (create_shape _ _ _ _ _ _ Ecr) as [Hsub Hat]. specialize (Hplan pl).
    destruct (match p_data pl with Some d => _ | None => _ end) as [[f1 a]|ec];
      [|destruct Hplan as (Hp & s1 & e1 & Er); rewrite Hp, Er; right; right; right; cbn; lia].
    destruct Hplan as (Ec & Hp & Hrun). rewrite Hp in *.
    destruct (p_subs pl) as [|sb sbs] eqn:Es.
    + (* no items *)
      assert (exists Q T, (OpCreate root n_data (plan_body pl) :: attr_ops a (p_attrs pl)) ++
          match run_plan kw root n_data pl s with
          | (s1, Ok a0) => store_ops E tbl kw a0 pt base s1 ++
              match store_type E tbl kw a0 pt base s1 with (_, Ok _) => attr_ops a0 (without_type []) | (_, Err _) => [] end
          | (_, Err _) => []
          end = OpCreate root n_data (plan_body pl) :: Q ++ T /\ Forall (quiet a) Q /\ (length T <= 1)%nat) as (Q & T & EQ & HQ & HT).
      { destruct (run_plan kw root n_data pl s) as [s1 [b|e]].
        - rewrite (Hrun s1 b eq_refl). destruct (store_split E tbl kw a pt base s1) as (Q & T & -> & HQ & HT).
          exists (attr_ops a (p_attrs pl) ++ Q), T. split; [|split; [apply Forall_app; split; [by apply attrs_quiet|done]|done]].
          change (attr_ops a (without_type [])) with (@nil hop).
          assert (forall r : dst * res unit, (let (_, r0) := r in match r0 with Ok _ => [] | Err _ => [] end) = @nil hop) as -> by (by intros [? []]).
          by rewrite app_nil_r, <- app_comm_cons, <- app_assoc.
        - exists (attr_ops a (p_attrs pl)), []. rewrite !app_nil_r. split; [done|]. split; [by apply attrs_quiet|cbn; lia]. }
      specialize (Hleaf (plan_body pl) Q T). rewrite Ec in Hleaf.
      destruct Hleaf as [H|H]; [|by intros f2 a2 [= <- <-]|done|by eexists|right; by left|by right; right; right].
      rewrite <- EQ. destruct (run_plan kw root n_data pl s) as [s1 [b|e]]; [|by rewrite !app_nil_r].
      destruct (store_type _ _ _ _ _ _ _) as [s2 [u|e]]; cbn [subs_ops]; by rewrite !app_nil_r.
    + (* a group *)
      destruct Hsub as [Hsub|Hsub]; [discriminate Hsub|]. right. right. left. unfold plan_body in *. rewrite Hsub in *. split.
      * intros Hpl Hr. destruct (create_subs_length _ _ _ _ _ _ Hpl Ecr) as [Hlen _]. rewrite Hr, Es in Hlen. cbn in Hlen. lia.
      * eapply Hgrp; [rewrite <- !app_comm_cons; reflexivity|]. rewrite Ec. by eexists.
  - destruct x0; try (right; right; right; cbn; lia). destruct (create_pickled E o) as [pl|] eqn:Ep; [|right; right; right; cbn; lia].
    destruct (pickled_plain _ _ _ Ep) as [_ Hs0]. specialize (Hplan pl).
    destruct (match p_data pl with Some d => _ | None => _ end) as [[f1 a]|ec];
      [|destruct Hplan as (Hp & s1 & e1 & Er); rewrite Hp, Er; right; right; right; cbn; lia].
    destruct Hplan as (Ec & Hp & Hrun). rewrite Hp, Hs0 in *.
    specialize (Hleaf (plan_body pl) (attr_ops a (p_attrs pl)) []). rewrite Ec in Hleaf.
    destruct Hleaf as [H|H]; [|intros f2 a2 [= <- <-]; apply attrs_quiet|cbn; lia|by eexists|right; by left|by right; right; right].
    + rewrite app_nil_r. destruct (run_plan kw root n_data pl s) as [s1 [b|e]]; cbn; by rewrite !app_nil_r.
    + unfold create_pickled in Ep. destruct (oval o); try discriminate Ep. destruct (e_pickles _ _ _); [|discriminate Ep]. injection Ep as <-. constructor.
Qed.

(** ** The whole dump *)
Lemma option_attr_version o : option_attr o <> a_version.
Proof. unfold option_attr. intros H. vm_compute in H. done. Qed.
Lemma set_options_version opts : forall at_ chain, fst (set_options opts at_ chain) !! a_version = at_ !! a_version.
Proof.
  induction opts as [|[o on] opts IH]; intros at_ chain; [done|]. cbn [set_options]. destruct on; [|apply IH].
  destruct (known_option (Some o)); [rewrite IH|cbn [fst]]; rewrite lookup_insert_ne; try done; apply option_attr_version.
Qed.
Lemma option_ops_attr root opts : Forall (is_attr root) (option_ops root opts).
Proof.
  induction opts as [|[o on] r IH]; [constructor|]. simpl. destruct on; [|done]. constructor; [done|].
  destruct (known_option (Some o)); [done|constructor].
Qed.

Lemma interrupted_top C kw opts x p m f k o :
  tree f -> content f (components p ++ [n_data]) = None -> m_heap m !! x = Some o ->
  let f' := interrupted C kw opts x p m f k in
  walk f' root_addr (components p ++ [n_data]) = None \/
  (exists root a, get_path f' p = Some root /\ node_attrs f' root !! a_version = Some (AStr hickle_version) /\ untyped root a f') \/
  ((plain_obj o -> refs o <> []) /\ exists root a n, get_path f' p = Some root /\ child f' root n_data = Some a /\
     get_node f' a = Some n /\ is_group n = true) \/
  f' = fst (fst (dump_file C kw opts x p m f)).
Proof.
  intros Ht Hcon Ho. cbn zeta.
  destruct (tr_root _ Ht) as (rn & Hrn & _).
  assert (walk f root_addr (components p ++ [n_data]) = None) as Hwf.
  { destruct (walk f root_addr (components p ++ [n_data])) as [a|] eqn:Hw; [|done]. unfold content in Hcon. rewrite Hw in Hcon.
    destruct (walk_some f _ root_addr a Ht ltac:(by eexists) Hw) as [n Hn]. by rewrite Hn in Hcon. }
  destruct (decide (length (file_ops C kw opts x p m f) <= k)%nat) as [Hk|Hk];
    [right; right; right; by apply interrupted_all|].
  unfold interrupted. unfold file_ops in *.
  assert (forall j, walk (perform_all f (take j (root_ops f p))) root_addr (components p ++ [n_data]) = None) as Hroot.
  { intros j. unfold root_ops. destruct (get_path f p); [by rewrite take_nil|]. apply groups_take; [done|by eexists|done]. }
  assert (perform_all f (root_ops f p) = fst (root_for_dump f p)) as Hr.
  { unfold root_ops, root_for_dump. destruct (get_path f p) as [a|] eqn:Hp; [|apply groups_performs].
    destruct (get_node f a) as [n|]; [|done]. by destruct (nd_body n) as [[|]|]. }
  destruct (root_for_dump f p) as [f1 [root|e]] eqn:Er; [|left; rewrite app_nil_r; apply Hroot].
  cbn [fst] in Hr. rewrite firstn_app, perform_app. destruct (decide (k < length (root_ops f p))%nat) as [Hk1|Hk1].
  { rewrite (proj2 (Nat.sub_0_le _ _)) by lia. left. cbn [take]. apply Hroot. }
  rewrite (take_ge (root_ops f p)) by lia. rewrite Hr. rewrite app_length in Hk.
  set (k1 := (k - length (root_ops f p))%nat). assert (k = (length (root_ops f p) + k1)%nat) as Ek by lia. clearbody k1. subst k. clear Hk1.
  destruct (root_for_dump_spec _ _ _ _ Ht Er) as (T1 & S1 & N1 & _ & HR). destruct (HR root eq_refl) as (P1 & n0 & P2 & P3 & P4 & _). clear HR.
  set (st := [OpAttr root a_version (AStr hickle_version); OpAttr root a_pyversion (AStr (c_pyver C))]) in *.
  assert (forall g, fsteps f1 g -> get_path g p = Some root) as Hpath.
  { intros g Hg. exact (walk_keeps _ _ _ _ _ (fsteps_keeps _ _ Hg (tr_wf _ T1)) P1). }
  rewrite app_assoc in *. set (ao := st ++ option_ops root opts) in *.
  assert (Forall (is_attr root) ao) as Hao. { apply Forall_app. split; [by repeat constructor|apply option_ops_attr]. }
  assert (forall j, walk (perform_all f1 (take j ao)) root_addr (components p ++ [n_data]) = None) as Hattrs.
  { intros j. rewrite (performs_attr_walk root) by (by apply Forall_take). rewrite walk_app. unfold get_path in P1. rewrite P1. cbn [walk].
    unfold child. rewrite P2, P4. done. }
  rewrite firstn_app, perform_app. rewrite app_length in Hk. destruct (decide (k1 < length ao)%nat) as [Hk1|Hk1].
  { rewrite (proj2 (Nat.sub_0_le k1 _)) by lia. left. cbn [take]. apply Hattrs. }
  rewrite (take_ge ao) by lia.
  set (k2 := (k1 - length ao)%nat). assert (k1 = (length ao + k2)%nat) as Ek by lia. clearbody k2. subst k1. clear Hk1.
  destruct (with_options (stamp C f1 root) root opts) as [f2 r2] eqn:Ew.
  assert (perform_all f1 ao = f2) as Hf2.
  { unfold ao, st. rewrite perform_app.
    assert (perform_all f1 [OpAttr root a_version (AStr hickle_version); OpAttr root a_pyversion (AStr (c_pyver C))] = stamp C f1 root) as ->.
    { simpl. unfold perform_all. simpl. rewrite update_update. done. }
    assert (get_node (stamp C f1 root) root = Some (set_attr a_pyversion (AStr (c_pyver C)) (set_attr a_version (AStr hickle_version) n0))) as Hs.
    { unfold stamp, update_node. rewrite P2. unfold get_node, put_node. simpl. by rewrite lookup_insert. }
    rewrite (options_perform root opts _ _ [None] Hs).
    unfold with_options in Ew. destruct (dump_options opts (node_attrs (stamp C f1 root) root)) as [a r] eqn:Eo. injection Ew as <- <-.
    unfold update_node. rewrite Hs. f_equal. unfold dump_options, node_attrs in Eo. rewrite Hs in Eo. by rewrite Eo. }
  rewrite Hf2 in *. pose proof (Hattrs (length ao)) as Hdone. rewrite take_ge, Hf2 in Hdone by lia.
  destruct (with_options_spec _ _ _ _ _ _ _ P2 Ew) as (S2 & N2 & R2 & O2 & Hr2).
  pose proof (fsteps_tree _ _ S2 T1) as T2.
  destruct r2 as [chain|e]; [|left; by rewrite take_nil].
  destruct (create_node f2 root n_table (BGroup [])) as [[f3 tbl]|x0] eqn:Ec; [|left; by rewrite take_nil].
  destruct k2 as [|k2]; [by left|]. cbn [take]. rewrite perform_cons, (perform_create _ _ _ _ _ _ Ec).
  pose proof (fsteps_group _ _ _ _ _ Ec) as S3. pose proof (fsteps_tree _ _ S3 T2) as T3.
  destruct (create_node_spec _ _ _ _ _ _ (tr_wf _ T2) Ec) as (pn & Q1 & Q2 & Q3 & Q4 & Q5 & Q6 & Q7 & Q8).
  rewrite R2 in Q1. injection Q1 as <-.
  set (n2 := Node (nd_name n0) (fst (dump_options opts (stamped C (nd_attrs n0)))) (nd_body n0)) in *.
  assert (links n2 = [] /\ is_group n2 = true) as [L2 G2]. { split; [exact P4|exact P3]. }
  set (s3 := Dst (m_heap m) (m_next m) f3 ∅ [] []) in *.
  set (dops := dump_ops (c_fuel C) (c_env C) (dump_loader_of (c_world C) chain) kw tbl x root n_data [] s3) in *.
  assert (fsteps f3 (perform_all f3 (take k2 dops))) as S4 by (apply performs_fsteps, Forall_take, ops_ok).
  pose proof (Hpath _ ltac:(etrans; [exact S2|]; etrans; [exact S3|exact S4])) as Hp4.
  destruct (dump_take (c_env C) (dump_loader_of (c_world C) chain) kw tbl (c_fuel C) x root s3 (extend n2 [(n_table, tbl)]) o k2) as [H|[[a H]|[[Hp0 H]|H]]].
  - apply T3.
  - exact Q6.
  - by rewrite extend_group.
  - unfold child. cbn [d_file s3]. rewrite Q6, extend_links by done. rewrite L2. reflexivity.
  - done.
  - exact Ho.
  - left. rewrite walk_app. unfold get_path in Hp4. rewrite Hp4. cbn [walk]. fold dops in H. cbn [d_file s3] in H. by rewrite H.
  - right. left. exists root, a. split; [done|]. split; [|exact H].
    pose proof (tr_wf _ T2 _ _ R2) as Hlt.
    destruct (around_all (f_next f2) root False (take k2 dops) f3 T3 Hlt) as (_ & _ & _ & _ & HA).
    + apply create_next in Ec as [_ Hn3]. lia.
    + apply Forall_take. apply dump_ops_in; [rewrite Q3; lia| |by left]. cbn [d_file s3]. apply create_next in Ec as [_ Hn3]. lia.
    + destruct (HA _ Q6) as (at_ & ls & HA1 & _ & [HA2|[]]). unfold node_attrs. rewrite HA1, HA2.
      destruct n2 as [nm2 at2 b2] eqn:E2. assert (at2 = fst (dump_options opts (stamped C (nd_attrs n0)))) as Eat by (by injection E2).
      assert (nd_attrs (extend (Node (nd_name (extend (Node nm2 at2 b2) [(n_table, tbl)])) (nd_attrs (extend (Node nm2 at2 b2) [(n_table, tbl)]))
        (nd_body (extend (Node nm2 at2 b2) [(n_table, tbl)]))) ls) = at2) as ->. { by destruct b2. }
      rewrite Eat. unfold dump_options. rewrite set_options_version. unfold stamped. rewrite lookup_insert_ne by done. by rewrite lookup_insert.
  - right. right. left. split; [done|]. destruct H as (a & n & H1 & H2 & H3). by exists root, a, n.
  - fold dops in H. exfalso. cbn [length] in Hk. lia.
Qed.

(** ** Loading it *)
Lemma load_group_untyped fuel E LD f a n s : ld_legacy LD = false -> l_memo s = ∅ -> get_node f a = Some n -> is_group n = true ->
  nd_attrs n !! a_type = None -> exists e, load_ fuel E LD f a s = Err e.
Proof.
  intros HL Hm Hn Hg Ht. destruct fuel as [|fuel]; unfold load_; fold load_; [by eexists|]. rewrite Hm, lookup_empty, Hn.
  assert (resolve_type E (ld_legacy LD) f n = Err ReferenceErr) as ->; [|by eexists].
  unfold resolve_type. rewrite Ht, HL. unfold is_group in Hg. by destruct (nd_body n).
Qed.
(** A group without type makes load raise, unless the file is read as one of hickle 4. *)
Lemma load_untyped C w f p m f' r ov root a n :
  tree f -> not_v3 f -> get_path f p = Some root -> node_attrs f root !! a_version = Some (AStr hickle_version) ->
  untyped root a f -> get_node f a = Some n -> is_group n = true ->
  load_file C w f p m = (f', r, ov) -> exists e, r = Err e.
Proof.
  intros Ht Hv Hp Hver Hu Hna Hga. unfold load_file. rewrite Hp.
  destruct (get_node f root) as [rt|] eqn:Hn; [|intros [= <- <- <-]; by eexists].
  destruct (is_group rt); [|intros [= <- <- <-]; by eexists].
  unfold node_attrs in Hver. rewrite Hn in Hver.
  assert (detect (node_attrs f root_addr) (nd_attrs rt) = Ok V5 \/ exists e, detect (node_attrs f root_addr) (nd_attrs rt) = Err e) as Hdet.
  { unfold detect. rewrite Hv. destruct (forallb (attr_set (nd_attrs rt)) v4_attrs); [|right; by eexists]. rewrite Hver. left. vm_compute. reflexivity. }
  destruct Hdet as [Hdet|[e Hdet]]; rewrite Hdet.
  2: { unfold load_root, node_attrs at 2. rewrite Hn, Hdet. intros [= <- <- <-]. by eexists. }
  unfold load_root. assert (node_attrs f root = nd_attrs rt) as -> by (unfold node_attrs; by rewrite Hn). rewrite Hdet. cbn zeta.
  destruct (options_of f root false) as [chain|e]; [|intros [= <- <- <-]; by eexists].
  destruct (load_table f root w) as [f1 [ovl|e]] eqn:Et; [|intros [= <- <- <-]; by eexists].
  intros [= <- <- <-]. unfold load_data.
  assert (untyped root a f1 /\ exists n1, get_node f1 a = Some n1 /\ is_group n1 = true) as [[Hc (n1 & H1 & H2)] (n1' & H3 & H4)].
  { unfold load_table in Et. destruct (child f root n_table) as [t|].
    - destruct (get_node f t) as [tn|]; [|done]. destruct (nd_body tn); injection Et as <- _; eauto.
    - destruct w; [|injection Et as <- _; eauto]. destruct (create_node f root n_table (BGroup [])) as [[f2 b]|] eqn:Hc; [|done].
      injection Et as <- _. pose proof (perform_untyped root a f (OpCreate root n_table (BGroup [])) (tr_wf _ Ht) eq_refl I Hu) as H.
      rewrite (perform_create _ _ _ _ _ _ Hc) in H. split; [done|].
      exact (fsteps_group_stays _ _ _ _ (fsteps_group _ _ _ _ _ Hc) (tr_wf _ Ht) Hna Hga). }
  rewrite Hc. rewrite H1 in H3. injection H3 as <-.
  destruct (load_group_untyped (c_fuel C) (c_env C) (loader_of (c_world C) chain false) f1 a n1 (Lst m ∅)) as [e He]; try done.
  rewrite He. by eexists.
Qed.

(** What is left is refused by load, or a dataset without type, or the container of an
    object with items, or complete. *)
Lemma interrupted_loads C kw opts x p m f k o :
  tree f -> not_v3 f -> content f (components p ++ [n_data]) = None -> m_heap m !! x = Some o ->
  let f' := interrupted C kw opts x p m f k in
  (forall C' w m', exists e, snd (fst (load_file C' w f' p m')) = Err e) \/
  (exists at_ d, content f' (components p ++ [n_data]) = Some (at_, BData d) /\ at_ !! a_type = None) \/
  ((plain_obj o -> refs o <> []) /\ exists at_ l, content f' (components p ++ [n_data]) = Some (at_, BGroup l)) \/
  f' = fst (fst (dump_file C kw opts x p m f)).
Proof.
  intros Ht Hv Hcon Ho f'.
  assert (tree f') as Ht' by apply (interrupted_frame C kw opts x p m f k Ht).
  assert (not_v3 f') as Hv' by (by apply interrupted_not_v3).
  destruct (interrupted_top C kw opts x p m f k o Ht Hcon Ho) as [H|[(root & a & H1 & H2 & H3)|[[Hr (root & a & n & H1 & H2 & H3 & H4)]|H]]].
  - left. intros C' w m'. destruct (load_file C' w f' p m') as [[f2 r] ov] eqn:El. exact (load_no_data _ _ _ _ _ _ _ _ Ht' Hv' H El).
  - destruct H3 as [Hc (n & Hn & Hty)]. destruct (nd_body n) as [l|d] eqn:Hb.
    + left. intros C' w m'. destruct (load_file C' w f' p m') as [[f2 r] ov] eqn:El.
      eapply (load_untyped C' w f' p m' f2 r ov root a n Ht' Hv' H1 H2); [|exact Hn| |exact El].
      * split; [done|]. by exists n.
      * unfold is_group. by rewrite Hb.
    + right. left. exists (nd_attrs n), d. split; [|done]. unfold content. unfold get_path in H1. rewrite walk_app. fold f' in H1. rewrite H1. cbn [walk].
      fold f' in Hc. rewrite Hc. fold f' in Hn. by rewrite Hn, <- Hb.
  - right. right. left. split; [done|]. unfold is_group in H4. destruct (nd_body n) as [l|d] eqn:Hb; [|discriminate H4]. exists (nd_attrs n), l.
    unfold content. unfold get_path in H1. rewrite walk_app. fold f' in H1. rewrite H1. cbn [walk]. fold f' in H2. rewrite H2. fold f' in H3. by rewrite H3, <- Hb.
  - by right; right; right.
Qed.
