(** * Count: how many nodes a dump creates *)
From Verif Require Import Base Utf8 Dec Num PyObj H5 Env Create Dump LoadFns LoadModel Registry Spec DumpProofs DumpStored.
From Coq Require Import Lia ZifyBool ZifyN.
Local Open Scope N_scope.
Local Open Scope list_scope.
Local Arguments N.mul : simpl never.
Local Arguments N.add : simpl never.

(** No arrays of strings or objects, which are stored by way of further lists. *)
Definition plain_obj (o : obj) : Prop := match oval o with VStrArr _ _ _ | VObjArr _ _ => False | _ => True end.
Definition plain_heap (h : heap) : Prop := forall y o, h !! y = Some o -> plain_obj o.

(** Number of references held by the objects in [place]. *)
Definition edges_of (h : heap) (y : loc) : nat := match h !! y with Some o => length (refs o) | None => 0%nat end.
Definition edges (h : heap) (place : gmap N addr) : nat := map_fold (fun y _ n => (edges_of h y + n)%nat) 0%nat place.

Lemma edges_insert h (M : gmap N addr) y a : M !! y = None -> edges h (<[y := a]> M) = (edges_of h y + edges h M)%nat.
Proof. intros H. unfold edges. rewrite map_fold_insert_L; [done| |done]. intros. lia. Qed.
Lemma edges_mono h h' (M : gmap N addr) :
  h ⊆ h' -> (forall y a, M !! y = Some a -> is_Some (h !! y)) -> edges h' M = edges h M.
Proof.
  intros Hs. induction M as [|y a M HM IH] using map_ind; intros Hd; [done|]. rewrite !edges_insert by done. rewrite IH.
  - unfold edges_of. destruct (Hd y a) as [o Ho]; [by rewrite lookup_insert|]. by rewrite Ho, (lookup_weaken _ _ _ _ Ho Hs).
  - intros z b Hz. apply (Hd z b). rewrite lookup_insert_ne; [done|]. intros ->. congruence.
Qed.

Lemma list_subs_length xs : length (list_subs xs) = length xs.
Proof. unfold list_subs, enumerate. rewrite map_length. generalize 0. induction xs as [|x xs IH]; intros i; [done|]. cbn [length]. by rewrite IH. Qed.
Lemma create_subs_length E fn h nx o pl : plain_obj o -> create E fn h nx o = Ok pl ->
  (length (p_subs pl) <= length (refs o))%nat /\ Forall plain_obj (p_temps pl).
Proof.
  assert (forall xs pl, create_list_items E h xs = Ok pl -> (length (p_subs pl) <= length xs)%nat /\ Forall plain_obj (p_temps pl)) as Hl.
  { intros xs pl0. unfold create_list_items. destruct xs as [|x xs]; [intros [= <-]; simpl; split; [lia|constructor]|].
    destruct (check_iterable_item_type E h x xs) as [[[d| | |]|]|]; cbn [res_bind]; try done.
    - destruct (write_items h d (x :: xs)) as [vs e]. intros [= <-]. simpl. split; [lia|constructor].
    - intros [= <-]. cbn [plan_group p_subs p_temps]. rewrite list_subs_length. split; [simpl; lia|constructor]. }
  assert (forall pl, create_text o = Ok pl -> p_subs pl = [] /\ p_temps pl = []) as Ht.
  { intros pl0. unfold create_text. destruct (oval o); simpl; try done.
    - destruct (utf8_encode s); simpl; [|done]. destruct (ascii_encode _); by intros [= <-].
    - destruct (ascii_encode _); by intros [= <-]. }
  intros Hp Hc. unfold plain_obj in Hp. unfold refs. destruct o as [c v]. simpl in Hp. destruct fn; simpl in Hc; try done.
  - unfold create_scalar in Hc. simpl in Hc. destruct v; try done. destruct n; [|destruct (_ && _)|..]; inversion Hc; simpl; split; try lia; constructor.
  - inversion Hc; simpl; split; [lia|constructor].
  - unfold create_listlike in Hc. destruct (_ || _).
    + destruct (Ht _ Hc) as [-> ->]. simpl. split; [lia|constructor].
    + simpl in Hc. destruct v; try done. by apply Hl.
  - unfold create_setlike in Hc. simpl in Hc. destruct v; try done. by apply Hl.
  - unfold create_dictlike in Hc. simpl in Hc. destruct v as [| | | | |kvs| | | | | | | | |]; try done.
    destruct (dict_subs E h nx 0 kvs) as [[ts ss]|] eqn:Es; [|done]. inversion Hc; subst pl. simpl. clear -Es.
    assert (length ss = length kvs /\ Forall plain_obj ts) as [H1 H2].
    { revert Es. generalize nx, 0, ts, ss. clear. induction kvs as [|[k v] kvs IH]; intros nx idx ts ss; simpl; [intros [= <- <-]; done|].
      destruct (h !! k) as [ko|]; [|done]. destruct (key_name E ko) as [[nm|]|]; simpl; [| |done].
      - destruct (utf8_encode _); [|done]. simpl. destruct (dict_subs E h nx (idx + 1) kvs) as [[ts' ss']|] eqn:Es; [|done].
        simpl. intros [= <- <-]. destruct (IH _ _ _ _ Es). simpl. by split; [congruence|].
      - destruct (dict_subs E h (nx + 1) (idx + 1) kvs) as [[ts' ss']|] eqn:Es; [|done].
        simpl. intros [= <- <-]. destruct (IH _ _ _ _ Es). simpl. split; [congruence|]. by constructor. }
    split; [|done]. rewrite app_length, !map_length. lia.
  - unfold create_pickled in Hc. simpl in Hc. destruct v; try done. destruct (e_pickles _ _ _); inversion Hc; simpl; split; [lia|constructor].
  - unfold create_np_scalar in Hc. simpl in Hc. destruct v; try done. destruct (np_dtype_of_cls c); inversion Hc; simpl; split; try lia; constructor.
  - unfold create_np_dtype in Hc. simpl in Hc. destruct v; inversion Hc; simpl; split; try lia; constructor.
  - unfold create_np_array in Hc. simpl in Hc. destruct v; try done. destruct shape; [destruct vs as [|v [|]]|]; inversion Hc; simpl; split; try lia; constructor.
  - unfold create_np_masked in Hc. simpl in Hc. destruct v; try done. destruct (h !! _); [|done]. destruct (arr_dtype_str _); inversion Hc; simpl; split; try lia; constructor.
  - unfold create_sparse in Hc. simpl in Hc. destruct v; inversion Hc; simpl; split; try lia; constructor.
Qed.

(** ** Counting nodes *)
Lemma create_node_next f p nm b f' a : create_node f p nm b = Ok (f', a) -> f_next f' = f_next f + 1.
Proof.
  unfold create_node. destruct (get_node f p) as [n|]; [|done]. destruct (is_group n); [|done].
  destruct (name_ok nm); [|done]. simpl. destruct (alist_get nm _); [done|]. by intros [= <- _].
Qed.
Lemma create_dataset_next f p nm kw d f' a : create_dataset f p nm kw d = Ok (f', a) -> f_next f' = f_next f + 1.
Proof. unfold create_dataset. destruct (_ && _); [done|]. apply create_node_next. Qed.
Lemma upd_node_next a g s : f_next (d_file (upd_node a g s)) = f_next (d_file s).
Proof. unfold upd_node. destruct (get_node _ _); [|done]. simpl. done. Qed.

Lemma base_entry_next tbl kw base s s' b : base_entry tbl kw base s = (s', Ok b) -> f_next (d_file s') <= f_next (d_file s) + 1.
Proof.
  unfold base_entry. destruct (alist_get base (d_bases s)); [intros [= <- _]; lia|].
  destruct (ascii_encode base); [|done]. destruct (create_dataset _ _ _ _ _) as [[f' e]|] eqn:Ec; [|done].
  apply create_dataset_next in Ec. intros [= <- _]. simpl. lia.
Qed.
Lemma store_type_next E tbl kw a pt base s s' : store_type E tbl kw a pt base s = (s', Ok tt) ->
  f_next (d_file s') <= f_next (d_file s) + 2.
Proof.
  unfold store_type. case_bool_decide; [intros [= <-]; lia|].
  destruct (alist_get pt (d_types s)); [intros [= <-]; rewrite upd_node_next; lia|].
  case_bool_decide; [done|]. destruct (negb _); [done|]. destruct (create_dataset _ _ _ _ _) as [[f' e]|] eqn:Ec; [|done].
  apply create_dataset_next in Ec. destruct (base_entry tbl kw base (set_file f' s)) as [s1 [b|]] eqn:Eb; [|done].
  apply base_entry_next in Eb. simpl in Eb. intros [= <-]. rewrite upd_node_next. simpl. rewrite upd_node_next. lia.
Qed.
Lemma run_plan_next kw parent nm pl s s' a : run_plan kw parent nm pl s = (s', Ok a) -> f_next (d_file s') = f_next (d_file s) + 1.
Proof.
  unfold run_plan. destruct (match p_data pl with Some d => _ | None => _ end) as [[f' b]|] eqn:Ec; [|done].
  assert (f_next f' = f_next (d_file s) + 1) as Hn.
  { destruct (p_data pl); [by eapply create_dataset_next|by eapply create_node_next]. }
  destruct (p_fail pl); [done|]. intros [= <- _]. rewrite upd_node_next. done.
Qed.
Lemma dump_ref_next parent nm at_ t s s' : dump_ref parent nm at_ t s = (s', Ok tt) -> f_next (d_file s') = f_next (d_file s) + 1.
Proof.
  unfold dump_ref. destruct (create_dataset _ _ _ _ _) as [[f a]|] eqn:Ec; [|done]. apply create_dataset_next in Ec.
  intros [= <-]. by rewrite upd_node_next.
Qed.
Lemma dump_node_next E L kw tbl o parent nm at_ s s' a memo subs :
  (forall c pt fn b m, L c = Ok (pt, (fn, b, m)) -> fn <> FNotHicklable) ->
  dump_node E L kw tbl o parent nm at_ s = (s', Ok (a, memo, subs)) -> f_next (d_file s') <= f_next (d_file s) + 3.
Proof.
  intros HL. unfold dump_node. destruct (L (ocls o)) as [[pt [[fn base] memoise]]|] eqn:El; [|done].
  destruct (create E fn (d_heap s) (d_next s) o) as [pl|e] eqn:Ec.
  - destruct (run_plan kw parent nm pl s) as [s1 [b|]] eqn:Er; [|done]. apply run_plan_next in Er.
    destruct (store_type E tbl kw b pt base s1) as [s2 [[]|]] eqn:Es; [|done]. apply store_type_next in Es.
    intros [= <- _ _ _]. rewrite upd_node_next. lia.
  - destruct e; try done. apply create_nothick in Ec. by destruct (HL _ _ _ _ _ El).
Qed.

Section Count.
Context (E : env) (L : dump_loader) (kw : kwargs) (tbl : addr) (HL : loader_ok E L).

Lemma put_temps_plain ts s :
  (forall l, d_next s <= l -> d_heap s !! l = None) ->
  plain_heap (d_heap s) -> Forall plain_obj ts -> plain_heap (d_heap (put_temps ts s)).
Proof.
  intros Hf Hp Ht y o. simpl. rewrite temps_heap_lookup. destruct (decide _).
  - intros Hy. rewrite Forall_lookup in Ht. by eapply Ht.
  - apply Hp.
Qed.

Lemma dump_count fuel : forall x parent nm at_ s s',
  wfs L tbl s -> parent <> tbl -> at_form at_ -> plain_heap (d_heap s) ->
  dump_ fuel E L kw tbl x parent nm at_ s = (s', Ok tt) ->
  plain_heap (d_heap s') /\
  f_next (d_file s') + 3 * N.of_nat (edges (d_heap s) (d_memo s)) <= f_next (d_file s) + 3 + 3 * N.of_nat (edges (d_heap s') (d_memo s')).
Proof.
  induction fuel as [|fuel IH]; intros x parent nm at_ s s' Hw Hpt Hat Hpl; [done|]. simpl.
  destruct (d_memo s !! x) as [t|] eqn:Em.
  { intros H. pose proof (dump_ref_next _ _ _ _ _ _ H) as Hn.
    destruct (dump_ref_spec _ _ _ _ _ _ _ _ _ Hw Hpt H) as (W1 & G1 & M1 & H1 & _). rewrite M1, H1. split; [done|]. lia. }
  destruct (d_heap s !! x) as [o|] eqn:Eo; [|done].
  destruct (dump_node E L kw tbl o parent nm at_ s) as [s1 [[[a memo] subs]|e]] eqn:Ed; [|done].
  pose proof (dump_node_next _ _ _ _ _ _ _ _ _ _ _ _ _ (lo_fn _ _ HL) Ed) as Hn1.
  destruct (dump_node_spec _ _ _ _ HL _ _ _ _ _ _ _ Hw Hpt Ed)
    as (W1 & G1 & M1 & P1 & -> & Ha & Hta & pt & fn & base & pl & te & EL & Ecr & Hpf & <- & Hh & Hn & Hte & Hta' & pn & Hpn & Hpg & Hpn').
  set (a := f_next (d_file s)) in *.
  destruct (create_subs_length _ _ _ _ _ _ (Hpl _ _ Eo) Ecr) as [Hlen Htmp].
  assert (plain_heap (d_heap s1)) as Hp1. { rewrite Hh. apply put_temps_plain; auto. exact (ws_heap _ _ _ Hw). }
  set (s2 := if memo then set_memo x a s1 else s1).
  assert (wfs L tbl s2) as W2.
  { unfold s2. destruct memo; [|done]. apply (set_memo_wfs L tbl); auto.
    - exists o. eapply lookup_weaken; [exact Eo|apply G1].
    - congruence.
    - intros y Hy. rewrite M1 in Hy. pose proof (ws_memo_lt _ _ _ Hw _ _ Hy). lia. }
  assert (f_next (d_file s2) + 3 * N.of_nat (length (p_subs pl)) + 3 * N.of_nat (edges (d_heap s) (d_memo s)) <=
          f_next (d_file s) + 3 + 3 * N.of_nat (edges (d_heap s2) (d_memo s2))) as H2.
  { assert (edges (d_heap s1) (d_memo s1) = edges (d_heap s) (d_memo s)) as He.
    { rewrite M1. apply edges_mono; [apply G1|]. intros y b Hy. by eapply ws_memo_heap. }
    unfold s2. destruct memo; simpl.
    - rewrite edges_insert by congruence. rewrite He. unfold edges_of.
      rewrite (lookup_weaken _ _ _ _ Eo (gr_heap _ _ _ _ G1)). lia.
    - destruct (lo_leaf _ _ HL _ _ _ _ _ _ _ _ EL Ecr) as [_ ->]. rewrite He. simpl. lia. }
  assert (plain_heap (d_heap s2)) as Hp2 by (unfold s2; by destruct memo).
  assert (a < f_next (d_file s2)) as Ha2 by (unfold s2; by destruct memo).
  intros Hs. pose proof (create_at _ _ _ _ _ _ Ecr) as Hats.
  clear -IH Hs H2 W2 Hp2 Hats Hta Ha2 HL.
  enough (plain_heap (d_heap s') /\ f_next (d_file s') + 3 * N.of_nat (edges (d_heap s2) (d_memo s2)) <=
    f_next (d_file s2) + 3 * N.of_nat (length (p_subs pl)) + 3 * N.of_nat (edges (d_heap s') (d_memo s'))) as [H3 H4] by (split; [done|lia]).
  clear H2. revert W2 Hp2 Ha2 Hs. generalize s2. clear s2.
  induction (p_subs pl) as [|[[nm' y] at'] ss IHs]; intros s2 W2 Hp2 Ha2; cbn [dump_subs].
  { intros [= <-]. split; [done|]. simpl. lia. }
  inversion Hats as [|? ? A1 A2]; subst.
  destruct (dump_ fuel E L kw tbl y a nm' at' s2) as [s3 [[]|]] eqn:Ed; [|done]. intros Hs.
  assert (a <> tbl) as Hat by lia.
  destruct (IH _ _ _ _ _ _ W2 Hat A1 Hp2 Ed) as [Hp3 Hc3].
  destruct (dump_frame _ _ _ _ HL _ _ _ _ _ _ _ _ W2 Hat A1 Ed) as (W3 & G3 & _).
  pose proof (gr_fnext _ _ _ _ G3).
  destruct (IHs A2 s3 W3 Hp3 ltac:(lia) Hs) as [Hp4 Hc4]. split; [done|]. cbn [length]. lia.
Qed.
End Count.
