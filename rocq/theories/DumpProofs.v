(** * DumpProofs: what a dump does to the file

    The frame of a dump (success or failure) and, for a successful one, that every
    memoised object is completely stored at its node. *)
From Verif Require Import Base Utf8 Dec Num PyObj H5 Env Create Dump LoadFns LoadModel.
From Coq Require Import Lia ZifyBool ZifyN.

Definition getn (s : dst) (a : addr) : option node := get_node (d_file s) a.

(** A node with links appended, and nothing else changed. *)
Definition extend (n : node) (ls : list (pystr * addr)) : node :=
  Node (nd_name n) (nd_attrs n) match nd_body n with BGroup l => BGroup (l ++ ls) | b => b end.

Lemma extend_nil n : extend n [] = n.
Proof. destruct n as [? ? []]; unfold extend; simpl; rewrite ?app_nil_r; done. Qed.
Lemma extend_app n l1 l2 : extend (extend n l1) l2 = extend n (l1 ++ l2).
Proof. destruct n as [? ? []]; unfold extend; simpl; rewrite ?app_assoc; done. Qed.
Lemma extend_group n ls : is_group (extend n ls) = is_group n.
Proof. destruct n as [? ? []]; done. Qed.
Lemma extend_data n ls : is_group n = false -> extend n ls = n.
Proof. destruct n as [? ? []]; done. Qed.
Lemma extend_links n ls : is_group n = true -> links (extend n ls) = links n ++ ls.
Proof. destruct n as [? ? []]; done. Qed.
Lemma add_link_extend nm a n : add_link nm a n = extend n [(nm, a)].
Proof. destruct n as [? ? []]; done. Qed.

Definition wf_file (f : file) : Prop := forall a n, get_node f a = Some n -> a < f_next f.

(** ** create_node / create_dataset *)
Lemma create_node_spec f p nm b f' a :
  wf_file f -> create_node f p nm b = Ok (f', a) ->
  exists pn, get_node f p = Some pn /\ is_group pn = true /\ a = f_next f /\ f_next f' = a + 1 /\
    get_node f' a = Some (Node nm ∅ b) /\
    get_node f' p = Some (extend pn [(nm, a)]) /\ p <> a /\
    (forall c, c <> p -> c <> a -> get_node f' c = get_node f c).
Proof.
  intros Hwf. unfold create_node. destruct (get_node f p) as [pn|] eqn:Ep; [|done].
  destruct (is_group pn) eqn:Eg; [|done].
  destruct (name_ok nm); simpl; [|done].
  destruct (alist_get nm (links pn)); [done|]. intros [= <- <-].
  pose proof (Hwf _ _ Ep) as Hlt.
  exists pn. unfold get_node in *. simpl. split_and!; auto; try lia.
  - rewrite lookup_insert_ne by lia. by rewrite lookup_insert.
  - rewrite lookup_insert. by rewrite add_link_extend.
  - intros c H1 H2. rewrite !lookup_insert_ne by congruence. done.
Qed.

Lemma create_dataset_node f p nm kw d f' a :
  create_dataset f p nm kw d = Ok (f', a) -> create_node f p nm (BData d) = Ok (f', a).
Proof. unfold create_dataset. destruct (_ && _); done. Qed.

(** ** grows *)
Record grows (tbl : addr) (p : addr -> Prop) (s s' : dst) : Prop := {
  gr_heap : d_heap s ⊆ d_heap s';
  gr_hnext : d_next s <= d_next s';
  gr_fnext : f_next (d_file s) <= f_next (d_file s');
  gr_memo : d_memo s ⊆ d_memo s';
  gr_types : forall c e, alist_get c (d_types s) = Some e -> alist_get c (d_types s') = Some e;
  gr_bases : forall c e, alist_get c (d_bases s) = Some e -> alist_get c (d_bases s') = Some e;
  gr_node : forall a n, getn s a = Some n -> ~ p a -> a <> tbl -> getn s' a = Some n;
  gr_tbl : forall n, getn s tbl = Some n -> ~ p tbl -> exists ls, getn s' tbl = Some (extend n ls)
}.

Lemma grows_refl tbl p s : grows tbl p s s.
Proof. split; try done. intros n Hn _. exists []. by rewrite extend_nil. Qed.

Lemma grows_trans tbl p q s1 s2 s3 :
  grows tbl p s1 s2 -> grows tbl q s2 s3 -> grows tbl (fun a => p a \/ q a) s1 s3.
Proof.
  intros H1 H2. split.
  - etrans; [apply H1|apply H2].
  - pose proof (gr_hnext _ _ _ _ H1). pose proof (gr_hnext _ _ _ _ H2). lia.
  - pose proof (gr_fnext _ _ _ _ H1). pose proof (gr_fnext _ _ _ _ H2). lia.
  - etrans; [apply H1|apply H2].
  - intros. apply H2, H1. done.
  - intros. apply H2, H1. done.
  - intros a n Hn Hp Ht. apply H2; [apply H1|..]; naive_solver.
  - intros n Hn Hp. destruct (gr_tbl _ _ _ _ H1 n Hn) as [l1 E1]; [naive_solver|].
    destruct (gr_tbl _ _ _ _ H2 _ E1) as [l2 E2]; [naive_solver|].
    exists (l1 ++ l2). by rewrite E2, extend_app.
Qed.

Lemma grows_weaken tbl (p q : addr -> Prop) s s' :
  (forall a n, getn s a = Some n -> p a -> q a) -> grows tbl p s s' -> grows tbl q s s'.
Proof.
  intros Hpq H. split; try apply H.
  - intros a n Hn Hq Ht. eapply gr_node; eauto.
  - intros n Hn Hq. eapply gr_tbl; eauto.
Qed.

(** ** Loader conditions *)
Record loader_ok (E : env) (L : dump_loader) : Prop := {
  lo_cls : forall c pt i, L c = Ok (pt, i) -> pt = c \/ pt = CObject;
  lo_fn : forall c pt fn b m, L c = Ok (pt, (fn, b, m)) -> fn <> FNotHicklable;
  lo_leaf : forall c pt fn b h nx o pl,
      L c = Ok (pt, (fn, b, false)) -> create E fn h nx o = Ok pl -> p_data pl <> None /\ p_subs pl = []
}.

(** ** Well-formed dump states *)
Definition entry_ok (L : dump_loader) (s : dst) (c : cls) (e : addr) : Prop :=
  exists en b bn base fn m, getn s e = Some en /\ nd_body en = BData (DPickleCls c) /\
    nd_attrs en !! a_base_type = Some (ARef b) /\ getn s b = Some bn /\ is_group bn = false /\
    nd_name bn = base /\ ascii_encode base = Ok base /\ L c = Ok (c, (fn, base, m)) /\ c <> CObject.
Definition base_ok (s : dst) (b : bytes) (e : addr) : Prop :=
  exists n, getn s e = Some n /\ nd_name n = b /\ is_group n = false /\ ascii_encode b = Ok b.

Record wfs (L : dump_loader) (tbl : addr) (s : dst) : Prop := {
  ws_file : wf_file (d_file s);
  ws_heap : forall l, d_next s <= l -> d_heap s !! l = None;
  ws_memo_lt : forall x a, d_memo s !! x = Some a -> a < f_next (d_file s);
  ws_memo_inj : forall x y a, d_memo s !! x = Some a -> d_memo s !! y = Some a -> x = y;
  ws_memo_heap : forall x a, d_memo s !! x = Some a -> is_Some (d_heap s !! x);
  ws_tbl : exists n, getn s tbl = Some n /\ is_group n = true;
  ws_types : forall c e, alist_get c (d_types s) = Some e -> entry_ok L s c e;
  ws_bases : forall b e, alist_get b (d_bases s) = Some e -> base_ok s b e
}.

(** Datasets other than those in [p] survive. *)
Lemma grows_dataset L tbl p s s' a n :
  wfs L tbl s -> grows tbl p s s' -> getn s a = Some n -> is_group n = false -> ~ p a ->
  getn s' a = Some n.
Proof.
  intros Hw Hg Hn Hd Hp. eapply gr_node; eauto. intros ->.
  destruct (ws_tbl _ _ _ Hw) as (n' & En & Eg). congruence.
Qed.

Lemma entry_ok_grows L tbl p s s' c e :
  wfs L tbl s -> grows tbl p s s' ->
  (forall a n, p a -> getn s a = Some n -> is_group n = true) ->
  entry_ok L s c e -> entry_ok L s' c e.
Proof.
  intros Hw Hg Hp (en & b & bn & base & fn & m & H1 & H2 & H3 & H4 & H5 & H6 & H7 & H8 & H9).
  assert (is_group en = false) as H1'. { destruct en as [? ? []]; simpl in *; done. }
  assert (getn s' e = Some en) as E1.
  { eapply grows_dataset; eauto. intros Hpe. specialize (Hp _ _ Hpe H1). congruence. }
  assert (getn s' b = Some bn) as E2.
  { eapply grows_dataset; eauto. intros Hpe. specialize (Hp _ _ Hpe H4). congruence. }
  exists en, b, bn, base, fn, m. done.
Qed.
Lemma base_ok_grows L tbl p s s' c e :
  wfs L tbl s -> grows tbl p s s' ->
  (forall a n, p a -> getn s a = Some n -> is_group n = true) ->
  base_ok s c e -> base_ok s' c e.
Proof.
  intros Hw Hg Hp (n & H1 & H2 & H3 & H4).
  assert (getn s' e = Some n) as E1.
  { eapply grows_dataset; eauto. intros Hpe. specialize (Hp _ _ Hpe H1). congruence. }
  exists n. done.
Qed.

(** ** Primitive steps *)

(** A link created in a group. *)
Lemma step_create L tbl s p nm b f a :
  wfs L tbl s -> create_node (d_file s) p nm b = Ok (f, a) ->
  let s' := set_file f s in
  wfs L tbl s' /\ grows tbl (eq p) s s' /\ a = f_next (d_file s) /\ f_next f = a + 1 /\
  getn s' a = Some (Node nm ∅ b) /\
  exists pn, getn s p = Some pn /\ is_group pn = true /\ getn s' p = Some (extend pn [(nm, a)]) /\
  p < a.
Proof.
  intros Hw Hc. destruct (create_node_spec _ _ _ _ _ _ (ws_file _ _ _ Hw) Hc)
    as (pn & E1 & E2 & -> & E3 & E4 & E5 & E6 & E7).
  pose proof (ws_file _ _ _ Hw _ _ E1) as Hlt.
  assert (grows tbl (eq p) s (set_file f s)) as Hg.
  { split; simpl; try done; try lia.
    - intros c n Hn Hp Ht. unfold getn in *. simpl.
      pose proof (ws_file _ _ _ Hw _ _ Hn). rewrite E7; [done|congruence|lia].
    - intros n Hn Hp. exists []. rewrite extend_nil. unfold getn in *. simpl.
      pose proof (ws_file _ _ _ Hw _ _ Hn). rewrite E7; [done|congruence|lia]. }
  assert (forall a n, p = a -> getn s a = Some n -> is_group n = true) as Hpg.
  { intros ? ? <- Hn. unfold getn in Hn. congruence. }
  simpl. split_and!; auto; try (exists pn; split_and!; auto; lia).
  split; simpl; try apply Hw.
  - intros c n Hn. rewrite E3. destruct (decide (c = f_next (d_file s))); [lia|].
    destruct (decide (c = p)); [lia|]. rewrite E7 in Hn by done.
    pose proof (ws_file _ _ _ Hw _ _ Hn). lia.
  - intros x c Hx. pose proof (ws_memo_lt _ _ _ Hw _ _ Hx). rewrite E3. lia.
  - destruct (ws_tbl _ _ _ Hw) as (n & En & Eg). destruct (decide (p = tbl)) as [->|Hne].
    + exists (extend pn [(nm, f_next (d_file s))]). split; [done|]. by rewrite extend_group.
    + destruct (gr_tbl _ _ _ _ Hg n En) as [ls Els]; [congruence|].
      exists (extend n ls). split; [done|]. by rewrite extend_group.
  - intros c e Hce. eapply entry_ok_grows; eauto. by eapply ws_types.
  - intros c e Hce. eapply base_ok_grows; eauto. by eapply ws_bases.
Qed.

(** A function applied to an existing node. *)
Lemma upd_node_some s a g n :
  getn s a = Some n -> upd_node a g s = set_file (put_node (d_file s) a (g n)) s.
Proof. intros H. unfold upd_node. unfold getn in H. by rewrite H. Qed.
Lemma getn_upd s a g n c :
  getn s a = Some n ->
  getn (upd_node a g s) c = if decide (c = a) then Some (g n) else getn s c.
Proof.
  intros H. rewrite (upd_node_some _ _ _ _ H). unfold getn, get_node, put_node. simpl.
  case_decide; subst; [by rewrite lookup_insert|by rewrite lookup_insert_ne by congruence].
Qed.

Lemma upd_node_same a g s :
  d_heap (upd_node a g s) = d_heap s /\ d_next (upd_node a g s) = d_next s /\
  d_memo (upd_node a g s) = d_memo s /\ d_types (upd_node a g s) = d_types s /\
  d_bases (upd_node a g s) = d_bases s /\ f_next (d_file (upd_node a g s)) = f_next (d_file s).
Proof. unfold upd_node. destruct (get_node _ _); done. Qed.

(** Changing attributes of node [a], which is not the type table and not an entry of it:
    nothing the tables speak about may be touched. *)
Lemma step_attrs L tbl s a g n :
  wfs L tbl s -> getn s a = Some n -> a <> tbl ->
  (forall m, is_group (g m) = is_group m) ->
  (forall c e, alist_get c (d_types s) = Some e -> e <> a /\
      (forall en, getn s e = Some en -> nd_attrs en !! a_base_type <> Some (ARef a))) ->
  (forall c e, alist_get c (d_bases s) = Some e -> e <> a) ->
  let s' := upd_node a g s in
  wfs L tbl s' /\ grows tbl (eq a) s s' /\ getn s' a = Some (g n).
Proof.
  intros Hw Hn Ht Hg Hty Hba.
  destruct (upd_node_same a g s) as (U1 & U2 & U3 & U4 & U5 & U6).
  assert (grows tbl (eq a) s (upd_node a g s)) as Hgr.
  { split; rewrite ?U1, ?U2, ?U3, ?U4, ?U5, ?U6; try done.
    - intros c m Hm Hp _. rewrite (getn_upd _ _ _ n) by done. case_decide; [congruence|done].
    - intros m Hm Hp. exists []. rewrite extend_nil, (getn_upd _ _ _ n) by done.
      case_decide; [congruence|done]. }
  simpl. split_and!; auto.
  2: { rewrite (getn_upd _ _ _ n) by done. by rewrite decide_True. }
  split; rewrite ?U1, ?U2, ?U3, ?U4, ?U5, ?U6; try apply Hw.
  - intros c m Hm. rewrite U6. change (getn (upd_node a g s) c = Some m) in Hm.
    rewrite (getn_upd _ _ _ n) in Hm by done. case_decide; subst; eapply Hw; eauto.
  - destruct (ws_tbl _ _ _ Hw) as (m & Em & Eg). exists m.
    rewrite (getn_upd _ _ _ n) by done. rewrite decide_False by done. done.
  - intros c e Hce. destruct (ws_types _ _ _ Hw _ _ Hce)
      as (en & b & bn & base & fn & m & H1 & H2 & H3 & H4 & H5 & H6 & H7 & H8 & H9).
    destruct (Hty _ _ Hce) as [Hne Hnb].
    assert (b <> a) by (intros ->; by eapply Hnb).
    exists en, b, bn, base, fn, m. rewrite !(getn_upd _ _ _ n), !decide_False by done. done.
  - intros c e Hce. destruct (ws_bases _ _ _ Hw _ _ Hce) as (m & H1 & H2).
    exists m. rewrite (getn_upd _ _ _ n), decide_False by (done || by eapply Hba). done.
Qed.

(** In particular for a node younger than all tables. *)
Definition tables_below (lo : addr) (s : dst) : Prop :=
  (forall c e, alist_get c (d_types s) = Some e -> e < lo /\
      (forall en b, getn s e = Some en -> nd_attrs en !! a_base_type = Some (ARef b) -> b < lo)) /\
  (forall c e, alist_get c (d_bases s) = Some e -> e < lo).

Lemma wfs_tables_below L tbl s : wfs L tbl s -> tables_below (f_next (d_file s)) s.
Proof.
  intros Hw. split.
  - intros c e Hce. destruct (ws_types _ _ _ Hw _ _ Hce)
      as (en & b & bn & base & fn & m & H1 & H2 & H3 & H4 & H5 & H6 & H7 & H8 & H9).
    split; [by eapply Hw|]. intros en' b' H1' H3'. simplify_eq. by eapply Hw.
  - intros c e Hce. destruct (ws_bases _ _ _ Hw _ _ Hce) as (m & H1 & H2). by eapply Hw.
Qed.

(** Temporary objects. *)
Lemma temps_heap_lookup ts : forall h nx l,
  temps_heap h nx ts !! l =
    if decide (nx <= l /\ l < nx + N.of_nat (length ts)) then ts !! N.to_nat (l - nx) else h !! l.
Proof.
  intros h nx. unfold temps_heap, enumerate.
  assert (forall (i : N) (h' : heap) (l : loc),
    foldl (fun (h : heap) '(i, o) => <[nx + i := o]> h) h'
      ((fix go i l := match l with [] => [] | x :: r => (i, x) :: go (i + 1) r end) i ts) !! l =
    if decide (nx + i <= l /\ l < nx + i + N.of_nat (length ts))
    then ts !! N.to_nat (l - nx - i) else h' !! l) as H.
  { induction ts as [|t ts IH]; intros i h' l; simpl.
    - rewrite decide_False by lia. done.
    - rewrite IH. destruct (decide (l = nx + i)) as [->|Hne].
      + rewrite decide_False by lia. rewrite lookup_insert. rewrite decide_True by lia.
        replace (nx + i - nx - i) with 0 by lia. done.
      + destruct (decide (nx + (i + 1) <= l /\ l < nx + (i + 1) + N.of_nat (length ts))).
        * rewrite decide_True by lia.
          replace (N.to_nat (l - nx - i)) with (S (N.to_nat (l - nx - (i + 1)))) by lia. done.
        * rewrite decide_False by lia. by rewrite lookup_insert_ne by congruence. }
  intros l. rewrite H. rewrite !N.add_0_r, N.sub_0_r. done.
Qed.

Lemma put_temps_spec L tbl s ts :
  wfs L tbl s -> wfs L tbl (put_temps ts s) /\ grows tbl (fun _ => False) s (put_temps ts s) /\
  (forall i t, ts !! i = Some t -> d_heap (put_temps ts s) !! (d_next s + N.of_nat i) = Some t).
Proof.
  intros Hw.
  assert (d_heap s ⊆ d_heap (put_temps ts s)) as Hsub.
  { apply map_subseteq_spec. intros l o Hl. simpl. rewrite temps_heap_lookup.
    rewrite decide_False; [done|]. intros [H1 _]. rewrite (ws_heap _ _ _ Hw) in Hl by done. done. }
  split_and!.
  - split; simpl; try apply Hw.
    + intros l Hl. rewrite temps_heap_lookup. rewrite decide_False by lia. apply Hw. lia.
    + intros x a Hx. destruct (ws_memo_heap _ _ _ Hw _ _ Hx) as [o Ho].
      exists o. eapply lookup_weaken; [exact Ho|exact Hsub].
  - split; simpl; try done; try lia. intros n Hn _. exists []. by rewrite extend_nil.
  - intros i t Ht. simpl. rewrite temps_heap_lookup.
    pose proof (lookup_lt_Some _ _ _ Ht). rewrite decide_True by lia.
    replace (N.to_nat _) with i by lia. done.
Qed.

(** ** store_type *)
Lemma base_entry_spec L tbl kw base s s' r :
  wfs L tbl s -> base_entry tbl kw base s = (s', r) ->
  wfs L tbl s' /\ grows tbl (eq tbl) s s' /\
  (exists n ls, getn s tbl = Some n /\ getn s' tbl = Some (extend n ls)) /\
  d_memo s' = d_memo s /\ d_heap s' = d_heap s /\ d_next s' = d_next s /\ d_types s' = d_types s /\
  (forall a, r = Ok a -> base_ok s' base a /\ a < f_next (d_file s')).
Proof.
  intros Hw. destruct (ws_tbl _ _ _ Hw) as (tn & Etn & Egn).
  assert (wfs L tbl s /\ grows tbl (eq tbl) s s /\
    (exists n ls, getn s tbl = Some n /\ getn s tbl = Some (extend n ls))) as Hsame.
  { split_and!; [done|apply grows_refl|]. exists tn, []. by rewrite extend_nil. }
  unfold base_entry. destruct (alist_get base (d_bases s)) as [b|] eqn:Eb.
  { intros [= <- <-]. destruct Hsame as (?&?&?). split_and!; auto.
    intros a [= <-]. destruct (ws_bases _ _ _ Hw _ _ Eb) as (n & E1 & E2 & E3). split; [by exists n|].
    by eapply Hw. }
  destruct (ascii_encode base) as [nm|] eqn:Ea.
  2: { intros [= <- <-]. destruct Hsame as (?&?&?). split_and!; auto. intros ? [=]. }
  destruct (create_dataset _ _ _ _ _) as [[f b]|] eqn:Ec.
  2: { intros [= <- <-]. destruct Hsame as (?&?&?). split_and!; auto. intros ? [=]. }
  intros [= <- <-]. apply create_dataset_node in Ec.
  assert (nm = base) as ->. { unfold ascii_encode in Ea. destruct (forallb _ _); by inversion Ea. }
  destruct (step_create _ _ _ _ _ _ _ _ Hw Ec) as (W1 & G1 & -> & F1 & N1 & pn & P1 & P2 & P3 & P4).
  assert (grows tbl (eq tbl) s (Dst (d_heap s) (d_next s) f (d_memo s) (d_types s)
            ((base, f_next (d_file s)) :: d_bases s))) as G.
  { split; try apply G1. simpl. intros c e Hce. case_decide; [|done]. subst. congruence. }
  split_and!; auto.
  - split; try apply W1.
    intros c e. simpl. case_decide as Hc.
    + intros [= <-]. subst. eexists. split_and!; [exact N1|done..].
    + apply (ws_bases _ _ _ W1).
  - exists pn, [(base, f_next (d_file s))]. split; [done|]. exact P3.
  - intros a [= <-]. split; [|simpl; lia]. eexists. split_and!; [exact N1|done..].
Qed.

(** Node [a] is neither a type table entry nor a base_type entry. *)
Definition not_entry (a : addr) (s : dst) : Prop :=
  (forall c e, alist_get c (d_types s) = Some e -> e <> a /\
      (forall en, getn s e = Some en -> nd_attrs en !! a_base_type <> Some (ARef a))) /\
  (forall c e, alist_get c (d_bases s) = Some e -> e <> a).
Lemma not_entry_upd a g n s : getn s a = Some n -> not_entry a s -> not_entry a (upd_node a g s).
Proof.
  intros Hn [H1 H2]. destruct (upd_node_same a g s) as (U1 & U2 & U3 & U4 & U5 & U6).
  split; rewrite ?U4, ?U5; [|done]. intros c e Hce. destruct (H1 _ _ Hce) as [A B]. split; [done|].
  intros en. rewrite (getn_upd _ _ _ n) by done. rewrite decide_False by done. apply B.
Qed.
Lemma below_not_entry a s : tables_below a s -> not_entry a s.
Proof.
  intros Htb. split.
  - intros c0 e0 H0. destruct (proj1 Htb _ _ H0) as [H1 H2]. split; [lia|].
    intros en H3 H4. specialize (H2 _ _ H3 H4). lia.
  - intros c0 e0 H0. pose proof (proj2 Htb _ _ H0). lia.
Qed.

Definition with_type (te : option addr) (n : node) : node :=
  match te with Some e => set_attr a_type (ARef e) n | None => n end.

Lemma store_type_spec E L tbl kw a pt base fn m c s s' r n :
  loader_ok E L -> wfs L tbl s -> L c = Ok (pt, (fn, base, m)) -> getn s a = Some n ->
  tables_below a s -> a <> tbl ->
  store_type E tbl kw a pt base s = (s', r) ->
  wfs L tbl s' /\ grows tbl (fun x => x = a) s s' /\
  d_memo s' = d_memo s /\ d_heap s' = d_heap s /\ d_next s' = d_next s /\
  (r = Ok tt -> exists te, getn s' a = Some (with_type te n) /\
      match te with
      | None => pt = CObject
      | Some e => pt <> CObject /\ alist_get pt (d_types s') = Some e
      end /\ not_entry a s') /\
  (r <> Ok tt -> getn s' a = Some n).
Proof.
  intros HL Hw HLc Hn Htb Hat. unfold store_type. case_bool_decide as Hobj.
  { intros [= <- <-]. split_and!; auto using grows_refl. intros _. exists None. split_and!; auto using below_not_entry. }
  destruct (alist_get pt (d_types s)) as [e|] eqn:Et.
  { intros [= <- <-].
    destruct (step_attrs L tbl s a (set_attr a_type (ARef e)) n Hw Hn Hat) as (W & G & N1).
    - intros ?. done.
    - intros c0 e0 H0. destruct (proj1 Htb _ _ H0) as [H1 H2]. split; [lia|].
      intros en H3 H4. specialize (H2 _ _ H3 H4). lia.
    - intros c0 e0 H0. pose proof (proj2 Htb _ _ H0). lia.
    - destruct (upd_node_same a (set_attr a_type (ARef e)) s) as (U1 & U2 & U3 & U4 & U5 & U6).
      split_and!; auto.
      + eapply grows_weaken; [|exact G]. simpl. congruence.
      + intros _. exists (Some e). split; [exact N1|]. split; [split; [done|]|].
        * by rewrite U4.
        * eapply not_entry_upd; [exact Hn|]. by apply below_not_entry.
      + intros Hr. by destruct Hr. }
  case_bool_decide as Hbase.
  { intros [= <- <-]. split_and!; auto using grows_refl; done. }
  destruct (e_pickles_cls E pt); simpl.
  2: { intros [= <- <-]. split_and!; auto using grows_refl; done. }
  destruct (create_dataset _ _ _ _ _) as [[f e]|] eqn:Ec.
  2: { intros [= <- <-]. split_and!; auto using grows_refl; done. }
  apply create_dataset_node in Ec.
  destruct (step_create _ _ _ _ _ _ _ _ Hw Ec) as (W1 & G1 & -> & F1 & N1 & pn & P1 & P2 & P3 & P4).
  set (e := f_next (d_file s)) in *.
  assert (a < e) as Hae. { by eapply Hw. }
  assert (getn (set_file f s) a = Some n) as Hn1. { eapply gr_node; eauto; congruence. }
  destruct (base_entry tbl kw base (set_file f s)) as [s1 r1] eqn:Eb.
  destruct (base_entry_spec _ _ _ _ _ _ _ W1 Eb) as (W2 & G2 & (tn & ls & T1 & T2) & M2 & H2 & X2 & Y2 & B2).
  assert (getn s1 a = Some n) as Hn2. { eapply gr_node; eauto; congruence. }
  assert (getn s1 e = Some (Node (N_dec (table_size (d_file s) tbl)) ∅ (BData (DPickleCls pt)))) as Ne2.
  { eapply gr_node; eauto; lia. }
  assert (grows tbl (fun x => x = a) s s1) as G12.
  { assert (grows tbl (eq tbl) s s1) as G.
    { eapply grows_weaken; [|eapply grows_trans; [exact G1|exact G2]]. simpl. naive_solver. }
    split; try apply G.
    - intros x nx0 Hx _ Hxt. eapply gr_node; eauto.
    - intros n0 Hn0 _. simplify_eq.
      change (getn s tbl) with (get_node (d_file s) tbl) in *.
      exists ([(N_dec (table_size (d_file s) tbl), e)] ++ ls).
      rewrite <- extend_app. rewrite T2. done. }
  destruct r1 as [b|x].
  2: { intros [= <- <-]. simpl in *. split_and!; auto; try congruence; done. }
  destruct (B2 _ eq_refl) as (Hb & Hblt).
  intros [= <- <-].
  set (s2 := upd_node e (set_attr a_base_type (ARef b)) s1) in *.
  assert (d_types s1 = d_types s) as Y2' by exact Y2.
  assert (Hes1 : forall c0 e0, alist_get c0 (d_types s1) = Some e0 -> e0 < e /\
      (forall en, getn s1 e0 = Some en -> nd_attrs en !! a_base_type <> Some (ARef e))).
  { intros c0 e0 H0. rewrite Y2' in H0. destruct (wfs_tables_below _ _ _ Hw) as [Q1 Q2].
    destruct (Q1 _ _ H0) as [Q3 Q4]. split; [done|]. intros en Hen Hba.
    destruct (ws_types _ _ _ Hw _ _ H0) as (en0 & b0 & bn & base0 & fn0 & m0 & R1 & R2 & R3 & R4 & R5 & R6 & R7 & R8 & R9).
    assert (getn s1 e0 = Some en0).
    { eapply (grows_dataset L tbl (fun x => x = a)); [exact Hw|exact G12|done| |].
      - destruct en0 as [? ? []]; simpl in *; done.
      - intros ->. destruct (proj1 Htb _ _ H0). lia. }
    simplify_eq. specialize (Q4 _ _ R1 Hba). unfold e in Q4. lia. }
  assert (Hbs1 : forall c0 e0, alist_get c0 (d_bases s1) = Some e0 -> e0 <> e).
  { intros c0 e0 H0 ->. destruct (ws_bases _ _ _ W2 _ _ H0) as (nn & R1 & R2 & R3 & R4).
    rewrite Ne2 in R1. inversion R1; subst nn.
    unfold base_entry in Eb. simpl in Eb.
    (* the entry node is not a base entry: base entries of s are older, the new one younger *)
    destruct (alist_get base (d_bases s)) eqn:Eold.
    - inversion Eb; subst s1 b. simpl in H0. pose proof (proj2 (wfs_tables_below _ _ _ Hw) _ _ H0). lia.
    - destruct (ascii_encode base) eqn:Ea; [|done].
      destruct (create_dataset f tbl _ _ _) as [[f2 b2]|] eqn:Ec2; [|done].
      inversion Eb; subst s1 b. simpl in H0.
      apply create_dataset_node in Ec2.
      destruct (create_node_spec _ _ _ _ _ _ (ws_file _ _ _ W1) Ec2) as (? & ? & ? & -> & _).
      simpl in *. case_decide.
      + inversion H0. lia.
      + pose proof (proj2 (wfs_tables_below _ _ _ Hw) _ _ H0). lia. }
  destruct (step_attrs L tbl s1 e (set_attr a_base_type (ARef b)) _ W2 Ne2) as (W3 & G3 & N3).
  { lia. }
  { done. }
  { intros c0 e0 H0. destruct (Hes1 _ _ H0). split; [lia|done]. }
  { done. }
  fold s2 in W3, G3, N3.
  destruct (upd_node_same e (set_attr a_base_type (ARef b)) s1) as (U1 & U2 & U3 & U4 & U5 & U6).
  fold s2 in U1, U2, U3, U4, U5, U6.
  assert (b <> e) as Hbe.
  { intros ->. destruct Hb as (bn & B3 & B4 & B5 & B6).
    unfold base_entry in Eb. simpl in Eb. destruct (alist_get base (d_bases s)) eqn:Eold.
    - inversion Eb; subst. pose proof (proj2 (wfs_tables_below _ _ _ Hw) _ _ Eold). lia.
    - destruct (ascii_encode base) eqn:Ea; [|done].
      destruct (create_dataset f tbl _ _ _) as [[f2 b2]|] eqn:Ec2; [|done].
      inversion Eb as [[Hx Hy]]. apply create_dataset_node in Ec2.
      destruct (create_node_spec _ _ _ _ _ _ (ws_file _ _ _ W1) Ec2) as (? & ? & ? & -> & _).
      simpl in *. lia. }
  assert (pt = c \/ pt = CObject) as [->|?] by (by eapply lo_cls); [|done].
  assert (entry_ok L s2 c e) as Hent.
  { destruct Hb as (bn & B3 & B4 & B5 & B6).
    eexists _, b, bn, base, fn, m. split_and!; [exact N3|done| |..]; auto.
    unfold s2. rewrite (getn_upd _ _ _ _ b Ne2). by rewrite decide_False. }
  set (s3 := Dst (d_heap s2) (d_next s2) (d_file s2) (d_memo s2) ((c, e) :: d_types s2) (d_bases s2)).
  assert (wfs L tbl s3) as W4.
  { split; try apply W3. simpl. intros c0 e0. case_decide.
    - intros [= <-]. subst c0. exact Hent.
    - apply (ws_types _ _ _ W3). }
  assert (getn s3 a = Some n) as Hn3.
  { change (getn s3 a) with (getn s2 a). unfold s2. rewrite (getn_upd _ _ _ _ a Ne2).
    rewrite decide_False by lia. done. }
  assert (not_entry a s3) as Hne3.
  { split.
  { intros c0 e0. simpl. case_decide as Hd.
    - intros [= <-]. subst c0. split; [lia|]. intros en Hen Hab.
      change (getn s2 e = Some en) in Hen. rewrite N3 in Hen. inversion Hen; subst en.
      unfold set_attr in Hab. simpl in Hab. rewrite lookup_insert in Hab.
      inversion Hab; subst b. destruct Hb as (bn & B3 & B4 & B5 & B6).
      unfold base_entry in Eb. simpl in Eb. destruct (alist_get base (d_bases s)) eqn:Eold.
      + inversion Eb; subst. pose proof (proj2 Htb _ _ Eold). lia.
      + destruct (ascii_encode base) eqn:Ea; [|done].
        destruct (create_dataset f tbl _ _ _) as [[f2 b2]|] eqn:Ec2; [|done].
        inversion Eb as [[Hx Hy]]. apply create_dataset_node in Ec2.
        destruct (create_node_spec _ _ _ _ _ _ (ws_file _ _ _ W1) Ec2) as (? & ? & ? & Hb2 & _).
        simpl in *. lia.
    - rewrite U4, Y2'. intros H0. destruct (proj1 Htb _ _ H0) as [Q1 Q2]. split; [lia|].
      intros en Hen Hab. change (getn s2 e0 = Some en) in Hen.
      destruct (ws_types _ _ _ Hw _ _ H0) as (en0 & b0 & bn & base0 & fn0 & m0 & R1 & R2 & R3 & R4 & R5 & R6 & R7 & R8 & R9).
      assert (getn s1 e0 = Some en0).
      { eapply (grows_dataset L tbl (fun x => x = a)); [exact Hw|exact G12|done| |].
        - destruct en0 as [? ? []]; simpl in *; done.
        - lia. }
      unfold s2 in Hen. rewrite (getn_upd _ _ _ _ e0 Ne2) in Hen.
      rewrite decide_False in Hen by (intros ->; pose proof (ws_file _ _ _ Hw _ _ R1); lia).
      simplify_eq. specialize (Q2 _ _ R1 Hab). lia. }
  { simpl. rewrite U5. intros c0 e0 H0.
    destruct (ws_bases _ _ _ W2 _ _ H0) as (nn & R1 & R2 & R3 & R4).
    unfold base_entry in Eb. simpl in Eb.
    destruct (alist_get base (d_bases s)) eqn:Eold.
    - inversion Eb; subst s1 b. simpl in H0. pose proof (proj2 Htb _ _ H0). lia.
    - destruct (ascii_encode base) eqn:Ea; [|done].
      destruct (create_dataset f tbl _ _ _) as [[f2 b2]|] eqn:Ec2; [|done].
      inversion Eb; subst s1 b. simpl in H0.
      apply create_dataset_node in Ec2.
      destruct (create_node_spec _ _ _ _ _ _ (ws_file _ _ _ W1) Ec2) as (? & ? & ? & -> & _).
      simpl in *. case_decide.
      + inversion H0. lia.
      + pose proof (proj2 Htb _ _ H0). lia. } }
  destruct (step_attrs L tbl s3 a (set_attr a_type (ARef e)) n W4 Hn3 Hat) as (W5 & G5 & N5).
  { done. }
  { apply Hne3. }
  { apply Hne3. }
  destruct (upd_node_same a (set_attr a_type (ARef e)) s3) as (V1 & V2 & V3 & V4 & V5 & V6).
  assert (grows tbl (fun x => x = a) s (upd_node a (set_attr a_type (ARef e)) s3)) as Gall.
  { assert (grows tbl (eq e) s1 s3) as G3'.
    { split; try apply G3. simpl. rewrite U4. intros c0 e0 H0. case_decide; [|done].
      subst. rewrite Y2' in H0. congruence. }
    eapply grows_weaken; [|eapply grows_trans; [exact G12|eapply grows_trans; [exact G3'|exact G5]]].
    simpl. intros x nx0 Hx [->|[<-|<-]]; [done| |done]. pose proof (ws_file _ _ _ Hw _ _ Hx). lia. }
  split_and!; auto; try (rewrite ?V1, ?V2, ?V3; simpl; rewrite ?U1, ?U2, ?U3; done).
  - intros _. exists (Some e). split; [exact N5|]. split; [split; [done|]|].
    + rewrite V4. simpl. by rewrite decide_True.
    + eapply not_entry_upd; [exact Hn3|exact Hne3].
Qed.

(** ** run_plan *)
Definition plan_body (p : plan) : body :=
  match p_data p with Some d => BData d | None => BGroup [] end.

Lemma tables_below_mono lo lo' s : tables_below lo s -> lo <= lo' -> tables_below lo' s.
Proof.
  intros [H1 H2] Hle. split.
  - intros c e Hce. destruct (H1 _ _ Hce) as [A B]. split; [lia|]. intros en b X Y.
    specialize (B _ _ X Y). lia.
  - intros c e Hce. specialize (H2 _ _ Hce). lia.
Qed.

Lemma attrs_step L tbl s a g n :
  wfs L tbl s -> getn s a = Some n -> a <> tbl -> (forall m, is_group (g m) = is_group m) ->
  tables_below a s ->
  let s' := upd_node a g s in
  wfs L tbl s' /\ grows tbl (eq a) s s' /\ getn s' a = Some (g n) /\ tables_below a s' /\
  d_memo s' = d_memo s /\ d_heap s' = d_heap s /\ d_next s' = d_next s.
Proof.
  intros Hw Hn Ht Hg Htb. destruct (upd_node_same a g s) as (U1 & U2 & U3 & U4 & U5 & U6).
  destruct (step_attrs L tbl s a g n) as (W & G & N1); auto.
  - intros c e Hce. destruct (proj1 Htb _ _ Hce) as [A B]. split; [lia|].
    intros en H1 H2. specialize (B _ _ H1 H2). lia.
  - intros c e Hce. pose proof (proj2 Htb _ _ Hce). lia.
  - simpl. split_and!; auto. split.
    + rewrite U4. intros c e Hce. destruct (proj1 Htb _ _ Hce) as [A B]. split; [lia|].
      intros en b. rewrite (getn_upd _ _ _ n) by done. rewrite decide_False by lia. apply B.
    + rewrite U5. apply Htb.
Qed.

Lemma run_plan_spec L tbl kw parent nm p s s' r :
  wfs L tbl s -> parent <> tbl -> run_plan kw parent nm p s = (s', r) ->
  wfs L tbl s' /\ grows tbl (eq parent) s s' /\ d_memo s' = d_memo s /\
  d_heap s' = d_heap (put_temps (p_temps p) s) /\ d_next s' = d_next s + N.of_nat (length (p_temps p)) /\
  (forall pn, getn s parent = Some pn -> exists ls, getn s' parent = Some (extend pn ls) /\ (length ls <= 1)%nat) /\
  match r with
  | Ok a => a = f_next (d_file s) /\ a < f_next (d_file s') /\ tables_below a s' /\ p_fail p = None /\
      getn s' a = Some (Node nm (attrs_update (p_attrs p) ∅) (plan_body p)) /\
      exists pn, getn s parent = Some pn /\ is_group pn = true /\
                 getn s' parent = Some (extend pn [(nm, a)])
  | Err _ => True
  end.
Proof.
  intros Hw Hpt. unfold run_plan.
  destruct (put_temps_spec L tbl s (p_temps p) Hw) as (W0 & G0 & T0).
  set (s0 := put_temps (p_temps p) s) in *.
  set (cr := match p_data p with
             | Some d => create_dataset (d_file s) parent nm (if p_nocomp p then no_compression kw else kw) d
             | None => create_node (d_file s) parent nm (BGroup [])
             end).
  assert (cr = match cr with Ok (f, a) => create_node (d_file s0) parent nm (plan_body p) | Err e => Err e end) as Hcr.
  { unfold cr, plan_body. destruct (p_data p) as [d|]; simpl.
    - destruct (create_dataset _ _ _ _ _) as [[f a]|] eqn:Ec; [|done].
      by apply create_dataset_node in Ec.
    - destruct (create_node _ _ _ _) as [[f a]|] eqn:Ec; done. }
  destruct cr as [[f a]|e].
  2: { intros [= <- <-]. split_and!; auto.
    - eapply grows_weaken; [|exact G0]. done.
    - intros pn Hpn. exists []. rewrite extend_nil. split; [done|simpl; lia]. }
  symmetry in Hcr.
  destruct (step_create _ _ _ _ _ _ _ _ W0 Hcr) as (W1 & G1 & -> & F1 & N1 & pn & P1 & P2 & P3 & P4).
  set (a := f_next (d_file s0)) in *.
  assert (a <> tbl) as Hat. { destruct (ws_tbl _ _ _ W0) as (tn & Etn & _). pose proof (ws_file _ _ _ W0 _ _ Etn). lia. }
  assert (tables_below a (set_file f s0)) as Htb.
  { destruct (wfs_tables_below _ _ _ W0) as [A B]. split; [|exact B].
    intros c e Hce. simpl in Hce. destruct (A _ _ Hce) as [A1 A2]. split; [done|].
    intros en b Hen Hab. destruct (ws_types _ _ _ W0 _ _ Hce)
      as (en0 & b0 & bn & base0 & fn0 & m0 & R1 & R2 & R3 & R4 & R5 & R6 & R7 & R8 & R9).
    assert (getn (set_file f s0) e = Some en0).
    { eapply grows_dataset; [exact W0|exact G1|done| |].
      - destruct en0 as [? ? []]; simpl in *; done.
      - intros <-. rewrite P1 in R1. inversion R1; subst. destruct en0 as [? ? []]; simpl in *; done. }
    simplify_eq. by eapply A2. }
  destruct (attrs_step L tbl _ a (set_attrs (p_attrs p)) _ W1 N1 Hat (fun _ => eq_refl) Htb)
    as (W2 & G2 & N2 & Htb2 & M2 & H2 & X2).
  assert (getn (upd_node a (set_attrs (p_attrs p)) (set_file f s0)) parent = Some (extend pn [(nm, a)])) as Hpar.
  { rewrite (getn_upd _ _ _ _ parent N1). rewrite decide_False by lia. done. }
  assert (grows tbl (eq parent) s (upd_node a (set_attrs (p_attrs p)) (set_file f s0))) as Gall.
  { eapply grows_weaken; [|eapply grows_trans; [exact G0|eapply grows_trans; [exact G1|exact G2]]].
    simpl. intros x n Hx [[]|[?|<-]]; [done|].
    pose proof (ws_file _ _ _ Hw _ _ Hx). change (d_file s0) with (d_file s) in a. lia. }
  destruct (upd_node_same a (set_attrs (p_attrs p)) (set_file f s0)) as (U1 & U2 & U3 & U4 & U5 & U6).
  assert (forall pn0, getn s parent = Some pn0 -> exists ls,
    getn (upd_node a (set_attrs (p_attrs p)) (set_file f s0)) parent = Some (extend pn0 ls) /\ (length ls <= 1)%nat).
  { intros pn0 Hpn0. exists [(nm, a)]. rewrite Hpar. change (getn s0 parent) with (getn s parent) in P1.
    simplify_eq. split; [congruence|simpl; lia]. }
  destruct (p_fail p) as [e|] eqn:Ef; intros [= <- <-].
  - split_and!; auto.
  - split_and!; auto.
    + rewrite U6. simpl. lia.
    + exists pn. done.
Qed.

(** ** dump_ref *)
Lemma dump_ref_spec L tbl parent nm at_ t s s' r :
  wfs L tbl s -> parent <> tbl -> dump_ref parent nm at_ t s = (s', r) ->
  wfs L tbl s' /\ grows tbl (eq parent) s s' /\ d_memo s' = d_memo s /\
  d_heap s' = d_heap s /\ d_next s' = d_next s /\
  (forall pn, getn s parent = Some pn -> exists ls, getn s' parent = Some (extend pn ls) /\ (length ls <= 1)%nat) /\
  (r = Ok tt -> exists c, f_next (d_file s) <= c /\ c < f_next (d_file s') /\
      getn s' c = Some (Node nm (attrs_update at_ ∅) (BData (DRefTo t))) /\
      exists pn, getn s parent = Some pn /\ is_group pn = true /\
                 getn s' parent = Some (extend pn [(nm, c)])).
Proof.
  intros Hw Hpt. unfold dump_ref.
  destruct (create_dataset _ _ _ _ _) as [[f a]|] eqn:Ec.
  2: { intros [= <- <-]. split_and!; auto using grows_refl; [|done].
    intros pn Hpn. exists []. rewrite extend_nil. split; [done|simpl; lia]. }
  intros [= <- <-].
  assert (run_plan [] parent nm (plan_data false (DRefTo t) at_) s =
          (upd_node a (set_attrs at_) (set_file f (put_temps [] s)), Ok a)) as Hrp.
  { unfold run_plan. simpl. rewrite Ec. done. }
  destruct (run_plan_spec _ _ _ _ _ _ _ _ _ Hw Hpt Hrp) as (A & B & C & D & X & F & -> & K & T & _ & N1 & pn & P).
  assert (upd_node (f_next (d_file s)) (set_attrs at_) (set_file f (put_temps [] s)) =
          upd_node (f_next (d_file s)) (set_attrs at_) (set_file f s)) as Heq.
  { f_equal. unfold put_temps, set_file. simpl. rewrite N.add_0_r. destruct s; done. }
  rewrite Heq in *. simpl in *.
  split_and!; auto; try lia.
  - intros _. exists (f_next (d_file s)). split_and!; auto; try lia. exists pn. done.
Qed.

(** ** Attributes given to sub items *)
Inductive at_form : list (pystr * attrv) -> Prop :=
| at_none : at_form []
| at_list i : at_form [(a_item_index, AInt i)]
| at_dict i b : at_form [(a_key_idx, AInt i); (a_key_base_type, ABytes b)].
Lemma at_form_without at_ : at_form at_ -> without_type at_ = at_.
Proof. destruct 1; done. Qed.
