(** * Table: the type table of a dump has one entry per class *)
From Verif Require Import Base Utf8 Dec Num PyObj H5 Env Create Dump LoadFns LoadModel Registry Spec DumpProofs DumpStored.
From Coq Require Import Lia ZifyBool ZifyN.
Local Open Scope N_scope.
Local Open Scope list_scope.

Definition records (f : file) (e : addr) (c : cls) : Prop :=
  exists n, get_node f e = Some n /\ nd_body n = BData (DPickleCls c).

Section Once.
Context (tbl : addr).

Definition once (s : dst) : Prop :=
  exists tn, getn s tbl = Some tn /\ (forall nm e, (nm, e) ∈ links tn -> e < f_next (d_file s)) /\
    forall nm e c, (nm, e) ∈ links tn -> records (d_file s) e c -> alist_get c (d_types s) = Some e.

Lemma once_step s s' :
  once s -> d_types s' = d_types s -> f_next (d_file s) <= f_next (d_file s') ->
  (forall tn, getn s tbl = Some tn -> exists tn', getn s' tbl = Some tn' /\ links tn' = links tn) ->
  (forall e c, e < f_next (d_file s) -> records (d_file s') e c -> records (d_file s) e c) -> once s'.
Proof.
  intros (tn & T1 & T2 & T3) Ht Hf Hl Hr. destruct (Hl _ T1) as (tn' & L1 & L2). exists tn'. rewrite L2, Ht. split; [done|]. split.
  - intros nm e He. specialize (T2 _ _ He). lia.
  - intros nm e c He Hc. eapply T3; [exact He|]. apply Hr; [|done]. by eapply T2.
Qed.

Lemma once_upd a g s : (forall n, nd_body (g n) = nd_body n) -> once s -> once (upd_node a g s).
Proof.
  intros Hg H. destruct (getn s a) as [n|] eqn:Ea.
  2: { unfold upd_node. unfold getn in Ea. by rewrite Ea. }
  destruct (upd_node_same a g s) as (_ & _ & _ & U4 & _ & U6).
  eapply once_step; [exact H|done|by rewrite U6| |].
  - intros tn Htn. rewrite (getn_upd _ _ _ _ _ Ea). case_decide; [subst a|by exists tn]. rewrite Htn in Ea. inversion Ea; subst n.
    exists (g tn). split; [done|]. unfold links. by rewrite Hg.
  - intros e c _ (en & He & Hb). change (get_node (d_file (upd_node a g s)) e) with (getn (upd_node a g s) e) in He.
    rewrite (getn_upd _ _ _ _ _ Ea) in He. case_decide; [subst e|by exists en]. inversion He; subst en. rewrite Hg in Hb. by exists n.
Qed.

(** A new node elsewhere. *)
Lemma once_create s parent nm b f' a s' :
  wf_file (d_file s) -> once s -> parent <> tbl -> create_node (d_file s) parent nm b = Ok (f', a) ->
  d_file s' = f' -> d_types s' = d_types s -> once s'.
Proof.
  intros Hwf H Hp Hc Hf Ht. destruct (create_node_spec _ _ _ _ _ _ Hwf Hc) as (pn & C1 & C2 & -> & C4 & C5 & C6 & C7 & C8).
  eapply once_step; [exact H|done|rewrite Hf; lia| |].
  - intros tn Htn. pose proof (Hwf _ _ Htn). unfold getn in *. rewrite Hf, C8 by (try congruence; lia). by exists tn.
  - intros e c He (en & Hen & Hb). rewrite Hf in Hen. destruct (decide (e = parent)) as [-> |Hne].
    + rewrite C6 in Hen. inversion Hen; subst en. unfold extend in Hb. unfold is_group in C2. by destruct (nd_body pn).
    + rewrite C8 in Hen by (try done; lia). by exists en.
Qed.

(** A new entry in the table. *)
Lemma once_entry s nm b f' a s' :
  wf_file (d_file s) -> once s -> create_node (d_file s) tbl nm b = Ok (f', a) -> d_file s' = f' ->
  (forall c e, alist_get c (d_types s) = Some e -> alist_get c (d_types s') = Some e) ->
  (forall c, b = BData (DPickleCls c) -> alist_get c (d_types s') = Some a) -> once s'.
Proof.
  intros Hwf (tn & T1 & T2 & T3) Hc Hf Ht Hb. destruct (create_node_spec _ _ _ _ _ _ Hwf Hc) as (pn & C1 & C2 & -> & C4 & C5 & C6 & C7 & C8).
  unfold getn in T1. rewrite C1 in T1. inversion T1; subst pn. exists (extend tn [(nm, f_next (d_file s))]). unfold getn. rewrite Hf. split; [done|].
  assert (links (extend tn [(nm, f_next (d_file s))]) = links tn ++ [(nm, f_next (d_file s))]) as ->.
  { unfold links, extend. unfold is_group in C2. by destruct (nd_body tn). }
  split.
  - intros nm' e [He|He]%elem_of_app; [specialize (T2 _ _ He); lia|]. apply elem_of_list_singleton in He. inversion He; subst. lia.
  - intros nm' e c He (en & Hen & Hbody). apply elem_of_app in He as [He|He].
    + pose proof (T2 _ _ He) as Hlt. apply Ht. eapply T3; [exact He|]. destruct (decide (e = tbl)) as [-> |Hne].
      * rewrite C6 in Hen. inversion Hen; subst en. unfold extend in Hbody. unfold is_group in C2. by destruct (nd_body tn).
      * rewrite C8 in Hen by (try done; lia). by exists en.
    + apply elem_of_list_singleton in He. inversion He; subst. rewrite C5 in Hen. inversion Hen; subst en. by apply Hb.
Qed.
End Once.

Section Dump.
Context (E : env) (L : dump_loader) (kw : kwargs) (tbl : addr) (HL : loader_ok E L).

Lemma base_entry_once base s s' b : wf_file (d_file s) -> once tbl s -> base_entry tbl kw base s = (s', Ok b) -> once tbl s'.
Proof.
  intros Hw Ho. unfold base_entry. destruct (alist_get base (d_bases s)); [by intros [= <- _]|].
  destruct (ascii_encode base); [|done]. destruct (create_dataset _ _ _ _ _) as [[f' e]|] eqn:Ec; [|done].
  apply create_dataset_node in Ec. intros [= <- _]. eapply once_entry; [exact Hw|exact Ho|exact Ec|done|done|]. intros c Hc. done.
Qed.
Definition set_types (T : list (cls * addr)) (s : dst) : dst := Dst (d_heap s) (d_next s) (d_file s) (d_memo s) T (d_bases s).
Lemma base_entry_types T base s : base_entry tbl kw base (set_types T s) =
  let '(s', r) := base_entry tbl kw base s in (set_types T s', r).
Proof.
  unfold base_entry. simpl. destruct (alist_get base (d_bases s)); [done|]. destruct (ascii_encode base); [|done].
  by destruct (create_dataset _ _ _ _ _) as [[f' e]|].
Qed.
Lemma upd_node_types T a g s : upd_node a g (set_types T s) = set_types T (upd_node a g s).
Proof. unfold upd_node. simpl. by destruct (get_node _ _). Qed.

Lemma store_type_once a pt base s s' : wf_file (d_file s) -> once tbl s -> store_type E tbl kw a pt base s = (s', Ok tt) -> once tbl s'.
Proof.
  intros Hw Ho. unfold store_type. case_bool_decide; [by intros [= <-]|].
  destruct (alist_get pt (d_types s)) eqn:Et; [intros [= <-]; by apply once_upd|].
  case_bool_decide; [done|]. destruct (negb _); [done|]. destruct (create_dataset _ _ _ _ _) as [[f' e]|] eqn:Ec; [|done].
  apply create_dataset_node in Ec. destruct (base_entry tbl kw base (set_file f' s)) as [s1 [b|]] eqn:Eb; [|done].
  intros [= <-]. apply once_upd; [done|].
  pose proof (base_entry_types ((pt, e) :: d_types s) base (set_file f' s)) as Hbt. rewrite Eb in Hbt.
  assert (d_types s1 = d_types s) as Hty.
  { revert Eb. unfold base_entry. simpl. destruct (alist_get base (d_bases s)); [by intros [= <- _]|].
    destruct (ascii_encode base); [|done]. destruct (create_dataset _ _ _ _ _) as [[f2 e2]|]; [|done]. by intros [= <- _]. }
  destruct (upd_node_same e (set_attr a_base_type (ARef b)) s1) as (_ & _ & _ & U4 & _ & _). rewrite U4, Hty.
  match goal with |- once _ ?t => change t with (set_types ((pt, e) :: d_types s) (upd_node e (set_attr a_base_type (ARef b)) s1)) end.
  rewrite <- upd_node_types. apply once_upd; [done|]. eapply base_entry_once; [|..|exact Hbt].
  - simpl. destruct (create_node_spec _ _ _ _ _ _ Hw Ec) as (pn & C1 & C2 & -> & C4 & C5 & C6 & C7 & C8).
    intros c n Hn. destruct (decide (c = tbl)) as [-> |Hc]; [specialize (Hw _ _ C1); lia|].
    destruct (decide (c = f_next (d_file s))) as [-> |Hc2]; [lia|]. rewrite C8 in Hn by done. specialize (Hw _ _ Hn). lia.
  - eapply once_entry; [exact Hw|exact Ho|exact Ec|done| |].
    + intros c e' Hc. simpl. destruct (decide (c = pt)) as [-> |Hne]; [congruence|]. done.
    + intros c [= <-]. simpl. by destruct (decide (pt = pt)).
Qed.

Lemma run_plan_once parent nm pl s s' a : wf_file (d_file s) -> parent <> tbl -> once tbl s -> run_plan kw parent nm pl s = (s', Ok a) -> once tbl s'.
Proof.
  intros Hw Hp Ho. unfold run_plan.
  destruct (match p_data pl with Some d => _ | None => _ end) as [[f' b]|] eqn:Ec; [|done].
  assert (exists bd, create_node (d_file s) parent nm bd = Ok (f', b)) as [bd Hc].
  { destruct (p_data pl); [apply create_dataset_node in Ec|]; by eexists. }
  destruct (p_fail pl); [done|]. intros [= <- _]. apply once_upd; [done|]. by eapply once_create; [exact Hw| | |exact Hc|..].
Qed.
Lemma dump_ref_once parent nm at_ t s s' : wf_file (d_file s) -> parent <> tbl -> once tbl s -> dump_ref parent nm at_ t s = (s', Ok tt) -> once tbl s'.
Proof.
  intros Hw Hp Ho. unfold dump_ref. destruct (create_dataset _ _ _ _ _) as [[f a]|] eqn:Ec; [|done]. apply create_dataset_node in Ec.
  intros [= <-]. apply once_upd; [done|]. by eapply once_create; [exact Hw| | |exact Ec|..].
Qed.
Lemma dump_node_once o parent nm at_ s s' r : wfs L tbl s -> parent <> tbl -> once tbl s ->
  dump_node E L kw tbl o parent nm at_ s = (s', Ok r) -> once tbl s'.
Proof.
  intros Hw Hp Ho. unfold dump_node. destruct (L (ocls o)) as [[pt [[fn base] memoise]]|] eqn:El; [|done].
  destruct (create E fn (d_heap s) (d_next s) o) as [pl|e] eqn:Ec.
  - destruct (run_plan kw parent nm pl s) as [s1 [b|]] eqn:Er; [|done].
    destruct (run_plan_spec _ _ _ _ _ _ _ _ _ Hw Hp Er) as (W1 & _).
    apply run_plan_once in Er; auto; [|apply Hw].
    destruct (store_type E tbl kw b pt base s1) as [s2 [[]|]] eqn:Es; [|done]. apply store_type_once in Es; auto; [|apply W1].
    intros [= <- _]. by apply once_upd.
  - destruct e; try done. apply create_nothick in Ec. by destruct (lo_fn _ _ HL _ _ _ _ _ El).
Qed.

Lemma dump_once fuel : forall x parent nm at_ s s',
  wfs L tbl s -> parent <> tbl -> at_form at_ -> once tbl s ->
  dump_ fuel E L kw tbl x parent nm at_ s = (s', Ok tt) -> once tbl s'.
Proof.
  induction fuel as [|fuel IH]; intros x parent nm at_ s s' Hw Hpt Hat Ho; [done|]. simpl.
  destruct (d_memo s !! x) as [t|] eqn:Em; [apply dump_ref_once; auto; apply Hw|].
  destruct (d_heap s !! x) as [o|] eqn:Eo; [|done].
  destruct (dump_node E L kw tbl o parent nm at_ s) as [s1 [[[a memo] subs]|e]] eqn:Ed; [|done].
  pose proof (dump_node_once _ _ _ _ _ _ _ Hw Hpt Ho Ed) as O1.
  destruct (dump_node_spec _ _ _ _ HL _ _ _ _ _ _ _ Hw Hpt Ed)
    as (W1 & G1 & M1 & P1 & -> & Ha & Hta & pt & fn & base & pl & te & EL & Ecr & Hpf & <- & Hh & Hn & Hte & Hta' & pn & Hpn & Hpg & Hpn').
  set (a := f_next (d_file s)) in *. set (s2 := if memo then set_memo x a s1 else s1).
  assert (wfs L tbl s2) as W2.
  { unfold s2. destruct memo; [|done]. apply (set_memo_wfs L tbl); auto.
    - exists o. eapply lookup_weaken; [exact Eo|apply G1].
    - congruence.
    - intros y Hy. rewrite M1 in Hy. pose proof (ws_memo_lt _ _ _ Hw _ _ Hy). lia. }
  assert (once tbl s2) as O2 by (unfold s2; by destruct memo).
  intros Hs. pose proof (create_at _ _ _ _ _ _ Ecr) as Hats. assert (a <> tbl) as Hat' by lia.
  clear -IH Hs O2 W2 Hats Hat' HL. revert W2 O2 Hs. generalize s2. clear s2.
  induction (p_subs pl) as [|[[nm' y] at'] ss IHs]; intros s2 W2 O2; cbn [dump_subs]; [by intros [= <-]|].
  inversion Hats as [|? ? A1 A2]; subst.
  destruct (dump_ fuel E L kw tbl y a nm' at' s2) as [s3 [[]|]] eqn:Ed; [|done]. intros Hs.
  destruct (dump_frame _ _ _ _ HL _ _ _ _ _ _ _ _ W2 Hat' A1 Ed) as (W3 & _).
  exact (IHs A2 s3 W3 (IH _ _ _ _ _ _ W2 Hat' A1 O2 Ed) Hs).
Qed.
End Dump.
