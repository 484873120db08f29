(** * Recover: nodes whose class or loader is not available *)
From Verif Require Import Base Utf8 Dec Num PyObj H5 Env Create LoadFns LoadModel Damage.
From Coq Require Import Lia ZifyBool ZifyN.
Local Open Scope N_scope.
Local Open Scope list_scope.

(** ** Specification *)

(** The node's attributes without 'type', and [b] as base_type. *)
Definition recovered_attrs (a : attrs) (b : bytes) (a' : attrs) : Prop :=
  a' !! a_type = None /\ a' !! a_base_type = Some (ABytes b) /\
  forall k, k <> a_type -> k <> a_base_type -> a' !! k = a !! k.
Definition without_type (a a' : attrs) : Prop :=
  a' !! a_type = None /\ forall k, k <> a_type -> a' !! k = a !! k.

(** A node written by hickle 5 for an object of a class that cannot be imported; [b]: the
    base_type recorded with the class in the type table. *)
Definition class_missing (E : env) (f : file) (n : node) (c : cls) (b : bytes) : Prop :=
  exists e en, nd_attrs n !! a_type = Some (ARef e) /\ get_node f e = Some en /\
    entry_base f en = Ok b /\ nd_body en = BData (DPickleCls c) /\ e_imports E c = false.
(** A node written by hickle 5 for an object of a class that can be imported, with a
    base_type nothing is registered for. *)
Definition loader_missing (E : env) (LD : loader) (f : file) (n : node) (c : cls) (b : bytes) : Prop :=
  exists e en pt memo, nd_attrs n !! a_type = Some (ARef e) /\ get_node f e = Some en /\
    entry_base f en = Ok b /\ nd_body en = BData (DPickleCls c) /\ e_imports E c = true /\
    ld_load LD c b = Ok (pt, memo) /\ ld_types LD b = None /\ ld_conts LD b = None.
(** The loaders know the recovery functions. *)
Definition can_recover (LD : loader) : Prop :=
  (exists memo, ld_load LD CRecoverCustom b_recover = Ok (CRecoverCustom, memo)) /\
  ld_types LD b_recover = Some LRecover /\ ld_conts LD b_recover = Some KRecover.

(** The items of a recovered group: for each member what it is loaded as, with the attributes
    of the member unless it has been recovered itself. *)
Definition recovered_items (f : file) (rec : addr -> lst -> res (lst * loc)) (ms : list (pystr * addr))
    (items : list (pystr * (loc * option attrs))) : Prop :=
  Permutation (map fst items) (map fst ms) /\
  forall nm a, (nm, a) ∈ ms -> exists n s1 s2 v oa,
    get_node f a = Some n /\ rec a s1 = Ok (s2, v) /\ (nm, (v, oa)) ∈ items /\
    match oa with
    | None => is_recovered (l_mem s2) v = true
    | Some at_ => is_recovered (l_mem s2) v = false /\ without_type (nd_attrs n) at_
    end.

(** ** Proofs *)
Lemma rec_attrs_spec a b : recovered_attrs a b (rec_attrs (<[a_base_type := ABytes b]> a)).
Proof.
  assert (a_type <> a_base_type) as N by (intros H; vm_compute in H; discriminate).
  unfold rec_attrs. split; [apply lookup_delete|]. split.
  - rewrite lookup_delete_ne by done. apply lookup_insert.
  - intros k H1 H2. rewrite lookup_delete_ne, lookup_insert_ne by done. done.
Qed.
Lemma rec_attrs_without a : without_type a (rec_attrs a).
Proof. split; [apply lookup_delete|]. intros k H. by apply lookup_delete_ne. Qed.

Lemma alist_set_new {K V} `{EqDecision K} (k : K) (v : V) l : k ∉ map fst l -> alist_set k v l = l ++ [(k, v)].
Proof.
  induction l as [|[k' v'] l IH]; [done|]. simpl. intros H. destruct (decide (k = k')) as [-> |N].
  - destruct H. left.
  - rewrite IH; [done|]. intros H'. apply H. by right.
Qed.

Section Recover.
Context (E : env) (HO : forall a l, Permutation (e_order E a l) l) (LD : loader) (f : file).

(** What the node is loaded with. *)
Definition recovers (n : node) (r : resolved) (pt : cls) : Prop :=
  resolve_type E (ld_legacy LD) f n = Ok r /\ r_cont r = is_group n /\
  (exists memo, ld_load LD (r_cls r) (r_base r) = Ok (pt, memo)) /\
  default LRecover (ld_types LD (r_base r)) = LRecover /\ default KRecover (ld_conts LD (r_base r)) = KRecover.

Lemma class_missing_recovers n c b : can_recover LD -> class_missing E f n c b ->
  recovers n (Resolved CRecoverCustom b_recover b (is_group n)) CRecoverCustom.
Proof.
  intros (Hl & Ht & Hc) (e & en & Ha & He & Hb & Hd & Hi). split; [|split; [done|split; [done|]]].
  - unfold resolve_type. rewrite Ha, He, Hb. cbn [res_bind]. by rewrite Hd, Hi.
  - cbn [r_base]. by rewrite Ht, Hc.
Qed.
Lemma loader_missing_recovers n c b : loader_missing E LD f n c b ->
  exists pt, recovers n (Resolved c b b (is_group n)) pt.
Proof.
  intros (e & en & pt & memo & Ha & He & Hb & Hd & Hi & Hl & Ht & Hc). exists pt. split; [|split; [done|split; [by exists memo|]]].
  - unfold resolve_type. rewrite Ha, He, Hb. cbn [res_bind]. by rewrite Hd, Hi.
  - cbn [r_base]. by rewrite Ht, Hc.
Qed.

(** Datasets: always loaded. *)
Lemma recover_data fuel a n r pt d s :
  get_node f a = Some n -> recovers n r pt -> nd_body n = BData d -> l_memo s !! a = None ->
  exists s' l at_, load_ (S fuel) E LD f a s = Ok (s', l) /\
    m_heap (l_mem s') !! l = Some (Obj CRecoveredDataset (VRecD d at_)) /\
    recovered_attrs (nd_attrs n) (r_orig r) at_.
Proof.
  intros Hn (Hr & Hg & [memo Hl] & Ht & _) Hb Hm.
  cbn [load_]. rewrite Hm, Hn, Hr. cbn [res_bind]. rewrite Hl. cbn [res_bind].
  unfold is_group in Hg. rewrite Hb in Hg |- *. rewrite Hg, Ht. cbn [load_fn]. unfold recover_dataset. cbn [res_map alloc].
  eexists _, _, _. split; [reflexivity|]. split; [|apply rec_attrs_spec].
  destruct memo; apply lookup_insert.
Qed.

(** Groups. *)
Lemma recover_members fuel rec ms : forall items s s' cs',
  NoDup (map fst ms) -> (forall k, k ∈ map fst ms -> k ∉ map fst items) ->
  load_members E fuel f rec KRecover ms (SRec items) s = Ok (s', cs') ->
  exists items', cs' = SRec (items ++ items') /\ map fst items' = map fst ms /\
    forall nm a, (nm, a) ∈ ms -> exists n s1 s2 v oa,
      get_node f a = Some n /\ rec a s1 = Ok (s2, v) /\ (nm, (v, oa)) ∈ items' /\
      match oa with
      | None => is_recovered (l_mem s2) v = true
      | Some at_ => is_recovered (l_mem s2) v = false /\ without_type (nd_attrs n) at_
      end.
Proof.
  induction ms as [|[nm a] ms IH]; intros items s s' cs' Hnd Hnew H.
  - injection H as <- <-. exists []. rewrite app_nil_r. split; [done|]. split; [done|].
    intros nm a Hi. by apply elem_of_nil in Hi.
  - apply load_members_cons in H as (n & s1 & l & m1 & cs1 & Hn1 & Hr & Ha & H). cbn [cont_append] in Ha.
    injection Ha as <- <-. simpl in Hnd. apply list.NoDup_cons in Hnd as [Hn Hnd].
    rewrite alist_set_new in H by (apply Hnew; left).
    set (oa := if is_recovered (l_mem s1) l then None else Some (rec_attrs (nd_attrs n))) in *.
    apply IH in H as (items' & -> & Hf & Hi); [|done|].
    + exists ((nm, (l, oa)) :: items'). rewrite <- app_assoc. split; [done|]. split; [simpl; by rewrite Hf|].
      intros nm' a' Hin. apply elem_of_cons in Hin as [[= -> ->]|Hin].
      * exists n, s, s1, l, oa. split; [done|]. split; [done|]. split; [left|].
        unfold oa. destruct (is_recovered (l_mem s1) l) eqn:Er; [done|]. split; [done|apply rec_attrs_without].
      * destruct (Hi nm' a' Hin) as (n' & t1 & t2 & v & oa' & H1 & H2 & H3 & H4).
        exists n', t1, t2, v, oa'. split; [done|]. split; [done|]. split; [by right|done].
    + intros k Hk. rewrite map_app, elem_of_app. intros [Hk'|Hk'].
      * apply (Hnew k); [by right|done].
      * apply elem_of_list_singleton in Hk'. simpl in Hk'. by subst.
Qed.
Lemma recover_group fuel a n r pt s s' l :
  get_node f a = Some n -> recovers n r pt -> is_group n = true -> NoDup (map fst (links n)) -> l_memo s !! a = None ->
  load_ (S fuel) E LD f a s = Ok (s', l) ->
  exists items at_, m_heap (l_mem s') !! l = Some (Obj CRecoveredGroup (VRecG items at_)) /\
    recovered_attrs (nd_attrs n) (r_orig r) at_ /\ recovered_items f (load_ fuel E LD f) (links n) items.
Proof.
  intros Hn (Hr & Hg & [memo Hl] & _ & Hk) Hgr Hnd Hm.
  cbn [load_]. rewrite Hm, Hn, Hr. cbn [res_bind]. rewrite Hl. cbn [res_bind]. rewrite Hg, Hgr, Hk.
  destruct (members E f KRecover a n) as [ms|] eqn:Ems; [|discriminate]. cbn [res_bind].
  assert (Permutation ms (links n)) as Hperm.
  { unfold members, links, is_group in *. destruct (nd_body n); [|discriminate]. injection Ems as <-. apply HO. }
  destruct (load_members _ _ _ _ _ _ _ _) as [[s2 cs]|] eqn:Elm; [|discriminate]. cbn [res_bind].
  cbn [cont_init] in Elm. apply recover_members in Elm as (items & -> & Hf & Hi).
  - cbn [cont_convert res_map alloc app]. intros [= <- <-]. eexists _, _. split; [destruct memo; apply lookup_insert|].
    split; [apply rec_attrs_spec|]. split; [rewrite Hf; by apply Permutation_map|].
    intros nm a' Hin. apply Hi. by rewrite Hperm.
  - assert (Permutation (map fst ms) (map fst (links n))) as Hp by (by apply Permutation_map). by rewrite Hp.
  - intros k _ Hk'. by apply elem_of_nil in Hk'.
Qed.

(** The only reason not to be loaded is a member that is not. *)
Lemma recover_members_err fuel rec ms e : forall items s,
  load_members E fuel f rec KRecover ms (SRec items) s = Err e ->
  exists nm a s1, (nm, a) ∈ ms /\ (rec a s1 = Err e \/ get_node f a = None).
Proof.
  induction ms as [|[nm a] ms IH]; intros items s; [done|]. cbn [load_members].
  destruct (get_node f a) as [n|] eqn:En.
  2:{ intros _. exists nm, a, s. split; [left|by right]. }
  destruct (rec a s) as [[s1 l]|e'] eqn:Er; cbn [res_bind].
  - cbn [cont_append res_bind]. intros H. apply IH in H as (nm' & a' & s2 & Hi & H). exists nm', a', s2. split; [by right|done].
  - intros [= <-]. exists nm, a, s. split; [left|by left].
Qed.
Lemma recover_group_err fuel a n r pt s e :
  get_node f a = Some n -> recovers n r pt -> is_group n = true -> l_memo s !! a = None ->
  load_ (S fuel) E LD f a s = Err e ->
  exists nm a' s1, (nm, a') ∈ links n /\ (load_ fuel E LD f a' s1 = Err e \/ get_node f a' = None).
Proof.
  intros Hn (Hr & Hg & [memo Hl] & _ & Hk) Hgr Hm.
  cbn [load_]. rewrite Hm, Hn, Hr. cbn [res_bind]. rewrite Hl. cbn [res_bind]. rewrite Hg, Hgr, Hk.
  assert (exists ms, members E f KRecover a n = Ok ms /\ Permutation ms (links n)) as (ms & Ems & Hperm).
  { unfold members, links, is_group in *. destruct (nd_body n); [|discriminate]. by eexists. }
  rewrite Ems. cbn [res_bind cont_init].
  destruct (load_members _ _ _ _ _ _ _ _) as [[s2 cs]|e'] eqn:Elm; cbn [res_bind].
  - (* convert does not fail *)
    assert (exists items, cs = SRec items) as [items ->].
    { clear -Elm. revert Elm. generalize (@nil (pystr * (loc * option attrs))). revert s.
      induction ms as [|[nm a] ms IH]; intros s items H; [injection H as <- <-; by eexists|].
      apply load_members_cons in H as (? & ? & ? & ? & ? & _ & _ & Ha & H). injection Ha as <- <-. by eapply IH. }
    cbn [cont_convert res_map]. done.
  - intros [= <-]. apply recover_members_err in Elm as (nm & a' & s1 & Hi & H). exists nm, a', s1. split; [by rewrite <- Hperm|done].
Qed.
End Recover.
