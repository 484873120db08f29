(** * GetRootProofs: the nodes of a dump lead back to its group *)
From stdpp Require Import relations.
From Verif Require Import Base Utf8 Utf8Proofs Dec Num PyObj H5 Env Create Dump LoadFns LoadModel Registry RegistryStd Spec
  DumpProofs DumpStored LoadBase LoadLeaf Api DumpClosed ApiProofs Accept DumpOk Count Table Layout Listed GetRoot.
From Coq Require Import Lia ZifyBool ZifyN.
Local Open Scope N_scope.
Local Open Scope list_scope.
Local Opaque std_loader std_dump dump_loader_of loader_of.

Lemma links_to_spec a n : links_to a n = true <-> exists nm, (nm, a) ∈ links n.
Proof.
  unfold links_to. rewrite existsb_exists. split.
  - intros ([nm b] & Hin & Hb). simpl in Hb. apply N.eqb_eq in Hb. subst b. exists nm. by apply elem_of_list_In.
  - intros (nm & Hin). exists (nm, a). split; [by apply elem_of_list_In|]. simpl. apply N.eqb_refl.
Qed.
Lemma parent_of_link f b n nm a : tree f -> get_node f b = Some n -> (nm, a) ∈ links n -> parent_of f a = Some b.
Proof.
  intros Ht Hn Hin. unfold parent_of. destruct (tr_link _ Ht _ _ _ _ Hn Hin) as [_ Hlt].
  destruct (N.eqb_spec a root_addr) as [Hr|_]; [unfold root_addr in Hr; lia|].
  set (l := omap _ _).
  assert (b ∈ l) as Hb.
  { unfold l. apply elem_of_list_omap. exists (b, n). split; [by apply elem_of_map_to_list|].
    assert (links_to a n = true) as -> by (apply links_to_spec; eauto). done. }
  destruct l as [|b' l'] eqn:El; [by apply elem_of_nil in Hb|]. simpl.
  assert (b' ∈ l) as Hb' by (rewrite El; by left). unfold l in Hb'. apply elem_of_list_omap in Hb' as ([b2 n2] & H1 & H2).
  destruct (links_to a n2) eqn:E2; [|done]. inversion H2; subst b2. apply links_to_spec in E2 as [nm2 E2]. apply elem_of_map_to_list in H1.
  destruct (tr_one _ Ht _ _ _ _ _ _ _ Hn H1 Hin E2) as [-> _]. done.
Qed.
Lemma child_link f a nm b : child f a nm = Some b -> exists n, get_node f a = Some n /\ (nm, b) ∈ links n.
Proof. unfold child. destruct (get_node f a) as [n|]; [|done]. intros H. exists n. split; [done|]. by apply alist_get_in. Qed.

(** A type or nothing below. *)
Definition typed_or_leaf (n : node) : Prop :=
  (exists e, nd_attrs n !! a_type = Some (ARef e)) \/ (nd_attrs n !! a_type = None /\ is_group n = false).
Definition settled (s : dst) (a : addr) : Prop :=
  exists n, get_node (d_file s) a = Some n /\ typed_or_leaf n /\ (links n = [] \/ exists y, d_memo s !! y = Some a).

Section Placed.
Context (E : env) (D : dump_loader) (HL : loader_ok E D) (HD : object_pickled D).

Lemma placed_typed s y a at_ pl memo ls :
  placed E D s y a at_ pl memo ls -> at_form at_ ->
  exists n, get_node (d_file s) a = Some n /\ typed_or_leaf n /\ links n = match p_data pl with None => ls | Some _ => [] end.
Proof.
  intros (o & h0 & nx & pt & fn & base & te & nm & H1 & H2 & H3 & H4 & H5 & H6 & H7 & H8) Hat.
  eexists. split; [exact H7|]. split.
  2: { unfold links, extend, plan_body. simpl. destruct te; simpl; by destruct (p_data pl). }
  assert (forall m, attrs_update at_ m !! a_type = m !! a_type) as Hup by (intros m; by rewrite attrs_update_other).
  destruct te as [e|].
  - left. exists e. simpl. rewrite Hup. simpl. by rewrite lookup_insert.
  - right. simpl in H8. subst pt. apply HD in H3 as Hi. inversion Hi; subst fn base memo. simpl in H4. unfold create_pickled in H4.
    destruct (oval o); try done. destruct (e_pickles _ _ _); inversion H4; subst pl.
    simpl. rewrite Hup. done.
Qed.
Lemma child_settled lo s sb lk :
  (forall y b, d_memo s !! y = Some b -> stored E D lo s y b) ->
  child_ok E D lo s sb lk -> settled s (snd lk).
Proof.
  intros Hst. destruct sb as [[nm y] at_], lk as [nm' a]. intros (Hnm & _ & _ & Hat & H). simpl in Hnm, H |- *. subst nm'.
  destruct H as [(t & Ht & H)|(pl & Hpl & Hs & Hd)].
  - destruct H as [[-> _]|Hn].
    + destruct (Hst _ _ Ht) as (_ & _ & at' & pl & ls & Hat' & Hpl & _).
      destruct (placed_typed _ _ _ _ _ _ _ Hpl Hat') as (n & R1 & R2 & _). exists n. split; [done|]. split; [done|]. right. by exists y.
    + eexists. split; [exact Hn|]. split; [|by left]. right. split; [|done]. simpl. by rewrite attrs_update_other.
  - destruct (placed_typed _ _ _ _ _ _ _ Hpl Hat) as (n & R1 & R2 & R5). exists n. split; [done|]. split; [done|]. left.
    rewrite R5. by destruct (p_data pl).
Qed.
Lemma settled_step lo s a n nm b :
  (forall y b, d_memo s !! y = Some b -> stored E D lo s y b) ->
  settled s a -> get_node (d_file s) a = Some n -> (nm, b) ∈ links n -> settled s b.
Proof.
  intros Hst (n' & H1 & _ & H) Hn Hin. rewrite H1 in Hn. inversion Hn; subst n'.
  destruct H as [H|[y H]]; [rewrite H in Hin; by apply elem_of_nil in Hin|].
  destruct (Hst _ _ H) as (_ & _ & at' & pl & ls & Hat' & Hpl & Hf).
  destruct (placed_typed _ _ _ _ _ _ _ Hpl Hat') as (n' & R1 & _ & R5).
  rewrite H1 in R1. inversion R1; subst n'. rewrite R5 in Hin. destruct (p_data pl); [by apply elem_of_nil in Hin|].
  apply elem_of_list_lookup in Hin as [i Hi]. destruct (Forall2_lookup_r _ _ _ _ _ Hf Hi) as (sb & _ & Hc).
  by apply (child_settled _ _ _ _ Hst) in Hc.
Qed.
End Placed.

Lemma dump_file_get_root C kw opts x p m f f' m' :
  tree f -> c_world C = std_world -> free_above m -> Forall (fun o => snd o = false) opts ->
  dump_file C kw opts x p m f = (f', m', Ok tt) ->
  exists root c, get_path f' p = Some root /\ child f' root n_data = Some c /\
    forall a n, below f' c a -> get_node f' a = Some n ->
      a <> c \/ nd_attrs n !! a_type <> None \/ root = root_addr -> get_root f' a = Some root.
Proof.
  intros Ht HW Hm Hop Hd.
  destruct (dump_file_listed C kw opts x p m f f' m' Ht ltac:(rewrite HW; apply std_world_ok) Hm Hd)
    as (tbl & root & c & Q1 & Q2 & Q3 & Ht' & Q5 & Q6 & Q7).
  destruct (dump_file_state C kw opts x p m f f' m' Ht ltac:(rewrite HW; apply std_world_ok) Hm Hd)
    as (chain & s & lo & tbl' & root' & c' & Hs & Hh & Hsub & _ & Hw & Hp & Htb & Hc & _ & _ & _ & Hst & Hch & _ & Hchain & _).
  rewrite (Hchain Hop), HW, std_dump_eq in *. pose proof (std_dump_ok (c_env C)) as HL.
  rewrite Q1 in Hp. inversion Hp; subst root'. rewrite Q3 in Hc. inversion Hc; subst c'. clear Hp Hc Htb Hw tbl'.
  exists root, c. split; [done|]. split; [done|].
  (* every node below is settled and behind the table *)
  assert (forall a, below f' c a -> settled s a /\ c <= a /\ (a <> c -> exists b bn nm, below f' c b /\ get_node f' b = Some bn /\ (nm, a) ∈ links bn)) as HS.
  { intros a Hb. remember c as c0 eqn:Ec in Hb |- *. induction Hb as [a|a n nm b b' Hb IH Hn Hin].
    - subst a. split; [|split; [lia|done]]. exact (child_settled _ _ std_object_pickled _ _ _ _ Hst Hch).
    - destruct (IH Ec) as (I1 & I2 & I3). split; [|split].
      + rewrite <- Hs in Hn. exact (settled_step _ _ std_object_pickled _ _ _ _ _ _ Hst I1 Hn Hin).
      + destruct (tr_link _ Ht' _ _ _ _ Hn Hin). lia.
      + intros _. by exists b, n, nm. }
  assert (forall e, entry_in tbl f' e -> is_Some (get_node f' e) /\ root_of_entry f' e = Some root) as He.
  { intros e (tn & nm & E1 & E2). split; [by destruct (tr_link _ Ht' _ _ _ _ E1 E2)|]. unfold root_of_entry. rewrite (parent_of_link _ _ _ _ _ Ht' E1 E2).
    destruct (child_link _ _ _ _ Q2) as (rn & R1 & R2). exact (parent_of_link _ _ _ _ _ Ht' R1 R2). }
  intros a n Hb Hn Hcase. destruct (HS _ Hb) as ((n' & N1 & N2 & _) & N3 & N4). rewrite Hs, Hn in N1. inversion N1; subst n'.
  unfold get_root. rewrite Hn. destruct N2 as [[e He1]|[Hno Hg]].
  { rewrite He1. destruct (He e (Q7 a n e ltac:(lia) Hn He1)) as [[en ->] ?]. done. }
  rewrite Hno, Hg. destruct (decide (a = c)) as [-> |Hne].
  - destruct (child_link _ _ _ _ Q3) as (rn & R1 & R2). rewrite (parent_of_link _ _ _ _ _ Ht' R1 R2).
    destruct Hcase as [?|[?| ->]]; [done|done|]. by rewrite N.eqb_refl.
  - destruct (N4 Hne) as (b & bn & nm & B1 & B2 & B3). rewrite (parent_of_link _ _ _ _ _ Ht' B2 B3), B2.
    destruct (HS _ B1) as ((bn' & M1 & M2 & _) & M3 & _). rewrite Hs, B2 in M1. inversion M1; subst bn'.
    destruct (N.eqb_spec b root_addr) as [Hr|_]; [unfold root_addr in Hr; lia|].
    destruct M2 as [[e He1]|[_ Hg']]; [|unfold links, is_group in *; destruct (nd_body bn); [done|by apply elem_of_nil in B3]].
    rewrite He1. destruct (He e (Q7 b bn e ltac:(lia) B2 He1)) as [[en ->] ?]. done.
Qed.

(** The data node of a pickled object. *)
Lemma pickled_get_root f root rn c n :
  tree f -> child f root n_data = Some c -> get_node f c = Some n -> nd_attrs n !! a_type = None -> is_group n = false ->
  get_node f root = Some rn -> nd_attrs rn !! a_type = None -> get_root f c = Some root_addr.
Proof.
  intros Ht Hc Hn Hty Hg Hr Hrt. destruct (child_link _ _ _ _ Hc) as (rn' & R1 & R2). rewrite Hr in R1. inversion R1; subst rn'.
  unfold get_root. rewrite Hn, Hty, Hg, (parent_of_link _ _ _ _ _ Ht Hr R2), Hr, Hrt. by destruct (root =? root_addr).
Qed.

(** The group itself. *)
Lemma walk_linked f cs : forall r a, walk f r cs = Some a -> a = r \/ exists b n nm, get_node f b = Some n /\ (nm, a) ∈ links n.
Proof.
  induction cs as [|c cs IH]; intros r a; cbn [walk]; [intros [= ->]; by left|].
  destruct (child f r c) as [b|] eqn:Ec; [|done]. intros H. destruct (IH _ _ H) as [-> |?]; [|by right].
  destruct (child_link _ _ _ _ Ec) as (n & N1 & N2). right. by exists r, n, c.
Qed.
Lemma group_get_root f p a n :
  tree f -> get_path f p = Some a -> get_node f a = Some n -> is_group n = true -> nd_attrs n !! a_type = None ->
  (forall b bn nm, get_node f b = Some bn -> (nm, a) ∈ links bn -> b = root_addr \/ nd_attrs bn !! a_type = None) ->
  get_root f a = Some a.
Proof.
  intros Ht Hp Hn Hg Hty Hpar. unfold get_root. rewrite Hn, Hty, Hg.
  destruct (walk_linked _ _ _ _ Hp) as [-> |(b & bn & nm & B1 & B2)]; [done|].
  rewrite (parent_of_link _ _ _ _ _ Ht B1 B2), B1. destruct (Hpar _ _ _ B1 B2) as [-> | ->]; [done|]. by destruct (b =? root_addr).
Qed.
