(** * LoadFrame: loading looks only at a closed part of the file *)
From Verif Require Import Base Utf8 Dec Num PyObj H5 Env Create LoadFns Proxy LoadModel.
From Coq Require Import Lia ZifyBool ZifyN.

(** No link or reference leads out of [R]. *)
Definition sealed (R : addr -> Prop) (f : file) : Prop :=
  forall a n, R a -> get_node f a = Some n ->
    (forall nm c, (nm, c) ∈ links n -> R c) /\
    (forall t, nd_body n = BData (DRefTo t) -> R t) /\
    (forall k e, nd_attrs n !! k = Some (ARef e) -> R e).

Definition agree (R : addr -> Prop) (f f' : file) : Prop :=
  forall a, R a -> get_node f' a = get_node f a.

Section Frame.
Context (E : env) (HO : forall a l, Permutation (e_order E a l) l).
Context (R : addr -> Prop) (f f' : file) (Hs : sealed R f) (Hf : agree R f f').

Lemma resolve_frame legacy a n :
  R a -> get_node f a = Some n -> resolve_type E legacy f' n = resolve_type E legacy f n.
Proof.
  intros Ra Hn. destruct (Hs a n Ra Hn) as (_ & _ & Ha). unfold resolve_type.
  destruct (nd_attrs n !! a_type) as [[| | | |e|]|] eqn:Et; auto.
  apply Ha in Et as Re. rewrite (Hf e Re). destruct (get_node f e) as [en|] eqn:Ee; [|done].
  assert (entry_base f' en = entry_base f en) as ->; [|done].
  unfold entry_base. destruct (Hs e en Re Ee) as (_ & _ & Hb).
  destruct (nd_attrs en !! a_base_type) as [[| | | |b|]|] eqn:Eb; auto.
  rewrite (Hf b); eauto.
Qed.

Lemma members_frame k a n :
  R a -> get_node f a = Some n -> members E f' k a n = members E f k a n.
Proof.
  intros Ra Hn. destruct (Hs a n Ra Hn) as (_ & Hr & _). unfold members.
  destruct k; auto; destruct (nd_body n) as [|d] eqn:Eb; auto; destruct d; auto.
  rewrite Hf; [done|]. by apply Hr.
Qed.

Lemma members_in k a n ms :
  R a -> get_node f a = Some n -> members E f k a n = Ok ms -> Forall (fun p => R (snd p)) ms.
Proof.
  intros Ra Hn. destruct (Hs a n Ra Hn) as (Hl & Hr & _). unfold members, links in *.
  assert (forall l, nd_body n = BGroup l -> Forall (fun p => R (snd p)) (e_order E a l)) as HG.
  { intros l El. rewrite El in Hl. apply list.Forall_forall. intros [nm c] Hc. apply (Hl nm).
    by rewrite <- (HO a l). }
  destruct k; destruct (nd_body n) as [l|d] eqn:Eb; try done; try (intros [= <-]; by apply HG).
  destruct d; try done. destruct (get_node f a0); [|done]. intros [= <-]. constructor; [|done]. by apply Hr.
Qed.

Lemma load_members_frame fuel rec rec' k ms :
  (forall a s, R a -> rec' a s = rec a s) -> Forall (fun p => R (snd p)) ms ->
  forall cs s, load_members E fuel f' rec' k ms cs s = load_members E fuel f rec k ms cs s.
Proof.
  intros Hr. induction 1 as [|[nm a] ms Ra _ IH]; intros cs s; simpl; [done|].
  simpl in Ra. rewrite (Hf a Ra), (Hr a s Ra). destruct (get_node f a); [|done].
  destruct (rec a s) as [[s1 l]|]; simpl; [|done].
  destruct (cont_append _ _ _ _ _ _ _) as [[m cs']|]; simpl; [|done]. apply IH.
Qed.

(** (The load function for the masked arrays of hickle 4 looks at another node.) *)
Lemma load_dataset_frame LD fuel a b at_ d orig pt m : (forall b, ld_types LD b <> Some LNdarrayMasked) ->
  load_dataset E fuel f' a (default LRecover (ld_types LD b)) at_ d orig pt m =
  load_dataset E fuel f a (default LRecover (ld_types LD b)) at_ d orig pt m.
Proof. intros HM. specialize (HM b). by destruct (ld_types LD b) as [[]|]. Qed.
Lemma load_redirected_frame LD fuel a n d nm at_ s : (forall b, ld_types LD b <> Some LNdarrayMasked) ->
  (forall e, at_ !! a_type <> Some (ARef e)) ->
  load_redirected E fuel LD f' a (Node nm n (BData d)) d at_ s = load_redirected E fuel LD f a (Node nm n (BData d)) d at_ s.
Proof.
  intros HM Ht. unfold load_redirected. destruct (l_memo s !! a); [done|].
  assert (resolve_type E (ld_legacy LD) f' (Node nm at_ (BData d)) = resolve_type E (ld_legacy LD) f (Node nm at_ (BData d))) as Hr.
  { unfold resolve_type. cbn [nd_attrs nd_body]. remember (at_ !! a_type) as t eqn:Et. symmetry in Et. destruct t as [[]|]; try done. exfalso. by eapply Ht. }
  cbn [nd_name]. rewrite Hr. clear Hr. destruct (resolve_type _ _ _ _) as [r|]; cbn [res_bind]; [|done].
  destruct (ld_load _ _ _) as [[pt memoise]|]; cbn [res_bind]; [|done]. by rewrite load_dataset_frame.
Qed.
Lemma redirect_type nm dt a p : redirect nm dt a = Ok (Some p) -> exists c, (px_own p ∪ px_node p) !! a_type = Some (APickle c).
Proof.
  unfold redirect. intros H.
  assert (forall a', (exists c, px_own a' !! a_type = Some (APickle c)) -> exists c, (px_own a' ∪ px_node a') !! a_type = Some (APickle c)) as Hu.
  { intros a' [c Hc]. exists c. by apply lookup_union_Some_l. }
  apply Hu. clear Hu.
  destruct (bool_decide (nm = str "data")).
  - destruct (px_get _ a_type); [|done]. destruct (px_get _ a_base_type); [|done]. injection H as <-.
    destruct (bool_decide (nm = str "shape")); [exists CTuple|exists CNdarray]; destruct (px_get _ _); simpl; rewrite ?lookup_insert_ne by done; try (destruct (px_get _ _)); simpl; rewrite ?lookup_insert_ne by done; by rewrite lookup_insert.
  - destruct (sparse_index nm); [|done]. injection H as <-.
    destruct (bool_decide (nm = str "shape")); [exists CTuple|exists CNdarray; destruct (px_get _ _)]; simpl; rewrite ?lookup_insert_ne by done; by rewrite lookup_insert.
Qed.
Lemma redirect_members_frame LD fuel ms : (forall b, ld_types LD b <> Some LNdarrayMasked) -> Forall (fun p => R (snd p)) ms ->
  forall pt cs s, redirect_members E fuel LD f' ms pt cs s = redirect_members E fuel LD f ms pt cs s.
Proof.
  intros HM. induction 1 as [|[nm a] ms Ra _ IH]; intros pt cs s; [done|]. cbn [redirect_members].
  simpl in Ra. rewrite (Hf a Ra). destruct (get_node f a) as [[nn na nb]|]; [|done]. cbn [nd_attrs nd_body].
  destruct (redirect nm _ na) as [[p|]|] eqn:Er; cbn [res_bind]; [|apply IH|done].
  destruct nb as [|d]; [done|]. apply redirect_type in Er as [c Hc].
  destruct d; try done; (destruct (if bool_decide (nm = _) then _ else _) as [pt'|]; cbn [res_bind]; [|done];
    rewrite load_redirected_frame; [|done|intros e He; congruence];
    destruct (load_redirected _ _ _ _ _ _ _ _ _) as [[s1 l]|]; cbn [res_bind]; [|done];
    destruct (cont_append _ _ _ _ _ _ _ _) as [[m cs']|]; cbn [res_bind]; [|done]; apply IH).
Qed.

Lemma load_frame LD fuel : (forall b, ld_types LD b <> Some LNdarrayMasked) -> forall a s, R a -> load_ fuel E LD f' a s = load_ fuel E LD f a s.
Proof.
  intros HM. induction fuel as [|fu IH]; intros a s Ra; [done|]. cbn [load_].
  destruct (l_memo s !! a); [done|]. rewrite (Hf a Ra). destruct (get_node f a) as [n|] eqn:Hn; [|done].
  rewrite (resolve_frame _ a n Ra Hn). destruct (resolve_type _ _ _ _) as [r|]; [|done]. cbn [res_bind].
  destruct (ld_load _ _ _) as [[pt memoise]|]; [|done]. cbn [res_bind]. f_equal.
  destruct (r_cont r); [|destruct (nd_body n); [done|]; by rewrite load_dataset_frame]. rewrite (members_frame _ a n Ra Hn).
  destruct (members _ _ _ _ _) as [ms|] eqn:Em; [|done]. cbn [res_bind].
  destruct (redirected _ _).
  { destruct (ld_legacy LD); [|done]. rewrite redirect_members_frame; [done|done|]. by eapply members_in. }
  rewrite (load_members_frame fu (load_ fu E LD f)); [done|exact IH|]. by eapply members_in.
Qed.
End Frame.
