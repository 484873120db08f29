(** * V3Damage: nodes of hickle 3 files the loader cannot interpret *)
From Verif Require Import Base Utf8 Dec Num PyObj Env Repr Legacy LegacyProofs LegacyV3 V3Spec V3Proofs.
Local Open Scope N_scope.
Local Open Scope list_scope.

(** ** Specification *)

(** [u] is [t] or lies anywhere below it. *)
Inductive inside : tree -> tree -> Prop :=
| inside_here t : inside t t
| inside_below a kids n t u : In (n, t) kids -> inside t u -> inside (TGroup a kids) u.

(** The names in every group differ. *)
Inductive names_ok : tree -> Prop :=
| names_data a d : names_ok (TData a d)
| names_group a kids : NoDup (map fst kids) -> Forall (fun e => names_ok (snd e)) kids -> names_ok (TGroup a kids).

(** The dataset types of hickle 3 (lookup.py and the loaders of legacy_v3). *)
Definition known_types : list bytes :=
  [type_text (str "list"); type_text (str "tuple"); type_text (str "set"); str "bytes"; str "python_dtype"; str "string";
   str "pickle"; str "none"; str "np_scalar"; str "ndarray"; str "numpy.ndarray"; str "ndarray_masked_data"; str "ndarray_masked_mask"]
  ++ concat (map (fun k => map (sparse_type k) [str "_data"; str "_indices"; str "_indptr"; str "_shape"]) sparse_kinds).

(** A node without a type, or a dataset of unknown type. *)
Definition uninterpretable (t : tree) : Prop :=
  match t with
  | TGroup a _ => alist_get a3_type a = None
  | TData a _ => match alist_get a3_type a with None => True | Some ty => ~ In ty known_types end
  end.

(** ** Proofs *)
Lemma uninterpretable_fails L sibs nm t : uninterpretable t -> exists e, load3 L sibs nm t = Err e.
Proof.
  destruct t as [a kids|a d]; simpl uninterpretable.
  - intros H. exists KeyError. rewrite load_group. unfold get_type. by rewrite H.
  - intros H. cbn [load3]. unfold load_dataset3, get_type.
    destruct (alist_get a3_type a) as [ty|]; [|by exists KeyError]. exists RuntimeError. cbn [res_bind].
    assert (forall x, In x known_types -> ty <> x) as Hn by (intros x Hx ->; done).
    rewrite !bool_decide_false by (apply Hn; vm_compute; tauto). cbn [orb].
    assert (forall k p, In p [str "_data"; str "_indices"; str "_indptr"; str "_shape"] -> bool_decide (ty = sparse_type k p) = false) as Hs.
    { intros k p Hp. apply bool_decide_eq_false, Hn, in_or_app. right. apply in_concat.
      exists (map (sparse_type k) [str "_data"; str "_indices"; str "_indptr"; str "_shape"]). split.
      - apply (in_map (fun k => map (sparse_type k) _)). destruct k; vm_compute; tauto.
      - by apply in_map. }
    unfold sparse_kinds. cbn [List.find existsb]. rewrite !Hs by (simpl; tauto). done.
Qed.

Lemma sort_keys_all ks out : sort_keys ks = Ok out -> Permutation out ks.
Proof.
  unfold sort_keys. destruct (res_mapM key_to_bytes ks) as [bs|] eqn:E; [|done].
  assert (bs = ks) as ->.
  { apply res_mapM_ok in E. clear -E. induction E as [|k b ks bs H E IH]; [done|].
    unfold key_to_bytes in H. destruct (forallb _ k); [|done]. injection H as ->. by rewrite IH. }
  intros [= <-]. destruct (_ && _); apply sorted_by_perm.
Qed.
Lemma alist_get_in {V} (l : list (list N * V)) n v : NoDup (map fst l) -> In (n, v) l -> alist_get n l = Some v.
Proof.
  induction l as [|[n' v'] l IH]; intros Hn Hi; [done|]. simpl in *. apply list.NoDup_cons in Hn as [H1 H2].
  destruct Hi as [[= -> ->]|Hi]; [by rewrite decide_True|]. rewrite decide_False; [by apply IH|].
  intros ->. apply H1. apply elem_of_list_In. by apply (in_map fst) in Hi.
Qed.

(** Every member of a group that is loaded is loaded. *)
Lemma member_loaded L sibs nm a kids n t w : NoDup (map fst kids) -> In (n, t) kids ->
  load3 L sibs nm (TGroup a kids) = Ok w -> exists x, load3 L kids n t = Ok x.
Proof.
  intros Hn Hi E. rewrite load_group in E. destruct (get_type a) as [ct|]; [|done]. cbn [res_bind] in E.
  destruct (if bool_decide _ then _ else _) as [kt|]; [|done]. cbn [res_bind] in E.
  destruct (if unsorted ct then _ else _) as [order|] eqn:Eo; [|done]. cbn [res_bind] in E.
  assert (Permutation order (map fst kids)) as P.
  { rewrite <- (Permutation_map fst (listing_perm L kids)). destruct (unsorted ct).
    - by injection Eo as <-.
    - by apply sort_keys_all. }
  destruct (res_mapM _ order) as [l|] eqn:Em; [|done]. clear E. apply res_mapM_ok in Em.
  assert (In n order) as Ho. { rewrite P. by apply (in_map fst) in Hi. }
  apply elem_of_list_In in Ho. destruct (elem_of_list_lookup_1 _ _ Ho) as (j & Hj).
  destruct (Forall2_lookup_l _ _ _ _ _ Em Hj) as (x & _ & Hx). exists x. revert Hx. unfold pick.
  rewrite (alist_get_in _ n (load3 L kids n t)); [done| |].
  - rewrite map_map. cbn [fst]. done.
  - by apply (in_map (fun e => (fst e, load3 L kids (fst e) (snd e)))) in Hi.
Qed.

Lemma inside_loaded L t u : inside t u -> names_ok t -> forall sibs nm w, load3 L sibs nm t = Ok w ->
  exists sibs' nm' x, load3 L sibs' nm' u = Ok x.
Proof.
  induction 1 as [t|a kids n t u Hi Hu IH]; intros Hn sibs nm w E; [by eexists _, _, _|].
  inversion Hn as [|? ? Hd Hk]; subst. destruct (member_loaded _ _ _ _ _ _ _ _ Hd Hi E) as (x & Hx).
  eapply IH; [|exact Hx]. rewrite list.Forall_forall in Hk. apply elem_of_list_In in Hi. apply (Hk _ Hi).
Qed.

Lemma uninterpretable_inside L t u : names_ok t -> inside t u -> uninterpretable u -> exists e, load_v3 L t = Err e.
Proof.
  intros Hn Hi Hu. unfold load_v3. destruct (load3 L [] [] t) as [w|e] eqn:E; [|by exists e].
  destruct (inside_loaded L t u Hi Hn _ _ _ E) as (s & n & x & Hx).
  destruct (uninterpretable_fails L s n u Hu) as (e & He). congruence.
Qed.
