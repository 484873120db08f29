(** * ProxyProofs: attributes replaced through a proxy do not reach the node *)
From Verif Require Import Base Utf8 Dec Num PyObj H5 Env Create LoadFns Proxy.

(** ** Specification: what a key is after a history, read off the history alone

    The history is given last step first. *)

(** Steps made through the node itself, the only ones that may change it. *)
Definition on_node (o : proxy_op) : bool := match o with NSet _ _ | NDel _ => true | _ => false end.

(** The attribute of the node after the steps made through the node. *)
Fixpoint node_value (a : attrs) (rev_hist : list proxy_op) (k : pystr) : option attrv :=
  match rev_hist with
  | [] => a !! k
  | NSet k' v :: r => if decide (k = k') then Some v else node_value a r k
  | NDel k' :: r => if decide (k = k') then None else node_value a r k
  | _ :: r => node_value a r k
  end.

(** The value the proxy was given last and has not given up since. *)
Fixpoint own_value (a : attrs) (rev_hist : list proxy_op) (k : pystr) : option attrv :=
  match rev_hist with
  | [] => None
  | PSet k' v :: r => if decide (k = k') then Some v else own_value a r k
  | PDel k' :: r | PPop k' :: r => if decide (k = k') then None else own_value a r k
  | PSetdefault k' v :: r =>
      if decide (k = k') then
        match own_value a r k with
        | Some w => Some w
        | None => match node_value a r k with Some _ => None | None => Some v end
        end
      else own_value a r k
  | PUpdate kvs :: r =>
      match alist_get k (rev kvs) with Some v => Some v | None => own_value a r k end
  | PClear :: r => None
  | _ :: r => own_value a r k
  end.

Lemma alist_get_app {V} (k : pystr) (l l' : list (pystr * V)) :
  alist_get k (l ++ l') = match alist_get k l with Some v => Some v | None => alist_get k l' end.
Proof.
  induction l as [|[k' v] l IH]; simpl; [done|].
  destruct (decide (k = k')); [done|]. exact IH.
Qed.
Lemma attrs_update_lookup (kvs : list (pystr * attrv)) (m : attrs) k :
  attrs_update kvs m !! k = match alist_get k (rev kvs) with Some v => Some v | None => m !! k end.
Proof.
  revert m. induction kvs as [|[k' v] r IH]; intros m; [done|].
  change (attrs_update ((k', v) :: r) m) with (attrs_update r (<[k' := v]> m)).
  rewrite IH. simpl rev. rewrite alist_get_app.
  destruct (alist_get k (rev r)); [done|]. simpl.
  destruct (decide (k = k')) as [-> |N]; [by rewrite lookup_insert|by rewrite lookup_insert_ne].
Qed.

Lemma px_run_snoc p os o : px_run p (os ++ [o]) = fst (px_step (px_run p os) o).
Proof. unfold px_run. by rewrite foldl_app. Qed.

Lemma px_run_values a os :
  (forall k, px_node (px_run (wrap a) os) !! k = node_value a (rev os) k) /\
  (forall k, px_own (px_run (wrap a) os) !! k = own_value a (rev os) k).
Proof.
  induction os as [|o os [IHn IHo]] using rev_ind; [split; intros k; [done|apply lookup_empty]|].
  rewrite px_run_snoc, rev_app_distr. simpl rev. simpl app.
  set (p := px_run (wrap a) os) in *. clearbody p.
  destruct o; cbn [px_step node_value own_value]; unfold px_put, px_get.
  - split; intros k'; cbn; [apply IHn|].
    destruct (decide (k' = k)) as [-> |N]; [by rewrite lookup_insert|by rewrite lookup_insert_ne].
  - destruct (px_own p !! k) eqn:E; cbn; (split; intros k'; [apply IHn|]).
    + destruct (decide (k' = k)) as [-> |N]; [by rewrite lookup_delete|by rewrite lookup_delete_ne].
    + destruct (decide (k' = k)) as [-> |N]; [done|apply IHo].
  - split; intros k'; cbn; [apply IHn|apply IHo].
  - destruct (px_own p !! k) eqn:E; cbn; (split; intros k'; [apply IHn|]).
    + destruct (decide (k' = k)) as [-> |N]; [by rewrite lookup_delete|by rewrite lookup_delete_ne].
    + destruct (decide (k' = k)) as [-> |N]; [done|apply IHo].
  - destruct (px_own p !! k) as [w|] eqn:E.
    + cbn; split; intros k'; [apply IHn|].
      destruct (decide (k' = k)) as [-> |N]; [by rewrite <- IHo, E|apply IHo].
    + destruct (px_node p !! k) as [w|] eqn:En; cbn; (split; intros k'; [apply IHn|]).
      * destruct (decide (k' = k)) as [-> |N]; [by rewrite <- IHo, E, <- IHn, En|apply IHo].
      * destruct (decide (k' = k)) as [-> |N]; [|by rewrite lookup_insert_ne].
        by rewrite lookup_insert, <- IHo, E, <- IHn, En.
  - split; intros k'; cbn; [apply IHn|]. by rewrite attrs_update_lookup, IHo.
  - split; intros k'; cbn; [apply IHn|apply lookup_empty].
  - split; intros k'; cbn; [apply IHn|apply IHo].
  - split; intros k'; cbn; [|apply IHo].
    destruct (decide (k' = k)) as [-> |N]; [by rewrite lookup_insert|by rewrite lookup_insert_ne].
  - destruct (px_node p !! k) eqn:E; cbn; (split; intros k'; [|apply IHo]).
    + destruct (decide (k' = k)) as [-> |N]; [by rewrite lookup_delete|by rewrite lookup_delete_ne].
    + destruct (decide (k' = k)) as [-> |N]; [done|apply IHn].
Qed.

(** Steps through the proxy leave the attributes of the node alone. *)
Lemma px_node_only a os : px_node (px_run (wrap a) os) = px_node (px_run (wrap a) (List.filter on_node os)).
Proof.
  apply map_eq. intros k. rewrite !(proj1 (px_run_values a _)).
  induction os as [|o os IH] using rev_ind; [done|].
  rewrite filter_app, !rev_app_distr. simpl.
  destruct o; simpl; rewrite ?IH; try done; destruct (decide _); done.
Qed.
Lemma px_node_same a os : forallb (fun o => negb (on_node o)) os = true -> px_node (px_run (wrap a) os) = a.
Proof.
  intros H. rewrite px_node_only.
  replace (List.filter on_node os) with (@nil proxy_op); [done|].
  induction os as [|o os IH]; [done|]. simpl in *. apply andb_prop in H as [Ho H].
  destruct (on_node o); [done|]. by apply IH.
Qed.

(** Reading through the proxy. *)
Lemma px_view a os k :
  px_get (px_run (wrap a) os) k =
  match own_value a (rev os) k with Some v => Some v | None => node_value a (rev os) k end.
Proof. unfold px_get. by rewrite (proj2 (px_run_values a os)), (proj1 (px_run_values a os)). Qed.

Lemma px_get_ok p k : px_step p (PGet k) = (p, match px_get p k with Some v => Ok (Some v) | None => Err KeyError end).
Proof. done. Qed.
Lemma px_mem_get p k : px_mem p k = true <-> is_Some (px_get p k).
Proof.
  unfold px_mem, px_get. rewrite orb_true_iff, !bool_decide_eq_true.
  destruct (px_own p !! k); [split; [done|by left]|]. split; [intros [[? H]|H]; [discriminate|done]|by right].
Qed.

(** Iteration yields each visible key once. *)
Lemma px_keys_visible p k : k ∈ px_keys p <-> is_Some (px_get p k).
Proof.
  unfold px_keys, px_get. rewrite elem_of_app. split.
  - intros [H|H].
    + apply elem_of_list_fmap in H as ([k' v] & -> & H). apply elem_of_map_to_list in H. simpl.
      rewrite H. by destruct (px_own p !! k').
    + apply elem_of_list_In, filter_In in H as [H _]. apply elem_of_list_In in H.
      apply elem_of_list_fmap in H as ([k' v] & -> & H). apply elem_of_map_to_list in H. simpl.
      by rewrite H.
  - destruct (px_node p !! k) as [w|] eqn:En.
    + intros _. left. apply elem_of_list_fmap. exists (k, w). split; [done|]. by apply elem_of_map_to_list.
    + destruct (px_own p !! k) as [w|] eqn:Eo; [|intros [? H]; discriminate].
      intros _. right. apply elem_of_list_In, filter_In. split.
      * apply elem_of_list_In, elem_of_list_fmap. exists (k, w). split; [done|]. by apply elem_of_map_to_list.
      * rewrite En. rewrite bool_decide_false; [done|]. intros [? H]; discriminate.
Qed.
Lemma px_keys_nodup p : NoDup (px_keys p).
Proof.
  unfold px_keys. apply NoDup_app. split; [apply NoDup_fst_map_to_list|]. split.
  - intros k H H'. apply elem_of_list_In, filter_In in H' as [_ H'].
    apply elem_of_list_fmap in H as ([k' v] & -> & H). apply elem_of_map_to_list in H.
    simpl in H'. rewrite H in H'. rewrite bool_decide_true in H'; [discriminate|by eexists].
  - apply NoDup_ListNoDup, List.NoDup_filter, NoDup_ListNoDup. exact (NoDup_fst_map_to_list (px_own p)).
Qed.

(** A member redirected by [redirect] can be loaded as ndarray or tuple; the node is as
    it was. *)
Lemma redirect_node nm dt a p : redirect nm dt a = Ok (Some p) ->
  px_node p = a /\
  px_get p a_type = Some (APickle (if bool_decide (nm = str "shape") then CTuple else CNdarray)) /\
  px_get p a_base_type = Some (ABytes (if bool_decide (nm = str "shape") then str "tuple" else str "ndarray")) /\
  (nm <> str "shape" -> px_get p a_np_dtype = Some (default (ABytes dt) (a !! a_np_dtype))).
Proof.
  assert (a_type <> a_base_type) as N1 by (intros H; vm_compute in H; discriminate).
  assert (a_type <> a_np_dtype) as N2 by (intros H; vm_compute in H; discriminate).
  assert (a_base_type <> a_np_dtype) as N3 by (intros H; vm_compute in H; discriminate).
  assert (str "data" <> str "shape") as N4 by (intros H; vm_compute in H; discriminate).
  revert N1 N2 N3. unfold redirect, px_get, px_put, wrap.
  generalize a_type a_base_type a_np_dtype. intros kt kb kd N1 N2 N3. cbn [px_own px_node].
  rewrite !lookup_empty.
  destruct (bool_decide (nm = str "data")) eqn:Ed.
  - apply bool_decide_eq_true in Ed as ->. rewrite (bool_decide_false (str "data" = str "shape")) by done.
    destruct (a !! kt); [|discriminate]. destruct (a !! kb); [|discriminate].
    destruct (a !! kd) as [d|] eqn:Ea; cbn [px_own px_node].
    + rewrite !lookup_insert_ne, lookup_empty, Ea by done. intros [= <-]. cbn.
      rewrite lookup_insert, lookup_insert_ne, lookup_insert by done.
      rewrite !lookup_insert_ne, lookup_empty, Ea by done. done.
    + rewrite !lookup_insert_ne, lookup_insert by done. intros [= <-]. cbn.
      rewrite lookup_insert, lookup_insert_ne, lookup_insert by done.
      rewrite !lookup_insert_ne, lookup_insert by done. done.
  - destruct (sparse_index nm); [|discriminate].
    destruct (bool_decide (nm = str "shape")) eqn:Es.
    + intros [= <-]. cbn. rewrite lookup_insert, lookup_insert_ne, lookup_insert by done.
      apply bool_decide_eq_true in Es as ->. repeat split; done.
    + cbn [px_own px_node]. rewrite !lookup_insert_ne, lookup_empty by done.
      destruct (a !! kd) as [d|] eqn:Ea; intros [= <-]; cbn.
      * rewrite lookup_insert, lookup_insert_ne, lookup_insert by done.
        rewrite !lookup_insert_ne, lookup_empty, Ea by done. done.
      * rewrite (lookup_insert_ne _ kd kt), (lookup_insert_ne _ kb kt), lookup_insert by done.
        rewrite (lookup_insert_ne _ kd kb), lookup_insert, lookup_insert by done. done.
Qed.
