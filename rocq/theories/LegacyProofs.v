(** * LegacyProofs: order in which the hickle 3 loader visits members *)
From Coq Require Import Sorted Permutation.
From Verif Require Import Base Utf8 Dec DecProofs Legacy.
Local Open Scope N_scope.
Local Open Scope list_scope.

(** ** Insertion sort by a number *)
Section ByNumber.
Context {A : Type} (key : A -> N).
Notation lt := (fun a b => key a <? key b).
Notation le := (fun a b => key a <= key b).

Lemma insert_perm (f : A -> A -> bool) x l : Permutation (insert_sorted f x l) (x :: l).
Proof.
  induction l as [|y r IH]; [done|]. simpl. destruct (f y x); [|done].
  rewrite IH. apply perm_swap.
Qed.
Lemma sorted_by_perm (f : A -> A -> bool) l : Permutation (sorted_by f l) l.
Proof. induction l as [|x l IH]; [done|]. simpl. rewrite insert_perm. by apply Permutation_cons. Qed.

Lemma insert_sorted_sorted x l : StronglySorted le l -> StronglySorted le (insert_sorted lt x l).
Proof.
  induction 1 as [|y r Hr IH Hy]; [repeat constructor|]. simpl.
  destruct (N.ltb_spec (key y) (key x)) as [H|H].
  - constructor; [exact IH|]. apply List.Forall_forall. intros z Hz.
    apply (Permutation_in _ (insert_perm _ x r)) in Hz as [<- |Hz]; [lia|].
    rewrite List.Forall_forall in Hy. by apply Hy.
  - constructor; [by constructor|]. apply List.Forall_forall. intros z [<- |Hz]; [done|].
    rewrite List.Forall_forall in Hy. specialize (Hy _ Hz). simpl in Hy. lia.
Qed.
Lemma sorted_by_sorted l : StronglySorted le (sorted_by lt l).
Proof. induction l as [|x l IH]; [constructor|]. simpl. by apply insert_sorted_sorted. Qed.

Notation same n := (List.filter (fun a => key a =? n)).
Lemma insert_same n x l :
  same n (insert_sorted lt x l) = if key x =? n then x :: same n l else same n l.
Proof.
  induction l as [|y r IH]; [done|]. simpl.
  destruct (N.ltb_spec (key y) (key x)) as [H|H]; simpl; [|done].
  rewrite IH. destruct (N.eqb_spec (key x) n), (N.eqb_spec (key y) n); try done. lia.
Qed.
Lemma sorted_by_same n l : same n (sorted_by lt l) = same n l.
Proof. induction l as [|x l IH]; [done|]. simpl. by rewrite insert_same, IH. Qed.

(** A list with these properties is the only one. *)
Lemma stable_sort_unique l l' :
  StronglySorted le l -> StronglySorted le l' -> (forall n, same n l = same n l') -> l = l'.
Proof.
  intros Hl. revert l'. induction Hl as [|x l Hl IH Hx]; intros l' Hl' E.
  - destruct l' as [|y l']; [done|]. specialize (E (key y)). simpl in E.
    rewrite N.eqb_refl in E. discriminate.
  - destruct Hl' as [|y l' Hl' Hy].
    { specialize (E (key x)). simpl in E. rewrite N.eqb_refl in E. discriminate. }
    assert (key x = key y) as Exy.
    { apply N.le_antisymm.
      - pose proof (E (key y)) as Ey. simpl in Ey. rewrite N.eqb_refl in Ey.
        assert (In y (same (key y) (x :: l))) as Hi by (simpl; rewrite Ey; by left).
        apply filter_In in Hi as [[-> |Hi] _]; [lia|]. rewrite List.Forall_forall in Hx. by apply Hx.
      - pose proof (E (key x)) as Ex. simpl in Ex. rewrite N.eqb_refl in Ex.
        assert (In x (same (key x) (y :: l'))) as Hi by (simpl; rewrite <- Ex; by left).
        apply filter_In in Hi as [[-> |Hi] _]; [lia|]. rewrite List.Forall_forall in Hy. by apply Hy. }
    assert (x = y) as ->.
    { specialize (E (key x)). simpl in E. rewrite Exy, N.eqb_refl in E. congruence. }
    f_equal. apply IH; [done|]. intros n. specialize (E n). simpl in E.
    destruct (key y =? n); congruence.
Qed.
End ByNumber.

(** ** Keys *)
Lemma key_to_bytes_all ks : forallb (fun k => forallb (fun c => c <? 128) k) ks = true ->
  res_mapM key_to_bytes ks = Ok ks.
Proof.
  induction ks as [|k ks IH]; [done|]. simpl. intros H. apply andb_prop in H as [Hk H].
  unfold key_to_bytes at 1. rewrite Hk. simpl. by rewrite IH.
Qed.

(** The number a key is sorted by if all have one. *)
Definition number (k : bytes) : N := default 0 (key_number k).

Lemma insert_ext {A} (f g : A -> A -> bool) x l : (forall y, In y l -> f y x = g y x) ->
  insert_sorted f x l = insert_sorted g x l.
Proof.
  induction l as [|y r IH]; [done|]. intros H. simpl. rewrite (H y) by (by left).
  destruct (g y x); [|done]. f_equal. apply IH. intros z Hz. apply H. by right.
Qed.
Lemma sorted_by_ext {A} (f g : A -> A -> bool) l : (forall x y, In x l -> In y l -> f x y = g x y) ->
  sorted_by f l = sorted_by g l.
Proof.
  induction l as [|x l IH]; [done|]. intros H. simpl. rewrite IH by (intros; apply H; by right).
  apply insert_ext. intros y Hy. apply H; [right|by left].
  by apply (Permutation_in _ (sorted_by_perm g l)).
Qed.

Lemma sort_keys_numbered ks :
  forallb (fun k => forallb (fun c => c <? 128) k) ks = true ->
  Forall (fun k => is_Some (key_number k)) ks ->
  sort_keys ks = Ok (sorted_by (fun a b => number a <? number b) ks).
Proof.
  intros Ha Hn. unfold sort_keys. rewrite key_to_bytes_all by done. simpl. f_equal.
  destruct ks as [|k0 ks0]; [done|]. rewrite (bool_decide_false (k0 :: ks0 = [])) by done. simpl negb.
  set (ks := k0 :: ks0) in *. clearbody ks.
  rewrite (proj2 (List.forallb_forall _ _)).
  2:{ intros k Hk. apply elem_of_list_In in Hk. rewrite list.Forall_forall in Hn.
      destruct (Hn _ Hk) as [n ->]. done. }
  simpl. apply sorted_by_ext. intros x y Hx Hy. rewrite list.Forall_forall in Hn.
  destruct (Hn x) as [m Hm]; [by apply elem_of_list_In|]. destruct (Hn y) as [n Hn']; [by apply elem_of_list_In|].
  unfold number. rewrite Hm, Hn'. done.
Qed.

(** Names written by hickle 3 for items: 'data_%i'. *)
Definition item_name (i : N) : pystr := str "data_" ++ N_dec i.

Lemma digits_prefix_all s : Forall (fun c => is_digit c = true) s -> digits_prefix s = s.
Proof. induction 1 as [|c s H Hs IH]; [done|]. simpl. by rewrite H, IH. Qed.
Lemma item_name_number i : key_number (item_name i) = Some i.
Proof.
  unfold key_number, item_name.
  change (first_digits (str "data_" ++ N_dec i)) with (first_digits (N_dec i)).
  replace (first_digits (N_dec i)) with (N_dec i); [apply N_parse_dec|].
  pose proof (N_dec_digit i) as Hd. pose proof (N_dec_nonempty i) as Hne.
  destruct (N_dec i) as [|c r]; [done|]. unfold first_digits.
  inversion Hd; subst. rewrite H1. by rewrite digits_prefix_all.
Qed.

(** The items of a list are visited in their order, whatever order the file lists them in. *)
Lemma sort_keys_items n ks :
  Permutation ks (map (fun i => item_name (N.of_nat i)) (seq 0 n)) ->
  sort_keys ks = Ok (map (fun i => item_name (N.of_nat i)) (seq 0 n)).
Proof.
  set (is := map _ _). intros P.
  assert (forall k, In k ks -> exists i, (i < n)%nat /\ k = item_name (N.of_nat i)) as Hk.
  { intros k H. apply (Permutation_in _ P) in H. apply in_map_iff in H as (i & <- & H).
    apply in_seq in H. exists i. split; [lia|done]. }
  rewrite sort_keys_numbered.
  - f_equal. apply (stable_sort_unique number); [apply sorted_by_sorted| |].
    + clear. unfold is. generalize 0%nat. induction n as [|n IH]; intros a; [constructor|].
      simpl. constructor; [apply IH|]. apply List.Forall_forall. intros k H.
      apply in_map_iff in H as (i & <- & H). apply in_seq in H. unfold number.
      rewrite !item_name_number. simpl. lia.
    + intros m. rewrite sorted_by_same.
      assert (forall l, (forall k, In k l -> exists i, k = item_name (N.of_nat i)) -> NoDup l ->
        List.filter (fun k => number k =? m) l = if bool_decide (item_name m ∈ l) then [item_name m] else []) as F.
      { induction l as [|k l IH]; intros Hl Hnd; [done|]. inversion Hnd as [|? ? Hn1 Hn2]; subst.
        simpl. rewrite IH by (try done; intros; apply Hl; by right).
        destruct (Hl k) as [i ->]; [by left|]. unfold number. rewrite item_name_number. simpl default.
        destruct (N.eqb_spec (N.of_nat i) m) as [<- |Hm].
        - rewrite (bool_decide_false (_ ∈ l)) by done. rewrite bool_decide_true by (by left). done.
        - erewrite bool_decide_ext; [reflexivity|]. split; [by right|].
          intros H. apply elem_of_cons in H as [E|H]; [|done]. exfalso. apply Hm.
          pose proof (item_name_number m) as Em. rewrite E, item_name_number in Em. congruence. }
      assert (NoDup is) as Hnd.
      { apply NoDup_ListNoDup, FinFun.Injective_map_NoDup, seq_NoDup.
        intros a b E. pose proof (item_name_number (N.of_nat a)) as Ea. rewrite E, item_name_number in Ea.
        injection Ea. lia. }
      rewrite !F.
      * erewrite bool_decide_ext; [reflexivity|]. by rewrite P.
      * intros k H. apply (Permutation_in _ (Permutation_sym P)) in H. destruct (Hk _ H) as (i & _ & ->). by exists i.
      * done.
      * intros k H. destruct (Hk _ H) as (i & _ & ->). by exists i.
      * by rewrite P.
  - apply List.forallb_forall. intros k H. destruct (Hk _ H) as (i & _ & ->). unfold item_name.
    rewrite forallb_app. apply andb_true_intro. split; [done|].
    apply List.forallb_forall. intros c Hc. pose proof (N_dec_digit (N.of_nat i)) as Hd.
    rewrite list.Forall_forall in Hd. specialize (Hd c (proj2 (elem_of_list_In _ _) Hc)).
    unfold is_digit in Hd. lia.
  - apply list.Forall_forall. intros k H. apply elem_of_list_In in H. destruct (Hk _ H) as (i & _ & ->).
    rewrite item_name_number. by eexists.
Qed.

(** The three properties a stable sort by number has. *)
Lemma sort_keys_spec ks :
  Forall (fun k => Forall (fun c => c < 128) k) ks -> Forall (fun k => is_Some (key_number k)) ks ->
  exists out, sort_keys ks = Ok out /\ Permutation out ks /\
    StronglySorted (fun a b => number a <= number b) out /\
    (forall n, List.filter (fun k => number k =? n) out = List.filter (fun k => number k =? n) ks).
Proof.
  intros Ha Hn. exists (sorted_by (fun a b => number a <? number b) ks). split; [|split; [|split]].
  - apply sort_keys_numbered; [|done]. apply List.forallb_forall. intros k Hk.
    rewrite list.Forall_forall in Ha. apply elem_of_list_In, Ha in Hk.
    apply List.forallb_forall. intros c Hc. rewrite list.Forall_forall in Hk.
    apply elem_of_list_In, Hk in Hc. by apply N.ltb_lt.
  - apply sorted_by_perm.
  - apply sorted_by_sorted.
  - intros n. apply sorted_by_same.
Qed.
