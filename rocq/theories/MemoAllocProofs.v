(** * MemoAllocProofs: an address in the memo always denotes the object it was recorded for *)
From Verif Require Import Base MemoAlloc.

(** Different objects are at different places, and none is older than its number. *)
Definition alive_ok (live : gmap ident place) (born : ident) : Prop :=
  (forall o p, live !! o = Some p -> o < born) /\
  (forall o o' p, live !! o = Some p -> live !! o' = Some p -> o = o').

Record ainv (s : astate) (outs : list aout) : Prop := AInv {
  ai_alive : alive_ok (a_live s) (a_born s);
  ai_memo : forall p n o, a_memo s !! p = Some (n, o) -> a_live s !! o = Some p /\ ONew o n true ∈ outs;
  ai_new : forall o n, ONew o n true ∈ outs -> exists p, a_memo s !! p = Some (n, o);
  ai_pending : forall o p, a_pending s = Some (o, p) -> a_live s !! o = Some p /\ a_memo s !! p = None
}.

(** Each output is right with respect to the ones before. *)
Fixpoint outs_ok (outs : list aout) : Prop :=       (* last output first *)
  match outs with
  | [] => True
  | ORef o n :: r => ONew o n true ∈ r /\ outs_ok r
  | ONew o n _ :: r => (forall n', ONew o n' true ∉ r) /\ outs_ok r
  end.

Lemma astep_inv s outs e s' o :
  ainv s outs -> outs_ok outs -> astep true s e = Some (s', o) ->
  ainv s' (rev o ++ outs) /\ outs_ok (rev o ++ outs).
Proof.
  intros [[Hb Hi] Hm Hn Hp] Ho. destruct e as [p|x|x|n m|]; simpl.
  - destruct (bool_decide _) eqn:E; [discriminate|]. apply bool_decide_eq_false in E.
    intros [= <- <-]. simpl. split; [|done].
    assert (forall q, a_live s !! a_born s <> Some q) as Hnew.
    { intros q H. apply Hb in H. lia. }
    assert (forall x q, a_live s !! x = Some q -> q <> p) as Hfree.
    { intros x q H ->. apply E. exists x, p. done. }
    split; simpl.
    + split.
      * intros x q. destruct (decide (x = a_born s)) as [-> |N]; [lia|].
        rewrite lookup_insert_ne by done. intros H. apply Hb in H. lia.
      * intros x y q. destruct (decide (x = a_born s)) as [-> |Nx], (decide (y = a_born s)) as [-> |Ny];
          [done| | |]; rewrite ?lookup_insert, ?lookup_insert_ne by done.
        -- intros [= <-] H. by apply Hfree in H.
        -- intros H [= <-]. by apply Hfree in H.
        -- apply Hi.
    + intros q n x H. destruct (Hm _ _ _ H) as [H1 H2]. split; [|done].
      destruct (decide (x = a_born s)) as [-> |N]; [by apply Hnew in H1|by rewrite lookup_insert_ne].
    + exact Hn.
    + intros x q H. destruct (Hp _ _ H) as [H1 H2]. split; [|done].
      destruct (decide (x = a_born s)) as [-> |N]; [by apply Hnew in H1|by rewrite lookup_insert_ne].
  - destruct (held true s x) eqn:Eh; [discriminate|]. simpl.
    destruct (bool_decide _); [discriminate|]. intros [= <- <-]. simpl. split; [|done].
    unfold held in Eh. simpl in Eh. apply orb_false_iff in Eh as [Ef Em].
    apply bool_decide_eq_false in Ef, Em.
    split; simpl.
    + split.
      * intros y q H. apply lookup_delete_Some in H as [_ H]. by eapply Hb.
      * intros y z q H H'. apply lookup_delete_Some in H as [_ H], H' as [_ H']. by eapply Hi.
    + intros q n y H. destruct (Hm _ _ _ H) as [H1 H2]. split; [|done].
      rewrite lookup_delete_ne; [done|]. intros ->. apply Em. by exists q, (n, y).
    + exact Hn.
    + intros y q H. destruct (Hp _ _ H) as [H1 H2]. split; [|done].
      rewrite lookup_delete_ne; [done|]. intros ->. apply Ef. unfold frames. rewrite H. by left.
  - destruct (a_pending s) eqn:Ep; [discriminate|]. destruct (a_live s !! x) as [p|] eqn:El; [|discriminate].
    destruct (a_memo s !! p) as [[n y]|] eqn:Em; intros [= <- <-]; simpl.
    + destruct (Hm _ _ _ Em) as [H1 H2].
      assert (x = y) as -> by (by eapply Hi). split; [|by split].
      split; simpl; [done| | |by rewrite Ep].
      * intros q n' z H. destruct (Hm _ _ _ H). split; [done|by right].
      * intros z n' H. apply elem_of_cons in H as [H|H]; [discriminate|by apply Hn].
    + split; [|done]. split; simpl; [done|done|done|]. by intros ? ? [= <- <-].
  - destruct (a_pending s) as [[x p]|] eqn:Ep; [|discriminate]. intros [= <- <-]. simpl.
    destruct (Hp _ _ eq_refl) as [Hl Hnone].
    assert (forall n', ONew x n' true ∉ outs) as Hfirst.
    { intros n' H. destruct (Hn _ _ H) as [q Hq]. destruct (Hm _ _ _ Hq) as [H1 _]. congruence. }
    split; [|by split].
    destruct m; split; simpl; try done.
    + intros q n' z. destruct (decide (q = p)) as [-> |N].
      * rewrite lookup_insert. intros [= <- <-]. split; [done|by left].
      * rewrite lookup_insert_ne by done. intros H. destruct (Hm _ _ _ H). split; [done|by right].
    + intros z n' H. apply elem_of_cons in H as [[= -> ->]|H]; [exists p; by rewrite lookup_insert|].
      destruct (Hn _ _ H) as [q Hq]. exists q. rewrite lookup_insert_ne; [done|].
      intros ->. congruence.
    + intros q n' z H. destruct (Hm _ _ _ H). split; [done|by right].
    + intros z n' H. apply elem_of_cons in H as [H|H]; [discriminate|by apply Hn].
  - destruct (a_pending s) eqn:Ep; [discriminate|]. destruct (a_frames s); [discriminate|].
    intros [= <- <-]. split; [|done]. by split.
Qed.

Lemma arun_inv es : forall s outs s' o,
  ainv s outs -> outs_ok outs -> arun true s es = Some (s', o) ->
  ainv s' (rev o ++ outs) /\ outs_ok (rev o ++ outs).
Proof.
  induction es as [|e es IH]; intros s outs s' o Hi Ho; simpl.
  - by intros [= <- <-].
  - destruct (astep true s e) as [[s1 o1]|] eqn:E1; [|discriminate].
    destruct (arun true s1 es) as [[s2 o2]|] eqn:E2; [|discriminate]. intros [= <- <-].
    destruct (astep_inv _ _ _ _ _ Hi Ho E1) as [Hi1 Ho1].
    destruct (IH _ _ _ _ Hi1 Ho1 E2) as [Hi2 Ho2].
    rewrite rev_app_distr, <- app_assoc. done.
Qed.

Lemma outs_ok_app l o r : outs_ok (l ++ o :: r) ->
  match o with
  | ORef x n => ONew x n true ∈ r
  | ONew x n _ => forall n', ONew x n' true ∉ r
  end.
Proof.
  induction l as [|o' l IH]; simpl.
  - destruct o; by intros [? _].
  - destruct o'; intros [_ H]; by apply IH.
Qed.

Lemma memo_never_confused live born es s outs before o after :
  alive_ok live born ->
  arun true (afresh live born) es = Some (s, outs) ->
  outs = before ++ o :: after ->
  match o with
  | ORef x n => ONew x n true ∈ before
  | ONew x _ _ => forall n, ONew x n true ∉ before
  end.
Proof.
  intros Ha Hr ->.
  assert (ainv (afresh live born) []) as Hi.
  { split; simpl; [done| | |done].
    - intros p n x H. by rewrite lookup_empty in H.
    - intros x n H. by apply elem_of_nil in H. }
  destruct (arun_inv es _ [] _ _ Hi I Hr) as [_ Ho]. rewrite app_nil_r, rev_app_distr in Ho.
  simpl in Ho. rewrite <- app_assoc in Ho. apply outs_ok_app in Ho.
  destruct o; [apply elem_of_list_In, in_rev, elem_of_list_In; done|].
  intros n' H. apply (Ho n'). apply elem_of_list_In, in_rev. rewrite rev_involutive. by apply elem_of_list_In.
Qed.

(** Without the object in the memo a reference to an unrelated object is written. *)
Definition confusion : list aevent :=
  [EAlloc 10; EEnter 0; ERecord 5 true; ELeave; EFree 0; EAlloc 10; EEnter 1].
Lemma without_object_confused :
  exists s, arun false (afresh ∅ 0) confusion = Some (s, [ONew 0 5 true; ORef 1 5]).
Proof. eexists. vm_compute. reflexivity. Qed.
Lemma with_object_impossible : arun true (afresh ∅ 0) confusion = None.
Proof. vm_compute. reflexivity. Qed.
