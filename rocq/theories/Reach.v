(** * Reach: positions inside an object graph

    For stating which positions hold one and the same object, without mentioning how
    graphs are compared. *)
From Verif Require Import Base Utf8 Num PyObj Env LoadFns Registry Spec.

(** The [i]-th item of a list or tuple, the value of the [i]-th entry of a dict. *)
Inductive step := Item (i : nat) | Value (i : nat).

Inductive reach (h : heap) : loc -> list step -> loc -> Prop :=
| reach_here x : reach h x [] x
| reach_item x c xs i y P z :
    h !! x = Some (Obj c (VSeq xs)) -> isinst c CSet = false -> xs !! i = Some y ->
    reach h y P z -> reach h x (Item i :: P) z
| reach_value x c kvs i k y P z :
    h !! x = Some (Obj c (VDict kvs)) -> kvs !! i = Some (k, y) ->
    reach h y P z -> reach h x (Value i :: P) z.

Definition scalar_at (h : heap) (x : loc) : Prop := exists o, h !! x = Some o /\ scalar o.

Lemma reach_scalar h x P z : reach h x P z -> scalar_at h x -> x = z.
Proof.
  intros [|? ? ? ? ? ? ? Hx|? ? ? ? ? ? ? ? Hx]; [done| |]; intros (o & Ho & Hs); rewrite Hx in Ho; inversion Ho; subst; done.
Qed.

Lemma reach_image h x h' y (R : loc -> loc -> Prop) :
  (forall a b, R a b -> exists o o', h !! a = Some o /\ h' !! b = Some o' /\ same_obj h h' R o o') ->
  R x y -> forall P z, reach h x P z -> ~ scalar_at h z -> exists z', reach h' y P z' /\ R z z'.
Proof.
  intros HR Hxy P z Hr. revert y Hxy.
  induction Hr as [x|x c xs i w P z Hx Hc Hi Hr IH|x c kvs i k w P z Hx Hi Hr IH]; intros y Hxy Hz.
  - exists y. split; [constructor|done].
  - destruct (HR _ _ Hxy) as (o & o' & Ho & Ho' & Hcl & Hs). rewrite Hx in Ho. inversion Ho; subst o. simpl in *.
    rewrite Hc in Hs. destruct o' as [c' v']. simpl in *. subst c'. destruct v'; try (by destruct Hs).
    assert (exists w', xs0 !! i = Some w' /\ R w w') as (w' & Hw' & Hww).
    { destruct Hs as [Hs|(_ & Hs & _)].
      - destruct (Forall2_lookup_l _ _ _ _ _ Hs Hi) as (w' & A & B). by exists w'.
      - exfalso. destruct (Forall2_lookup_l _ _ _ _ _ Hs Hi) as (w' & A & (c1 & n1 & c2 & n2 & B & _)).
        assert (scalar_at h w) as Hsc. { exists (Obj c1 (VNum n1)). done. }
        apply Hz. by rewrite <-(reach_scalar _ _ _ _ Hr Hsc). }
    destruct (IH _ Hww Hz) as (z' & A & B). exists z'. split; [|done]. by econstructor.
  - destruct (HR _ _ Hxy) as (o & o' & Ho & Ho' & Hcl & Hs). rewrite Hx in Ho. inversion Ho; subst o. simpl in *.
    destruct o' as [c' v']. simpl in *. subst c'. destruct v'; try (by destruct Hs).
    destruct (Forall2_lookup_l _ _ _ _ _ Hs Hi) as ([k' w'] & A & B). simpl in *.
    assert (R w w') as Hww.
    { destruct B as [[_ B]|[(_ & B & _) _]]; [done|]. exfalso.
      inversion B as [|? ? ? ? _ B']; subst. inversion B' as [|? ? ? ? (c1 & n1 & c2 & n2 & B1 & _) _]; subst.
      assert (scalar_at h w) as Hsc. { exists (Obj c1 (VNum n1)). done. }
      apply Hz. by rewrite <-(reach_scalar _ _ _ _ Hr Hsc). }
    destruct (IH _ Hww Hz) as (z' & A' & B'). exists z'. split; [|done]. by econstructor.
Qed.

Lemma reach_fun h x P : forall z z', reach h x P z -> reach h x P z' -> z = z'.
Proof.
  intros z z' H. revert z'. induction H as [x|x c xs i w P z Hx Hc Hi Hr IH|x c kvs i k w P z Hx Hi Hr IH]; intros z' H';
    inversion H'; subst; try done; repeat match goal with
      | A : ?h !! ?x = Some _, B : ?h !! ?x = Some _ |- _ => rewrite A in B; inversion B; subst; clear B
      | A : ?l !! ?i = Some _, B : ?l !! ?i = Some _ |- _ => rewrite A in B; inversion B; subst; clear B end; eauto.
Qed.

(** Positions that hold one object in a graph hold one object in every isomorphic graph,
    and positions holding different objects hold different ones. *)
Lemma isomorphic_alias h x h' y P Q a b :
  isomorphic h x h' y -> reach h x P a -> reach h x Q b -> ~ scalar_at h a -> ~ scalar_at h b ->
  exists a' b', reach h' y P a' /\ reach h' y Q b' /\ (a = b <-> a' = b').
Proof.
  intros (R & Hxy & HR & H1 & H2) HP HQ Ha Hb.
  destruct (reach_image _ _ _ _ _ HR Hxy _ _ HP Ha) as (a' & A1 & A2).
  destruct (reach_image _ _ _ _ _ HR Hxy _ _ HQ Hb) as (b' & B1 & B2).
  exists a', b'. split; [done|]. split; [done|].
  assert (forall o, h !! a = Some o -> ~ scalar o) as Hao. { intros o Ho Hs. apply Ha. by exists o. }
  split; intros ->; [by eapply H1|by eapply H2].
Qed.
