(** * Proofs about decimal rendering *)
From Verif Require Import Base Dec.
From Coq Require Import Lia ZifyBool ZifyN ZifyNat.
Ltac Zify.zify_post_hook ::= Z.div_mod_to_equations.
Arguments N.add : simpl never.
Arguments N.mul : simpl never.
Arguments N.sub : simpl never.
Arguments N.div : simpl never.
Arguments N.modulo : simpl never.
Arguments N.ltb : simpl never.
Arguments N.leb : simpl never.

Lemma size_nat_div10 n : 10 <= n -> (N.size_nat (n / 10) < N.size_nat n)%nat.
Proof.
  intros H.
  assert (Hs : forall m, N.of_nat (N.size_nat m) = N.size m).
  { intros [|p]; [reflexivity|]. cbn. induction p; cbn; lia. }
  assert (N.size (n / 10) < N.size n); [|rewrite <- !Hs in H0; lia].
  rewrite (N.size_log2 n) by lia.
  destruct (N.eq_dec (n/10) 0) as [E|E].
  - rewrite E. cbn. lia.
  - rewrite N.size_log2 by lia.
    apply -> N.succ_lt_mono.
    assert (N.log2 (n/10) <= N.log2 (n/2)).
    { apply N.log2_le_mono. lia. }
    assert (N.log2 (n / 2) < N.log2 n); [|lia].
    change 2 with (2^1) at 1. rewrite <- N.shiftr_div_pow2, N.log2_shiftr.
    assert (1 <= N.log2 n). { apply N.log2_le_pow2; lia. }
    lia.
Qed.

Lemma digits_fuel_digit fuel n : Forall (fun c => is_digit c = true) (digits_fuel fuel n).
Proof.
  revert n; induction fuel as [|f IH]; intros n; cbn [digits_fuel]; [constructor|].
  unfold is_digit. destruct (n <? 10) eqn:E.
  - repeat constructor. lia.
  - apply Forall_app; split; [apply IH|]. repeat constructor. lia.
Qed.

Lemma N_dec_digit n : Forall (fun c => is_digit c = true) (N_dec n).
Proof. apply digits_fuel_digit. Qed.

Lemma digits_fuel_nonempty f n : digits_fuel (S f) n <> [].
Proof. cbn [digits_fuel]. destruct (n <? 10); [discriminate|]. intros H. apply app_eq_nil in H as [_ H]. discriminate. Qed.

Lemma N_dec_nonempty n : N_dec n <> [].
Proof. apply digits_fuel_nonempty. Qed.

Lemma parse_digits_app acc s t :
  parse_digits acc (s ++ t) = match parse_digits acc s with Some a => parse_digits a t | None => None end.
Proof.
  revert acc; induction s as [|c s IH]; intros acc; cbn; [reflexivity|].
  destruct (is_digit c); [apply IH|reflexivity].
Qed.

Lemma parse_digits_fuel fuel n :
  (N.size_nat n < fuel)%nat -> parse_digits 0 (digits_fuel fuel n) = Some n.
Proof.
  revert n; induction fuel as [|f IH]; intros n H; [lia|].
  cbn [digits_fuel]. destruct (n <? 10) eqn:E.
  - cbn [parse_digits]. unfold is_digit.
    replace ((48 <=? 48 + n) && (48 + n <=? 57)) with true by lia. f_equal. lia.
  - rewrite parse_digits_app, IH.
    + cbn [parse_digits]. unfold is_digit.
      replace ((48 <=? 48 + n mod 10) && (48 + n mod 10 <=? 57)) with true by lia. f_equal. lia.
    + pose proof (size_nat_div10 n). lia.
Qed.

Lemma N_parse_dec n : N_parse (N_dec n) = Some n.
Proof.
  unfold N_parse. destruct (N_dec n) eqn:E; [destruct (N_dec_nonempty n E)|].
  rewrite <- E. apply parse_digits_fuel. lia.
Qed.

Lemma N_dec_inj n m : N_dec n = N_dec m -> n = m.
Proof. intros H. pose proof (N_parse_dec n) as A. rewrite H, N_parse_dec in A. congruence. Qed.

Lemma Z_parse_N n : Z_parse (N_dec n) = Ok (Z.of_N n).
Proof.
  unfold Z_parse. destruct (N_dec n) as [|c r] eqn:E; [destruct (N_dec_nonempty n E)|].
  pose proof (N_dec_digit n) as D. rewrite E in D. inversion D as [|? ? Hc _]; subst.
  unfold is_digit in Hc.
  replace (c =? 45) with false by lia. replace (c =? 43) with false by lia.
  rewrite <- E, N_parse_dec. reflexivity.
Qed.

Lemma Z_parse_dec z : Z_parse (Z_dec z) = Ok z.
Proof.
  destruct z as [|p|p]; cbn [Z_dec].
  - reflexivity.
  - rewrite Z_parse_N. reflexivity.
  - unfold Z_parse. change (45 =? 45) with true. cbv iota.
    rewrite N_parse_dec. reflexivity.
Qed.

Lemma Z_dec_inj z w : Z_dec z = Z_dec w -> z = w.
Proof. intros H. pose proof (Z_parse_dec z) as A. rewrite H, Z_parse_dec in A. congruence. Qed.

Lemma Z_dec_first z : exists c r, Z_dec z = c :: r /\ (c = 45 \/ is_digit c = true).
Proof.
  destruct z as [|p|p]; cbn [Z_dec].
  - exists 48, []. split; [reflexivity|right; reflexivity].
  - destruct (N_dec (Npos p)) as [|c r] eqn:E; [destruct (N_dec_nonempty _ E)|].
    pose proof (N_dec_digit (Npos p)) as D. rewrite E in D. inversion D; subst. eauto.
  - eauto.
Qed.

Lemma Z_dec_chars z : Forall (fun c => c = 45 \/ is_digit c = true) (Z_dec z).
Proof.
  assert (H : forall n, Forall (fun c => c = 45 \/ is_digit c = true) (N_dec n)).
  { intros n. pose proof (N_dec_digit n) as D. induction D; constructor; auto. }
  destruct z as [|p|p]; cbn [Z_dec].
  - repeat constructor; right; reflexivity.
  - apply H.
  - constructor; [auto|apply H].
Qed.
