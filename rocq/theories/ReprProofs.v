(** * ReprProofs: [literal_eval] reads back the [repr] of every str *)
From Coq Require Import ZifyBool ZifyN.
From Verif Require Import Base Utf8 Repr.

Lemma unhex_hex_digit d : d < 16 -> unhex_digit (hex_digit d) = Some d.
Proof.
  intros H. unfold unhex_digit, hex_digit. destruct (N.ltb_spec d 10).
  - destruct (_ && _) eqn:E; [f_equal; lia|exfalso; lia].
  - destruct (((48 <=? _) && _)%N) eqn:E; [exfalso; lia|].
    destruct (((97 <=? _) && _)%N) eqn:E2; [f_equal; lia|exfalso; lia].
Qed.

(** Reading [k + 1] digits. *)
Lemma hex_S k c : hex (S k) c = hex_digit (c / 16 ^ N.of_nat k mod 16) :: hex k c.
Proof.
  revert c. induction k as [|k IH]; intros c.
  - cbn [hex app]. by rewrite N.div_1_r.
  - change (hex (S (S k)) c) with (hex (S k) (c / 16) ++ [hex_digit (c mod 16)]). rewrite IH.
    rewrite N.div_div by lia. rewrite Nat2N.inj_succ, N.pow_succ_r'. done.
Qed.
Lemma hex_mod k c : hex k (c mod 16 ^ N.of_nat k) = hex k c.
Proof.
  revert c. induction k as [|k IH]; intros c; [done|]. cbn [hex].
  rewrite Nat2N.inj_succ, N.pow_succ_r'. f_equal.
  - rewrite <- (IH (c / 16)). f_equal. rewrite N.mod_mul_r by lia.
    rewrite (N.add_comm (c mod 16)), (N.mul_comm 16), N.div_add_l by lia.
    rewrite (N.div_small (c mod 16)) by (apply N.mod_lt; lia). lia.
  - f_equal. f_equal. rewrite N.mod_mul_r by lia.
    rewrite (N.add_comm (c mod 16)), (N.mul_comm 16), N.add_mod, N.mod_mul by lia.
    rewrite N.add_0_l, !N.mod_mod by lia. done.
Qed.
Lemma lit_hex q k c acc t : c < 16 ^ N.of_nat (S k) -> acc * 16 ^ N.of_nat (S k) + c < 0x110000 ->
  lit_body q (LHex k acc) (hex (S k) c ++ t)
  = option_map (cons (acc * 16 ^ N.of_nat (S k) + c)) (lit_body q LPlain t).
Proof.
  revert c acc. induction k as [|k IH]; intros c acc Hc Hn.
  - rewrite hex_S. cbn [hex app lit_body]. simpl N.of_nat in *. rewrite N.pow_1_r in *.
    rewrite N.pow_0_r, N.div_1_r, N.mod_small by done. rewrite unhex_hex_digit by done.
    destruct (N.ltb_spec (acc * 16 + c) 0x110000); [done|lia].
  - rewrite hex_S. cbn [app lit_body].
    set (p := 16 ^ N.of_nat (S k)) in *.
    assert (0 < p) by (apply N.neq_0_lt_0, N.pow_nonzero; lia).
    rewrite Nat2N.inj_succ, N.pow_succ_r' in Hc, Hn |- *. fold p in Hc, Hn |- *.
    assert (c / p < 16) by (apply N.div_lt_upper_bound; lia).
    rewrite (N.mod_small (c / p)) by done. rewrite unhex_hex_digit by done.
    pose proof (N.div_mod c p ltac:(lia)) as D. pose proof (N.mod_lt c p ltac:(lia)).
    rewrite <- hex_mod. fold p.
    rewrite IH by (fold p; lia). fold p. f_equal. f_equal. lia.
Qed.

Lemma lit_escape q c t : (q =? 92) = false -> c < 0x110000 ->
  lit_body q LPlain (escape c ++ t) = option_map (cons c) (lit_body q LPlain t).
Proof.
  intros Hq Hc. unfold escape. rewrite N.eqb_sym in Hq.
  destruct (N.ltb_spec c 256); [|destruct (N.ltb_spec c 65536)].
  - change (((92 :: 120 :: hex 2 c) ++ t)) with (92 :: 120 :: (hex 2 c ++ t)). cbn [lit_body]. rewrite Hq.
    cbn [N.eqb Pos.eqb orb]. by rewrite lit_hex by (cbn; lia).
  - change (((92 :: 117 :: hex 4 c) ++ t)) with (92 :: 117 :: (hex 4 c ++ t)). cbn [lit_body]. rewrite Hq.
    cbn [N.eqb Pos.eqb orb]. by rewrite lit_hex by (cbn; lia).
  - change (((92 :: 85 :: hex 8 c) ++ t)) with (92 :: 85 :: (hex 8 c ++ t)). cbn [lit_body]. rewrite Hq.
    cbn [N.eqb Pos.eqb orb]. by rewrite lit_hex by (cbn; lia).
Qed.

Lemma lit_char p q c t : (q = 39 \/ q = 34) -> c < 0x110000 ->
  lit_body q LPlain (repr_char p q c ++ t) = option_map (cons c) (lit_body q LPlain t).
Proof.
  intros Hq Hc. assert ((q =? 92) = false) as Hq92 by lia.
  unfold repr_char.
  destruct ((c =? q) || (c =? 92)) eqn:E1.
  { cbn [app lit_body]. rewrite (N.eqb_sym 92 q), Hq92. cbn [N.eqb Pos.eqb].
    replace ((c =? 92) || (c =? 39) || (c =? 34)) with true by lia. done. }
  apply orb_false_iff in E1 as [E1 E2].
  destruct (N.eqb_spec c 9) as [-> |]; [cbn [app lit_body]; rewrite (N.eqb_sym 92 q), Hq92; done|].
  destruct (N.eqb_spec c 10) as [-> |]; [cbn [app lit_body]; rewrite (N.eqb_sym 92 q), Hq92; done|].
  destruct (N.eqb_spec c 13) as [-> |]; [cbn [app lit_body]; rewrite (N.eqb_sym 92 q), Hq92; done|].
  destruct ((c <? 32) || (c =? 127)) eqn:E3; [by apply lit_escape|].
  assert (lit_body q LPlain (c :: t) = option_map (cons c) (lit_body q LPlain t)) as Hplain.
  { cbn [lit_body]. rewrite E1, E2. replace ((c =? 10) || (c =? 13) || (c =? 0)) with false by lia. done. }
  destruct (c <? 127); [exact Hplain|]. destruct (p c); [exact Hplain|by apply lit_escape].
Qed.

Lemma quote_for_cases s : quote_for s = 39 \/ quote_for s = 34.
Proof. unfold quote_for. destruct (_ && _); auto. Qed.

Lemma eval_repr p s : wf_str s -> eval_str (repr_str p s) = Some s.
Proof.
  intros Hs. unfold eval_str, repr_str. pose proof (quote_for_cases s) as Hq.
  replace ((quote_for s =? 39) || (quote_for s =? 34)) with true by lia.
  generalize (quote_for s) Hq. clear Hq. intros q Hq.
  induction Hs as [|c s Hc Hs IH].
  - simpl. rewrite N.eqb_refl. done.
  - cbn [flat_map]. rewrite <- app_assoc, lit_char by done. by rewrite IH.
Qed.

(** Which characters a repr has. *)
Lemma hex_digit_plain d : d < 16 -> 48 <= hex_digit d <= 102.
Proof. intros H. unfold hex_digit. destruct (N.ltb_spec d 10); lia. Qed.
Lemma hex_plain k c x : In x (hex k c) -> 48 <= x <= 102.
Proof.
  revert c. induction k as [|k IH]; intros c; [done|]. cbn [hex]. intros H.
  apply in_app_or in H as [H|[<- |[]]]; [by apply IH in H|].
  apply hex_digit_plain, N.mod_lt. lia.
Qed.
Lemma escape_plain c x : In x (escape c) -> 48 <= x < 128.
Proof.
  unfold escape. destruct (c <? 256); [|destruct (c <? 65536)]; intros [<- |[<- |H]]; try lia;
    apply hex_plain in H; lia.
Qed.
(** A character of the repr is one of the text, or it is ASCII and not a slash. *)
Lemma repr_char_in p q c x : (q = 39 \/ q = 34) -> In x (repr_char p q c) ->
  x = c \/ (x < 128 /\ x <> 47).
Proof.
  intros Hq. unfold repr_char.
  destruct ((c =? q) || (c =? 92)); [intros [<- |[<- |[]]]; [right; lia|by left]|].
  destruct (c =? 9); [intros [<- |[<- |[]]]; right; lia|].
  destruct (c =? 10); [intros [<- |[<- |[]]]; right; lia|].
  destruct (c =? 13); [intros [<- |[<- |[]]]; right; lia|].
  destruct ((c <? 32) || (c =? 127)); [intros H; apply escape_plain in H; right; lia|].
  destruct (c <? 127); [intros [<- |[]]; by left|].
  destruct (p c); [intros [<- |[]]; by left|intros H; apply escape_plain in H; right; lia].
Qed.
Lemma repr_str_in p s x : In x (repr_str p s) -> In x s \/ (x < 128 /\ x <> 47).
Proof.
  unfold repr_str. pose proof (quote_for_cases s) as Hq. generalize (quote_for s) Hq. clear Hq.
  intros q Hq [<- |H]; [right; lia|]. apply in_app_or in H as [H|[<- |[]]]; [|right; lia].
  apply in_flat_map in H as (c & Hc & H). apply repr_char_in in H as [-> |H]; [by left|by right|done].
Qed.
(** All characters are ASCII when those of the text beyond ASCII are not printable. *)
Lemma repr_str_ascii p s : Forall (fun c => c < 128 \/ p c = false) s ->
  Forall (fun c => c < 128) (repr_str p s).
Proof.
  intros Hs. apply list.Forall_forall. intros x Hx. apply elem_of_list_In in Hx.
  unfold repr_str in Hx. pose proof (quote_for_cases s) as Hq. revert Hx. generalize (quote_for s) Hq. clear Hq.
  intros q Hq [<- |H]; [lia|]. apply in_app_or in H as [H|[<- |[]]]; [|lia].
  apply in_flat_map in H as (c & Hc & H). rewrite list.Forall_forall in Hs.
  specialize (Hs c (proj2 (elem_of_list_In _ _) Hc)).
  destruct (N.ltb_spec c 128) as [Hlt|Hge].
  - apply repr_char_in in H as [-> |H]; [done|lia|done].
  - destruct Hs as [Hs|Hs]; [lia|]. unfold repr_char in H.
    replace ((c =? q) || (c =? 92)) with false in H by lia.
    replace (c =? 9) with false in H by lia. replace (c =? 10) with false in H by lia.
    replace (c =? 13) with false in H by lia. replace ((c <? 32) || (c =? 127)) with false in H by lia.
    replace (c <? 127) with false in H by lia. rewrite Hs in H. apply escape_plain in H. lia.
Qed.
