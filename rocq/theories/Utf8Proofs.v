(** * Proofs about the UTF-8 codec *)
From Verif Require Import Base Utf8.
From Coq Require Import Lia ZifyBool ZifyN.
Ltac Zify.zify_post_hook ::= Z.div_mod_to_equations.
Arguments N.add : simpl never.
Arguments N.mul : simpl never.
Arguments N.sub : simpl never.
Arguments N.div : simpl never.
Arguments N.modulo : simpl never.
Arguments N.ltb : simpl never.
Arguments N.leb : simpl never.

Lemma res_map_app_cons c (b : bytes) r : res_map (cons c) (res_map (app b) r) = res_map (app (c :: b)) r.
Proof. destruct r; reflexivity. Qed.

Ltac bdes :=
  match goal with
  | |- context [if ?b then _ else _] => let E := fresh "E" in destruct b eqn:E
  end.

Ltac unb := unfold is_scalar in *; unfold is_cont, is_surrogate in *.

Lemma utf8_decode_char c b r :
  utf8_char c = Some b -> utf8_decode (b ++ r) = res_map (cons c) (utf8_decode r).
Proof.
  unfold utf8_char. intros H.
  destruct (c <? 0x80) eqn:E1; [|destruct (c <? 0x800) eqn:E2; [|destruct (is_surrogate c) eqn:E3;
    [discriminate|destruct (c <? 0x10000) eqn:E4; [|destruct (c <? 0x110000) eqn:E5; [|discriminate]]]]];
  injection H as <-; cbn [app utf8_decode].
  - rewrite E1. reflexivity.
  - replace (0xC0 + c / 64 <? 128) with false by lia.
    replace (0xC0 + c / 64 <? 0xC2) with false by lia.
    replace (0xC0 + c / 64 <? 0xE0) with true by lia.
    replace (is_cont (128 + c mod 64)) with true by (unb; lia).
    replace ((192 + c / 64 - 192) * 64 + (128 + c mod 64 - 128)) with c by lia. reflexivity.
  - set (b0 := 0xE0 + c / 4096). set (b1 := 0x80 + (c/64) mod 64). set (b2 := 0x80 + c mod 64).
    assert (Hc : (b0 - 0xE0) * 4096 + (b1 - 0x80) * 64 + (b2 - 0x80) = c) by (subst b0 b1 b2; unb; lia).
    replace (b0 <? 128) with false by lia.
    replace (b0 <? 0xC2) with false by lia.
    replace (b0 <? 0xE0) with false by lia.
    replace (b0 <? 0xF0) with true by lia.
    cbv zeta. rewrite Hc, E3.
    replace (is_cont b1) with true by (unb; lia).
    replace (is_cont b2) with true by (unb; lia).
    replace (0x800 <=? c) with true by lia. reflexivity.
  - set (b0 := 0xF0 + c / 262144). set (b1 := 0x80 + (c/4096) mod 64).
    set (b2 := 0x80 + (c/64) mod 64). set (b3 := 0x80 + c mod 64).
    assert (Hc : (b0 - 0xF0) * 262144 + (b1 - 0x80) * 4096 + (b2 - 0x80) * 64 + (b3 - 0x80) = c)
      by (subst b0 b1 b2 b3; unb; lia).
    replace (b0 <? 128) with false by lia.
    replace (b0 <? 0xC2) with false by lia.
    replace (b0 <? 0xE0) with false by lia.
    replace (b0 <? 0xF0) with false by lia.
    replace (b0 <? 0xF5) with true by lia.
    cbv zeta. rewrite Hc, E5.
    replace (is_cont b1) with true by (unb; lia).
    replace (is_cont b2) with true by (unb; lia).
    replace (is_cont b3) with true by (unb; lia).
    replace (0x10000 <=? c) with true by lia. reflexivity.
Qed.

Lemma utf8_decode_encode s b : utf8_encode s = Ok b -> utf8_decode b = Ok s.
Proof.
  revert b; induction s as [|c s IH]; intros b H; cbn [utf8_encode] in H.
  - injection H as <-. reflexivity.
  - destruct (utf8_char c) as [bc|] eqn:Ec; [|discriminate].
    destruct (utf8_encode s) as [bs|] eqn:Es; cbn [res_map] in H; [|discriminate].
    injection H as <-. rewrite (utf8_decode_char c bc bs Ec), (IH bs eq_refl). reflexivity.
Qed.

Lemma utf8_char_some c : is_scalar c = true <-> exists b, utf8_char c = Some b.
Proof.
  unfold utf8_char; unb. split.
  - intros H. apply andb_true_iff in H as [H1 H2]. apply negb_true_iff in H2. rewrite H1, H2. repeat bdes; eauto.
  - intros [b H]. destruct ((55296 <=? c) && (c <=? 57343)) eqn:Es; revert H; repeat bdes; try discriminate; intros _; lia.
Qed.

Lemma utf8_encode_ok s : encodable s = true <-> exists b, utf8_encode s = Ok b.
Proof.
  induction s as [|c s IH]; cbn [utf8_encode encodable forallb].
  - split; eauto.
  - fold (encodable s). rewrite andb_true_iff, IH, utf8_char_some. split.
    + intros [[bc Hc] [bs Hs]]. rewrite Hc, Hs. cbn. eauto.
    + intros [b H]. destruct (utf8_char c) as [bc|]; [|discriminate].
      destruct (utf8_encode s) as [bs|]; [|discriminate]. eauto.
Qed.

Lemma utf8_encode_err s : encodable s = false -> utf8_encode s = Err UnicodeError.
Proof.
  induction s as [|c s IH]; cbn [utf8_encode encodable forallb]; [discriminate|].
  fold (encodable s). intros H.
  destruct (utf8_char c) as [bc|] eqn:Ec; [|reflexivity].
  assert (Hs : is_scalar c = true) by (apply utf8_char_some; eauto).
  rewrite Hs in H. rewrite IH by exact H. reflexivity.
Qed.

(** Encoding yields bytes. *)
Lemma utf8_encode_wf s b : utf8_encode s = Ok b -> wf_bytes b.
Proof.
  revert b; induction s as [|c s IH]; intros b H; cbn [utf8_encode] in H.
  - injection H as <-. constructor.
  - destruct (utf8_char c) as [bc|] eqn:Ec; [|discriminate].
    destruct (utf8_encode s) as [bs|] eqn:Es; cbn [res_map] in H; [|discriminate].
    injection H as <-. apply Forall_app. split; [|apply IH; reflexivity].
    revert Ec. unfold utf8_char; unb. repeat bdes; intros [= <-]; repeat constructor; lia.
Qed.

(** The converse direction, needed for bytes keys: what decodes re-encodes to
    the same bytes. *)
Lemma utf8_encode_decode_len n b s :
  (length b <= n)%nat -> utf8_decode b = Ok s -> utf8_encode s = Ok b.
Proof.
  revert b s; induction n as [|n IH]; intros b s Hn H.
  { destruct b; [|cbn in Hn; exfalso; lia]. injection H as <-. reflexivity. }
  destruct b as [|b0 r0]; [injection H as <-; reflexivity|].
  cbn [utf8_decode] in H. cbn [length] in Hn.
  assert (G : forall c bc r, utf8_char c = Some bc -> b0 :: r0 = bc ++ r -> (length r <= n)%nat ->
     res_map (cons c) (utf8_decode r) = Ok s -> utf8_encode s = Ok (b0 :: r0)).
  { intros c bc r Hc Hb Hl Hd. destruct (utf8_decode r) as [s'|] eqn:Er; [|discriminate].
    injection Hd as <-. cbn [utf8_encode]. rewrite Hc, (IH r s' Hl Er), Hb. reflexivity. }
  destruct (b0 <? 0x80) eqn:E0.
  { eapply (G b0 [b0] r0); [|reflexivity|lia|exact H]. unfold utf8_char. rewrite E0. reflexivity. }
  destruct (b0 <? 0xC2) eqn:E1; [discriminate|].
  destruct (b0 <? 0xE0) eqn:E2.
  { destruct r0 as [|b1 r1]; [discriminate|]. destruct (is_cont b1) eqn:C1; [|discriminate].
    cbn [length] in Hn. unb.
    eapply (G _ [b0; b1] r1); [|reflexivity|lia|exact H].
    unfold utf8_char; unb.
    replace (_ <? 128) with false by lia. replace (_ <? 2048) with true by lia.
    do 2 f_equal; [lia|f_equal; lia]. }
  destruct (b0 <? 0xF0) eqn:E3.
  { destruct r0 as [|b1 [|b2 r2]]; try discriminate. cbn [length] in Hn.
    cbv zeta in H.
    set (c := (b0 - 0xE0) * 4096 + (b1 - 0x80) * 64 + (b2 - 0x80)) in *.
    destruct (is_cont b1 && is_cont b2 && (0x800 <=? c) && negb (is_surrogate c)) eqn:C; [|discriminate].
    eapply (G c [b0; b1; b2] r2); [|reflexivity|lia|exact H].
    unfold utf8_char. 
    assert (Hs : is_surrogate c = false) by (unb; lia).
    rewrite Hs. unb.
    replace (c <? 128) with false by lia. replace (c <? 2048) with false by lia.
    replace (c <? 65536) with true by lia.
    do 2 f_equal; [lia|f_equal; [lia|f_equal; lia]]. }
  destruct (b0 <? 0xF5) eqn:E4; [|discriminate].
  destruct r0 as [|b1 [|b2 [|b3 r3]]]; try discriminate. cbn [length] in Hn.
  cbv zeta in H.
  set (c := (b0 - 0xF0) * 262144 + (b1 - 0x80) * 4096 + (b2 - 0x80) * 64 + (b3 - 0x80)) in *.
  destruct (is_cont b1 && is_cont b2 && is_cont b3 && (0x10000 <=? c) && (c <? 0x110000)) eqn:C; [|discriminate].
  eapply (G c [b0; b1; b2; b3] r3); [|reflexivity|lia|exact H].
  unfold utf8_char; unb.
  replace (c <? 128) with false by lia. replace (c <? 2048) with false by lia.
  replace ((0xD800 <=? c) && (c <=? 0xDFFF)) with false by lia.
  replace (c <? 65536) with false by lia. replace (c <? 0x110000) with true by lia.
  do 2 f_equal; [lia|f_equal; [lia|f_equal; [lia|f_equal; lia]]].
Qed.

Lemma utf8_encode_decode b s : utf8_decode b = Ok s -> utf8_encode s = Ok b.
Proof. apply (utf8_encode_decode_len (length b)); lia. Qed.

Lemma utf8_decode_encodable b s : utf8_decode b = Ok s -> encodable s = true.
Proof. intros H. apply utf8_encode_ok. exists b. apply utf8_encode_decode, H. Qed.

Lemma utf8_decode_inj b b' s : utf8_decode b = Ok s -> utf8_decode b' = Ok s -> b = b'.
Proof.
  intros H H'. apply utf8_encode_decode in H, H'. rewrite H in H'. injection H' as ->. reflexivity.
Qed.
