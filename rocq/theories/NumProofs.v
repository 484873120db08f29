(** * Proofs about numbers and casts *)
From Verif Require Import Base Num.
From Coq Require Import Lia ZifyBool ZifyN ZifyNat.
Ltac Zify.zify_post_hook ::= Z.div_mod_to_equations.
Arguments N.add : simpl never.
Arguments N.mul : simpl never.
Arguments N.sub : simpl never.
Arguments N.pow : simpl never.
Arguments Z.pow : simpl never.
Arguments Z.mul : simpl never.
Arguments Z.add : simpl never.
Arguments Z.sub : simpl never.

Lemma dtype_of_str_str d : dtype_of_str (dtype_str d) = Some d.
Proof. destruct d as [|[]|[]|[]|[]]; vm_compute; reflexivity. Qed.

Lemma dtype_str_inj d e : dtype_str d = dtype_str e -> d = e.
Proof. intros H. pose proof (dtype_of_str_str d) as A. rewrite H, dtype_of_str_str in A. congruence. Qed.

(** ** strip *)
Definition oddp (m : positive) : Prop := match m with xO _ => False | _ => True end.

Lemma strip_spec p m k : strip p = (m, k) -> oddp m /\ Npos p = Npos m * 2 ^ k.
Proof.
  revert m k; induction p as [p IH|p IH|]; cbn [strip]; intros m k H.
  - injection H as <- <-. split; [exact I|]. rewrite N.pow_0_r. lia.
  - destruct (strip p) as [m' k'] eqn:E. injection H as <- <-.
    destruct (IH _ _ eq_refl) as [O V]. split; [exact O|].
    rewrite N.pow_add_r, N.pow_1_r. lia.
  - injection H as <- <-. split; [exact I|]. rewrite N.pow_0_r. lia.
Qed.

Lemma size_log2 p : Npos (Pos.size p) = N.log2 (Npos p) + 1.
Proof. pose proof (N.size_log2 (Npos p)). cbn [N.size] in H. lia. Qed.

Lemma strip_size p m k : strip p = (m, k) -> Npos (Pos.size p) = Npos (Pos.size m) + k.
Proof.
  intros H. apply strip_spec in H as [_ V]. rewrite !size_log2, V.
  rewrite N.log2_mul_pow2 by lia. lia.
Qed.

Lemma size_le_pow p n : Npos p < 2 ^ n <-> Npos (Pos.size p) <= n.
Proof.
  rewrite size_log2.
  split; intros H.
  - destruct (N.eq_dec n 0) as [->|Hn]; [rewrite N.pow_0_r in H; lia|].
    apply N.log2_lt_pow2 in H; lia.
  - apply N.log2_lt_pow2; lia.
Qed.

(** ** Exactness of int to float conversion *)
Lemma round_pos_small neg p : Npos p <= 2 ^ 53 -> round_pos neg p = Some (dy_of_pos neg p).
Proof.
  intros H. unfold round_pos.
  destruct (Npos (Pos.size p) <=? 53) eqn:E; [reflexivity|].
  assert (Npos p = 2 ^ 53) as V.
  { destruct (N.lt_ge_cases (Npos p) (2 ^ 53)) as [L|L]; [|lia].
    apply size_le_pow in L. lia. }
  injection V as ->. destruct neg; vm_compute; reflexivity.
Qed.

Lemma f64_of_Z_small z : (Z.abs z <= 2 ^ 53)%Z -> f64_of_Z z = Some (dy_of_Z z).
Proof.
  intros H. destruct z as [|p|p]; cbn [f64_of_Z dy_of_Z]; [reflexivity| |];
    apply round_pos_small; lia.
Qed.

(** Rounding is exact precisely when 53 bits suffice. *)
Lemma round_pos_exact neg p :
  fits F8 (dy_of_pos neg p) = true -> round_pos neg p = Some (dy_of_pos neg p).
Proof.
  unfold dy_of_pos, round_pos, fits. destruct (strip p) as [m k] eqn:E. intros H.
  destruct (Npos (Pos.size p) <=? 53) eqn:L; [unfold dy_of_pos; rewrite E; reflexivity|].
  pose proof (strip_size _ _ _ E) as S. pose proof (strip_spec _ _ _ E) as [O V].
  change (fw_prec F8) with 53 in H. change (fw_emax F8) with 1024%Z in H.
  set (s := Npos (Pos.size p) - 53) in *.
  assert (Hs : s <= k) by lia.
  assert (D : 2 ^ k = 2 ^ s * 2 ^ (k - s)) by (rewrite <- N.pow_add_r; f_equal; lia).
  assert (P : 2 ^ s <> 0) by (apply N.pow_nonzero; lia).
  rewrite N.shiftr_div_pow2.
  assert (Q : Npos p / 2 ^ s = Npos m * 2 ^ (k - s)).
  { rewrite V, D. replace (Npos m * (2 ^ s * 2 ^ (k - s))) with ((Npos m * 2 ^ (k - s)) * 2 ^ s) by lia.
    apply N.div_mul, P. }
  assert (R : Npos p mod 2 ^ s = 0).
  { rewrite V, D. replace (Npos m * (2 ^ s * 2 ^ (k - s))) with ((Npos m * 2 ^ (k - s)) * 2 ^ s) by lia.
    apply N.mod_mul, P. }
  rewrite Q, R.
  assert (Hh : 0 < 2 ^ (s - 1)) by (apply N.neq_0_lt_0, N.pow_nonzero; lia).
  replace ((2 ^ (s - 1) <? 0) || ((2 ^ (s - 1) =? 0) && N.odd (Npos m * 2 ^ (k - s)))) with false by lia.
  assert (B : Npos p < 2 ^ (Npos (Pos.size p))) by (apply size_le_pow; lia).
  assert (Q53 : Npos m * 2 ^ (k - s) < 2 ^ 53).
  { rewrite <- Q. apply N.div_lt_upper_bound; [exact P|].
    rewrite <- N.pow_add_r. replace (s + 53) with (Npos (Pos.size p)) by lia. exact B. }
  replace (Npos m * 2 ^ (k - s) =? 2 ^ 53) with false by lia.
  replace (1024 <? Npos (Pos.size p)) with false by lia.
  destruct (Npos m * 2 ^ (k - s)) as [|q] eqn:Eq.
  { assert (2 ^ (k - s) <> 0) by (apply N.pow_nonzero; lia). lia. }
  assert (T : strip q = (m, k - s)).
  { clear - Eq O. generalize dependent (k - s). intros j.
    revert q. induction j using N.peano_ind; intros q Eq.
    - rewrite N.pow_0_r in Eq. assert (q = m) by lia. subst q.
      destruct m; [reflexivity|destruct O|reflexivity].
    - rewrite N.pow_succ_r' in Eq.
      destruct (Npos m * 2 ^ j) as [|q'] eqn:E.
      { assert (2 ^ j <> 0) by (apply N.pow_nonzero; lia). lia. }
      assert (q = xO q') by lia. subst q. cbn [strip]. rewrite (IHj q' eq_refl). f_equal. lia. }
  rewrite T. do 2 f_equal. lia.
Qed.

Lemma f64_of_Z_exact z : fits F8 (dy_of_Z z) = true -> f64_of_Z z = Some (dy_of_Z z).
Proof.
  destruct z as [|p|p]; cbn [f64_of_Z dy_of_Z]; [reflexivity| |]; apply round_pos_exact.
Qed.

Lemma dy_of_pos_inj neg neg' p q : dy_of_pos neg p = dy_of_pos neg' q -> neg = neg' /\ p = q.
Proof.
  unfold dy_of_pos. destruct (strip p) as [m k] eqn:E, (strip q) as [m' k'] eqn:E'.
  intros H. injection H as -> -> H. apply strip_spec in E as [_ E], E' as [_ E'].
  assert (k = k') by lia. subst. split; [reflexivity|]. congruence.
Qed.

Lemma dy_of_Z_inj z w : dy_of_Z z = dy_of_Z w -> z = w.
Proof.
  destruct z as [|p|p], w as [|q|q]; cbn [dy_of_Z]; intros H; try reflexivity;
    try (unfold dy_of_pos in H; destruct (strip _); discriminate);
    apply dy_of_pos_inj in H as [H ->]; congruence.
Qed.

(** The rounded value is a binary64 value. *)
Lemma strip_odd p m k : strip p = (m, k) -> match m with xO _ => false | _ => true end = true.
Proof. intros H. apply strip_spec in H as [O _]. destruct m; [reflexivity|destruct O|reflexivity]. Qed.

Lemma round_pos_fits neg p f : round_pos neg p = Some f -> fits F8 f = true.
Proof.
  unfold round_pos. destruct (Npos (Pos.size p) <=? 53) eqn:L.
  - intros H. injection H as <-. unfold dy_of_pos. destruct (strip p) as [m k] eqn:E.
    pose proof (strip_size _ _ _ E). unfold fits. rewrite (strip_odd _ _ _ E).
    unfold fw_prec, fw_emin, fw_emax. lia.
  - set (n := Npos (Pos.size p)) in *. set (s := n - 53) in *.
    set (q := N.shiftr _ _). set (b := _ || _). set (q' := if b then q + 1 else q).
    set (bits := if q' =? 2 ^ 53 then n + 1 else n).
    destruct (1024 <? bits) eqn:B; [discriminate|].
    destruct q' as [|q''] eqn:Q; [discriminate|].
    destruct (strip q'') as [m k] eqn:E. intros H. injection H as <-.
    pose proof (strip_size _ _ _ E) as S.
    assert (Hq : q < 2 ^ 53).
    { unfold q. rewrite N.shiftr_div_pow2. apply N.div_lt_upper_bound; [apply N.pow_nonzero; lia|].
      rewrite <- N.pow_add_r. replace (s + 53) with n by lia. apply size_le_pow. lia. }
    assert (Hq' : Npos q'' <= 2 ^ 53) by (destruct b; lia).
    unfold fits. rewrite (strip_odd _ _ _ E). unfold fw_prec, fw_emin, fw_emax.
    destruct (N.eq_dec (Npos q'') (2 ^ 53)) as [Eq|Ne].
    + injection Eq as ->. vm_compute in E. injection E as <- <-.
      assert (bits = n + 1) as Hb.
      { unfold bits. change (2 ^ 53) with (Npos (2 ^ 53)). rewrite N.eqb_refl. reflexivity. }
      change (Npos (Pos.size 1)) with 1. lia.
    + assert (Hlt : Npos q'' < 2 ^ 53) by lia. apply size_le_pow in Hlt.
      assert (bits = n). { unfold bits. replace (Npos q'' =? 2 ^ 53) with false by lia. reflexivity. }
      lia.
Qed.

Lemma f64_of_Z_fits z f : f64_of_Z z = Some f -> fits F8 f = true.
Proof.
  destruct z as [|p|p]; cbn [f64_of_Z].
  - intros H. injection H as <-. reflexivity.
  - apply round_pos_fits.
  - apply round_pos_fits.
Qed.

(** ** Casts used for containers of numbers *)
Definition exact_cast (d : dtype) (n : num) : Prop :=
  exists m, cast d n = Ok m /\ num_val m = num_val n.

Lemma cast_bool b : cast DBool (NB b) = Ok (NB b).
Proof. reflexivity. Qed.
Lemma cast_int w z : int_range w z = true -> cast (DInt w) (NZ z) = Ok (NZ z).
Proof. intros H. cbn. rewrite H. reflexivity. Qed.
Lemma cast_float w f : cast (DFloat w) (NF f) = Ok (NF f).
Proof. reflexivity. Qed.
Lemma cast_complex w a b : cast (DComplex w) (NC a b) = Ok (NC a b).
Proof. reflexivity. Qed.

(** Same-dtype containers are exact. *)
Lemma cast_same d n : num_of_dtype d n = true -> cast d n = Ok n.
Proof.
  destruct d, n; cbn; try discriminate; try reflexivity; intros H; rewrite H; reflexivity.
Qed.

(** An integer cast that succeeds is exact; a float cast is exact when 53 bits suffice. *)
Lemma cast_int_exact w n m : cast (DInt w) n = Ok m -> num_val m = num_val n.
Proof.
  cbn. destruct n; cbn; try discriminate; destruct (int_range _ _); try discriminate;
    intros H; injection H as <-; reflexivity.
Qed.
Lemma cast_uint_exact w n m : cast (DUInt w) n = Ok m -> num_val m = num_val n.
Proof.
  cbn. destruct n; cbn; try discriminate; destruct (uint_range _ _); try discriminate;
    intros H; injection H as <-; reflexivity.
Qed.
Definition int53 (n : num) : Prop :=
  match n with NZ z => (Z.abs z <= 2 ^ 53)%Z | _ => True end.
Lemma cast_float_exact w n m : int53 n -> cast (DFloat w) n = Ok m -> num_val m = num_val n.
Proof.
  cbn. destruct n; cbn; try discriminate.
  - intros _ H; injection H as <-; reflexivity.
  - intros H. rewrite f64_of_Z_small by exact H. cbn. intros E; injection E as <-; reflexivity.
  - intros _ H; injection H as <-; reflexivity.
Qed.
Lemma cast_complex_exact w n m : int53 n -> cast (DComplex w) n = Ok m -> num_val m = num_val n.
Proof.
  cbn. destruct n; cbn.
  - intros _ H; injection H as <-; reflexivity.
  - intros H. rewrite f64_of_Z_small by exact H. cbn. intros E; injection E as <-; reflexivity.
  - intros _ H; injection H as <-; reflexivity.
  - intros _ H; injection H as <-; reflexivity.
Qed.

(** ** Promotion is a join, and casts never leave the dtype (justifies [cast]). *)
Lemma promote_comm a b : promote a b = promote b a.
Proof. destruct a as [|[]|[]|[]|[]], b as [|[]|[]|[]|[]]; reflexivity. Qed.
Lemma promote_idem a : promote a a = a.
Proof. destruct a as [|[]|[]|[]|[]]; reflexivity. Qed.

Lemma fits_mono v w f : fw_rank v <= fw_rank w -> fits v f = true -> fits w f = true.
Proof.
  destruct f as [|?|?|? m e]; try reflexivity.
  unfold fits. destruct m, v, w; cbn [fw_rank fw_prec fw_emin fw_emax]; intros H; lia.
Qed.

Lemma dy_of_Z_fits (w : fw) (z : Z) :
  (match w with F2 => Z.abs z < 2 ^ 8 | F4 => Z.abs z < 2 ^ 16 | F8 => Z.abs z < 2 ^ 32 end)%Z ->
  fits w (dy_of_Z z) = true.
Proof.
  intros H.
  assert (G : forall neg p, Npos p < match w with F2 => 2 ^ 8 | F4 => 2 ^ 16 | F8 => 2 ^ 32 end ->
              fits w (dy_of_pos neg p) = true).
  { intros neg p Hp. unfold dy_of_pos. destruct (strip p) as [m k] eqn:E.
    pose proof (strip_size _ _ _ E) as S. unfold fits. rewrite (strip_odd _ _ _ E).
    destruct w; apply size_le_pow in Hp; cbn [fw_prec fw_emin fw_emax]; lia. }
  destruct z as [|p|p]; cbn [dy_of_Z]; [reflexivity| |]; apply G; destruct w; lia.
Qed.

(** [dle a b]: numpy promotes [a] and [b] to [b]. *)
Definition dle (a b : dtype) : Prop := promote a b = b.
Lemma dle_refl a : dle a a.
Proof. apply promote_idem. Qed.
Lemma dle_promote_l a b : dle a (promote a b).
Proof. unfold dle. destruct a as [|[]|[]|[]|[]], b as [|[]|[]|[]|[]]; reflexivity. Qed.
Lemma dle_promote_r a b : dle b (promote a b).
Proof. unfold dle. destruct a as [|[]|[]|[]|[]], b as [|[]|[]|[]|[]]; reflexivity. Qed.
Lemma dle_trans a b c : dle a b -> dle b c -> dle a c.
Proof.
  unfold dle. destruct a as [|[]|[]|[]|[]], b as [|[]|[]|[]|[]]; try discriminate;
    intros _; destruct c as [|[]|[]|[]|[]]; cbn; try discriminate; intros; reflexivity.
Qed.

Lemma cast_fits a d n m :
  num_of_dtype a n = true -> dle a d -> cast d n = Ok m -> num_of_dtype d m = true.
Proof.
  unfold dle. intros W D C.
  destruct d as [|w|w|w|w].
  - destruct a as [|[]|[]|[]|[]]; cbn in D; try discriminate.
    destruct n; cbn in *; try discriminate. injection C as <-. reflexivity.
  - cbn in C. destruct (Z_of_num n) as [z|]; [|discriminate].
    destruct (int_range w z) eqn:E; [|discriminate]. injection C as <-. exact E.
  - cbn in C. destruct (Z_of_num n) as [z|]; [|discriminate].
    destruct (uint_range w z) eqn:E; [|discriminate]. injection C as <-. exact E.
  - cbn [cast] in C. destruct (float_of_num n) as [f|e] eqn:F; [|discriminate].
    cbn in C. injection C as <-. cbn [num_of_dtype].
    destruct n as [b|z|g|re im]; cbn [float_of_num] in F.
    + injection F as <-. apply dy_of_Z_fits. destruct b, w; lia.
    + destruct (f64_of_Z z) as [g|] eqn:G; [|discriminate]. injection F as <-.
      pose proof (f64_of_Z_fits _ _ G) as F8f.
      destruct a as [|v|v|v|v]; cbn in W; try discriminate.
      * unfold int_range in W.
        destruct v, w; cbn in D; try discriminate; try exact F8f; cbn [iw_bits] in W;
          rewrite f64_of_Z_small in G by lia; injection G as <-; apply dy_of_Z_fits; lia.
      * unfold uint_range in W.
        destruct v, w; cbn in D; try discriminate; try exact F8f; cbn [iw_bits] in W;
          rewrite f64_of_Z_small in G by lia; injection G as <-; apply dy_of_Z_fits; lia.
    + injection F as <-. destruct a as [|v|v|v|v]; cbn in W; try discriminate.
      eapply fits_mono; [|exact W]. destruct v, w; cbn in *; try discriminate; lia.
    + discriminate.
  - destruct n as [b|z|g|re im]; cbn [cast float_of_num res_map] in C.
    + injection C as <-. destruct b, w; reflexivity.
    + destruct (f64_of_Z z) as [g|] eqn:G; [|discriminate]. cbn in C. injection C as <-.
      cbn [num_of_dtype]. rewrite andb_true_r.
      pose proof (f64_of_Z_fits _ _ G) as F8f.
      destruct a as [|v|v|v|v]; cbn in W; try discriminate.
      * unfold int_range in W.
        destruct v, w; cbn in D; try discriminate; try exact F8f; cbn [iw_bits] in W;
          rewrite f64_of_Z_small in G by lia; injection G as <-; apply dy_of_Z_fits; cbn; lia.
      * unfold uint_range in W.
        destruct v, w; cbn in D; try discriminate; try exact F8f; cbn [iw_bits] in W;
          rewrite f64_of_Z_small in G by lia; injection G as <-; apply dy_of_Z_fits; cbn; lia.
    + injection C as <-. cbn [num_of_dtype]. rewrite andb_true_r.
      destruct a as [|v|v|v|v]; cbn in W; try discriminate.
      eapply fits_mono; [|exact W]. destruct v, w; cbn in *; try discriminate; lia.
    + injection C as <-. cbn [num_of_dtype].
      destruct a as [|v|v|v|v]; cbn in W; try discriminate.
      apply andb_true_iff in W as [W1 W2].
      apply andb_true_iff; split; (eapply fits_mono; [|eassumption]);
        destruct v, w; cbn in *; try discriminate; lia.
Qed.
