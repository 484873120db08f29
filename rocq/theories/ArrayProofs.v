(** * ArrayProofs: nested lists of arrays and back *)
From Verif Require Import Base Utf8 Dec DecProofs Num PyObj H5 Env Create Dump LoadFns Registry DumpProofs Spec.
From Coq Require Import Lia ZifyBool ZifyN.
Local Open Scope N_scope.
Local Open Scope list_scope.

(** ** Strings *)
Lemma strip_nul_id s : last s 1 <> 0 -> strip_nul s = s.
Proof.
  induction s as [|c s IH]; [done|]. destruct s as [|c' s].
  - simpl. intros Hc. destruct (c =? 0) eqn:E0; [lia|done].
  - intros Hl. change (last (c' :: s) 1 <> 0) in Hl. cbn [strip_nul]. cbn [strip_nul] in IH. rewrite IH by done. done.
Qed.
Lemma np_clip_id w s : fits_width w s -> np_clip w s = s.
Proof. intros [Hl Hn]. unfold np_clip. rewrite take_ge by lia. by apply strip_nul_id. Qed.

(** ** Nested lists *)
Notation arr_at := nested.
Lemma arr_at_mono h h' shape : forall ls z, h ⊆ h' -> arr_at h shape ls z -> arr_at h' shape ls z.
Proof.
  induction shape as [|n rest IH]; intros ls z Hh; [done|]. intros (xs & lss & H1 & H2 & H3 & H4).
  exists xs, lss. split_and!; auto; [by eapply lookup_weaken|]. eapply Forall2_impl; [exact H4|]. intros. by apply IH.
Qed.
Lemma Forall2_concat_length {A B} (P : list A -> B -> Prop) (k : nat) lss xs :
  Forall2 P lss xs -> (forall l x, P l x -> length l = k) -> length (concat lss) = (length xs * k)%nat.
Proof.
  intros Hf Hp. induction Hf as [|l x lss xs H1 Hf IH]; simpl; [done|]. rewrite app_length, IH, (Hp _ _ H1). lia.
Qed.
Lemma arr_at_length h shape : forall ls z, arr_at h shape ls z -> N.of_nat (length ls) = prodN shape.
Proof.
  induction shape as [|n rest IH]; intros ls z; simpl.
  - by intros ->.
  - intros (xs & lss & _ & <- & -> & Hf).
    rewrite (Forall2_concat_length _ (N.to_nat (prodN rest)) _ _ Hf).
    + unfold prodN. lia.
    + intros l x Hx. apply IH in Hx. lia.
Qed.

(** ** tolist *)
Definition placed_at (h : heap) (nx : loc) (ts : list obj) : Prop :=
  forall i t, ts !! i = Some t -> h !! (nx + N.of_nat i) = Some t.
Lemma placed_at_app h nx ts ts' :
  placed_at h nx (ts ++ ts') -> placed_at h nx ts /\ placed_at h (nx + N.of_nat (length ts)) ts'.
Proof.
  intros Hp. split.
  - intros i t Ht. apply Hp. by apply lookup_app_l_Some.
  - intros i t Ht. replace (nx + N.of_nat (length ts) + N.of_nat i) with (nx + N.of_nat (length ts + i)) by lia.
    apply Hp. rewrite lookup_app_r by lia. by replace (length ts + i - length ts)%nat with i by lia.
Qed.
Lemma placed_at_cons h nx t ts : placed_at h nx (t :: ts) -> h !! nx = Some t /\ placed_at h (nx + 1) ts.
Proof.
  intros Hp. split.
  - specialize (Hp O t eq_refl). by rewrite N.add_0_r in Hp.
  - intros i t' Ht. replace (nx + 1 + N.of_nat i) with (nx + N.of_nat (S i)) by lia. by apply Hp.
Qed.

Lemma chunks_length {A} n sz (l : list A) : length (chunks n sz l) = n.
Proof. revert l. induction n as [|n IH]; intros l; simpl; [done|]. by rewrite IH. Qed.
Lemma chunks_concat {A} n sz (l : list A) : length l = (n * sz)%nat -> concat (chunks n sz l) = l.
Proof.
  revert l. induction n as [|n IH]; intros l Hl; simpl.
  - by destruct l.
  - rewrite IH; [by rewrite take_drop|]. rewrite drop_length. lia.
Qed.
Lemma chunks_lookup {A} n sz : forall (l : list A) i c,
  chunks n sz l !! i = Some c -> (i < n)%nat /\ c = take sz (drop (i * sz) l).
Proof.
  induction n as [|n IH]; intros l i c; simpl; [done|]. destruct i as [|i]; simpl.
  - intros [= <-]. split; [lia|done].
  - intros Hc. destruct (IH _ _ _ Hc) as [H1 H2]. split; [lia|]. rewrite H2, drop_drop. done.
Qed.
Lemma chunks_each {A} n sz (l : list A) : length l = (n * sz)%nat -> Forall (fun c => length c = sz) (chunks n sz l).
Proof.
  revert l. induction n as [|n IH]; intros l Hl; simpl; constructor.
  - rewrite take_length. lia.
  - apply IH. rewrite drop_length. lia.
Qed.
Lemma chunks_sub {A} n sz (l c : list A) x : c ∈ chunks n sz l -> x ∈ c -> x ∈ l.
Proof.
  revert l. induction n as [|n IH]; intros l; simpl.
  - intros Hc. inversion Hc.
  - intros [-> |Hc]%elem_of_cons Hx; [|apply IH in Hc; auto]; rewrite <- (take_drop sz l); apply elem_of_app; auto.
Qed.

(** The lists built for an array and its elements. *)
Inductive built (h : heap) (P : loc -> Prop) : loc -> Prop :=
| b_leaf z : P z -> built h P z
| b_str z t : h !! z = Some (Obj CStr (VStr t)) -> built h P z
| b_row z xs :
    h !! z = Some (Obj CList (VSeq xs)) -> (forall x, x ∈ xs -> built h P x) ->
    (all_numbers h xs -> lossless h xs) -> built h P z.
Lemma built_mono h (P Q : loc -> Prop) z : (forall x, P x -> Q x) -> built h P z -> built h Q z.
Proof.
  intros HPQ. induction 1 as [z Hz|z t Hz|z xs Hz Hx IH Hl].
  - apply b_leaf. auto.
  - by eapply b_str.
  - by eapply b_row.
Qed.

Definition rows_fine (h : heap) (shape : list N) (ls : list loc) : Prop :=
  forall i, all_numbers h (row shape ls i) -> lossless h (row shape ls i).
Lemma lossless_nil h : lossless h [].
Proof. left. intros x c z Hx. inversion Hx. Qed.

Lemma elem_of_row shape ls i x : x ∈ row shape ls i -> x ∈ ls.
Proof.
  unfold row. set (w := N.to_nat _). intros Hx.
  assert (x ∈ drop (i * w) ls) as Hd.
  { rewrite <- (take_drop w (drop (i * w) ls)). apply elem_of_app. by left. }
  rewrite <- (take_drop (i * w) ls). apply elem_of_app. by right.
Qed.
Lemma row_chunk n rest (ls : list loc) i c :
  rest <> [] -> chunks (N.to_nat n) (N.to_nat (prodN rest)) ls !! i = Some c ->
  forall j, row rest c j = [] \/ exists k, row rest c j = row (n :: rest) ls k.
Proof.
  intros Hr Hc j. apply chunks_lookup in Hc as [Hi ->]. unfold row.
  assert (last (n :: rest) 1 = last rest 1) as -> by (by destruct rest).
  assert (exists q, prodN rest = q * last rest 1) as [q Hq].
  { clear -Hr. induction rest as [|m rest IH]; [done|]. destruct rest as [|m' rest].
    - exists 1. cbn. lia.
    - destruct IH as [q Hq]; [done|]. exists (m * q). change (last (m :: m' :: rest) 1) with (last (m' :: rest) 1).
      change (prodN (m :: m' :: rest)) with (m * prodN (m' :: rest)). rewrite Hq. lia. }
  rewrite Hq. set (w := last rest 1). clearbody w.
  destruct (decide (j < N.to_nat q)%nat) as [Hj|Hj].
  - right. exists (i * N.to_nat q + j)%nat. rewrite N2Nat.inj_mul.
    set (w' := N.to_nat w). set (q' := N.to_nat q) in *. clearbody w' q'.
    remember (drop (i * (q' * w')) ls) as l eqn:El.
    replace (q' * w')%nat with (j * w' + (q' - j) * w')%nat by nia. rewrite <- take_drop_commute, take_take.
    rewrite El, drop_drop. f_equal; [|f_equal]; nia.
  - left. assert (drop (j * N.to_nat w) (take (N.to_nat (q * w)) (drop (i * N.to_nat (q * w)) ls)) = []) as ->; [|by rewrite take_nil].
    apply drop_ge. rewrite take_length. nia.
Qed.

Lemma tolist_spec h (P : loc -> Prop) shape : forall ls nx ts els,
  shape <> [] -> N.of_nat (length ls) = prodN shape -> tolist shape ls nx = (ts, els) -> placed_at h nx ts ->
  (forall x, x ∈ ls -> built h P x) -> rows_fine h shape ls ->
  exists lss, N.of_nat (length els) = hd 0 shape /\ ls = concat lss /\ Forall2 (arr_at h (tail shape)) lss els /\
    (forall x, x ∈ els -> built h P x) /\ (length shape = 1%nat -> els = ls) /\
    ((1 < length shape)%nat -> forall x, x ∈ els -> exists xs, h !! x = Some (Obj CList (VSeq xs))).
Proof.
  induction shape as [|n rest IH]; intros ls nx ts els Hne Hlen Ht Hp Hb Hrow; [done|].
  destruct rest as [|m rest].
  - simpl in Ht. inversion Ht; subst. exists (map (fun x => [x]) els). simpl. split_and!; auto.
    + cbn in Hlen. lia.
    + clear. induction els as [|x els IH]; simpl; [done|]. by rewrite <- IH.
    + clear. induction els as [|x els IH]; simpl; constructor; auto.
    + intros Hl. simpl in Hl. lia.
  - clear Hne. cbn [hd tail].
    assert (length ls = (N.to_nat n * N.to_nat (prodN (m :: rest)))%nat) as Hlen'.
    { change (prodN (n :: m :: rest)) with (n * prodN (m :: rest)) in Hlen. lia. }
    pose proof (chunks_concat _ _ _ Hlen') as Hcc. pose proof (chunks_each _ _ _ Hlen') as Hce.
    pose proof (chunks_length (N.to_nat n) (N.to_nat (prodN (m :: rest))) ls) as Hcl.
    assert (forall c, c ∈ chunks (N.to_nat n) (N.to_nat (prodN (m :: rest))) ls -> (forall x, x ∈ c -> built h P x) /\ rows_fine h (m :: rest) c) as Hc.
    { intros c Hin. split.
      - intros x Hx. apply Hb. by eapply chunks_sub.
      - apply elem_of_list_lookup in Hin as [i Hi]. intros j.
        destruct (row_chunk n (m :: rest) ls i c ltac:(done) Hi j) as [-> |[k ->]]; [intros _; apply lossless_nil|apply Hrow]. }
    assert (forall cs nx ts els,
      (fix go (cs : list (list loc)) (nx : loc) : list obj * list loc :=
         match cs with
         | [] => ([], [])
         | c :: cs' =>
             let '(ts, els) := tolist (m :: rest) c nx in
             let me := nx + N.of_nat (length ts) in
             let '(ts', ls) := go cs' (me + 1) in
             (ts ++ Obj CList (VSeq els) :: ts', me :: ls)
         end) cs nx = (ts, els) -> placed_at h nx ts -> Forall (fun c => length c = N.to_nat (prodN (m :: rest))) cs ->
      (forall c, c ∈ cs -> (forall x, x ∈ c -> built h P x) /\ rows_fine h (m :: rest) c) ->
      Forall2 (arr_at h (m :: rest)) cs els /\ (forall x, x ∈ els -> built h P x) /\
      forall x, x ∈ els -> exists xs, h !! x = Some (Obj CList (VSeq xs))) as Hgo.
    { clear -IH. induction cs as [|c cs IHc]; intros nx ts els Hg Hp Hl Hc.
      - inversion Hg; subst. split_and!; [constructor| |]; intros x Hx; inversion Hx.
      - destruct (tolist (m :: rest) c nx) as [ts1 els1] eqn:E1.
        cbv zeta in Hg. match type of Hg with (let '(_, _) := ?g in _) = _ => destruct g as [ts2 ls2] eqn:E2 end.
        inversion Hg; subst ts els. clear Hg.
        apply placed_at_app in Hp as [Hp1 Hp2]. apply placed_at_cons in Hp2 as [Hp2 Hp3].
        inversion Hl as [|? ? Hl1 Hl2]; subst. destruct (Hc c ltac:(left)) as [Hc1 Hc2].
        destruct (IH c nx ts1 els1) as (lss & L1 & L2 & L3 & L4 & L5 & L6); auto.
        { rewrite Hl1. lia. }
        destruct (IHc _ _ _ E2 Hp3 Hl2) as (M1 & M2 & M3). { intros c' Hc'. apply Hc. by right. }
        assert (all_numbers h els1 -> lossless h els1) as Hlo.
        { intros Ha. destruct rest as [|m' rest'].
          - specialize (L5 eq_refl). subst els1. specialize (Hc2 O). unfold row in Hc2. simpl in Hc2.
            rewrite drop_0, take_ge in Hc2; [by apply Hc2|]. cbn in Hl1. lia.
          - destruct els1 as [|x els1]; [apply lossless_nil|].
            destruct (L6 ltac:(simpl; lia) x ltac:(left)) as [xs Hx]. destruct (Ha x ltac:(left)) as (? & ? & ? & Hx' & _).
            rewrite Hx in Hx'. discriminate. }
        split_and!.
        + constructor; [|done]. simpl in L1, L3. exists els1, lss. split_and!; auto.
        + intros x [-> |Hx]%elem_of_cons; [|by apply M2]. by eapply b_row.
        + intros x [-> |Hx]%elem_of_cons; [|by apply M3]. by eexists. }
    change (tolist (n :: m :: rest) ls nx) with
      ((fix go (cs : list (list loc)) (nx : loc) : list obj * list loc :=
         match cs with
         | [] => ([], [])
         | c :: cs' =>
             let '(ts, els) := tolist (m :: rest) c nx in
             let me := nx + N.of_nat (length ts) in
             let '(ts', ls) := go cs' (me + 1) in
             (ts ++ Obj CList (VSeq els) :: ts', me :: ls)
         end) (chunks (N.to_nat n) (N.to_nat (prodN (m :: rest))) ls) nx) in Ht.
    destruct (Hgo _ _ _ _ Ht Hp Hce Hc) as (G1 & G2 & G3).
    exists (chunks (N.to_nat n) (N.to_nat (prodN (m :: rest))) ls). split_and!; auto.
    + apply Forall2_length in G1. lia.
    + intros Hl. simpl in Hl. lia.
Qed.

(** ** The shape numpy discovers *)
Lemma cp_prefix a : forall b p, p `prefix_of` common_prefix a b <-> p `prefix_of` a /\ p `prefix_of` b.
Proof.
  induction a as [|x a IH]; intros b p; simpl.
  - split; [|by intros [? _]]. intros Hp. apply prefix_nil_inv in Hp. subst. split; apply prefix_nil.
  - destruct b as [|y b].
    { split; [|by intros [_ ?]]. intros Hp. apply prefix_nil_inv in Hp. subst. split; apply prefix_nil. }
    destruct p as [|z p]. { split; [|intros; apply prefix_nil]. intros _. split; apply prefix_nil. }
    destruct (x =? y) eqn:Exy.
    + apply N.eqb_eq in Exy. subst y. split.
      * intros Hp. pose proof (prefix_cons_inv_1 _ _ _ _ Hp). subst z. apply prefix_cons_inv_2 in Hp. apply IH in Hp as [? ?].
        split; by apply prefix_cons.
      * intros [H1 H2]. pose proof (prefix_cons_inv_1 _ _ _ _ H1). subst z.
        apply prefix_cons_inv_2 in H1. apply prefix_cons_inv_2 in H2. apply prefix_cons. by apply IH.
    + split.
      * intros Hp. apply prefix_nil_inv in Hp. done.
      * intros [H1 H2]. apply prefix_cons_inv_1 in H1. apply prefix_cons_inv_1 in H2. subst. lia.
Qed.
Lemma common_dims_prefix ss p : ss <> [] -> p `prefix_of` common_dims ss <-> Forall (fun s => p `prefix_of` s) ss.
Proof.
  destruct ss as [|s r]; [done|]. intros _. simpl. induction r as [|s' r IH]; simpl.
  - split; [by repeat constructor|]. intros Hf. by inversion Hf.
  - rewrite cp_prefix, IH. split.
    + intros [H1 H2]. inversion H2; subst. by repeat constructor.
    + intros Hf. inversion Hf as [|? ? H1 H2]; subst. inversion H2; subst. split; [done|by constructor].
Qed.
Lemma same_prefixes (a b : list N) : (forall p, p `prefix_of` a <-> p `prefix_of` b) -> a = b.
Proof.
  intros Hp. assert (a `prefix_of` b) as [k1 H1] by (by apply Hp). assert (b `prefix_of` a) as [k2 H2] by (by apply Hp).
  rewrite H1 in H2. rewrite <- app_assoc in H2. rewrite <- (app_nil_r a) in H2 at 1. apply app_inv_head in H2.
  destruct k1; [|done]. by rewrite app_nil_r in H1.
Qed.
Lemma common_dims_concat tss :
  Forall (fun t => t <> []) tss -> common_dims (map common_dims tss) = common_dims (concat tss).
Proof.
  destruct tss as [|t tss]; [done|]. intros Hne. apply same_prefixes. intros p.
  assert (concat (t :: tss) <> []) as Hc. { inversion Hne; subst. simpl. by destruct t. }
  rewrite !common_dims_prefix by done. clear Hc. generalize (t :: tss) Hne. clear. intros tss Hne.
  induction Hne as [|t tss Ht Hne IH]; simpl; [split; constructor|]. rewrite Forall_app. split.
  - intros Hf. inversion Hf as [|? ? H1 H2]; subst. split; [by apply common_dims_prefix|]. by apply IH.
  - intros [H1 H2]. constructor; [by apply common_dims_prefix|]. by apply IH.
Qed.
Lemma cp_app p : forall a b, common_prefix (p ++ a) (p ++ b) = p ++ common_prefix a b.
Proof. induction p as [|x p IH]; intros a b; simpl; [done|]. by rewrite N.eqb_refl, IH. Qed.
Lemma common_dims_app p ts : ts <> [] -> common_dims (map (app p) ts) = p ++ common_dims ts.
Proof.
  destruct ts as [|t ts]; [done|]. intros _. simpl. induction ts as [|t' ts IH]; simpl; [done|]. by rewrite IH, cp_app.
Qed.

Lemma removelast_cons {A} (x y : A) l : removelast (x :: y :: l) = x :: removelast (y :: l).
Proof. done. Qed.
Lemma discover_arr h shape : forall fuel ls z,
  arr_at h shape ls z -> (length shape <= fuel)%nat -> Forall (fun n => n <> 0) (removelast shape) ->
  discover fuel h z = shape ++ common_dims (map (discover (fuel - length shape) h) ls).
Proof.
  induction shape as [|n rest IH]; intros fuel ls z Ha Hf Hz.
  - simpl in Ha. subst ls. simpl. by rewrite Nat.sub_0_r.
  - destruct fuel as [|f]; [simpl in Hf; lia|]. destruct Ha as (xs & lss & Hx & Hn & -> & Hfa).
    cbn [discover]. rewrite Hx. change (isinst CList CList || isinst CList CTuple) with true. cbv iota. rewrite Hn.
    cbn [app]. f_equal. cbn [length Nat.sub].
    assert (Forall (fun n => n <> 0) (removelast rest)) as Hz'.
    { destruct rest as [|m rest]; [constructor|]. rewrite removelast_cons in Hz. by inversion Hz. }
    assert (map (discover f h) xs = map (app rest) (map (fun l => common_dims (map (discover (f - length rest) h) l)) lss)) as Hmap.
    { clear Hx Hn. induction Hfa as [|l x lss xs Hl Hfa IHf]; simpl; [done|]. rewrite IHf. f_equal. apply IH; auto. simpl in Hf. lia. }
    rewrite Hmap. set (D := discover (f - length rest) h).
    destruct xs as [|x xs].
    { inversion Hfa; subst. simpl. destruct rest; [done|]. rewrite removelast_cons in Hz. by inversion Hz. }
    assert (lss <> []) as Hls. { intros ->. by inversion Hfa. }
    rewrite common_dims_app by (by destruct lss). f_equal.
    assert (forall l, l ∈ lss -> N.of_nat (length l) = prodN rest) as Hlen.
    { intros l Hl. apply elem_of_list_lookup in Hl as [i Hi]. destruct (Forall2_lookup_l _ _ _ _ _ Hfa Hi) as (y & _ & Hy). by apply arr_at_length in Hy. }
    destruct (decide (prodN rest = 0)) as [H0|H0].
    + assert (forall l, l ∈ lss -> l = []) as Hnil. { intros l Hl. specialize (Hlen l Hl). destruct l; [done|]. simpl in Hlen. lia. }
      assert (concat lss = []) as ->.
      { clear -Hnil. induction lss as [|l lss IH]; simpl; [done|]. rewrite (Hnil l) by left. apply IH. intros. apply Hnil. by right. }
      clear -Hnil. simpl. apply same_prefixes. intros p. destruct lss as [|l lss]; [done|].
      rewrite common_dims_prefix by done. split.
      * intros Hp. inversion Hp as [|? ? H1 _]; subst. by rewrite (Hnil l) in H1 by left.
      * intros Hp. apply prefix_nil_inv in Hp. subst. apply list.Forall_forall. intros. apply prefix_nil.
    + rewrite concat_map. rewrite <- common_dims_concat.
      * by rewrite map_map.
      * apply list.Forall_forall. intros t Ht. apply elem_of_list_fmap in Ht as (l & -> & Hl). specialize (Hlen l Hl).
        destruct l; [simpl in Hlen; lia|done].
Qed.
Lemma leaves_arr h shape : forall ls z, arr_at h shape ls z -> leaves (length shape) h z = Some ls.
Proof.
  induction shape as [|n rest IH]; intros ls z; simpl; [by intros ->|].
  intros (xs & lss & -> & _ & -> & Hf).
  assert (mapM (leaves (length rest) h) xs = Some lss) as ->; [|done].
  apply mapM_Some. clear -IH Hf. induction Hf; constructor; auto.
Qed.

Lemma discover_outer f h x n : discover f h x <> [] -> hd 0 (discover f h x) = n -> outer_len h x = Some n.
Proof.
  destruct f as [|f]; [done|]. cbn [discover]. unfold outer_len.
  destruct (h !! x) as [[c []]|]; try done; try (by destruct shape; [|intros _ <-]).
  destruct (_ || _); [|done]. by intros _ <-.
Qed.
Lemma discover_flat h fuel ls : not_uniform h ls -> common_dims (map (discover fuel h) ls) = [].
Proof.
  intros [-> |(x & y & Hx & Hy & Hxy)]; [done|].
  destruct (common_dims (map (discover fuel h) ls)) as [|n r] eqn:Ec; [done|exfalso].
  assert (map (discover fuel h) ls <> []) as Hne. { by destruct ls; [inversion Hx|]. }
  assert ([n] `prefix_of` common_dims (map (discover fuel h) ls)) as Hp. { rewrite Ec. by exists r. }
  apply common_dims_prefix in Hp; [|done]. rewrite list.Forall_forall in Hp.
  assert (forall x, x ∈ ls -> outer_len h x = Some n) as Ho.
  { intros z Hz. destruct (Hp (discover fuel h z)) as [k Hk]. { apply elem_of_list_fmap. by exists z. }
    eapply discover_outer; by rewrite Hk. }
  rewrite (Ho x Hx), (Ho y Hy) in Hxy. by destruct Hxy.
Qed.

Lemma shape_found h shape ls z :
  arr_at h shape ls z -> shape_ok shape -> not_uniform h ls -> discover 32 h z = shape.
Proof.
  intros Ha (Hs & Hz & _) Hu. rewrite (discover_arr h shape 32 ls z Ha Hs Hz), discover_flat by done. by rewrite app_nil_r.
Qed.

(** ** How such arrays are dumped *)
Lemma parse_str_dtype w : 1 <= w -> parse_adtype (str_dtype w) = Ok (ADStr w).
Proof.
  intros Hw. unfold parse_adtype.
  assert (named_dtype (str_dtype w) = None) as ->.
  { unfold named_dtype, dtype_of_str, str_dtype. cbn. repeat (rewrite bool_decide_eq_false_2 by (by intros [=])). done. }
  rewrite !bool_decide_eq_false_2 by done. unfold str_dtype. cbn [str].
  change (str "<U" ++ N_dec w) with (60 :: 85 :: N_dec w).
  cbv beta iota. rewrite bool_decide_eq_true_2 by done. rewrite N_parse_dec. destruct (w =? 0) eqn:E0; [lia|done].
Qed.
Lemma parse_obj_dtype : parse_adtype obj_dtype = Ok ADObj.
Proof. vm_compute. reflexivity. Qed.

Section Plan.
Context (E : env) (H h0 : heap) (nx : loc).
Context (Hh : h0 ⊆ H).

Lemma temps_heap_sub ts : placed_at H nx ts -> temps_heap h0 nx ts ⊆ H.
Proof.
  intros Hp. apply map_subseteq_spec. intros l o. rewrite temps_heap_lookup. destruct (decide _) as [Hd|].
  - intros Ho. specialize (Hp _ _ Ho). by replace (nx + N.of_nat (N.to_nat (l - nx))) with l in Hp by lia.
  - intros Ho. by eapply lookup_weaken.
Qed.

(** A list whose first item is a string or a list is stored as a group. *)
Lemma list_items_text h x r pl :
  create_list_items E h (x :: r) = Ok pl -> h ⊆ H ->
  (exists t, H !! x = Some (Obj CStr (VStr t))) \/ (exists xs, H !! x = Some (Obj CList (VSeq xs))) ->
  pl = plan_group [(a_num_items, AInt (Z.of_nat (length (x :: r))))] (list_subs (x :: r)).
Proof.
  unfold create_list_items. intros Hc Hs Hx.
  assert (check_iterable_item_type E h x r = Ok None \/ exists e, check_iterable_item_type E h x r = Err e) as [Hci|[e Hci]].
  { unfold check_iterable_item_type. destruct (h !! x) as [o|] eqn:Eo; [|by right; eexists].
    pose proof (lookup_weaken _ _ _ _ Eo Hs) as Ho.
    destruct Hx as [[t Hx]|[xs Hx]]; rewrite Hx in Ho; inversion Ho; subst o; cbn [ocls oval].
    - destruct (_ || _); [by left|]. left. done.
    - destruct (_ || _) eqn:El; [by left|]. unfold has_dims. cbn [ocls oval].
      change (isinst CList CList || isinst CList CTuple) with true. cbv iota.
      destruct (e_ragged E h x); cbn; [right; by eexists|by left]. }
  - rewrite Hci in Hc. cbn [res_bind] in Hc. by inversion Hc.
  - by rewrite Hci in Hc.
Qed.

Lemma hd_pos shape : shape <> [] -> shape_ok shape -> hd 0 shape <> 0.
Proof.
  intros Hne (_ & Hz & Hn). destruct shape as [|n [|m r]]; [done| |].
  - simpl. by intros ->.
  - rewrite removelast_cons in Hz. by inversion Hz.
Qed.

Definition array_plan (pl : plan) (dt : bytes) (els : list loc) : Prop :=
  p_data pl = None /\ p_subs pl = list_subs els /\
  p_attrs pl = [(a_num_items, AInt (Z.of_nat (length els))); (a_np_dtype, ABytes dt)].

Lemma strarr_plan w shape vs pl :
  shape <> [] -> shape_ok shape -> N.of_nat (length vs) = size_of shape ->
  create_np_array E h0 nx (Obj CNdarray (VStrArr w shape vs)) = Ok pl -> placed_at H nx (p_temps pl) ->
  exists els ls lss, array_plan pl (str_dtype w) els /\ N.of_nat (length els) = hd 0 shape /\
    ls = concat lss /\ Forall2 (arr_at H (tail shape)) lss els /\
    Forall2 (fun l t => H !! l = Some (Obj CStr (VStr t))) ls vs /\ (forall x, x ∈ els -> built H (fun _ => False) x).
Proof.
  intros Hne Hsh Hlen Hcr Hp. unfold create_np_array in Hcr. cbn [oval] in Hcr.
  destruct shape as [|n r]; [done|].
  assert (match vs with [s] => map (fun '(i, _) => nx + i) (enumerate vs) | _ => map (fun '(i, _) => nx + i) (enumerate vs) end
          = map (fun '(i, _) => nx + i) (enumerate vs)) as _ by (by destruct vs as [|? []]).
  set (ss := map (fun s => Obj CStr (VStr s)) vs) in *.
  set (ls := map (fun '(i, _) => nx + i) (enumerate vs)) in *.
  destruct (tolist (n :: r) ls (nx + N.of_nat (length vs))) as [ts els] eqn:Et.
  destruct (create_list_items E (temps_heap h0 nx (ss ++ ts)) els) as [pl'|] eqn:Ecl; [|by destruct vs as [|? []]].
  assert (pl = with_temps (ss ++ ts) [(a_np_dtype, ABytes (str_dtype w))] pl') as ->.
  { destruct vs as [|? []]; by inversion Hcr. }
  clear Hcr. cbn [with_temps p_temps] in Hp. apply placed_at_app in Hp as [Hp _].
  pose proof (temps_heap_sub _ Hp) as Hts. apply placed_at_app in Hp as [Hp1 Hp2].
  assert (length ss = length vs) as Hls by apply map_length. rewrite Hls in Hp2.
  assert (Forall2 (fun l t => H !! l = Some (Obj CStr (VStr t))) ls vs) as Hstr.
  { apply Forall2_same_length_lookup. assert (forall i, ls !! i = (fun _ => nx + N.of_nat i) <$> vs !! i) as Hl.
    { subst ls. clear. intros i. rewrite list_lookup_fmap. unfold enumerate.
      assert (forall (k : N) j, (fix go i (l : list pystr) := match l with [] => [] | x :: r => (i, x) :: go (i + 1) r end) k vs !! j
         = (fun x => (k + N.of_nat j, x)) <$> vs !! j) as Hk.
      { induction vs as [|v vs IH]; intros k [|j]; simpl; try done.
        - do 2 f_equal. lia.
        - rewrite IH. destruct (vs !! j); simpl; [|done]. do 2 f_equal. lia. }
      rewrite Hk. destruct (vs !! i); simpl; [|done]. done. }
    split.
    - apply Nat.le_antisymm; apply Nat.nlt_ge; intros Hlt.
      + destruct (lookup_lt_is_Some_2 _ _ Hlt) as [x Hx]. rewrite Hl, lookup_ge_None_2 in Hx by lia. done.
      + destruct (lookup_lt_is_Some_2 _ _ Hlt) as [x Hx]. specialize (Hl (length ls)). rewrite Hx, lookup_ge_None_2 in Hl by lia. done.
    - intros i l t Hi Ht. rewrite Hl, Ht in Hi. simpl in Hi. inversion Hi; subst l.
      apply Hp1. subst ss. by rewrite list_lookup_fmap, Ht. }
  assert (forall x, x ∈ ls -> exists t, H !! x = Some (Obj CStr (VStr t))) as Hstr'.
  { intros x Hx. apply elem_of_list_lookup in Hx as [i Hi]. destruct (Forall2_lookup_l _ _ _ _ _ Hstr Hi) as (t & _ & Ht). by exists t. }
  destruct (tolist_spec H (fun _ => False) (n :: r) ls (nx + N.of_nat (length vs)) ts els Hne) as (lss & L1 & L2 & L3 & L4 & L5 & L6); auto.
  { rewrite (Forall2_length _ _ _ Hstr). exact Hlen. }
  { intros x Hx. destruct (Hstr' x Hx) as [t Ht]. by eapply b_str. }
  { intros i Ha. destruct (row (n :: r) ls i) as [|x rw] eqn:Er; [apply lossless_nil|]. exfalso.
    destruct (Ha x ltac:(left)) as (c & k & d & Hx & _). destruct (Hstr' x) as [t Ht]; [|by rewrite Hx in Ht].
    assert (x ∈ row (n :: r) ls i) as Hin by (rewrite Er; left).
    by eapply elem_of_row. }
  exists els, ls, lss. split_and!; auto.
  pose proof (hd_pos _ Hne Hsh) as Hpos. destruct els as [|x els]; [by destruct Hpos|].
  apply list_items_text in Ecl; [|done|].
  - subst pl'. done.
  - destruct r as [|m r].
    + left. apply Hstr'. rewrite <- (L5 eq_refl). left.
    + right. apply L6; [simpl; lia|left].
Qed.

Lemma objarr_plan shape xs pl :
  shape <> [] -> shape_ok shape -> N.of_nat (length xs) = size_of shape -> rows_fine H shape xs ->
  create_np_array E h0 nx (Obj CNdarray (VObjArr shape xs)) = Ok pl -> placed_at H nx (p_temps pl) ->
  exists els lss, N.of_nat (length els) = hd 0 shape /\
    xs = concat lss /\ Forall2 (arr_at H (tail shape)) lss els /\ (forall x, x ∈ els -> built H (fun x => x ∈ xs) x) /\
    (array_plan pl obj_dtype els \/
     exists n x0 xs0 h dt vs e, shape = [n] /\ xs = x0 :: xs0 /\ els = xs /\ h ⊆ H /\
       check_iterable_item_type E h x0 xs0 = Ok (Some (PNum dt)) /\ write_items h dt xs = (vs, e) /\
       p_fail pl = e /\ p_attrs pl = [(a_np_dtype, ABytes obj_dtype)] /\
       p_data pl = Some (DArray dt [N.of_nat (length xs)] (pad dt (length xs) vs))).
Proof.
  intros Hne Hsh Hlen Hrow Hcr Hp. unfold create_np_array in Hcr. cbn [oval] in Hcr.
  destruct shape as [|n r]; [done|].
  destruct (tolist (n :: r) xs nx) as [ts els] eqn:Et.
  destruct (create_list_items E (temps_heap h0 nx ts) els) as [pl'|] eqn:Ecl; [|by destruct xs as [|? []]].
  assert (pl = with_temps ts [(a_np_dtype, ABytes obj_dtype)] pl') as ->.
  { destruct xs as [|? []]; by inversion Hcr. }
  clear Hcr. cbn [with_temps p_temps] in Hp. apply placed_at_app in Hp as [Hp _].
  pose proof (temps_heap_sub _ Hp) as Hts.
  destruct (tolist_spec H (fun x => x ∈ xs) (n :: r) xs nx ts els Hne) as (lss & L1 & L2 & L3 & L4 & L5 & L6); auto.
  { intros x Hx. by apply b_leaf. }
  exists els, lss. split_and!; auto.
  pose proof (hd_pos _ Hne Hsh) as Hpos. destruct els as [|x els]; [by destruct Hpos|].
  destruct r as [|m r].
  - specialize (L5 eq_refl). subst xs. unfold create_list_items in Ecl.
    destruct (check_iterable_item_type E (temps_heap h0 nx ts) x els) as [[[dt| | |]|]|] eqn:Ec; cbn [res_bind] in Ecl; try done.
    + destruct (write_items (temps_heap h0 nx ts) dt (x :: els)) as [vs e] eqn:Ew. inversion Ecl; subst pl'.
      right. exists n, x, els, (temps_heap h0 nx ts), dt, vs, e. rewrite <- L5. split_and!; auto.
    + inversion Ecl; subst pl'. by left.
  - left. apply list_items_text in Ecl; [|done|].
    + subst pl'. done.
    + right. apply L6; [simpl; lia|left].
Qed.
End Plan.
