(** * Distinct: different objects leave different files *)
From Verif Require Import Base Utf8 Dec Num PyObj H5 Env Create Dump LoadFns LoadModel Registry RegistryStd Spec RoundTrip
  Api DumpClosed ApiProofs DumpEnv Reach ApiTop.
From Coq Require Import Lia ZifyBool ZifyN.
Local Open Scope N_scope.
Local Open Scope list_scope.

(** ** Positions in both directions, numbers included *)
Section Positions.
  Context (h h' : heap) (R : loc -> loc -> Prop).
  Context (HR : forall a b, R a b -> exists o o', h !! a = Some o /\ h' !! b = Some o' /\ same_obj h h' R o o').

  Lemma seq_parts x y c xs : R x y -> h !! x = Some (Obj c (VSeq xs)) -> isinst c CSet = false ->
    exists ys, h' !! y = Some (Obj c (VSeq ys)) /\ Forall2 (fun a b => R a b \/ same_number h h' a b) xs ys.
  Proof.
    intros Hxy Hx Hc. destruct (HR _ _ Hxy) as (o & [c' v'] & Ho & Ho' & Hcl & Hs). rewrite Hx in Ho. injection Ho as <-. cbn [ocls oval] in *. subst c'.
    destruct v'; try (by destruct Hs). rewrite Hc in Hs. eexists. split; [exact Ho'|].
    destruct Hs as [Hs|(_ & Hs & _)]; (eapply Forall2_impl; [exact Hs|]; auto).
  Qed.
  Lemma dict_parts x y c kvs : R x y -> h !! x = Some (Obj c (VDict kvs)) ->
    exists kvs', h' !! y = Some (Obj c (VDict kvs')) /\ Forall2 (fun a b => R (snd a) (snd b) \/ same_number h h' (snd a) (snd b)) kvs kvs'.
  Proof.
    intros Hxy Hx. destruct (HR _ _ Hxy) as (o & [c' v'] & Ho & Ho' & Hcl & Hs). rewrite Hx in Ho. injection Ho as <-. cbn [ocls oval] in *. subst c'.
    destruct v'; try (by destruct Hs). eexists. split; [exact Ho'|].
    eapply Forall2_impl; [exact Hs|]. intros [k v] [k' v'] B. cbn [fst snd] in *. destruct B as [[_ B]|[(_ & B & _) _]]; [by left|right].
    inversion B as [|? ? ? ? _ B']; subst. by inversion B'; subst.
  Qed.
  Lemma kind_back x y c v : R x y -> h' !! y = Some (Obj c v) -> exists v0, h !! x = Some (Obj c v0) /\
    match v with VSeq _ => exists xs, v0 = VSeq xs | VDict _ => exists kvs, v0 = VDict kvs | _ => True end.
  Proof.
    intros Hxy Hy. destruct (HR _ _ Hxy) as ([c0 v0] & o' & Ho & Ho' & Hcl & Hs). rewrite Hy in Ho'. injection Ho' as <-. cbn [ocls oval] in *. subst c0.
    exists v0. split; [done|]. destruct v; try done; destruct v0; try (by eexists); by destruct Hs.
  Qed.

  Definition related (a b : loc) : Prop := R a b \/ same_number h h' a b.
  Lemma number_end P a z : reach h a P z -> (exists c n, h !! a = Some (Obj c (VNum n))) -> P = [] /\ z = a.
  Proof. intros Hr (c & n & Ha). inversion Hr; subst; [done|congruence..]. Qed.
  Lemma number_end' P a z : reach h' a P z -> (exists c n, h' !! a = Some (Obj c (VNum n))) -> P = [] /\ z = a.
  Proof. intros Hr (c & n & Ha). inversion Hr; subst; [done|congruence..]. Qed.

  Lemma reach_forth P : forall x y z, related x y -> reach h x P z -> exists z', reach h' y P z' /\ related z z'.
  Proof.
    induction P as [|st P IH]; intros x y z Hxy Hr.
    - inversion Hr; subst. exists y. split; [constructor|done].
    - destruct Hxy as [Hxy|(c & n & c' & n' & Hx & _)].
      2: { destruct (number_end _ _ _ Hr) as [Hbad _]; [by eexists _, _|discriminate Hbad]. }
      inversion Hr as [|? c xs i w ? ? Hx Hc Hi Hr'|? c kvs i k w ? ? Hx Hi Hr']; subst.
      + destruct (seq_parts _ _ _ _ Hxy Hx Hc) as (ys & Hy & F). destruct (Forall2_lookup_l _ _ _ _ _ F Hi) as (w' & Hw' & Hrel).
        destruct (IH _ _ _ Hrel Hr') as (z' & A & B). exists z'. split; [|done]. by econstructor.
      + destruct (dict_parts _ _ _ _ Hxy Hx) as (ys & Hy & F). destruct (Forall2_lookup_l _ _ _ _ _ F Hi) as ([k' w'] & Hw' & Hrel).
        destruct (IH _ _ _ Hrel Hr') as (z' & A & B). exists z'. split; [|done]. by econstructor.
  Qed.
  Lemma reach_back P : forall x y z', related x y -> reach h' y P z' -> exists z, reach h x P z /\ related z z'.
  Proof.
    induction P as [|st P IH]; intros x y z' Hxy Hr.
    - inversion Hr; subst. exists x. split; [constructor|done].
    - destruct Hxy as [Hxy|(c & n & c' & n' & _ & Hx & _)].
      2: { destruct (number_end' _ _ _ Hr) as [Hbad _]; [by eexists _, _|discriminate Hbad]. }
      inversion Hr as [|? c ys i w ? ? Hy Hc Hi Hr'|? c kvs i k w ? ? Hy Hi Hr']; subst.
      + destruct (kind_back _ _ _ _ Hxy Hy) as (v0 & Hx & xs & ->). destruct (seq_parts _ _ _ _ Hxy Hx Hc) as (ys' & Hy' & F).
        rewrite Hy in Hy'. injection Hy' as <-. destruct (Forall2_lookup_r _ _ _ _ _ F Hi) as (w' & Hw' & Hrel).
        destruct (IH _ _ _ Hrel Hr') as (z & A & B). exists z. split; [|done]. by econstructor.
      + destruct (kind_back _ _ _ _ Hxy Hy) as (v0 & Hx & xs & ->). destruct (dict_parts _ _ _ _ Hxy Hx) as (ys' & Hy' & F).
        rewrite Hy in Hy'. injection Hy' as <-. destruct (Forall2_lookup_r _ _ _ _ _ F Hi) as ([k' w'] & Hw' & Hrel).
        destruct (IH _ _ _ Hrel Hr') as (z & A & B). exists z. split; [|done]. by econstructor.
  Qed.
End Positions.

(** What is found at one position of two objects. *)
Definition alike (h1 : heap) (a : loc) (h2 : heap) (b : loc) : Prop :=
  exists o1 o2, h1 !! a = Some o1 /\ h2 !! b = Some o2 /\
    match oval o1, oval o2 with
    | VNum n1, VNum n2 => num_val n1 = num_val n2
    | v1, v2 => ocls o1 = ocls o2 /\ length (refs o1) = length (refs o2) /\ (refs o1 = [] -> v1 = v2)
    end.
Lemma same_items_length h h' R xs ys : same_items h h' R xs ys -> length xs = length ys.
Proof. intros [H|(_ & H & _)]; by eapply Forall2_length. Qed.
Lemma same_row_length h h' R xs ys : same_row h h' R xs ys -> length xs = length ys.
Proof. intros [H|(_ & H & _)]; [by eapply same_items_length|by eapply Forall2_length]. Qed.
Lemma concat_length {A B} (l : list (list A)) (k : list (list B)) : Forall2 (fun x y => length x = length y) l k -> length (concat l) = length (concat k).
Proof. induction 1 as [|x y l k Hx _ IH]; [done|]. cbn [concat]. rewrite !app_length. lia. Qed.
Lemma same_obj_refs h h' R o o' : same_obj h h' R o o' -> length (refs o) = length (refs o') /\ (refs o = [] -> oval o' = oval o).
Proof.
  intros [Hc H]. destruct o as [c v], o' as [c' v']. cbn [ocls oval] in *. unfold refs. cbn [oval].
  assert (forall xs ys : list loc, length xs = length ys -> xs = [] -> ys = []) as Hnil. { intros xs ys Hl ->. by destruct ys. }
  destruct v; destruct v'; cbn [refs oval] in H; try (by destruct H as [? H]).
  all: try (split; [done|]; intros _; exact (proj2 H)).
  - assert (length xs = length xs0) as Hl.
    { destruct (isinst c CSet); [|by eapply same_items_length]. destruct H as (ys' & Hp & H). apply same_items_length in H. by rewrite H, Hp. }
    split; [done|]. intros ->. by rewrite (Hnil _ _ Hl eq_refl).
  - apply Forall2_length in H. rewrite !app_length, !map_length. split; [lia|]. intros Hx. apply app_eq_nil in Hx as [Hx _]. apply map_eq_nil in Hx as ->. by destruct kvs0.
  - destruct H as [-> (rows & rows' & -> & -> & _ & F)].
    assert (length (concat rows) = length (concat rows')) as Hl.
    { apply concat_length. eapply Forall2_impl; [exact F|]. intros r r'. apply same_row_length. }
    split; [done|]. intros Hx. by rewrite Hx, (Hnil _ _ Hl Hx).
Qed.
Lemma related_alike (h h' : heap) (R : loc -> loc -> Prop) a b :
  (forall a b, R a b -> exists o o', h !! a = Some o /\ h' !! b = Some o' /\ same_obj h h' R o o') ->
  related h h' R a b -> alike h a h' b.
Proof.
  intros HR [Hab|(c & n & c' & n' & Ha & Hb & Hv & _)].
  - destruct (HR _ _ Hab) as (o & o' & Ho & Ho' & Hs). exists o, o'. split; [done|]. split; [done|].
    destruct (same_obj_refs _ _ _ _ _ Hs) as [H1 H2]. destruct Hs as [Hc _].
    destruct (oval o) eqn:E1; destruct (oval o') eqn:E2; try (split; [done|]; split; [done|]; intros Hr; symmetry; by apply H2).
    assert (refs o = []) as Hr by (unfold refs; by rewrite E1). specialize (H2 Hr). by injection H2 as ->.
  - exists (Obj c (VNum n)), (Obj c' (VNum n')). done.
Qed.
Lemma alike_common h1 a h z h2 b : alike h1 a h z -> alike h2 b h z -> alike h1 a h2 b.
Proof.
  intros (o1 & oz & H1 & Hz & A) (o2 & oz' & H2 & Hz' & B). rewrite Hz in Hz'. injection Hz' as <-. exists o1, o2. split; [done|]. split; [done|].
  assert (forall o, match oval o, oval oz with
    | VNum n1, VNum n2 => num_val n1 = num_val n2
    | v1, v2 => ocls o = ocls oz /\ length (refs o) = length (refs oz) /\ (refs o = [] -> v1 = v2) end ->
    (exists n nz, oval o = VNum n /\ oval oz = VNum nz /\ num_val n = num_val nz) \/
    (ocls o = ocls oz /\ length (refs o) = length (refs oz) /\ (refs o = [] -> oval o = oval oz) /\ (forall nz, oval oz <> VNum nz))) as Hcase.
  { intros o Ho. destruct (oval oz) as [|nz| | | | | | | | | | | | |] eqn:Ez.
    2: { destruct (oval o) eqn:Eo; [..|]; try (left; by eexists _, _); exfalso; destruct Ho as (_ & Hl & Hr);
         (assert (refs oz = []) as Er by (unfold refs; by rewrite Ez)); rewrite Er in Hl; apply nil_length_inv in Hl; discriminate (Hr Hl). }
    all: right; destruct (oval o) eqn:Eo; destruct Ho as (X1 & X2 & X3); done. }
  destruct (Hcase _ A) as [(n1 & nz & E1 & Ez & V1)|(A1 & A2 & A3 & A4)]; destruct (Hcase _ B) as [(n2 & nz' & E2 & Ez' & V2)|(B1 & B2 & B3 & B4)].
  - rewrite E1, E2. rewrite Ez in Ez'. injection Ez' as <-. congruence.
  - by destruct (B4 nz).
  - by destruct (A4 nz').
  - assert (ocls o1 = ocls o2 /\ length (refs o1) = length (refs o2) /\ (refs o1 = [] -> oval o1 = oval o2)) as Hgo.
    { split; [congruence|]. split; [congruence|]. intros Hr. rewrite A3 by done. symmetry. apply B3. rewrite Hr in A2. rewrite <- A2 in B2. by apply nil_length_inv. }
    destruct (oval o1) as [|n1| | | | | | | | | | | | |] eqn:E1; try exact Hgo. exfalso. apply (A4 n1). rewrite <- A3; [done|]. unfold refs. by rewrite E1.
Qed.

(** ** Two objects with a common image *)
Lemma common_positions h1 x1 h2 x2 h v : isomorphic h1 x1 h v -> isomorphic h2 x2 h v ->
  forall P a, reach h1 x1 P a -> exists b, reach h2 x2 P b /\ alike h1 a h2 b.
Proof.
  intros (R1 & X1 & H1 & _) (R2 & X2 & H2 & _) P a Ha.
  destruct (reach_forth _ _ _ H1 P x1 v a ltac:(by left) Ha) as (z & Hz & Raz).
  destruct (reach_back _ _ _ H2 P x2 v z ltac:(by left) Hz) as (b & Hb & Rbz).
  exists b. split; [done|]. eapply alike_common; [by eapply related_alike|by eapply related_alike].
Qed.
Lemma isomorphic_alias_back h x h' y P Q a b : isomorphic h x h' y -> reach h x P a -> reach h x Q b -> ~ scalar_at h a -> ~ scalar_at h b ->
  forall a' b', reach h' y P a' -> reach h' y Q b' -> (a = b <-> a' = b').
Proof.
  intros Hi HP HQ Ha Hb a' b' Ha' Hb'. destruct (isomorphic_alias _ _ _ _ _ _ _ _ Hi HP HQ Ha Hb) as (a1 & b1 & A & B & E).
  by rewrite <- (reach_fun _ _ _ _ _ A Ha'), <- (reach_fun _ _ _ _ _ B Hb').
Qed.
Lemma alike_scalar h1 a h2 b : alike h1 a h2 b -> ~ scalar_at h1 a -> ~ scalar_at h2 b.
Proof.
  intros (o1 & o2 & H1 & H2 & A) Hs (o & Ho & Hsc). rewrite H2 in Ho. injection Ho as <-. apply Hs. exists o1. split; [done|].
  unfold scalar in *. destruct (oval o2) eqn:E2; try done.
  - destruct (oval o1) eqn:E1; try done; destruct A as (_ & Hl & Hr); assert (refs o2 = []) as Er by (unfold refs; by rewrite E2); rewrite Er in Hl; apply nil_length_inv in Hl; discriminate (Hr Hl).
  - destruct (oval o1) eqn:E1; try done; destruct A as (_ & Hl & Hr); assert (refs o2 = []) as Er by (unfold refs; by rewrite E2); rewrite Er in Hl; apply nil_length_inv in Hl; discriminate (Hr Hl).
Qed.
Lemma common_sharing h1 x1 h2 x2 h v : isomorphic h1 x1 h v -> isomorphic h2 x2 h v ->
  forall P Q a a' b b', reach h1 x1 P a -> reach h1 x1 Q a' -> reach h2 x2 P b -> reach h2 x2 Q b' -> ~ scalar_at h1 a -> ~ scalar_at h1 a' -> (a = a' <-> b = b').
Proof.
  intros I1 I2 P Q a a' b b' Ha Ha' Hb Hb' S S'.
  destruct (common_positions _ _ _ _ _ _ I1 I2 P a Ha) as (b1 & Hb1 & L). destruct (common_positions _ _ _ _ _ _ I1 I2 Q a' Ha') as (b2 & Hb2 & L').
  rewrite (reach_fun _ _ _ _ _ Hb1 Hb) in L. rewrite (reach_fun _ _ _ _ _ Hb2 Hb') in L'.
  destruct (isomorphic_alias _ _ _ _ P Q a a' I1 Ha Ha' S S') as (z & z' & Z & Z' & E).
  rewrite E. symmetry. eapply isomorphic_alias_back; [exact I2|exact Hb|exact Hb'|by eapply alike_scalar|by eapply alike_scalar|exact Z|exact Z'].
Qed.

(** ** Dumps that leave the same file *)
Lemma same_file_common C1 C2 kw1 kw2 opts1 opts2 x1 x2 p m1 m2 f1 f2 f' m1' m2' o1 fp1 cp1 im1 o2 fp2 cp2 im2 :
  let E1 := other_loader (c_env C1) o1 fp1 cp1 im1 in
  let E2 := other_loader (c_env C2) o2 fp2 cp2 im2 in
  E1 = E2 -> env_ok E1 -> c_world C1 = std_world -> c_world C2 = std_world -> c_pyver C1 <> [] -> c_pyver C2 <> [] ->
  tree f1 -> tree f2 -> not_v3 f1 -> not_v3 f2 -> no_options (target_attrs f1 p) -> no_options (target_attrs f2 p) ->
  Forall (fun o => snd o = false) opts1 -> Forall (fun o => snd o = false) opts2 ->
  free_above m1 -> free_above m2 -> graph_ok E1 (m_heap m1) x1 -> graph_ok E2 (m_heap m2) x2 ->
  dump_file C1 kw1 opts1 x1 p m1 f1 = (f', m1', Ok tt) -> dump_file C2 kw2 opts2 x2 p m2 f2 = (f', m2', Ok tt) ->
  exists h v, isomorphic (m_heap m1) x1 h v /\ isomorphic (m_heap m2) x2 h v.
Proof.
  intros E1 E2 HE HE1 W1 W2 V1 V2 T1 T2 N1 N2 O1 O2 P1 P2 F1 F2 G1 G2 D1 D2.
  destruct (dump_load_file C1 kw1 opts1 x1 p m1 f1 f' m1' o1 fp1 cp1 im1 HE1 W1 V1 T1 N1 O1 P1 F1 G1 D1) as (n1 & H1).
  assert (env_ok E2) as HE2 by (by rewrite <- HE).
  destruct (dump_load_file C2 kw2 opts2 x2 p m2 f2 f' m2' o2 fp2 cp2 im2 HE2 W2 V2 T2 N2 O2 P2 F2 G2 D2) as (n2 & H2).
  set (C := Config E1 std_world (c_pyver C1) (c_v3 C1) (n1 + n2)%nat).
  set (mz := Mem (<[nobody := empty_tuple]> ∅) 1).
  assert (mem_ok mz) as Hm. { split; [intros l Hl; cbn in Hl |- *; rewrite lookup_insert_ne; [apply lookup_empty|unfold nobody; lia]|apply lookup_insert]. }
  destruct (H1 C false mz eq_refl eq_refl ltac:(cbn; lia) Hm) as (m3 & v & L1 & _ & I1).
  destruct (H2 C false mz HE eq_refl ltac:(cbn; lia) Hm) as (m4 & v' & L2 & _ & I2).
  rewrite L1 in L2. injection L2 as <- <-. by exists (m_heap m3), v.
Qed.

(** ** Keys of dictionaries *)
Lemma dict_keys (h h' : heap) (R : loc -> loc -> Prop) x y c kvs :
  (forall a b, R a b -> exists o o', h !! a = Some o /\ h' !! b = Some o' /\ same_obj h h' R o o') ->
  R x y -> h !! x = Some (Obj c (VDict kvs)) ->
  exists kvs', h' !! y = Some (Obj c (VDict kvs')) /\ Forall2 (fun a b => alike h (fst a) h' (fst b)) kvs kvs'.
Proof.
  intros HR Hxy Hx. destruct (HR _ _ Hxy) as (o & [c' v'] & Ho & Ho' & Hcl & Hs). rewrite Hx in Ho. injection Ho as <-. cbn [ocls oval] in *. subst c'.
  destruct v'; try (by destruct Hs). eexists. split; [exact Ho'|].
  eapply Forall2_impl; [exact Hs|]. intros [k v] [k' v'] B. cbn [fst snd] in *. destruct B as [[[B|(o & A & Hp & B)] _]|[(_ & B & _) _]]; cbn [fst snd] in *.
  - eapply related_alike; [exact HR|by left].
  - exists o, o. split; [done|]. split; [done|]. by destruct (oval o).
  - eapply related_alike; [exact HR|right]. by inversion B as [|? ? ? ? B' _]; subst.
Qed.
Lemma dict_keys_back (h h' : heap) (R : loc -> loc -> Prop) x y c kvs :
  (forall a b, R a b -> exists o o', h !! a = Some o /\ h' !! b = Some o' /\ same_obj h h' R o o') ->
  R x y -> h' !! y = Some (Obj c (VDict kvs)) ->
  exists kvs', h !! x = Some (Obj c (VDict kvs')) /\ Forall2 (fun a b => alike h (fst a) h' (fst b)) kvs' kvs.
Proof.
  intros HR Hxy Hy. destruct (kind_back _ _ _ HR _ _ _ _ Hxy Hy) as (v0 & Hx & kvs' & ->). exists kvs'. split; [done|].
  destruct (dict_keys _ _ _ _ _ _ _ HR Hxy Hx) as (k2 & Hy' & F). rewrite Hy in Hy'. by injection Hy' as <-.
Qed.
Lemma common_keys h1 x1 h2 x2 h v : isomorphic h1 x1 h v -> isomorphic h2 x2 h v ->
  forall P a b c kvs, reach h1 x1 P a -> reach h2 x2 P b -> h1 !! a = Some (Obj c (VDict kvs)) ->
  exists kvs', h2 !! b = Some (Obj c (VDict kvs')) /\ Forall2 (fun k k' => alike h1 (fst k) h2 (fst k')) kvs kvs'.
Proof.
  intros (R1 & X1 & H1 & _) (R2 & X2 & H2 & _) P a b c kvs Ha Hb Hd.
  destruct (reach_forth _ _ _ H1 P x1 v a ltac:(by left) Ha) as (z & Hz & [Raz|(? & ? & ? & ? & E & _)]); [|congruence].
  destruct (reach_back _ _ _ H2 P x2 v z ltac:(by left) Hz) as (b' & Hb' & Rbz). rewrite (reach_fun _ _ _ _ _ Hb' Hb) in Rbz.
  destruct (dict_keys _ _ _ _ _ _ _ H1 Raz Hd) as (kz & Ez & F1).
  destruct Rbz as [Rbz|(? & ? & ? & ? & _ & E & _)]; [|congruence].
  destruct (dict_keys_back _ _ _ _ _ _ _ H2 Rbz Ez) as (k2 & E2 & F2). exists k2. split; [done|].
  clear -F1 F2 H1 H2. revert k2 F2. induction F1 as [|k kk l ll A F1 IH]; intros k2 F2; inversion F2; subst; constructor; auto.
  by eapply alike_common.
Qed.

(** ** Elements of sets *)
Lemma items_alike (h h' : heap) (R : loc -> loc -> Prop) xs ys :
  (forall a b, R a b -> exists o o', h !! a = Some o /\ h' !! b = Some o' /\ same_obj h h' R o o') ->
  same_items h h' R xs ys -> Forall2 (fun a b => alike h a h' b) xs ys.
Proof.
  intros HR [Hs|(_ & Hs & _)]; (eapply Forall2_impl; [exact Hs|]); intros a b Hab; (eapply related_alike; [exact HR|]); [by left|by right].
Qed.
Lemma set_elements (h h' : heap) (R : loc -> loc -> Prop) x y c xs :
  (forall a b, R a b -> exists o o', h !! a = Some o /\ h' !! b = Some o' /\ same_obj h h' R o o') ->
  R x y -> isinst c CSet = true -> h !! x = Some (Obj c (VSeq xs)) ->
  exists ys ys', h' !! y = Some (Obj c (VSeq ys)) /\ Permutation ys ys' /\ Forall2 (fun a b => alike h a h' b) xs ys'.
Proof.
  intros HR Hxy Hc Hx. destruct (HR _ _ Hxy) as (o & [c' v'] & Ho & Ho' & Hcl & Hs). rewrite Hx in Ho. injection Ho as <-. cbn [ocls oval] in *. subst c'.
  destruct v'; try (by destruct Hs). rewrite Hc in Hs. destruct Hs as (ys' & Hp & Hs). eexists _, ys'. split; [exact Ho'|]. split; [done|].
  by eapply items_alike.
Qed.
Lemma Forall2_perm_r {A B} (Q : A -> B -> Prop) xs ys ys' : Forall2 Q xs ys -> Permutation ys ys' -> exists xs', Permutation xs xs' /\ Forall2 Q xs' ys'.
Proof.
  intros F Hp. revert xs F. induction Hp as [|y ys ys' Hp IH|y1 y2 ys|ys1 ys2 ys3 H12 IH1 H23 IH2]; intros xs F.
  - inversion F; subst. by exists [].
  - inversion F as [|x ? xs0 ? Hxy F0]; subst. destruct (IH _ F0) as (xs' & P & F'). exists (x :: xs'). split; [by constructor|by constructor].
  - inversion F as [|x ? xs0 ? Hxy F0]; subst. inversion F0 as [|x' ? xs1 ? Hxy' F1]; subst. exists (x' :: x :: xs1). split; [constructor|by repeat constructor].
  - destruct (IH1 _ F) as (xs1 & P1 & F1). destruct (IH2 _ F1) as (xs2 & P2 & F2). exists xs2. split; [by etrans|done].
Qed.
Lemma common_elements h1 x1 h2 x2 h v : isomorphic h1 x1 h v -> isomorphic h2 x2 h v ->
  forall P a b c xs, reach h1 x1 P a -> reach h2 x2 P b -> isinst c CSet = true -> h1 !! a = Some (Obj c (VSeq xs)) ->
  exists ys ys', h2 !! b = Some (Obj c (VSeq ys)) /\ Permutation ys ys' /\ Forall2 (fun k k' => alike h1 k h2 k') xs ys'.
Proof.
  intros (R1 & X1 & H1 & _) (R2 & X2 & H2 & _) P a b c xs Ha Hb Hc Hd.
  destruct (reach_forth _ _ _ H1 P x1 v a ltac:(by left) Ha) as (z & Hz & [Raz|(? & ? & ? & ? & E & _)]); [|congruence].
  destruct (reach_back _ _ _ H2 P x2 v z ltac:(by left) Hz) as (b' & Hb' & Rbz). rewrite (reach_fun _ _ _ _ _ Hb' Hb) in Rbz.
  destruct (set_elements _ _ _ _ _ _ _ H1 Raz Hc Hd) as (zs & zs' & Ez & P1 & F1).
  destruct Rbz as [Rbz|(? & ? & ? & ? & _ & E & _)]; [|congruence].
  destruct (kind_back _ _ _ H2 _ _ _ _ Rbz Ez) as (v0 & E2 & ys & ->).
  destruct (set_elements _ _ _ _ _ _ _ H2 Rbz Hc E2) as (zs2 & zs2' & Ez2 & P2 & F2). rewrite Ez in Ez2. injection Ez2 as <-.
  assert (Permutation zs2' zs') as P3 by (rewrite <- P2; done).
  destruct (Forall2_perm_r _ _ _ _ F2 P3) as (ys' & P4 & F4). exists ys, ys'. split; [done|]. split; [done|].
  clear -F1 F4. revert ys' F4. induction F1 as [|k kk l ll A F1 IH]; intros k2 F2; inversion F2; subst; constructor; auto.
  by eapply alike_common.
Qed.

(** [f'] is what a dump of [x] in the memory [h] to the path [p] left: some process, file,
    keyword arguments and options, under the conditions of the round trip (C01).  [E]: what
    a process that loads the file finds. *)
Definition written (E : env) (h : heap) (x : loc) (p : pystr) (f' : file) : Prop :=
  exists C kw opts m f m' o fp cp im,
    m_heap m = h /\ E = other_loader (c_env C) o fp cp im /\ env_ok E /\ c_world C = std_world /\ c_pyver C <> [] /\
    tree f /\ not_v3 f /\ no_options (target_attrs f p) /\ Forall (fun o => snd o = false) opts /\
    free_above m /\ graph_ok E h x /\ dump_file C kw opts x p m f = (f', m', Ok tt).
Lemma written_common E h1 x1 h2 x2 p f' : written E h1 x1 p f' -> written E h2 x2 p f' ->
  exists h v, isomorphic h1 x1 h v /\ isomorphic h2 x2 h v.
Proof.
  intros (C1 & kw1 & opts1 & m1 & f1 & m1' & o1 & fp1 & cp1 & im1 & <- & E1 & HE & W1 & V1 & T1 & N1 & O1 & P1 & F1 & G1 & D1)
    (C2 & kw2 & opts2 & m2 & f2 & m2' & o2 & fp2 & cp2 & im2 & <- & E2 & _ & W2 & V2 & T2 & N2 & O2 & P2 & F2 & G2 & D2).
  eapply (same_file_common C1 C2 kw1 kw2 opts1 opts2 x1 x2 p m1 m2 f1 f2 f' m1' m2' o1 fp1 cp1 im1 o2 fp2 cp2 im2); try done; try congruence.
Qed.
