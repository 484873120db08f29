(** * Instance: a concrete environment

    Used in the examples beside the theorems: it shows that [env_ok] can be met.  Members
    of groups are yielded in reverse order of creation, so that nothing in the examples
    rests on a friendly order.  The text of floats is a stand-in for Python's repr, which
    is shortest decimal notation; the theorems only use what [env_ok] lists. *)
From Verif Require Import Base Utf8 Dec DecProofs Num NumProofs PyObj H5 Env.

Definition i_frepr (f : dy) : pystr :=
  match f with
  | FNaN => str "nan"
  | FInf neg => if neg then str "-inf" else str "inf"
  | FZero neg => if neg then str "-0.0" else str "0.0"
  | FFin neg m e => (if neg then str "-" else []) ++ N_dec (Npos m) ++ str "p" ++ Z_dec e
  end.

Definition i_fparse_fin (s : pystr) : option dy :=
  let '(neg, t) := match s with 45 :: r => (true, r) | _ => (false, s) end in
  match split_char 112 t with
  | [a; b] =>
      match N_parse a, Z_parse b with
      | Some (Npos m), Ok e => Some (FFin neg m e)
      | _, _ => None
      end
  | _ => None
  end.
Definition i_fparse (s : pystr) : option dy :=
  match i_fparse_fin s with
  | Some f => Some f
  | None =>
      if bool_decide (s = str "nan") then Some FNaN
      else if bool_decide (s = str "inf") then Some (FInf false)
      else if bool_decide (s = str "-inf") then Some (FInf true)
      else if bool_decide (s = str "0.0") then Some (FZero false)
      else if bool_decide (s = str "-0.0") then Some (FZero true)
      else None
  end.

Definition i_crepr (a b : dy) : pystr := str "(" ++ i_frepr a ++ str "," ++ i_frepr b ++ str ",j)".
Definition i_cparse (s : pystr) : option (dy * dy) :=
  match s with
  | 40 :: r =>
      match split_char 44 r with
      | [a; b; _] =>
          match i_fparse a, i_fparse b with
          | Some x, Some y => Some (x, y)
          | _, _ => None
          end
      | _ => None
      end
  | _ => None
  end.

(** The shape numpy finds for nested sequences; [None]: ragged. *)
Fixpoint np_shape (fuel : nat) (h : heap) (l : loc) : option (list N) :=
  match fuel with
  | O => Some []
  | S k =>
      match h !! l with
      | Some (Obj c (VSeq xs)) =>
          if isinst c CList || isinst c CTuple then
            match map (np_shape k h) xs with
            | [] => Some [0]
            | None :: _ => None
            | Some s :: r =>
                if forallb (fun t => bool_decide (t = Some s)) r then Some (N.of_nat (length xs) :: s) else None
            end
          else Some []
      | Some (Obj _ (VArr _ s _ | VStrArr _ s _ | VObjArr s _)) => Some s
      | _ => Some []
      end
  end.

Definition i_pickles (c : cls) (n : N) : bool := negb (n =? 13).
Definition i_imports (c : cls) : bool := negb (bool_decide (cls_module c = str "gone")).

Definition ienv : env :=
  Env (fun _ l => rev l) i_frepr i_fparse i_crepr i_cparse
      (fun h l => match np_shape 40 h l with Some _ => false | None => true end)
      i_pickles (fun _ => true) i_imports.

(** ** It meets the assumptions *)
Lemma split_char_app c s t :
  Forall (fun a => a <> c) s -> split_char c (s ++ c :: t) = s :: split_char c t.
Proof.
  induction 1 as [|a s Ha Hs IH].
  - simpl. by rewrite N.eqb_refl.
  - simpl. destruct (N.eqb_spec a c); [done|]. by rewrite IH.
Qed.
Lemma split_char_none c s : Forall (fun a => a <> c) s -> split_char c s = [s].
Proof.
  induction 1 as [|a s Ha Hs IH]; [done|].
  simpl. destruct (N.eqb_spec a c); [done|]. by rewrite IH.
Qed.

Lemma Forall_weaken {A : Type} (P Q : A -> Prop) l : Forall P l -> (forall a, P a -> Q a) -> Forall Q l.
Proof. intros H HI. induction H; constructor; auto. Qed.
Lemma digit_range c : is_digit c = true -> 48 <= c <= 57.
Proof. unfold is_digit. intros H. apply andb_true_iff in H as [H1 H2]. lia. Qed.

Lemma N_dec_not c n : c < 48 \/ 57 < c -> Forall (fun a => a <> c) (N_dec n).
Proof.
  intros Hc. eapply Forall_weaken; [apply N_dec_digit|]. simpl. intros a Ha. apply digit_range in Ha. lia.
Qed.
Lemma Z_dec_not c z : (c < 48 \/ 57 < c) -> c <> 45 -> Forall (fun a => a <> c) (Z_dec z).
Proof.
  intros Hc Hd. eapply Forall_weaken; [apply Z_dec_chars|]. simpl. intros a [-> | Ha]; [congruence|].
  apply digit_range in Ha. lia.
Qed.

Lemma i_fparse_repr f : i_fparse (i_frepr f) = Some f.
Proof.
  destruct f as [|[]|[]|neg m e]; try (vm_compute; reflexivity).
  unfold i_fparse. enough (i_fparse_fin (i_frepr (FFin neg m e)) = Some (FFin neg m e)) as -> by done.
  unfold i_frepr, i_fparse_fin.
  assert (forall r, split_char 112 (N_dec (N.pos m) ++ str "p" ++ r) = N_dec (N.pos m) :: split_char 112 r) as Hs.
  { intros r. apply (split_char_app 112). apply N_dec_not. lia. }
  pose proof (N_dec_nonempty (N.pos m)) as Hne. pose proof (N_dec_digit (N.pos m)) as Hd.
  destruct neg.
  - change (str "-" ++ N_dec (N.pos m) ++ str "p" ++ Z_dec e) with (45 :: N_dec (N.pos m) ++ str "p" ++ Z_dec e).
    cbv match. rewrite Hs, (split_char_none 112) by (apply Z_dec_not; lia). by rewrite N_parse_dec, Z_parse_dec.
  - rewrite app_nil_l.
    assert (match N_dec (N.pos m) ++ str "p" ++ Z_dec e with 45 :: r => (true, r) | _ => (false, N_dec (N.pos m) ++ str "p" ++ Z_dec e) end
            = (false, N_dec (N.pos m) ++ str "p" ++ Z_dec e)) as ->.
    { destruct (N_dec (N.pos m)) as [|c r]; [done|]. apply Forall_inv, digit_range in Hd.
      cbn [app]. destruct c as [|p]; [done|]. do 6 (destruct p as [p|p|]; try done; try lia). }
    rewrite Hs, (split_char_none 112) by (apply Z_dec_not; lia). by rewrite N_parse_dec, Z_parse_dec.
Qed.

Lemma frepr_chars (P : N -> Prop) f :
  (forall c, In c (str "nan-if0.p") -> P c) -> (forall c, is_digit c = true -> P c) -> Forall P (i_frepr f).
Proof.
  intros H1 H2.
  assert (forall s, forallb (fun c => existsb (N.eqb c) (str "nan-if0.p")) s = true -> Forall P s) as HL.
  { intros s Hs. apply Forall_forall. intros c Hc.
    rewrite forallb_forall in Hs. apply Hs, existsb_exists in Hc as (d & Hd & E).
    apply N.eqb_eq in E as ->. by apply H1. }
  destruct f as [|[]|[]|neg m e]; try (apply HL; vm_compute; reflexivity).
  unfold i_frepr. apply Forall_app; split; [destruct neg; [apply HL; vm_compute; reflexivity|constructor]|].
  apply Forall_app; split; [eapply Forall_weaken; [apply N_dec_digit|exact H2]|].
  apply Forall_app; split; [apply HL; vm_compute; reflexivity|].
  eapply Forall_weaken; [apply Z_dec_chars|]. simpl. intros c [-> | Hc]; [apply H1; vm_compute; tauto|by apply H2].
Qed.

Ltac chars := match goal with
  | H : In ?c _ |- _ => vm_compute in H; intuition (subst c; vm_compute; congruence || reflexivity)
  | H : is_digit ?c = true |- _ => apply digit_range in H; lia
  end.

Lemma i_cparse_repr a b : i_cparse (i_crepr a b) = Some (a, b).
Proof.
  unfold i_crepr, i_cparse. change (str "(" ++ ?x) with (40 :: x). cbv match.
  assert (forall f, Forall (fun c => c <> 44) (i_frepr f)) as Hc. { intros f. apply frepr_chars; intros c Hc; chars. }
  change (str "," ++ ?x) with (44 :: x). rewrite split_char_app by auto.
  change (str ",j)") with (44 :: str "j)"). rewrite split_char_app by auto.
  change (split_char 44 (str "j)")) with [str "j)"]. cbv match. by rewrite !i_fparse_repr.
Qed.

Lemma plain_digit c : is_digit c = true -> plain_char c = true.
Proof.
  intros H. apply digit_range in H. unfold plain_char, is_scalar, is_surrogate.
  rewrite !andb_true_iff, !negb_true_iff, !N.eqb_neq, andb_false_iff, N.ltb_lt, !N.leb_gt. repeat split; lia.
Qed.
Lemma forallb_Forall' {A : Type} (p : A -> bool) l : Forall (fun c => p c = true) l -> forallb p l = true.
Proof. induction 1; simpl; [done|]. by apply andb_true_iff. Qed.

Lemma frepr_plain f : forallb plain_char (i_frepr f) = true.
Proof.
  apply forallb_Forall', frepr_chars; [|apply plain_digit].
  intros c Hc. vm_compute in Hc. intuition (subst c; vm_compute; reflexivity).
Qed.

Lemma frepr_first f : exists c r, i_frepr f = c :: r /\ (In c (str "ni-0") \/ is_digit c = true).
Proof.
  destruct f as [|[]|[]|neg m e]; try (eexists _, _; split; [vm_compute; reflexivity|left; vm_compute; tauto]).
  unfold i_frepr. destruct neg; [eexists _, _; split; [vm_compute; reflexivity|left; vm_compute; tauto]|].
  pose proof (N_dec_nonempty (N.pos m)) as Hne. pose proof (N_dec_digit (N.pos m)) as Hd.
  destruct (N_dec (N.pos m)) as [|c r]; [done|]. apply Forall_inv in Hd.
  eexists _, _; split; [reflexivity|]. by right.
Qed.

Lemma frepr_not_int f z : i_frepr f <> Z_dec z.
Proof.
  intros E. pose proof (Z_dec_chars z) as H. rewrite <- E in H. rewrite list.Forall_forall in H.
  assert (exists c, c ∈ i_frepr f /\ c <> 45 /\ is_digit c = false) as (c & Hc & Hd & Hn).
  { destruct f as [|[]|[]|neg m e].
    - exists 110. split; [|vm_compute; split; congruence]. apply (bool_decide_unpack _); vm_compute; exact I.
    - exists 110. split; [|vm_compute; split; congruence]. apply (bool_decide_unpack _); vm_compute; exact I.
    - exists 110. split; [|vm_compute; split; congruence]. apply (bool_decide_unpack _); vm_compute; exact I.
    - exists 46. split; [|vm_compute; split; congruence]. apply (bool_decide_unpack _); vm_compute; exact I.
    - exists 46. split; [|vm_compute; split; congruence]. apply (bool_decide_unpack _); vm_compute; exact I.
    - exists 112. split; [|vm_compute; split; congruence]. unfold i_frepr.
      rewrite !elem_of_app. right. right. left. vm_compute. by constructor. }
  destruct (H c Hc); congruence.
Qed.

Fixpoint found (dims : list N) : list N :=
  match dims with [] => [] | n :: rest => if n =? 0 then [0] else n :: found rest end.
Lemma np_shape_nested h dims : forall k ls z, nested h dims ls z -> (length dims < k)%nat -> (forall l, l ∈ ls -> no_sequence h l) ->
  np_shape k h z = Some (found dims).
Proof.
  induction dims as [|n rest IH]; intros [|k] ls z Hn Hk Hl; cbn [length] in Hk; try lia; cbn [np_shape found].
  - cbn [nested] in Hn. subst ls. specialize (Hl z ltac:(by left)). unfold no_sequence in Hl.
    destruct (h !! z) as [[c []]|]; done.
  - destruct Hn as (xs & lss & -> & <- & -> & Hf). cbn.
    assert (Forall (fun t => t = Some (found rest)) (map (np_shape k h) xs)) as Hall.
    { clear -IH Hk Hf Hl. induction Hf as [|ls x lss xs Hx _ IHf]; [constructor|]. constructor.
      - apply (IH k ls x Hx); [lia|]. intros l Hin. apply Hl. simpl. apply elem_of_app. by left.
      - apply IHf. intros l Hin. apply Hl. simpl. apply elem_of_app. by right. }
    destruct xs as [|x xs]; [done|]. cbn [map]. cbn [map] in Hall. inversion Hall as [|? ? H1 H2]; subst. rewrite H1.
    assert (forallb (fun t => bool_decide (t = Some (found rest))) (map (np_shape k h) xs) = true) as ->.
    { apply forallb_forall. intros t Ht%elem_of_list_In. rewrite list.Forall_forall in H2. apply bool_decide_eq_true. by apply H2. }
    cbn [length]. destruct (N.eqb_spec (N.of_nat (S (length xs))) 0); [lia|done].
Qed.

Lemma ienv_ok : env_ok ienv.
Proof.
  constructor; cbn -[i_frepr i_crepr i_fparse i_cparse np_shape].
  - intros a l. symmetry. apply Permutation_rev.
  - intros f _. apply i_fparse_repr.
  - intros a b _ _. apply i_cparse_repr.
  - apply frepr_plain.
  - intros a b. unfold i_crepr. rewrite !forallb_app, !frepr_plain. vm_compute. reflexivity.
  - intros f. destruct (frepr_first f) as (c & r & -> & H). unfold reserved_first.
    destruct H as [H|H].
    + vm_compute in H. intuition (subst c; vm_compute; reflexivity).
    + apply digit_range in H. cbn [existsb]. rewrite !orb_false_iff, !N.eqb_neq. repeat split; lia.
  - intros a b. reflexivity.
  - apply frepr_not_int.
  - intros a b z E. destruct (Z_dec_first z) as (c & r & E' & H). rewrite E' in E. unfold i_crepr in E.
    change (str "(" ++ ?x) with (40 :: x) in E. injection E as <- _. destruct H as [H|H]; [done|]. apply digit_range in H. lia.
  - intros f a b E. destruct (frepr_first f) as (c & r & E' & H). rewrite E' in E. unfold i_crepr in E.
    change (str "(" ++ ?x) with (40 :: x) in E. injection E as -> _. destruct H as [H|H].
    + vm_compute in H. intuition congruence.
    + apply digit_range in H. lia.
  - intros c Hc. unfold i_imports. rewrite Hc. reflexivity.
  - reflexivity.
  - intros h dims ls z Hn Hd Hl. rewrite (np_shape_nested h dims 40 ls z Hn ltac:(lia) Hl). reflexivity.
Qed.
