(** * Fresh: loading builds new objects *)
From Verif Require Import Base Utf8 Dec Num PyObj H5 Env Create Repr LoadFns LoadModel Registry Spec RoundTrip LoadFrame Api DumpClosed ApiProofs.
From Coq Require Import Lia ZifyBool ZifyN.

(** ** Specification: everything an object consists of *)

(** The objects an object refers to, those kept in a recovered group included. *)
Definition parts (o : obj) : list loc :=
  match oval o with
  | VRecG items _ => map (fun it => fst (snd it)) items
  | _ => refs o
  end.
(** [y] can be reached from [x] by following references. *)
Inductive part_of (h : heap) : loc -> loc -> Prop :=
| part_self x : part_of h x x
| part_step x o y z : h !! x = Some o -> y ∈ parts o -> part_of h y z -> part_of h x z.

(** ** Invariant of the load functions *)
Section Fresh.
Context (m0 : mem) (H0 : mem_ok m0).

Definition new (l : loc) : Prop := l = nobody \/ m_next m0 <= l.
Definition okm (m : mem) : Prop :=
  m_next m0 <= m_next m /\ (forall l, m_next m <= l -> m_heap m !! l = None) /\
  (forall l, l < m_next m0 -> m_heap m !! l = m_heap m0 !! l) /\
  (forall l o, m_next m0 <= l -> m_heap m !! l = Some o -> Forall new (parts o) /\ o <> empty_tuple).
(** A result of a load function. *)
Definition okr (r : mem * loc) : Prop := okm (fst r) /\ new (snd r).

Lemma new_nobody : new nobody.
Proof. by left. Qed.
Lemma okm_0 : okm m0.
Proof.
  destruct H0 as [H1 H2]. split; [lia|]. split; [exact H1|]. split; [done|].
  intros l o Hl. by rewrite H1.
Qed.
Lemma next_pos : 0 < m_next m0.
Proof.
  destruct H0 as [H1 H2]. destruct (decide (m_next m0 <= nobody)) as [Hn|Hn]; [|unfold nobody in Hn; lia].
  rewrite (H1 _ Hn) in H2. done.
Qed.
Lemma okm_nobody m : okm m -> m_heap m !! nobody = Some empty_tuple.
Proof. intros (_ & _ & H & _). rewrite H; [apply H0|]. exact next_pos. Qed.
(** What a new object refers to is new. *)
Lemma okm_parts m l o : okm m -> new l -> m_heap m !! l = Some o -> Forall new (parts o).
Proof.
  intros Hm [->|Hl] Ho.
  - rewrite (okm_nobody m Hm) in Ho. inversion Ho; subst o. apply Forall_nil_2.
  - destruct Hm as (_ & _ & _ & H). by eapply H.
Qed.

Lemma alloc_ok o m : okm m -> o <> empty_tuple -> Forall new (parts o) -> okr (alloc o m).
Proof.
  intros (A & B & C & D) Hne Ho. split; [split; [|split; [|split]]|]; simpl.
  - lia.
  - intros l Hl. rewrite lookup_insert_ne by lia. apply B. lia.
  - intros l Hl. rewrite lookup_insert_ne by lia. by apply C.
  - intros l o' Hl. destruct (decide (l = m_next m)) as [->|Hl'].
    + rewrite lookup_insert. by intros [= <-].
    + rewrite lookup_insert_ne by done. by apply D.
  - right. lia.
Qed.
Definition atomic (o : obj) : Prop := parts o = [] /\ o <> empty_tuple.
Lemma alloc_list_ok os : forall m, okm m -> Forall atomic os ->
  okm (fst (alloc_list os m)) /\ Forall new (snd (alloc_list os m)).
Proof.
  induction os as [|o os IH]; intros m Hm Hos; simpl; [by split|].
  apply Forall_cons_1 in Hos as [[Ho Hne] Hos].
  destruct (alloc_ok o m Hm Hne) as [A B]; [by rewrite Ho|]. simpl in *.
  specialize (IH _ A Hos). destruct (alloc_list os _) as [m2 ls]. simpl in *. destruct IH. by split; [|apply Forall_cons_2].
Qed.
Lemma alloc_list_eq os m m1 ls : alloc_list os m = (m1, ls) -> okm m -> Forall atomic os ->
  okm m1 /\ Forall new ls.
Proof. intros H Hm Ho. destruct (alloc_list_ok os m Hm Ho). by rewrite H in *. Qed.

Lemma atoms_none {A} (f : A -> obj) (xs : list A) :
  (forall x, atomic (f x)) -> Forall atomic (map f xs).
Proof. intros H. apply Forall_map, Forall_true. intros x. apply H. Qed.

Lemma set_of_new fuel h xs : forall s s', set_of fuel h s xs = Ok s' ->
  Forall new (map snd s) -> Forall new xs -> Forall new (map snd s').
Proof.
  induction xs as [|x xs IH]; intros s s'; simpl; [by intros [= <-]|].
  unfold set_add at 1. destruct (hval fuel h x) as [k|]; simpl; [|done]. intros H Hs Hx.
  apply Forall_cons_1 in Hx as [Hx Hxs]. apply (IH _ _ H); [|done].
  destruct (has_key k s); [done|]. rewrite map_app. by apply Forall_app_2; [|apply Forall_cons_2].
Qed.

Lemma construct_seq_ok fuel pt xs m r : construct_seq fuel pt xs m = Ok r -> okm m -> Forall new xs -> okr r.
Proof.
  unfold construct_seq. intros H Hm Hx. destruct (base_cls pt) eqn:Ebc; try done.
  - injection H as <-. apply alloc_ok; [done| |done]. by intros [= ->].
  - destruct (_ && _) eqn:Eb; injection H as <-; [split; [done|apply new_nobody]|]. apply alloc_ok; [done| |done].
    intros [= -> ->]. done.
  - destruct (set_of _ _ _ _) as [s|] eqn:Es; [|done]. injection H as <-. apply alloc_ok; [done|by intros [= ->]|].
    eapply (set_of_new _ _ _ _ _ Es); [apply Forall_nil_2|done].
  - destruct (_ =? _); [|done]. destruct (alloc_ok (Obj CList (VSeq xs)) m Hm) as [A B]; [by intros [=]|done|].
    unfold alloc in H at 1. simpl in H. injection H as <-. apply alloc_ok; [done|by intros [=]|]. simpl. by apply Forall_cons_2.
Qed.

Ltac atom := apply alloc_ok; [done|by intros [=]|by apply Forall_nil_2].
Ltac res H := repeat (match type of H with
  | res_map _ ?e = Ok _ => destruct e eqn:?; [|discriminate H]; cbn [res_map] in H
  | res_bind ?e _ = Ok _ => destruct e eqn:?; [|discriminate H]; cbn [res_bind] in H
  | Ok _ = Ok _ => injection H as <-
  | Err _ = Ok _ => discriminate H
  | match ?e with _ => _ end = Ok _ => destruct e eqn:?
  end).

Lemma load_list_ok fuel a d pt m r : load_list fuel a d pt m = Ok r -> okm m -> okr r.
Proof.
  unfold load_list. intros H Hm.
  res H; try atom; try (by eapply construct_seq_ok);
    match goal with E : alloc_list _ _ = _ |- _ =>
      eapply alloc_list_eq in E as [? ?]; [by eapply construct_seq_ok|done|by apply atoms_none] end.
Qed.

Lemma load_fn_ok E fuel fn a d orig pt m r : load_fn E fuel fn a d orig pt m = Ok r -> okm m -> okr r.
Proof.
  intros H Hm. destruct fn; simpl in H.
  - unfold load_scalar in H. res H; atom.
  - unfold load_none in H. res H; atom.
  - by eapply load_list_ok.
  - unfold load_4x_string in H. res H; try atom; by eapply load_list_ok.
  - unfold load_pickled in H. res H; atom.
  - res H. split; [done|apply new_nobody].
  - unfold recover_dataset in H. res H. atom.
  - unfold load_np_scalar in H. res H; atom.
  - unfold load_np_dtype in H. res H; atom.
  - unfold load_ndarray in H. res H; try atom.
    all: match goal with
      | E : alloc_list _ _ = _ |- _ =>
          eapply alloc_list_eq in E as [? ?]; [by apply alloc_ok; [|intros [=]|]|done|by apply atoms_none]
      | E : alloc ?o _ = _ |- _ =>
          destruct (alloc_ok o m Hm) as [A B]; [by intros [=]|apply Forall_nil_2|]; rewrite E in A, B; simpl in A, B;
          apply alloc_ok; [done|by intros [=]|]; simpl; by apply Forall_cons_2
      end.
  - done.
Qed.

(** ** Containers *)
Definition slot_new (s : dslot) : Prop :=
  match s with SHole => True | SPair k v => new k /\ new v | SItem l => new l end.
Definition cs_new (cs : cstate) : Prop :=
  match cs with
  | SList xs => Forall new xs
  | SSet s => Forall new (map snd s)
  | SDict slots => Forall slot_new slots
  | SNd l => new l
  | SNamed kvs => Forall new (map snd kvs)
  | SSlots xs => Forall (fun x => match x with Some l => new l | None => True end) xs
  | SRec items => Forall new (map (fun it => fst (snd it)) items)
  end.

Lemma repeat_new {A : Type} (P : A -> Prop) x n : P x -> Forall P (repeat x n).
Proof. intros Hx. induction n; simpl; [apply Forall_nil_2|by apply Forall_cons_2]. Qed.

Lemma cont_init_new k a : cs_new (cont_init k a).
Proof.
  destruct k; simpl; try apply Forall_nil_2; try (apply repeat_new, new_nobody).
  by repeat (apply Forall_cons_2; [done|]).
Qed.

Lemma set_slot_new {A : Type} (P : A -> Prop) hole is_hole i x xs ys :
  @set_slot A hole is_hole i x xs = Ok ys -> P hole -> P x -> Forall P xs -> Forall P ys.
Proof.
  unfold set_slot. intros H Hh Hx Hxs. destruct (_ !! i); [|done]. destruct (is_hole a); [|done]. injection H as <-.
  apply Forall_insert; [|done]. apply Forall_app_2; [done|]. by apply repeat_new.
Qed.
Lemma list_append_new nm l a xs ys : list_append nm l a xs = Ok ys -> new l -> Forall new xs -> Forall new ys.
Proof.
  unfold list_append. intros H Hl Hx. res H; try done; by eapply (set_slot_new new); [exact H|apply new_nobody| |].
Qed.
Lemma alist_set_new {B : Type} (P : B -> Prop) nm (v : B) (kvs : list (pystr * B)) :
  P v -> Forall P (map snd kvs) -> Forall P (map snd (alist_set nm v kvs)).
Proof.
  intros Hv. induction kvs as [|[k w] r IH]; simpl; intros H; [by apply Forall_cons_2|].
  apply Forall_cons_1 in H as [Hw Hr]. destruct (decide _); simpl; apply Forall_cons_2; auto.
Qed.

Lemma nd_append_new nm l a cs cs' : nd_append nm l a cs = Ok cs' -> new l -> cs_new cs -> cs_new cs'.
Proof.
  unfold nd_append. intros H Hl Hc. destruct (orb _ _); [by injection H as <-|]. destruct cs; try done.
  destruct (list_append _ _ _ _) eqn:El; [|done]. injection H as <-. by eapply list_append_new.
Qed.

Lemma dict_key_parts E nm kt o : dict_key E nm kt = Ok (Some o) -> atomic o.
Proof.
  unfold dict_key, load_key. intros H. res H; try done;
    try (match goal with E : Ok _ = Ok _ |- _ => injection E as <- end; done).
  all: repeat match goal with
    | E : res_map _ ?e = Ok _ |- _ => destruct e eqn:?; [|discriminate E]; cbn [res_map] in E
    | E : Ok _ = Ok _ |- _ => injection E as <-
    | E : (if ?b then _ else _) = Ok _ |- _ => destruct b
    | E : match ?e with _ => _ end = Ok _ |- _ => destruct e eqn:?; try discriminate E
    end; try done.
Qed.

Lemma dict_append_ok E nm l a slots m m' slots' :
  dict_append E nm l a slots m = Ok (m', slots') -> okm m -> new l -> Forall slot_new slots ->
  okm m' /\ Forall slot_new slots'.
Proof.
  unfold dict_append. intros H Hm Hl Hs. destruct (dict_key _ _ _) as [ok|] eqn:Ek; [|done]. cbn [res_bind] in H.
  assert (exists m1 slot, match ok with Some o => let '(m1, l0) := alloc o m in (m1, SPair l0 l) | None => (m, SItem l) end = (m1, slot)
            /\ okm m1 /\ slot_new slot) as (m1 & slot & Heq & Hm1 & Hslot).
  { destruct ok as [o|]; [|by eexists _, _]. eexists _, _. split; [reflexivity|].
    destruct (dict_key_parts _ _ _ _ Ek) as [Hp Hne].
    destruct (alloc_ok o m Hm Hne) as [A B]; [rewrite Hp; apply Forall_nil_2|]. done. }
  rewrite Heq in H. destruct (index_of _) as [oi|]; [|done]. cbn [res_bind] in H. destruct oi as [i|].
  - destruct (set_slot _ _ _ _ _) as [s'|] eqn:Es; [|done]. injection H as <- <-. split; [done|].
    by eapply (set_slot_new slot_new); [exact Es| | |].
  - destruct slot; try done. destruct (_ =? _); [|done]. by injection H as <- <-.
Qed.

Lemma cont_append_ok E fuel k nm l a cs m m' cs' :
  cont_append E fuel k nm l a cs m = Ok (m', cs') -> okm m -> new l -> cs_new cs -> okm m' /\ cs_new cs'.
Proof.
  intros H Hm Hl Hc.
  assert (forall xs, Forall new xs -> Forall new (xs ++ [l])) as Hsn.
  { intros xs Hx. by apply Forall_app_2; [|apply Forall_cons_2]. }
  destruct k; destruct cs; simpl in H; try discriminate H; simpl in Hc;
    try (injection H as <- <-; split; [done|]; simpl; by apply Hsn);
    try (destruct (nd_append nm l a _) as [cs1|] eqn:En in H; cbn [res_map] in H; [|discriminate H];
         injection H as <- <-; split; [exact Hm|]; eapply nd_append_new; [exact En|exact Hl|exact Hc]).
  - destruct (list_append _ _ _ _) eqn:El; [|done]. injection H as <- <-. split; [done|]. by eapply list_append_new.
  - unfold set_add in H. destruct (hval _ _ _); [|done]. injection H as <- <-. split; [done|]. simpl.
    destruct (has_key _ _); [done|].
    rewrite map_app. by apply Hsn.
  - destruct (dict_append _ _ _ _ _ _) as [[m1 s1]|] eqn:Ed; [|done]. injection H as <- <-.
    by eapply dict_append_ok.
  - injection H as <- <-. split; [done|]. simpl. rewrite <-(map_map snd fst) in *. apply Forall_map, (alist_set_new (fun x => new (fst x))); [done|]. exact (proj1 (Forall_map _ _ _) Hc).
  - injection H as <- <-. split; [done|]. by apply (alist_set_new new).
  - destruct (sparse_index nm); [|done]. injection H as <- <-. split; [done|]. by apply Forall_insert.
Qed.

(** ** convert *)
Lemma slot_pair_new m s k v : okm m -> slot_pair (m_heap m) s = Ok (k, v) -> slot_new s -> new k /\ new v.
Proof.
  intros Hm H Hs. destruct s as [|k' v'|l]; simpl in H; [done|by injection H as <- <-|].
  destruct (m_heap m !! l) as [[c w]|] eqn:El; [|done].
  pose proof (okm_parts m l _ Hm Hs El) as Hp. destruct w as [| | | |xs| | | | | | | | | |]; try done.
  destruct xs as [|x [|y [|]]]; try done. destruct (isinst _ _); [done|]. injection H as <- <-.
  simpl in Hp. apply Forall_cons_1 in Hp as [? Hp]. by apply Forall_cons_1 in Hp as [? _].
Qed.
Lemma slot_pairs_new m slots : forall ps, okm m -> res_mapM (slot_pair (m_heap m)) slots = Ok ps -> Forall slot_new slots ->
  Forall (fun p => new (fst p) /\ new (snd p)) ps.
Proof.
  induction slots as [|s r IH]; intros ps Hm H Hs; simpl in H; [injection H as <-; apply Forall_nil_2|].
  apply Forall_cons_1 in Hs as [Hs Hr]. res H. apply Forall_cons_2; [|by apply IH].
  destruct a as [k v]. by eapply slot_pair_new.
Qed.
Definition pair_new (p : hv * (loc * loc)) : Prop := new (fst (snd p)) /\ new (snd (snd p)).
Lemma dict_put_new k kl vl d : new kl -> new vl -> Forall pair_new d -> Forall pair_new (dict_put k kl vl d).
Proof.
  intros Hk Hv. induction d as [|[k' [a b]] r IH]; simpl; intros H; [by apply Forall_cons_2|].
  apply Forall_cons_1 in H as [[Ha Hb] Hr]. destruct (bool_decide _); apply Forall_cons_2; auto; by split.
Qed.
Lemma dict_of_new fuel h ps : forall d d', dict_of fuel h d ps = Ok d' ->
  Forall (fun p => new (fst p) /\ new (snd p)) ps -> Forall pair_new d -> Forall pair_new d'.
Proof.
  induction ps as [|[k v] r IH]; intros d d' H Hp Hd; simpl in H; [by injection H as <-|].
  apply Forall_cons_1 in Hp as [[Hk Hv] Hr]. res H. eapply (IH _ _ H Hr). by apply dict_put_new.
Qed.
Lemma dict_parts d : Forall pair_new d -> Forall new (map fst (map snd d) ++ map snd (map snd d)).
Proof.
  intros H. apply Forall_app_2; rewrite !map_map; apply Forall_map; eapply list.Forall_impl; try exact H; by intros ? [? ?].
Qed.

Definition count_new (p : hv * (loc * Z)) : Prop := new (fst (snd p)).
Lemma count_put_new k l d : new l -> Forall count_new d -> Forall count_new (count_put k l d).
Proof.
  intros Hl. induction d as [|[k' [a n]] r IH]; simpl; intros H; [by apply Forall_cons_2|].
  apply Forall_cons_1 in H as [Ha Hr]. destruct (bool_decide _); apply Forall_cons_2; auto.
Qed.
Lemma count_slots_ok fuel slots : forall d m m' d', count_slots fuel slots d m = Ok (m', d') ->
  okm m -> Forall slot_new slots -> Forall count_new d -> okm m' /\ Forall count_new d'.
Proof.
  induction slots as [|s r IH]; intros d m m' d' H Hm Hs Hd; simpl in H; [by injection H as <- <-|].
  apply Forall_cons_1 in Hs as [Hs Hr].
  assert (exists m1 l, match s with SHole => (m, nobody) | SPair k v => alloc (Obj CTuple (VSeq [k; v])) m | SItem l => (m, l) end = (m1, l)
            /\ okm m1 /\ new l) as (m1 & l & Heq & Hm1 & Hl).
  { destruct s as [|k v|l]; [by eexists _, _; split; [done|split; [done|apply new_nobody]]| |by eexists _, _].
    destruct Hs as [Hk Hv]. destruct (alloc_ok (Obj CTuple (VSeq [k; v])) m Hm) as [A B]; [by intros [=]|by repeat (apply Forall_cons_2; [done|])|].
    by eexists _, _. }
  rewrite Heq in H. res H. eapply (IH _ _ _ _ H Hm1 Hr). by apply count_put_new.
Qed.

Lemma dict_convert_ok fuel pt slots m r : dict_convert fuel pt slots m = Ok r -> okm m -> Forall slot_new slots -> okr r.
Proof.
  unfold dict_convert. intros H Hm Hs.
  assert (forall r, res_bind (res_mapM (slot_pair (m_heap m)) slots) (fun ps =>
        res_map (fun d => alloc (Obj pt (VDict (map snd d))) m) (dict_of fuel (m_heap m) [] ps)) = Ok r -> okr r) as Hd.
  { clear r H. intros r H. res H. apply alloc_ok; [done|by intros [=]|]. simpl. apply dict_parts.
    eapply dict_of_new; [done|by eapply slot_pairs_new|apply Forall_nil_2]. }
  destruct (base_cls pt); try done; auto.
  destruct (count_slots _ _ _ _) as [[m1 d]|] eqn:Ec; [|done]. cbn [res_map] in H. injection H as <-.
  eapply count_slots_ok in Ec as [Hm1 Hd1]; [|done|done|apply Forall_nil_2].
  destruct (alloc_list _ m1) as [m2 vs] eqn:Ea.
  eapply alloc_list_eq in Ea as [Hm2 Hvs]; [|done|apply atoms_none; by intros [? [? ?]]].
  apply alloc_ok; [done|by intros [=]|]. simpl. apply list.Forall_forall. intros l Hl. apply elem_of_app in Hl as [Hl|Hl].
  - apply elem_of_list_fmap in Hl as ([a b] & -> & Hl). apply elem_of_zip_l in Hl.
    apply elem_of_list_fmap in Hl as ([? [? ?]] & -> & Hl). by eapply list.Forall_forall in Hd1 as Hn; [|exact Hl].
  - apply elem_of_list_fmap in Hl as ([a b] & -> & Hl). apply elem_of_zip_r in Hl.
    by eapply list.Forall_forall in Hvs as Hn; [|exact Hl].
Qed.

Lemma leaves_new m d : okm m -> forall l ls, new l -> leaves d (m_heap m) l = Some ls -> Forall new ls.
Proof.
  intros Hm. induction d as [|d IH]; intros l ls Hl H; simpl in H; [injection H as <-; by apply Forall_cons_2|].
  destruct (m_heap m !! l) as [[c v]|] eqn:El; [|done]. destruct v as [| | | |xs| | | | | | | | | |]; try done.
  pose proof (okm_parts m l _ Hm Hl El) as Hp. simpl in Hp. clear El.
  destruct (mapM _ xs) as [yss|] eqn:Ey; [|done]. injection H as <-. apply mapM_Some in Ey.
  induction Ey as [|x ys xs yss Hx _ IHy]; simpl; [apply Forall_nil_2|]. apply Forall_cons_1 in Hp as [Hx' Hp].
  apply Forall_app_2; [by eapply IH|by apply IHy].
Qed.

Lemma nd_convert_ok a pt cs m r : nd_convert a pt cs m = Ok r -> okm m -> cs_new cs -> okr r.
Proof.
  unfold nd_convert. intros H Hm Hc.
  assert (exists m1 l, match cs with SList xs => alloc (Obj CList (VSeq xs)) m | SNd l => (m, l) | _ => (m, nobody) end = (m1, l)
            /\ okm m1 /\ new l) as (m1 & l & Heq & Hm1 & Hl).
  { destruct cs as [xs| | | | | |]; try (eexists _, _; split; [reflexivity|]; by split; [|apply new_nobody]); [|by eexists _, _].
    destruct (alloc_ok (Obj CList (VSeq xs)) m Hm) as [A B]; [by intros [=]|done|]. by eexists _, _. }
  rewrite Heq in H. res H; try atom. apply alloc_ok; [done|by intros [=]|]. simpl. by eapply leaves_new.
Qed.

Lemma alist_get_in {B : Type} (P : B -> Prop) nm (kvs : list (pystr * B)) v :
  alist_get nm kvs = Some v -> Forall P (map snd kvs) -> P v.
Proof.
  induction kvs as [|[k w] r IH]; simpl; [done|]. intros H Hp. apply Forall_cons_1 in Hp as [Hw Hr].
  destruct (decide _); [by injection H as <-|auto].
Qed.

Lemma cont_convert_ok fuel k a orig pt cs m r : cont_convert fuel k a orig pt cs m = Ok r -> okm m -> cs_new cs -> okr r.
Proof.
  intros H Hm Hc. destruct k; destruct cs; simpl in H; try discriminate H; simpl in Hc; try (by eapply nd_convert_ok);
    try (unfold load_none in H; injection H as <-; atom).
  - destruct (bool_decide _); [injection H as <-; by apply alloc_ok; [|intros [=]|]|by eapply construct_seq_ok].
  - destruct (bool_decide _); [injection H as <-; by apply alloc_ok; [|intros [=]|]|by eapply construct_seq_ok].
  - by eapply dict_convert_ok.
  - res H. apply Forall_cons_1 in Hc as [? _]. by split.
  - res H. apply Forall_cons_1 in Hc as [? _]. by split.
  - injection H as <-. by apply alloc_ok; [|intros [=]|].
  - unfold masked_convert in H. res H. apply alloc_ok; [done|by intros [=]|]. simpl.
    by repeat (apply Forall_cons_2; [by eapply (alist_get_in new)|]).
  - unfold sparse_convert in H. res H. apply alloc_ok; [done|by intros [=]|]. simpl.
    repeat (apply Forall_cons_1 in Hc as [? Hc]; apply Forall_cons_2; [done|]). done.
Qed.

(** ** The whole load *)
Definition oks (s : lst) : Prop := okm (l_mem s) /\ forall a l, l_memo s !! a = Some l -> new l.

Lemma load_members_ok E fuel f rec k ms :
  (forall a s s' l, rec a s = Ok (s', l) -> oks s -> oks s' /\ new l) ->
  forall cs s s' cs', load_members E fuel f rec k ms cs s = Ok (s', cs') -> oks s -> cs_new cs -> oks s' /\ cs_new cs'.
Proof.
  intros Hr. induction ms as [|[nm a] ms IH]; intros cs s s' cs' H Hs Hc; simpl in H; [by injection H as <- <-|].
  destruct (get_node f a) as [n|]; [|done]. destruct (rec a s) as [[s1 l]|] eqn:Er; [|done]. cbn [res_bind] in H.
  destruct (Hr _ _ _ _ Er Hs) as [[Hm1 Hmm] Hl].
  destruct (cont_append _ _ _ _ _ _ _ _) as [[m2 cs2]|] eqn:Ec; [|done]. cbn [res_bind] in H.
  eapply cont_append_ok in Ec as [Hm2 Hc2]; [|done..]. eapply (IH _ _ _ _ H); [|done]. by split.
Qed.

Lemma load_masked_ok a d mk pt m r : load_ndarray_masked a d mk pt m = Ok r -> okm m -> okr r.
Proof.
  unfold load_ndarray_masked. intros H Hm. destruct (dataset_numbers d) as [[shape vs]|]; cbn [res_bind] in H; [|done].
  destruct mk as [md|]; [|done]. destruct (dataset_numbers md) as [[sh ms]|]; cbn [res_bind] in H; [|done].
  destruct (attr_dtype a); cbn [res_bind] in H; [|done]. destruct (parse_adtype _) as [ad|]; cbn [res_bind] in H; [|done].
  destruct ad as [dt| |]; try done. destruct (res_mapM (cast dt) vs) as [vs'|]; cbn [res_bind] in H; [|done].
  destruct (res_bind _ (fit_mask _)) as [ms'|]; cbn [res_bind] in H; [|done].
  destruct (alloc (Obj CNdarray (VArr dt shape vs')) m) as [m1 ld] eqn:E1.
  destruct (alloc (Obj CNdarray (VArr DBool shape ms')) m1) as [m2 lm] eqn:E2. injection H as <-.
  pose proof (alloc_ok (Obj CNdarray (VArr dt shape vs')) m Hm ltac:(by intros [=]) (Forall_nil_2 _)) as A1. rewrite E1 in A1. destruct A1 as [A1 B1].
  pose proof (alloc_ok (Obj CNdarray (VArr DBool shape ms')) m1 A1 ltac:(by intros [=]) (Forall_nil_2 _)) as A2. rewrite E2 in A2. destruct A2 as [A2 B2].
  apply alloc_ok; [done|by intros [=]|]. by repeat (apply Forall_cons_2; [done|]).
Qed.
Lemma load_dataset_ok E fuel f a fn at_ d orig pt m r : load_dataset E fuel f a fn at_ d orig pt m = Ok r -> okm m -> okr r.
Proof.
  intros H Hm. destruct fn; try exact (load_fn_ok _ _ _ _ _ _ _ _ _ H Hm). cbn [load_dataset] in H.
  destruct (mask_data f a) as [mk|]; cbn [res_bind] in H; [|done]. by eapply load_masked_ok.
Qed.
Lemma put_ok a l m s (memoise : bool) : okm m -> new l -> oks s -> oks (if memoise then memo_put a l (set_mem m s) else set_mem m s).
Proof.
  intros Hm Hl [_ B]. destruct memoise; (split; [done|]); simpl; [|done].
  intros a' l' Hl'. destruct (decide (a' = a)) as [->|Hne].
  - rewrite lookup_insert in Hl'. by injection Hl' as <-.
  - rewrite lookup_insert_ne in Hl' by done. by eapply B.
Qed.
Lemma redirect_members_ok E fuel LD f ms : forall pt cs s s' cs' pt',
  redirect_members E fuel LD f ms pt cs s = Ok (s', cs', pt') -> oks s -> cs_new cs -> oks s' /\ cs_new cs'.
Proof.
  induction ms as [|[nm a] ms IH]; intros pt cs s s' cs' pt'; cbn [redirect_members]; [by intros [= <- <- _]|].
  destruct (get_node f a) as [n|]; [|done]. destruct (Proxy.redirect _ _ _) as [[p|]|]; cbn [res_bind]; [| |done]; [|by apply IH].
  assert (forall d, res_bind (if bool_decide (nm = str "data") then matrix_class E (nd_attrs n) else Ok pt) (fun pt' =>
       res_bind (load_redirected E fuel LD f a n d (Proxy.px_own p ∪ Proxy.px_node p) s) (fun '(s1, l) =>
         res_bind (cont_append E fuel KSparse nm l (Proxy.px_own p ∪ Proxy.px_node p) cs (l_mem s1)) (fun '(m, cs') =>
           redirect_members E fuel LD f ms pt' cs' (set_mem m s1)))) = Ok (s', cs', pt') -> oks s -> cs_new cs -> oks s' /\ cs_new cs') as X.
  { intros d H Hs Hc. destruct (if bool_decide (nm = str "data") then _ else _) as [c1|]; cbn [res_bind] in H; [|done].
    destruct (load_redirected _ _ _ _ _ _ _ _ _) as [[s1 l]|] eqn:El; cbn [res_bind] in H; [|done].
    assert (oks s1 /\ new l) as [Hs1 Hl].
    { unfold load_redirected in El. destruct (l_memo s !! a) as [l0|] eqn:Em; [injection El as <- <-; split; [done|]; by eapply Hs|].
      destruct (resolve_type _ _ _ _) as [r|]; cbn [res_bind] in El; [|done].
      destruct (ld_load _ _ _) as [[c memoise]|]; cbn [res_bind] in El; [|done].
      destruct (load_dataset _ _ _ _ _ _ _ _ _ _) as [[m1 l1]|] eqn:Ed; cbn [res_map] in El; [|done].
      injection El as <- <-. apply load_dataset_ok in Ed as [A B]; [|apply Hs]. split; [|done]. by apply put_ok. }
    destruct (cont_append _ _ _ _ _ _ _ _) as [[m cs1]|] eqn:Ec; cbn [res_bind] in H; [|done].
    eapply cont_append_ok in Ec as [Hm2 Hc2]; [|apply Hs1|done|done]. eapply (IH _ _ _ _ _ _ H); [|done]. split; [done|]. apply Hs1. }
  destruct (nd_body n) as [|d]; [done|]. destruct d; try done; apply X.
Qed.

Lemma load_ok E LD f fuel : forall a s s' l, load_ fuel E LD f a s = Ok (s', l) -> oks s -> oks s' /\ new l.
Proof.
  induction fuel as [|fu IH]; intros a s s' l H Hs; [done|]. unfold load_ in H; fold load_ in H.
  destruct (l_memo s !! a) as [l0|] eqn:El; [injection H as <- <-; split; [done|]; by eapply Hs|].
  destruct (get_node f a) as [n|]; [|done]. destruct (resolve_type _ _ _ _) as [r|]; [|done]. cbn [res_bind] in H.
  destruct (ld_load _ _ _) as [[pt memoise]|]; [|done]. cbn [res_bind] in H.
  match type of H with res_map _ ?e = _ => destruct e as [[s1 l1]|] eqn:Ee; [|done] end.
  cbn [res_map] in H. injection H as <- <-.
  assert (oks s1 /\ new l1) as [Hs1 Hl1].
  { destruct (r_cont r).
    - destruct (members _ _ _ _ _) as [ms|]; [|done]. cbn [res_bind] in Ee.
      destruct (redirected _ pt).
      { destruct (ld_legacy LD); [|done].
        destruct (redirect_members _ _ _ _ _ _ _ _) as [[[s2 cs] pt']|] eqn:Em; [|done]. cbn [res_bind] in Ee.
        eapply redirect_members_ok in Em as [[Hm2 Hmm2] Hcs]; [|done|apply cont_init_new].
        destruct (cont_convert _ _ _ _ _ _ _) as [[m3 l3]|] eqn:Ev; [|done]. cbn [res_map] in Ee. injection Ee as <- <-.
        eapply cont_convert_ok in Ev as [Hm3 Hl3]; [|done..]. by split. }
      destruct (load_members _ _ _ _ _ _ _ _) as [[s2 cs]|] eqn:Em; [|done]. cbn [res_bind] in Ee.
      eapply load_members_ok in Em as [[Hm2 Hmm2] Hcs]; [|exact IH|done|apply cont_init_new].
      destruct (cont_convert _ _ _ _ _ _ _) as [[m3 l3]|] eqn:Ev; [|done]. cbn [res_map] in Ee. injection Ee as <- <-.
      eapply cont_convert_ok in Ev as [Hm3 Hl3]; [|done..]. by split.
    - destruct (nd_body n) as [|d]; [done|].
      destruct (load_dataset _ _ _ _ _ _ _ _ _ _) as [[m3 l3]|] eqn:Ev; [|done]. cbn [res_map] in Ee. injection Ee as <- <-.
      eapply load_dataset_ok in Ev as [Hm3 Hl3]; [|apply Hs]. split; [|done]. split; [done|]. apply Hs. }
  split; [|done]. destruct memoise; [|done]. destruct Hs1 as [A B]. split; [done|]. simpl.
  intros a' l' Hl'. destruct (decide (a' = a)) as [->|Hne].
  - rewrite lookup_insert in Hl'. by injection Hl' as <-.
  - rewrite lookup_insert_ne in Hl' by done. by eapply B.
Qed.

Lemma parts_new m x y : okm m -> part_of (m_heap m) x y -> new x -> new y.
Proof.
  intros Hm. induction 1 as [x|x o y z Hx Hy _ IH]; [done|]. intros Hn. apply IH.
  pose proof (okm_parts m x o Hm Hn Hx) as Hp. by eapply list.Forall_forall in Hp; [|exact Hy].
Qed.
End Fresh.

Lemma load_data_fresh C chain legacy f root m m' v :
  mem_ok m -> load_data C chain legacy f root m = Ok (m', v) ->
  m_heap m ⊆ m_heap m' /\ mem_ok m' /\
  (forall y, part_of (m_heap m') v y -> y = nobody \/ m_heap m !! y = None) /\
  forall y, m_heap m' !! y = Some empty_tuple -> m_heap m !! y = Some empty_tuple.
Proof.
  intros Hm H. unfold load_data in H. destruct (child f root n_data) as [a|]; [|done].
  destruct (load_ _ _ _ _ _ _) as [[s l]|] eqn:El; [|done]. cbn [res_map] in H. injection H as <- <-.
  eapply (load_ok m Hm) in El as [[Hs _] Hl]; [|split; [by apply okm_0|]; simpl; intros ? ?; by rewrite lookup_empty].
  pose proof Hs as (A & B & D & F). split; [|split; [split|split]].
  - apply map_subseteq_spec. intros x o Hx. destruct (decide (x < m_next m)); [by rewrite D|].
    rewrite (proj1 Hm) in Hx by lia. done.
  - exact B.
  - by eapply okm_nobody.
  - intros y Hy. eapply parts_new in Hy; [|done..]. destruct Hy as [->|Hy]; [by left|right]. by apply Hm.
  - intros y Hy. destruct (decide (y < m_next m)); [by rewrite <-D|]. exfalso.
    destruct (F y _ ltac:(lia) Hy) as [_ Hne]. done.
Qed.

(** [load] of a file that is not of hickle 3. *)
Lemma load_file_fresh C writable f p m f' m' v leak :
  mem_ok m -> not_v3 f -> load_file C writable f p m = (f', Ok (m', v), leak) ->
  m_heap m ⊆ m_heap m' /\ mem_ok m' /\
  (forall y, part_of (m_heap m') v y -> y = nobody \/ m_heap m !! y = None) /\
  forall y, m_heap m' !! y = Some empty_tuple -> m_heap m !! y = Some empty_tuple.
Proof.
  intros Hm Hv H. unfold load_file in H. destruct (get_path f p) as [root|]; [|done].
  destruct (get_node f root) as [n|]; [|done]. destruct (is_group n); [|done].
  assert (load_root C writable f root m = (f', Ok (m', v), leak)) as H'.
  { destruct (detect _ _) as [[]|] eqn:Ed; try done. exfalso. revert Ed. unfold detect. unfold not_v3 in Hv. rewrite Hv. clear Hv.
    destruct (forallb (attr_set (nd_attrs n)) v4_attrs); [|intros Hx; discriminate Hx]. destruct (_ !! _) as [[]|]; try (by intros [=]).
    destruct (Z_parse _) as [z|]; [|by intros [=]]. simpl. by destruct (z =? 4)%Z; intros [=]. }
  clear H. unfold load_root in H'. destruct (detect _ _) as [[]|]; try done.
  all: destruct (options_of _ _ _); try done; destruct (load_table _ _ _) as [f1 [o|]]; try done; injection H' as <- H' <-;
    by eapply load_data_fresh.
Qed.
