(** * DumpTerm: dumping ends

    The depth of the recursion of [_dump] is bounded by the number of objects. *)
From Verif Require Import Base Utf8 Dec Num PyObj H5 Env Create Dump LoadFns LoadModel Registry Spec.
From Verif Require Import DumpProofs DumpStored RegistryStd.
From Coq Require Import Lia ZifyBool ZifyN.

(** ** No step runs out of fuel by itself *)
Definition fine {A : Type} (r : res A) : Prop := r <> Err OutOfFuel.
Lemma fine_bind {A B : Type} (r : res A) (f : A -> res B) :
  fine r -> (forall a, r = Ok a -> fine (f a)) -> fine (res_bind r f).
Proof. destruct r; simpl; intros H Hf; [by apply Hf|]. intros [= ->]. by apply H. Qed.
Lemma fine_map {A B : Type} (r : res A) (f : A -> B) : fine r -> fine (res_map f r).
Proof. destruct r; simpl; intros H; [done|]. intros [= ->]. by apply H. Qed.
Lemma fine_ok {A : Type} (a : A) : fine (Ok a).
Proof. done. Qed.

Lemma utf8_encode_fine s : fine (utf8_encode s).
Proof.
  induction s as [|c s IH]; simpl; [done|]. destruct (utf8_char c); [|done]. by apply fine_map.
Qed.
Lemma ascii_encode_fine s : fine (ascii_encode s).
Proof. unfold ascii_encode. by case_match. Qed.
Lemma name_ok_fine nm : fine (name_ok nm).
Proof. unfold name_ok. destruct nm; [done|]. destruct (_ || _); [done|]. apply fine_map, utf8_encode_fine. Qed.
Lemma create_node_fine f p nm b : fine (create_node f p nm b).
Proof.
  unfold create_node. destruct (get_node f p); [|done]. destruct (is_group _); [|done].
  apply fine_bind; [apply name_ok_fine|]. intros _ _. by case_match.
Qed.
Lemma create_dataset_fine f p nm kw d : fine (create_dataset f p nm kw d).
Proof. unfold create_dataset. destruct (_ && _); [done|apply create_node_fine]. Qed.
Lemma cast_fine d n : fine (cast d n).
Proof.
  assert (fine (float_of_num n)). { unfold float_of_num. repeat (case_match; try done). }
  unfold cast. destruct d; try done; try (destruct (Z_of_num n); [|done]; by case_match).
  - by apply fine_map.
  - destruct n; try done; by apply fine_map.
Qed.
Lemma write_items_fine h d items : snd (write_items h d items) <> Some OutOfFuel.
Proof.
  induction items as [|l items IH]; simpl; [done|].
  destruct (h !! l) as [[c v]|]; [|done]. destruct v; try done.
  pose proof (cast_fine d n) as Hc. destruct (cast d n) as [m|e]; simpl; [by destruct (write_items h d items)|].
  intros [= ->]. by apply Hc.
Qed.

Section Create.
Context (E : env).

Lemma has_dims_fine h l o : fine (has_dims E h l o).
Proof. unfold has_dims. repeat (case_match; try done). Qed.
Lemma check_rest_fine h items : forall d, fine (check_rest E h d items).
Proof.
  induction items as [|l items IH]; intros d; simpl; [done|].
  destruct (h !! l) as [o|]; [|done]. apply fine_bind; [apply has_dims_fine|]. intros [] _; [done|].
  destruct (result_type _ _); try done. destruct (oval o); try done; by case_match.
Qed.
Lemma check_item_fine h x items : fine (check_iterable_item_type E h x items).
Proof.
  unfold check_iterable_item_type. destruct (h !! x) as [o|]; [|done].
  destruct (_ || _); [done|]. apply fine_bind; [apply has_dims_fine|]. intros [] _; [done|].
  destruct (np_dtype_of_cls _); try done; apply check_rest_fine.
Qed.

Definition plan_fine (r : res plan) : Prop :=
  fine r /\ forall pl, r = Ok pl -> p_fail pl <> Some OutOfFuel.
Lemma plan_fine_ok pl : p_fail pl = None -> plan_fine (Ok pl).
Proof. intros H. split; [done|]. intros ? [= <-]. by rewrite H. Qed.
Lemma plan_fine_err e : e <> OutOfFuel -> plan_fine (Err e).
Proof. intros H. split; [congruence|done]. Qed.
Lemma plan_fine_map r f : plan_fine r -> (forall p, p_fail (f p) = p_fail p) -> plan_fine (res_map f r).
Proof.
  intros [H1 H2] Hf. split; [by apply fine_map|]. destruct r; simpl; [|done].
  intros pl [= <-]. rewrite Hf. by apply H2.
Qed.
Lemma list_items_fine h items : plan_fine (create_list_items E h items).
Proof.
  destruct items as [|x items]; [by apply plan_fine_ok|].
  unfold create_list_items. pose proof (check_item_fine h x items) as Hc.
  destruct (check_iterable_item_type E h x items) as [[[]|]|e]; cbn [res_bind]; try by apply plan_fine_err.
  - pose proof (write_items_fine h d (x :: items)) as Hw.
    destruct (write_items h d (x :: items)) as [vs e]. split; [done|]. by intros ? [= <-].
  - by apply plan_fine_ok.
  - apply plan_fine_err. intros ->. by apply Hc.
Qed.
Lemma text_fine o : plan_fine (create_text o).
Proof.
  destruct o as [c v]. unfold create_text. simpl. destruct v; try by apply plan_fine_err.
  - pose proof (utf8_encode_fine s) as Hu. destruct (utf8_encode s) as [b|e]; simpl.
    + split; [done|]. intros ? [= <-]. pose proof (ascii_encode_fine (cls_name c)) as Ha.
      destruct (ascii_encode (cls_name c)); simpl; [done|]. intros [= ->]. by apply Ha.
    + apply plan_fine_err. intros ->. by apply Hu.
  - split; [done|]. intros ? [= <-]. pose proof (ascii_encode_fine (cls_name c)) as Ha.
    destruct (ascii_encode (cls_name c)); simpl; [done|]. intros [= ->]. by apply Ha.
Qed.
Lemma listlike_fine h o : plan_fine (create_listlike E h o).
Proof.
  unfold create_listlike. destruct (_ || _); [apply text_fine|].
  destruct (oval o); try (by apply plan_fine_err). apply list_items_fine.
Qed.
Lemma key_name_fine o : fine (key_name E o).
Proof. unfold key_name, scalar_repr. repeat (case_match; simpl; try done). Qed.
Lemma dict_subs_fine h kvs : forall nx idx, fine (dict_subs E h nx idx kvs).
Proof.
  induction kvs as [|[k v] kvs IH]; intros nx idx; simpl; [done|].
  destruct (h !! k) as [ko|]; [|done]. apply fine_bind; [apply key_name_fine|]. intros [nm|] _.
  - apply fine_bind; [apply utf8_encode_fine|]. intros kb _. by apply fine_map.
  - by apply fine_map.
Qed.
Lemma pickled_fine o : plan_fine (create_pickled E o).
Proof.
  unfold create_pickled. destruct (oval o); try (by apply plan_fine_err).
  destruct (e_pickles _ _ _); [by apply plan_fine_ok|by apply plan_fine_err].
Qed.

Lemma create_fine fn h nx o : plan_fine (create E fn h nx o).
Proof.
  destruct fn; cbn [create]; try (by apply plan_fine_err).
  - unfold create_scalar. destruct (oval o); try (by apply plan_fine_err).
    destruct n; [|destruct (_ && _)|..]; by apply plan_fine_ok.
  - by apply plan_fine_ok.
  - apply listlike_fine.
  - unfold create_setlike. destruct (oval o); try (by apply plan_fine_err). apply list_items_fine.
  - unfold create_dictlike. destruct (oval o); try (by apply plan_fine_err).
    pose proof (dict_subs_fine h kvs nx 0) as Hd.
    destruct (dict_subs E h nx 0 kvs) as [[ts ss]|e]; simpl; [by apply plan_fine_ok|].
    apply plan_fine_err. intros ->. by apply Hd.
  - apply pickled_fine.
  - unfold create_np_scalar. destruct (oval o); try (by apply plan_fine_err).
    destruct (np_dtype_of_cls _); try (by apply plan_fine_err). by apply plan_fine_ok.
  - unfold create_np_dtype. destruct (oval o); try (by apply plan_fine_err). by apply plan_fine_ok.
  - unfold create_np_array. destruct (oval o); try (by apply plan_fine_err).
    + destruct shape; [destruct vs as [|? []]|]; try (by apply plan_fine_err); by apply plan_fine_ok.
    + destruct shape.
      * destruct vs as [|s0 []]; try (by apply plan_fine_err).
        pose proof (utf8_encode_fine s0) as Hu. destruct (utf8_encode s0); simpl; [by apply plan_fine_ok|].
        apply plan_fine_err. intros ->. by apply Hu.
      * destruct (tolist _ _ _) as [ts els]. apply plan_fine_map; [apply list_items_fine|done].
    + destruct shape.
      * destruct vs as [|l0 []]; try (by apply plan_fine_err). destruct (h !! l0); [|by apply plan_fine_err].
        destruct (isinst _ _); [|by apply plan_fine_ok]. apply plan_fine_map; [apply listlike_fine|done].
      * destruct (tolist _ _ _) as [ts els]. apply plan_fine_map; [apply list_items_fine|done].
  - unfold create_np_masked. destruct (oval o); try (by apply plan_fine_err).
    destruct (h !! data); [|by apply plan_fine_err]. destruct (arr_dtype_str _); [by apply plan_fine_ok|by apply plan_fine_err].
  - unfold create_sparse. destruct (oval o); try (by apply plan_fine_err). by apply plan_fine_ok.
Qed.
End Create.

Lemma run_plan_fine kw p nm pl s : p_fail pl <> Some OutOfFuel -> fine (snd (run_plan kw p nm pl s)).
Proof.
  intros Hf. unfold run_plan.
  set (r := match p_data pl with Some d => _ | None => _ end).
  assert (fine r) as Hr. { unfold r. case_match; [apply create_dataset_fine|apply create_node_fine]. }
  destruct r as [[f a]|e]; [|simpl; intros [= ->]; by apply Hr].
  destruct (p_fail pl); simpl; [|done]. intros [= ->]. by apply Hf.
Qed.
Lemma base_entry_fine tbl kw base s : fine (snd (base_entry tbl kw base s)).
Proof.
  unfold base_entry. destruct (alist_get _ _); [done|].
  pose proof (ascii_encode_fine base) as Ha. destruct (ascii_encode base) as [nm|e]; [|simpl; intros [= ->]; by apply Ha].
  pose proof (create_dataset_fine (d_file s) tbl nm (no_compression kw) (DNull KS1)) as Hc.
  destruct (create_dataset _ _ _ _ _) as [[f b]|e]; simpl; [done|]. intros [= ->]. by apply Hc.
Qed.
Lemma store_type_fine E tbl kw a pt base s : fine (snd (store_type E tbl kw a pt base s)).
Proof.
  unfold store_type. case_bool_decide; [done|]. destruct (alist_get _ _); [done|].
  case_bool_decide; [done|]. destruct (e_pickles_cls E pt); [|done]. cbn [negb].
  pose proof (create_dataset_fine (d_file s) tbl (N_dec (table_size (d_file s) tbl)) kw (DPickleCls pt)) as Hc.
  destruct (create_dataset _ _ _ _ _) as [[f e]|e]; [|simpl; intros [= ->]; by apply Hc].
  pose proof (base_entry_fine tbl kw base (set_file f s)) as Hb.
  destruct (base_entry _ _ _ _) as [s1 [b|x]]; simpl in *; [done|]. intros [= ->]. by apply Hb.
Qed.
Lemma dump_node_fine E L kw tbl o p nm at_ s :
  (forall c, fine (L c)) -> fine (snd (dump_node E L kw tbl o p nm at_ s)).
Proof.
  intros HL. unfold dump_node. pose proof (HL (ocls o)) as Hl.
  destruct (L (ocls o)) as [[pt [[fn base] memo]]|e]; [|simpl; intros [= ->]; by apply Hl].
  destruct (create_fine E fn (d_heap s) (d_next s) o) as [C1 C2].
  destruct (create E fn (d_heap s) (d_next s) o) as [pl|e].
  - pose proof (run_plan_fine kw p nm pl s (C2 _ eq_refl)) as Hr.
    destruct (run_plan kw p nm pl s) as [s1 [a|e]]; [|simpl in *; intros [= ->]; by apply Hr].
    pose proof (store_type_fine E tbl kw a pt base s1) as Ht.
    destruct (store_type E tbl kw a pt base s1) as [s2 [|e]]; [done|simpl in *; intros [= ->]; by apply Ht].
  - destruct (pickled_fine E o) as [P1 P2].
    destruct e; try done.
    destruct (create_pickled E o) as [pl|e]; [|simpl; intros [= ->]; by apply P1].
    pose proof (run_plan_fine kw p nm pl s (P2 _ eq_refl)) as Hr.
    destruct (run_plan kw p nm pl s) as [s1 [a|e]]; [done|simpl in *; intros [= ->]; by apply Hr].
Qed.
Lemma dump_ref_fine p nm at_ t s : fine (snd (dump_ref p nm at_ t s)).
Proof.
  unfold dump_ref. pose proof (create_dataset_fine (d_file s) p nm [] (DRefTo t)) as Hc.
  destruct (create_dataset _ _ _ _ _) as [[f a]|e]; [done|simpl; intros [= ->]; by apply Hc].
Qed.

(** The search for a loader. *)
Lemma register_class_fine g e : fine (snd (register_class g e)).
Proof. unfold register_class. repeat (case_match; try done). Qed.
Lemma register_all_fine es : forall g, fine (snd (register_all g es)).
Proof.
  induction es as [|e es IH]; intros g; [done|]. simpl. pose proof (register_class_fine g e) as H.
  destruct (register_class g e) as [g' []]; simpl in *; [apply IH|]. intros [= ->]. by apply H.
Qed.
Lemma exclude_all_fine es : forall g, fine (snd (exclude_all g es)).
Proof.
  induction es as [|[b o] es IH]; intros g; [done|]. simpl.
  assert (fine (snd (register_class_exclude g b o))) as H. { unfold register_class_exclude. repeat (case_match; try done). }
  destruct (register_class_exclude g b o) as [g' []]; simpl in *; [apply IH|]. intros [= ->]. by apply H.
Qed.
Lemma load_module_fine g nm m : fine (snd (load_module g nm m)).
Proof.
  unfold load_module. pose proof (register_all_fine (lm_register m) g) as H1.
  destruct (register_all g (lm_register m)) as [g1 []]; simpl in *; [|intros [= ->]; by apply H1].
  pose proof (exclude_all_fine (lm_exclude m) g1) as H2.
  destruct (exclude_all g1 (lm_exclude m)) as [g2 []]; simpl in *; [done|]. intros [= ->]. by apply H2.
Qed.
Lemma step_fine W opts g base c : snd (load_loader_step W opts g base c) <> Fail OutOfFuel.
Proof.
  assert (forall g nm, snd (try_module W opts g c nm) <> Fail OutOfFuel) as Ht.
  { intros g0 nm. unfold try_module. destruct (alist_get _ _) as [m|]; [|done].
    pose proof (load_module_fine g0 nm m) as H.
    destruct (load_module g0 nm m) as [g' []]; simpl in *; [by case_match|]. intros [= ->]. by apply H. }
  unfold load_loader_step. destruct (chain_get _ _ _); [done|].
  case_bool_decide; [|repeat (case_match; try done; try apply Ht)].
  case_bool_decide; [done|]. case_match; [repeat (case_match; try done)|].
  case_match; [done|]. case_match; [done|]. apply Ht.
Qed.
Lemma dump_loader_fine W opts c : fine (dump_loader_of W opts c).
Proof.
  unfold dump_loader_of. generalize (full_registry W). intros g. unfold load_loader.
  assert (forall cs g, fine (snd (load_loader_mro W opts g None cs))) as H.
  { induction cs as [|k cs IH]; intros g0; [done|]. simpl. pose proof (step_fine W opts g0 None k) as Hs.
    destruct (load_loader_step W opts g0 None k) as [g' []]; simpl in *; [done|apply IH|].
    intros [= ->]. by apply Hs. }
  specialize (H (mro c) g). destruct (load_loader_mro W opts g None (mro c)) as [g' r]. simpl in *.
  by apply fine_map.
Qed.

(** ** The measure *)

(** [x] is one of the objects of [U], or made by hickle itself: a str, or a list or tuple
    nested to depth [k] around such objects. *)
Fixpoint deep (U : gset N) (h : heap) (k : nat) (x : loc) : Prop :=
  x ∈ U \/ (exists c s, h !! x = Some (Obj c (VStr s))) \/
  match k with
  | O => False
  | S k' => exists c xs, h !! x = Some (Obj c (VSeq xs)) /\ Forall (deep U h k') xs
  end.

Lemma deep_in U h k x : x ∈ U -> deep U h k x.
Proof. destruct k; simpl; auto. Qed.
Lemma deep_heap U h h' : h ⊆ h' -> forall k x, deep U h k x -> deep U h' k x.
Proof.
  intros Hh. induction k as [|k IH]; intros x; simpl.
  - intros [?|[(c & s & H)|[]]]; [by left|right; left]. exists c, s. by eapply lookup_weaken.
  - intros [?|[(c & s & H)|(c & xs & H & Hf)]]; [by left|right; left; exists c, s; by eapply lookup_weaken|].
    right. right. exists c, xs. split; [by eapply lookup_weaken|]. eapply list.Forall_impl; [exact Hf|]. apply IH.
Qed.
Lemma deep_S U h : forall k x, deep U h k x -> deep U h (S k) x.
Proof.
  induction k as [|k IH]; intros x.
  - intros [?|[?|[]]]; [by left|by right; left].
  - intros [?|[?|(c & xs & H & Hf)]]; [by left|by right; left|].
    right. right. exists c, xs. split; [done|]. eapply list.Forall_impl; [exact Hf|]. apply IH.
Qed.
Lemma deep_le U h k k' x : (k <= k')%nat -> deep U h k x -> deep U h k' x.
Proof. induction 1; [done|]. intros Hd. by apply deep_S, IHle. Qed.

(** Dimensions of the arrays hickle turns into nested lists. *)
Definition dims (o : obj) : nat :=
  match oval o with VStrArr _ shape _ | VObjArr shape _ => length shape | _ => 0%nat end.

(** Arrays as nested lists. *)
Definition has_temps (h : heap) (nx : loc) (ts : list obj) : Prop :=
  forall i t, ts !! i = Some t -> h !! (nx + N.of_nat i) = Some t.
Lemma has_temps_app h nx ts ts' :
  has_temps h nx (ts ++ ts') <-> has_temps h nx ts /\ has_temps h (nx + N.of_nat (length ts)) ts'.
Proof.
  split.
  - intros H. split.
    + intros i t Hi. apply H. by apply lookup_app_l_Some.
    + intros i t Hi. replace (nx + N.of_nat (length ts) + N.of_nat i) with (nx + N.of_nat (length ts + i)) by lia.
      apply H. rewrite lookup_app_r by lia. by replace (length ts + i - length ts)%nat with i by lia.
  - intros [H1 H2] i t Hi. apply lookup_app_Some in Hi as [Hi|[Hle Hi]]; [by apply H1|].
    specialize (H2 _ _ Hi). by replace (nx + N.of_nat (length ts) + N.of_nat (i - length ts)) with (nx + N.of_nat i) in H2 by lia.
Qed.

Lemma chunks_sub {A} n sz : forall (l : list A) c x, c ∈ chunks n sz l -> x ∈ c -> x ∈ l.
Proof.
  induction n as [|n IH]; intros l c x; simpl; [by intros ?%elem_of_nil|].
  intros [-> |Hc]%elem_of_cons Hx.
  - rewrite <- (take_drop sz l). apply elem_of_app. by left.
  - rewrite <- (take_drop sz l). apply elem_of_app. right. by eapply IH.
Qed.

Lemma tolist_deep U h shape : forall leaves nx ts els,
  tolist shape leaves nx = (ts, els) -> has_temps h nx ts -> Forall (deep U h 0) leaves ->
  Forall (deep U h (length shape)) els.
Proof.
  induction shape as [|n rest IH]; intros leaves nx ts els; simpl.
  { intros [= <- <-] _ _. constructor. }
  destruct rest as [|n' rest].
  { intros [= <- <-] _ H. eapply list.Forall_impl; [exact H|]. intros x Hx. by apply deep_S. }
  intros Ht Hh Hl.
  assert (forall c, c ∈ chunks (N.to_nat n) (N.to_nat (prodN (n' :: rest))) leaves -> Forall (deep U h 0) c) as Hc.
  { intros c Hc. apply list.Forall_forall. intros x Hx. rewrite list.Forall_forall in Hl. apply Hl. by eapply chunks_sub. }
  revert Ht Hc. generalize (chunks (N.to_nat n) (N.to_nat (prodN (n' :: rest))) leaves). intros cs.
  revert nx ts els Hh. induction cs as [|c cs IHcs]; intros nx ts els Hh.
  { intros [= <- <-] _. constructor. }
  destruct (tolist (n' :: rest) c nx) as [ts1 els1] eqn:E1.
  destruct ((fix go (cs : list (list loc)) (nx : loc) : list obj * list loc :=
         match cs with
         | [] => ([], [])
         | c :: cs' =>
             let '(ts, els) := tolist (n' :: rest) c nx in
             let me := nx + N.of_nat (length ts) in
             let '(ts', ls) := go cs' (me + 1) in
             (ts ++ Obj CList (VSeq els) :: ts', me :: ls)
         end) cs (nx + N.of_nat (length ts1) + 1)) as [ts2 els2] eqn:E2.
  intros [= <- <-] Hc. apply has_temps_app in Hh as [Hh1 Hh2].
  change (Obj CList (VSeq els1) :: ts2) with ([Obj CList (VSeq els1)] ++ ts2) in Hh2.
  apply has_temps_app in Hh2 as [Hh2 Hh3].
  apply Forall_cons.
  - right. right. exists CList, els1. split.
    + specialize (Hh2 0%nat _ eq_refl). by rewrite N.add_0_r in Hh2.
    + eapply IH; [exact E1|done|]. apply Hc. by left.
  - apply (IHcs (nx + N.of_nat (length ts1) + 1) ts2 els2); [|exact E2|].
    + exact Hh3.
    + intros c' Hc'. apply Hc. by right.
Qed.

Definition sub_loc (sb : sub) : loc := snd (fst sb).

Lemma list_items_subs E h items pl :
  create_list_items E h items = Ok pl -> p_temps pl = [] /\ forall sb, sb ∈ p_subs pl -> sub_loc sb ∈ items.
Proof.
  destruct items as [|x items]; [intros [= <-]; by split; [|intros ? ?%elem_of_nil]|].
  unfold create_list_items. destruct (check_iterable_item_type E h x items) as [[[]|]|]; cbn [res_bind]; try done.
  - destruct (write_items _ _ _). intros [= <-]. by split; [|intros ? ?%elem_of_nil].
  - intros [= <-]. split; [done|]. cbn [plan_group p_subs]. intros sb.
    generalize (x :: items). clear. intros l. unfold list_subs, enumerate. generalize 0.
    induction l as [|y l IH]; intros i; simpl; [by intros ?%elem_of_nil|].
    intros [-> |H]%elem_of_cons; [by left|]. right. by eapply IH.
Qed.
Lemma text_subs o pl : create_text o = Ok pl -> p_temps pl = [] /\ p_subs pl = [].
Proof.
  unfold create_text. destruct (match oval o with VStr s => _ | _ => _ end); simpl; [|done].
  intros [= <-]. by destruct (ascii_encode _).
Qed.
Lemma listlike_subs E h o pl :
  create_listlike E h o = Ok pl -> p_temps pl = [] /\ forall sb, sb ∈ p_subs pl -> sub_loc sb ∈ refs o.
Proof.
  unfold create_listlike. destruct (_ || _).
  { intros H. apply text_subs in H as [H1 H2]. split; [done|]. rewrite H2. by intros ? ?%elem_of_nil. }
  destruct o as [c []]; simpl; try done. apply list_items_subs.
Qed.
Lemma dict_subs_deep E h0 U h kvs : forall nx idx ts ss,
  dict_subs E h0 nx idx kvs = Ok (ts, ss) -> has_temps h nx ts ->
  Forall (fun p => fst p ∈ U /\ snd p ∈ U) kvs -> Forall (fun sb => deep U h 1 (sub_loc sb)) ss.
Proof.
  induction kvs as [|[k v] kvs IH]; intros nx idx ts ss; simpl.
  { intros [= <- <-] _ _. constructor. }
  destruct (h0 !! k) as [ko|]; [|done]. destruct (key_name E ko) as [[nm|]|]; simpl; [..|done].
  - destruct (utf8_encode _) as [kb|]; simpl; [|done].
    destruct (dict_subs E h0 nx (idx + 1) kvs) as [[ts1 ss1]|] eqn:Ed; simpl; [|done].
    intros [= <- <-] Hh Hf. inversion Hf as [|?? [Hk Hv] Hf']; subst. apply Forall_cons; [by left|by eapply IH].
  - destruct (dict_subs E h0 (nx + 1) (idx + 1) kvs) as [[ts1 ss1]|] eqn:Ed; simpl; [|done].
    intros [= <- <-] Hh Hf. inversion Hf as [|?? [Hk Hv] Hf']; subst.
    change (Obj CTuple (VSeq [k; v]) :: ts1) with ([Obj CTuple (VSeq [k; v])] ++ ts1) in Hh.
    apply has_temps_app in Hh as [Hh1 Hh2]. apply Forall_cons; [|eapply IH; [exact Ed|exact Hh2|done]].
    right. right. exists CTuple, [k; v]. split.
    + specialize (Hh1 0%nat _ eq_refl). by rewrite N.add_0_r in Hh1.
    + apply Forall_cons; [by left|]. apply Forall_cons; [by left|constructor].
Qed.

Lemma enumerate_seq {A} (l : list A) nx x :
  x ∈ map (fun '(i, _) => nx + i) (enumerate l) -> exists j a, l !! j = Some a /\ x = nx + N.of_nat j.
Proof.
  unfold enumerate.
  assert (forall i, x ∈ map (fun '(i, _) => nx + i)
    ((fix go i l := match l with [] => [] | x :: r => (i, x) :: go (i + 1) r end) i l) ->
    exists j a, l !! j = Some a /\ x = nx + i + N.of_nat j) as H.
  { induction l as [|a l IH]; intros i; simpl; [by intros ?%elem_of_nil|].
    intros [-> |H]%elem_of_cons; [exists 0%nat, a; split; [done|lia]|].
    destruct (IH _ H) as (j & b & H1 & H2). exists (S j), b. split; [done|lia]. }
  intros H0. destruct (H 0 H0) as (j & a & H1 & H2). exists j, a. split; [done|lia].
Qed.

(** The sub items of an object of [U]. *)
Lemma create_deep E fn h0 U h nx o pl :
  create E fn h0 nx o = Ok pl -> has_temps h nx (p_temps pl) ->
  (forall y, y ∈ refs o -> y ∈ U) ->
  (forall y io z, y ∈ refs o -> h0 !! y = Some io -> z ∈ refs io -> z ∈ U) ->
  Forall (fun sb => deep U h (S (dims o)) (sub_loc sb)) (p_subs pl).
Proof.
  intros Hc Hh Hr Hr2.
  assert ((forall sb, sb ∈ p_subs pl -> sub_loc sb ∈ refs o) ->
    Forall (fun sb => deep U h (S (dims o)) (sub_loc sb)) (p_subs pl)) as Hsub.
  { intros H. apply list.Forall_forall. intros sb Hsb. apply deep_in, Hr, H, Hsb. }
  assert (p_subs pl = [] -> Forall (fun sb => deep U h (S (dims o)) (sub_loc sb)) (p_subs pl)) as Hnil.
  { intros ->. constructor. }
  destruct fn; cbn [create] in Hc; try done.
  - apply Hnil. revert Hc. unfold create_scalar. destruct (oval o); try done.
    destruct n; [|destruct (_ && _)|..]; by intros [= <-].
  - apply Hnil. by injection Hc as <-.
  - apply Hsub. by eapply listlike_subs.
  - apply Hsub. unfold create_setlike in Hc. destruct o as [c []]; simpl in *; try done. by eapply list_items_subs.
  - unfold create_dictlike in Hc. destruct o as [c []]; simpl in *; try done.
    destruct (dict_subs E h0 nx 0 kvs) as [[ts ss]|] eqn:Ed; simpl in Hc; [|done]. injection Hc as <-.
    eapply dict_subs_deep; [exact Ed|exact Hh|]. apply list.Forall_forall. intros [k v] Hkv.
    split; apply Hr; unfold refs; simpl; apply elem_of_app.
    + left. apply elem_of_list_fmap. by exists (k, v).
    + right. apply elem_of_list_fmap. by exists (k, v).
  - apply Hnil. revert Hc. unfold create_pickled. destruct (oval o); try done. case_match; by intros [= <-].
  - apply Hnil. revert Hc. unfold create_np_scalar. destruct (oval o); try done. case_match; by intros [= <-].
  - apply Hnil. revert Hc. unfold create_np_dtype. destruct (oval o); try done. by intros [= <-].
  - unfold create_np_array in Hc. destruct o as [c []]; simpl in Hc; try done.
    + apply Hnil. destruct shape; [destruct vs as [|? []]|]; try done; by injection Hc as <-.
    + destruct shape as [|d shape].
      * apply Hnil. destruct vs as [|s0 []]; try done. destruct (utf8_encode s0); simpl in Hc; [|done]. by injection Hc as <-.
      * destruct (tolist _ _ _) as [ts els] eqn:Et.
        destruct (create_list_items _ _ _) as [pl0|] eqn:Ec; simpl in Hc; [|done]. injection Hc as <-.
        destruct (list_items_subs _ _ _ _ Ec) as [T0 S0]. simpl in Hh. rewrite T0, app_nil_r in Hh.
        apply has_temps_app in Hh as [Hh1 Hh2]. rewrite map_length in Hh2.
        assert (Forall (deep U h (length (d :: shape))) els) as Hd.
        { eapply tolist_deep; [exact Et|exact Hh2|]. apply list.Forall_forall. intros x Hx.
          apply enumerate_seq in Hx as (j & a & Hj & ->). right. left. exists CStr, a. apply Hh1.
          by rewrite list_lookup_fmap, Hj. }
        apply list.Forall_forall. intros sb Hsb. rewrite list.Forall_forall in Hd.
        apply deep_S. apply Hd. by apply S0.
    + destruct shape as [|d shape].
      * destruct vs as [|l0 []]; try done. destruct (h0 !! l0) as [io|] eqn:Eo; [|done].
        destruct (isinst _ _).
        -- destruct (create_listlike E h0 io) as [pl0|] eqn:Ec; simpl in Hc; [|done]. injection Hc as <-.
           apply list.Forall_forall. intros sb Hsb. apply deep_in. eapply Hr2; [|exact Eo|].
           ++ simpl. by left.
           ++ by eapply listlike_subs.
        -- injection Hc as <-. apply Forall_cons; [|constructor]. apply deep_in, Hr. simpl. by left.
      * destruct (tolist _ _ _) as [ts els] eqn:Et.
        destruct (create_list_items _ _ _) as [pl0|] eqn:Ec; simpl in Hc; [|done]. injection Hc as <-.
        destruct (list_items_subs _ _ _ _ Ec) as [T0 S0]. simpl in Hh. rewrite T0, app_nil_r in Hh.
        assert (Forall (deep U h (length (d :: shape))) els) as Hd.
        { eapply tolist_deep; [exact Et|exact Hh|]. apply list.Forall_forall. intros x Hx. apply deep_in, Hr, Hx. }
        apply list.Forall_forall. intros sb Hsb. rewrite list.Forall_forall in Hd.
        apply deep_S. apply Hd. by apply S0.
  - unfold create_np_masked in Hc. destruct o as [c []]; simpl in *; try done.
    destruct (h0 !! data); [|done]. destruct (arr_dtype_str _); [|done]. injection Hc as <-. apply Hsub.
    simpl. intros sb. rewrite !elem_of_cons. intros [-> |[-> |?]]; [by left|right; by left|by apply elem_of_nil in H].
  - unfold create_sparse in Hc. destruct o as [c []]; simpl in *; try done. injection Hc as <-. apply Hsub.
    simpl. intros sb. rewrite !elem_of_cons, elem_of_nil. intros [-> |[-> |[-> |[-> |[]]]]];
      unfold refs, sub_loc; cbn [oval fst snd]; rewrite !elem_of_cons; tauto.
Qed.

(** The sub items of an object hickle made. *)
Lemma create_temp E fn h0 nx o pl :
  create E fn h0 nx o = Ok pl ->
  ((exists s, oval o = VStr s) -> p_subs pl = []) /\
  (forall xs, oval o = VSeq xs -> forall sb, sb ∈ p_subs pl -> sub_loc sb ∈ xs).
Proof.
  intros Hc. destruct o as [c v].
  assert (create_listlike E h0 (Obj c v) = Ok pl -> ((exists s, v = VStr s) -> p_subs pl = []) /\
    (forall xs, v = VSeq xs -> forall sb, sb ∈ p_subs pl -> sub_loc sb ∈ xs)) as Hl.
  { intros H. split.
    - intros [s ->]. unfold create_listlike in H. destruct (_ || _); [|done]. by apply text_subs in H as [_ ?].
    - intros xs -> sb. apply (proj2 (listlike_subs _ _ _ _ H)). }
  destruct fn; cbn [create] in Hc; try done; try exact (Hl Hc);
    unfold create_scalar, create_setlike, create_dictlike, create_pickled, create_np_scalar, create_np_dtype,
      create_np_array, create_np_masked, create_sparse in Hc; simpl in *;
    (split; [intros [s ->]|intros xs ->]); try done.
  - by injection Hc as <-.
  - injection Hc as <-. intros ? ?%elem_of_nil. done.
  - intros sb. by apply (proj2 (list_items_subs _ _ _ _ Hc)).
Qed.

(** ** The bound *)
Section Bound.
Context (E : env) (L : dump_loader) (kw : kwargs) (tbl : addr).
Context (HL : loader_ok E L) (Hfine : forall c, fine (L c)).
Context (U : gset N) (h0 : heap) (K : nat).
Context (HU : forall x, x ∈ U -> exists o, h0 !! x = Some o /\ (dims o <= K)%nat /\ forall y, y ∈ refs o -> y ∈ U).

Definition todo (s : dst) : nat := size (U ∖ dom (d_memo s)).
Definition budget (s : dst) (k : nat) : nat := (k + (K + 2) * todo s)%nat.

Lemma todo_mono s s' : d_memo s ⊆ d_memo s' -> (todo s' <= todo s)%nat.
Proof.
  intros H. unfold todo. apply subseteq_size. apply subseteq_dom in H. set_solver.
Qed.

Lemma dump_subs_fine (rec : loc -> pystr -> list (pystr * attrv) -> dst -> dst * res unit) a k f subs : forall s,
  (forall y nm at_ s, wfs L tbl s -> h0 ⊆ d_heap s -> at_form at_ -> deep U (d_heap s) k y -> (budget s k < f)%nat ->
     fine (snd (rec y nm at_ s)) /\
     (forall s' r, rec y nm at_ s = (s', r) -> wfs L tbl s' /\ grows tbl (eq a) s s')) ->
  wfs L tbl s -> h0 ⊆ d_heap s -> Forall (fun sb => at_form (sub_at sb)) subs ->
  Forall (fun sb => deep U (d_heap s) k (sub_loc sb)) subs -> (budget s k < f)%nat ->
  fine (snd (dump_subs rec subs s)).
Proof.
  induction subs as [|[[nm y] at_] subs IH]; intros s Hrec Hw Hh Ha Hd Hb; [done|]. simpl.
  apply list.Forall_cons in Ha as [Ha1 Ha2]. apply list.Forall_cons in Hd as [Hd1 Hd2].
  destruct (Hrec y nm at_ s Hw Hh Ha1 Hd1 Hb) as [Hf Hg].
  destruct (rec y nm at_ s) as [s1 [[]|e]]; [|exact Hf].
  destruct (Hg _ _ eq_refl) as [W1 G1]. apply IH; auto.
  - etrans; [exact Hh|apply G1].
  - eapply list.Forall_impl; [exact Hd2|]. intros sb. apply deep_heap, G1.
  - pose proof (todo_mono s s1 (gr_memo _ _ _ _ G1)). unfold budget in *. nia.
Qed.

Lemma dump_fine fuel : forall x p nm at_ s k,
  wfs L tbl s -> h0 ⊆ d_heap s -> p <> tbl -> at_form at_ -> deep U (d_heap s) k x -> (budget s k < fuel)%nat ->
  fine (snd (dump_ fuel E L kw tbl x p nm at_ s)).
Proof.
  induction fuel as [|fuel IH]; intros x p nm at_ s k Hw Hh Hp Ha Hd Hb; [lia|]. cbn [dump_].
  destruct (d_memo s !! x) as [t|] eqn:Em; [apply dump_ref_fine|].
  destruct (d_heap s !! x) as [o|] eqn:Eo; [|done].
  pose proof (dump_node_fine E L kw tbl o p nm at_ s Hfine) as Hn.
  destruct (dump_node E L kw tbl o p nm at_ s) as [s1 [[[a memo] subs]|e]] eqn:Ed.
  2: { simpl in *. intros [= ->]. by apply Hn. }
  destruct (dump_node_spec _ _ _ _ HL _ _ _ _ _ _ _ Hw Hp Ed)
    as (W1 & G1 & M1 & _ & -> & Hlt & Hta & pt & fn & base & pl & te & EL & Ecr & Hpf & <- & Hheap & _).
  destruct memo.
  2: { destruct (lo_leaf _ _ HL _ _ _ _ _ _ _ _ EL Ecr) as [_ ->]. done. }
  set (a := f_next (d_file s)) in *.
  assert (is_Some (d_heap s1 !! x)) as Hx1. { exists o. eapply lookup_weaken; [exact Eo|apply G1]. }
  destruct (set_memo_wfs L tbl x a s1) as [W2 G2]; auto.
  { congruence. }
  { intros y Hy. rewrite M1 in Hy. pose proof (ws_memo_lt _ _ _ Hw _ _ Hy). lia. }
  assert (has_temps (d_heap s1) (d_next s) (p_temps pl)) as Ht.
  { rewrite Hheap. exact (proj2 (proj2 (put_temps_spec L tbl s (p_temps pl) Hw))). }
  assert (h0 ⊆ d_heap s1) as Hh1. { etrans; [exact Hh|apply G1]. }
  assert (todo (set_memo x a s1) <= todo s)%nat as Hle.
  { apply todo_mono. etrans; [apply (gr_memo _ _ _ _ G1)|]. apply (gr_memo _ _ _ _ G2). }
  assert (p_subs pl = [] \/ exists k', Forall (fun sb => deep U (d_heap s1) k' (sub_loc sb)) (p_subs pl) /\
    (budget (set_memo x a s1) k' < fuel)%nat) as [-> |(k' & Hsubs & Hbud)]; [|done|].
  { destruct (decide (x ∈ U)) as [HxU|HxU].
    - right. exists (S K). destruct (HU x HxU) as (o' & Ho' & Hdim & Hrefs).
      assert (o' = o) as ->. { pose proof (lookup_weaken _ _ _ _ Ho' Hh). congruence. }
      split.
      + pose proof (create_deep E fn (d_heap s) U (d_heap s1) (d_next s) o pl Ecr Ht Hrefs) as Hcd.
        eapply list.Forall_impl; [apply Hcd|].
        * intros y io z Hy Hio Hz. destruct (HU y (Hrefs _ Hy)) as (io' & Hio' & _ & Hr).
          assert (io' = io) as ->. { pose proof (lookup_weaken _ _ _ _ Hio' Hh). congruence. }
          by apply Hr.
        * intros sb. apply deep_le. lia.
      + assert (S (todo (set_memo x a s1)) <= todo s)%nat as Hlt1.
        { unfold todo. cbn [d_memo set_memo]. rewrite M1, dom_insert_L.
          assert (x ∈ U ∖ dom (d_memo s)) as Hin.
          { apply elem_of_difference. split; [done|]. by apply not_elem_of_dom. }
          replace (U ∖ ({[x]} ∪ dom (d_memo s))) with ((U ∖ dom (d_memo s)) ∖ {[x]}) by set_solver.
          rewrite size_difference by set_solver. rewrite size_singleton.
          assert (size (U ∖ dom (d_memo s)) <> 0%nat); [|lia].
          intros H0. apply size_empty_inv in H0. set_solver. }
        unfold budget in *. nia.
    - destruct (create_temp E fn (d_heap s) (d_next s) o pl Ecr) as [T1 T2].
      destruct k as [|k]; simpl in Hd.
      + destruct Hd as [?|[(c & z & Hz)|[]]]; [done|]. left. apply T1. exists z. rewrite Eo in Hz. by injection Hz as ->.
      + destruct Hd as [?|[(c & z & Hz)|(c & xs & Hz & Hf)]]; [done|..].
        * left. apply T1. exists z. rewrite Eo in Hz. by injection Hz as ->.
        * right. exists k. split; [|unfold budget in *; nia].
          apply list.Forall_forall. intros sb Hsb. eapply deep_heap; [apply G1|].
          rewrite list.Forall_forall in Hf. apply Hf. eapply T2; [|exact Hsb].
          rewrite Eo in Hz. by injection Hz as ->. }
  eapply (dump_subs_fine _ a k' fuel); [|exact W2|exact Hh1| |exact Hsubs|exact Hbud].
  - intros y nm' at' t Wt Ht' Hat' Hdt Hbt. split.
    + eapply IH; eauto. lia.
    + intros t' r Hr. destruct (dump_frame E L kw tbl HL fuel y a nm' at' t t' r) as (A & B & _); auto. lia.
  - eapply create_at; exact Ecr.
Qed.
End Bound.

(** ** The result does not depend on the budget *)
Lemma dump_more E L kw tbl fuel : forall x p nm at_ s s' r,
  dump_ fuel E L kw tbl x p nm at_ s = (s', r) -> fine r ->
  dump_ (S fuel) E L kw tbl x p nm at_ s = (s', r).
Proof.
  induction fuel as [|fuel IH]; intros x p nm at_ s s' r.
  { intros [= <- <-] H. by destruct H. }
  remember (S fuel) as F eqn:EF. intros H Hf. rewrite EF in H. cbn [dump_] in H |- *.
  destruct (d_memo s !! x) as [t|]; [done|].
  destruct (d_heap s !! x) as [o|]; [|done].
  destruct (dump_node E L kw tbl o p nm at_ s) as [s1 [[[a memo] subs]|e]]; [|done].
  revert H. generalize (if memo then set_memo x a s1 else s1).
  induction subs as [|[[nm' y] at'] subs IHs]; intros t; [done|]. cbn [dump_subs].
  destruct (dump_ fuel E L kw tbl y a nm' at' t) as [t1 [[]|e]] eqn:Et.
  - rewrite (IH _ _ _ _ _ _ _ Et (fine_ok tt)). apply IHs.
  - intros [= -> <-]. by rewrite (IH _ _ _ _ _ _ _ Et Hf).
Qed.
Lemma dump_le E L kw tbl fuel fuel' x p nm at_ s s' r :
  (fuel <= fuel')%nat -> dump_ fuel E L kw tbl x p nm at_ s = (s', r) -> fine r ->
  dump_ fuel' E L kw tbl x p nm at_ s = (s', r).
Proof. intros Hle H Hf. induction Hle; [done|]. by apply dump_more. Qed.
