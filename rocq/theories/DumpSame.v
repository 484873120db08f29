(** * DumpSame: what is written depends on the structure of the object only *)
From Verif Require Import Base Utf8 Dec Num PyObj H5 Env Create Dump LoadFns LoadModel Registry Spec RoundTrip
  DumpProofs Api DumpClosed ApiProofs Fresh Same.
From Coq Require Import Lia ZifyBool ZifyN.

(** ** Specification

    numpy looks at the nested sequences, not at where they are in memory. *)
Definition ragged_by_structure (E : env) : Prop :=
  forall h x h' y, same_graph h x h' y -> e_ragged E h x = e_ragged E h' y.
(** Everything [x] refers to, directly or not, is there. *)
Definition all_there (h : heap) (x : loc) : Prop := forall z, part_of h x z -> is_Some (h !! z).

Lemma part_trans h x y z : part_of h x y -> part_of h y z -> part_of h x z.
Proof. induction 1; [done|]. intros. eapply part_step; eauto. Qed.

(** Only what happens to the references counts. *)
Lemma moved_same g g' o : (forall y, y ∈ parts o -> g y = g' y) -> moved g o = moved g' o.
Proof.
  intros H. unfold moved. f_equal. destruct o as [c v]. unfold parts, refs in H.
  destruct v as [| | | |xs|kvs| | |shape xs| |d k|d i p q|items a| |]; simpl in *; try done.
  - f_equal. apply map_ext_in. intros y Hy. apply H. by apply elem_of_list_In.
  - f_equal. apply map_ext_in. intros [k w] Hy. apply elem_of_list_In in Hy.
    rewrite (H k), (H w); [done|..]; apply elem_of_app; [right|left]; apply elem_of_list_fmap; by exists (k, w).
  - f_equal. apply map_ext_in. intros y Hy. apply H. by apply elem_of_list_In.
  - rewrite (H d), (H k); [done|..]; repeat (first [by apply elem_of_cons; left | apply elem_of_cons; right]).
  - rewrite (H d), (H i), (H p), (H q); [done|..]; repeat (first [by apply elem_of_cons; left | apply elem_of_cons; right]).
  - f_equal. apply map_ext_in. intros [nm [l t]] Hy. apply elem_of_list_In in Hy. rewrite (H l); [done|]. apply elem_of_list_fmap. by exists (nm, (l, t)).
Qed.

Lemma moved_id o : moved (fun l => l) o = o.
Proof.
  destruct o as [c v]. unfold moved. cbn [ocls oval]. f_equal.
  destruct v as [| | | | |kvs| | | | | | |items a| |]; simpl; rewrite ?map_id; try done.
  - f_equal. induction kvs as [|[? ?] ? IH]; [done|]. simpl. by rewrite IH.
  - f_equal. induction items as [|[? [? ?]] ? IH]; [done|]. simpl. by rewrite IH.
Qed.

(** ** Two runs *)
Section Two.
Context (E : env) (HR : ragged_by_structure E).
(** [n1], [n2]: where the two runs put the first object they make themselves; [g0]: the
    correspondence of the objects that are there before, [P0]: those that are dumped. *)
Context (n1 n2 : N) (g0 : loc -> loc) (P0 : loc -> Prop).
Context (HP1 : forall z, P0 z -> z < n1) (HP2 : forall z, P0 z -> g0 z < n2)
        (Hinj : forall z w, P0 z -> P0 w -> g0 z = g0 w -> z = w).

Definition gg (z : loc) : loc := if z <? n1 then g0 z else z - n1 + n2.
Definition PP (z : loc) : Prop := P0 z \/ n1 <= z.
Lemma gg_old z : P0 z -> gg z = g0 z.
Proof. intros Hz. unfold gg. specialize (HP1 z Hz). destruct (z <? n1) eqn:Ez; [done|lia]. Qed.
Lemma gg_new z : n1 <= z -> gg z = z - n1 + n2.
Proof. intros Hz. unfold gg. destruct (z <? n1) eqn:Ez; [lia|done]. Qed.
Lemma gg_add z k : n1 <= z -> gg (z + k) = gg z + k.
Proof. intros Hz. rewrite !gg_new by lia. lia. Qed.
Lemma gg_inj z w : PP z -> PP w -> gg z = gg w -> z = w.
Proof.
  intros [Hz|Hz] [Hw|Hw].
  - rewrite !gg_old by done. by apply Hinj.
  - rewrite gg_old, gg_new by done. specialize (HP2 z Hz). lia.
  - rewrite gg_new, gg_old by done. specialize (HP2 w Hw). lia.
  - rewrite !gg_new by done. lia.
Qed.

Definition obj_in (o : obj) : Prop := Forall PP (parts o).
Definition hsim (h h' : heap) : Prop :=
  (forall z, PP z -> h' !! gg z = option_map (moved gg) (h !! z)) /\
  (forall z o, PP z -> h !! z = Some o -> obj_in o).

Lemma hsim_insert h h' z o : hsim h h' -> PP z -> obj_in o -> hsim (<[z := o]> h) (<[gg z := moved gg o]> h').
Proof.
  intros [A B] Hz Ho. split.
  - intros w Hw. destruct (decide (w = z)) as [->|Hn]; [by rewrite !lookup_insert|].
    rewrite lookup_insert_ne by (intros Eq; apply Hn; symmetry; by apply gg_inj). rewrite lookup_insert_ne by done. by apply A.
  - intros w o' Hw. destruct (decide (w = z)) as [->|Hn]; [rewrite lookup_insert; by intros [= <-]|rewrite lookup_insert_ne by done; by apply B].
Qed.
Lemma hsim_temps h h' nx ts : hsim h h' -> n1 <= nx -> Forall obj_in ts ->
  hsim (temps_heap h nx ts) (temps_heap h' (gg nx) (map (moved gg) ts)).
Proof.
  intros [A B] Hn Ht. split.
  - intros z Hz. rewrite !temps_heap_lookup, map_length. destruct (decide (nx <= z /\ z < nx + N.of_nat (length ts))) as [Hd|Hd].
    + rewrite (gg_new nx), (gg_new z) by lia. rewrite decide_True by lia. rewrite list_lookup_fmap.
      replace (N.to_nat (z - n1 + n2 - (nx - n1 + n2))) with (N.to_nat (z - nx)) by lia. done.
    + rewrite decide_False; [by apply A|]. intros Hd'. apply Hd. rewrite (gg_new nx) in Hd' by lia. destruct Hz as [Hz|Hz].
      * rewrite gg_old in Hd' by done. specialize (HP2 z Hz). lia.
      * rewrite gg_new in Hd' by done. lia.
  - intros z o Hz. rewrite temps_heap_lookup. destruct (decide _) as [Hd|Hd]; [|by apply B].
    intros Ho. apply elem_of_list_lookup_2 in Ho. by eapply list.Forall_forall in Ht.
Qed.
Lemma hsim_parts h h' x z : hsim h h' -> PP x -> part_of h x z -> PP z.
Proof.
  intros [_ B] Hx Hz. induction Hz as [|x o y z Ho Hy _ IH]; [done|]. apply IH.
  pose proof (B x o Hx Ho) as Hp. by eapply list.Forall_forall in Hp.
Qed.
Lemma hsim_same h h' x : hsim h h' -> PP x -> same_graph h x h' (gg x).
Proof.
  intros Hs Hx. exists gg. split; [done|]. split.
  - intros z Hz. apply Hs. by eapply hsim_parts.
  - intros z w Hz Hw. apply gg_inj; by eapply hsim_parts.
Qed.
Lemma hsim_ragged h h' x : hsim h h' -> PP x -> e_ragged E h' (gg x) = e_ragged E h x.
Proof. intros Hs Hx. symmetry. apply HR. by apply hsim_same. Qed.

(** ** The create functions *)
Lemma moved_length_hint o : length_hint (moved gg o) = length_hint o.
Proof. destruct o as [c []]; simpl; unfold length_hint; simpl; try done; by rewrite ?map_length. Qed.
Lemma sim_has_dims h h' l o : hsim h h' -> PP l -> has_dims E h' (gg l) (moved gg o) = has_dims E h l o.
Proof. intros Hs Hl. unfold has_dims. destruct o as [c []]; cbn [moved ocls oval moved_val]; try done. by rewrite (hsim_ragged h h'). Qed.
Lemma sim_check_rest h h' items : hsim h h' -> Forall PP items -> forall d,
  check_rest E h' d (map gg items) = check_rest E h d items.
Proof.
  intros Hs. induction items as [|l r IH]; intros Hp d; [done|]. apply Forall_cons_1 in Hp as [Hl Hr]. cbn [map check_rest].
  rewrite (proj1 Hs l Hl). destruct (h !! l) as [o|]; cbn [option_map]; [|done]. rewrite (sim_has_dims h h') by done.
  destruct (has_dims E h l o) as [[]|]; cbn [res_bind]; try done. change (ocls (moved gg o)) with (ocls o).
  rewrite moved_length_hint. destruct (result_type _ _); try done; [by apply IH|]. rewrite IH by done. by destruct o as [c []].
Qed.
Lemma sim_check h h' first rest : hsim h h' -> PP first -> Forall PP rest ->
  check_iterable_item_type E h' (gg first) (map gg rest) = check_iterable_item_type E h first rest.
Proof.
  intros Hs Hf Hr. unfold check_iterable_item_type. rewrite (proj1 Hs first Hf). destruct (h !! first) as [o|]; cbn [option_map]; [|done].
  rewrite moved_length_hint, (sim_has_dims h h') by done. change (ocls (moved gg o)) with (ocls o). destruct (_ || _); [done|].
  destruct (has_dims E h first o) as [[]|]; cbn [res_bind]; try done. destruct (np_dtype_of_cls _); try done; by apply sim_check_rest.
Qed.
Lemma sim_write_items h h' d items : hsim h h' -> Forall PP items -> write_items h' d (map gg items) = write_items h d items.
Proof.
  intros Hs. induction items as [|l r IH]; intros Hp; [done|]. apply Forall_cons_1 in Hp as [Hl Hr]. cbn [map write_items].
  rewrite (proj1 Hs l Hl). destruct (h !! l) as [[c v]|]; cbn [option_map]; [|done]. destruct v; cbn [moved ocls oval moved_val]; try done.
  destruct (cast d n); [|done]. by rewrite IH.
Qed.

Definition mv_sub (s : sub) : sub := (fst (fst s), gg (snd (fst s)), snd s).
Definition mv_plan (p : plan) : plan :=
  Plan (map (moved gg) (p_temps p)) (p_nocomp p) (p_data p) (p_attrs p) (p_fail p) (map mv_sub (p_subs p)).
Definition plan_in (p : plan) : Prop := Forall obj_in (p_temps p) /\ Forall (fun s : sub => PP (snd (fst s))) (p_subs p).
Definition simp (r r' : res plan) : Prop :=
  match r, r' with
  | Ok p, Ok p' => plan_in p /\ p' = mv_plan p
  | Err e, Err e' => e = e'
  | _, _ => False
  end.
Lemma sim_list_subs items : Forall PP items ->
  list_subs (map gg items) = map mv_sub (list_subs items) /\ Forall (fun s : sub => PP (snd (fst s))) (list_subs items).
Proof.
  unfold list_subs, enumerate. generalize 0. induction items as [|x r IH]; intros i Hp; [split; [done|apply Forall_nil_2]|]. apply Forall_cons_1 in Hp as [Hx Hr].
  destruct (IH (i + 1) Hr) as [A B]. cbn [map]. split; [|by apply Forall_cons_2]. unfold mv_sub at 1. cbn [fst snd]. f_equal. exact A.
Qed.
Lemma plan_data_sim b d a : simp (Ok (plan_data b d a)) (Ok (plan_data b d a)).
Proof. split; [|done]. split; apply Forall_nil_2. Qed.
Lemma sim_list_items h h' items : hsim h h' -> Forall PP items ->
  simp (create_list_items E h items) (create_list_items E h' (map gg items)).
Proof.
  intros Hs Hp. destruct items as [|x r]; [apply plan_data_sim|]. pose proof Hp as Hp0. apply Forall_cons_1 in Hp as [Hx Hr].
  unfold create_list_items. cbn [map]. rewrite (sim_check h h') by done. destruct (check_iterable_item_type E h x r) as [[[]|]|]; cbn [res_bind]; try done.
  - change (gg x :: map gg r) with (map gg (x :: r)). rewrite (sim_write_items h h') by done. rewrite map_length.
    destruct (write_items h d (x :: r)) as [vs e]. split; [|done]. split; apply Forall_nil_2.
  - change (gg x :: map gg r) with (map gg (x :: r)). destruct (sim_list_subs (x :: r) Hp0) as [A B]. rewrite map_length. split; [split; [apply Forall_nil_2|exact B]|].
    unfold plan_group, mv_plan. cbn [p_temps p_nocomp p_data p_attrs p_fail p_subs]. by rewrite A.
Qed.
Lemma sim_dict_subs h h' kvs : hsim h h' -> Forall (fun p => PP (fst p) /\ PP (snd p)) kvs -> forall nx idx, n1 <= nx ->
  match dict_subs E h nx idx kvs, dict_subs E h' (gg nx) idx (map (fun '(k, v) => (gg k, gg v)) kvs) with
  | Ok (ts, ss), Ok (ts', ss') => Forall obj_in ts /\ Forall (fun s : sub => PP (snd (fst s))) ss /\ ts' = map (moved gg) ts /\ ss' = map mv_sub ss
  | Err e, Err e' => e = e'
  | _, _ => False
  end.
Proof.
  intros Hs. induction kvs as [|[k v] r IH]; intros Hp nx idx Hn; [by repeat split; apply Forall_nil_2|]. apply Forall_cons_1 in Hp as [[Hk Hv] Hr]. simpl in Hk, Hv. cbn [map dict_subs].
  rewrite (proj1 Hs k Hk). destruct (h !! k) as [ko|]; cbn [option_map]; [|done].
  assert (key_name E (moved gg ko) = key_name E ko) as -> by (unfold key_name, scalar_repr; destruct ko as [c []]; done).
  destruct (key_name E ko) as [[nm|]|]; cbn [res_bind]; [| |done].
  - change (ocls (moved gg ko)) with (ocls ko). destruct (utf8_encode _); cbn [res_bind]; [|done]. specialize (IH Hr nx (idx + 1) Hn).
    destruct (dict_subs E h nx (idx + 1) r) as [[ts ss]|], (dict_subs E h' (gg nx) (idx + 1) _) as [[ts' ss']|]; cbn [res_map]; try done.
    destruct IH as (A & B & -> & ->). split; [done|]. split; [by apply Forall_cons_2|]. by split.
  - specialize (IH Hr (nx + 1) (idx + 1) ltac:(lia)). rewrite gg_add in IH by done.
    destruct (dict_subs E h (nx + 1) (idx + 1) r) as [[ts ss]|], (dict_subs E h' (gg nx + 1) (idx + 1) _) as [[ts' ss']|]; cbn [res_map]; try done.
    destruct IH as (A & B & -> & ->). split; [apply Forall_cons_2; [|done]; by repeat (apply Forall_cons_2; [done|])|].
    split; [apply Forall_cons_2; [by right|done]|]. by split.
Qed.
Lemma sim_text o : simp (create_text o) (create_text (moved gg o)).
Proof.
  unfold create_text. destruct o as [c []]; cbn [moved ocls oval moved_val]; try done.
  - destruct (utf8_encode s); cbn [res_map]; [|done]. destruct (ascii_encode _); [apply plan_data_sim|]. split; [|done]. split; apply Forall_nil_2.
  - cbn [res_map]. destruct (ascii_encode _); [apply plan_data_sim|]. split; [|done]. split; apply Forall_nil_2.
Qed.
Lemma sim_listlike h h' o : hsim h h' -> obj_in o -> simp (create_listlike E h o) (create_listlike E h' (moved gg o)).
Proof.
  intros Hs Ho. unfold create_listlike. change (ocls (moved gg o)) with (ocls o). destruct (_ || _); [apply sim_text|].
  destruct o as [c []]; cbn [moved ocls oval moved_val]; try done. by apply sim_list_items.
Qed.
Lemma map_chunks {A B} (f : A -> B) n sz : forall l, chunks n sz (map f l) = map (map f) (chunks n sz l).
Proof. induction n as [|n IH]; intros l; [done|]. cbn [chunks map]. rewrite <- IH. f_equal; [by rewrite firstn_map|by rewrite skipn_map]. Qed.
Lemma chunks_forall {A} (Q : A -> Prop) n sz : forall l, Forall Q l -> Forall (Forall Q) (chunks n sz l).
Proof. induction n as [|n IH]; intros l Hl; [apply Forall_nil_2|]. cbn [chunks]. apply Forall_cons_2; [by apply Forall_take|]. apply IH. by apply Forall_drop. Qed.
Definition go_list (rec : list loc -> loc -> list obj * list loc) : list (list loc) -> loc -> list obj * list loc :=
  fix go cs nx :=
    match cs with
    | [] => ([], [])
    | c :: cs' =>
        let '(ts, els) := rec c nx in
        let me := nx + N.of_nat (length ts) in
        let '(ts', ls) := go cs' (me + 1) in
        (ts ++ Obj CList (VSeq els) :: ts', me :: ls)
    end.
Lemma tolist_go n n' rest ls nx : tolist (n :: n' :: rest) ls nx =
  go_list (tolist (n' :: rest)) (chunks (N.to_nat n) (N.to_nat (prodN (n' :: rest))) ls) nx.
Proof. reflexivity. Qed.
Definition simt (r r' : list obj * list loc) : Prop :=
  r' = (map (moved gg) (fst r), map gg (snd r)) /\ Forall obj_in (fst r) /\ Forall PP (snd r).
Lemma sim_go rec cs : (forall c nx, Forall PP c -> n1 <= nx -> simt (rec c nx) (rec (map gg c) (gg nx))) ->
  Forall (Forall PP) cs -> forall nx, n1 <= nx -> simt (go_list rec cs nx) (go_list rec (map (map gg) cs) (gg nx)).
Proof.
  intros Hrec. induction cs as [|c cs IH]; intros Hc nx Hn; [by repeat split; apply Forall_nil_2|].
  apply Forall_cons_1 in Hc as [Hc Hcs]. cbn [map go_list]. specialize (Hrec c nx Hc Hn).
  destruct (rec c nx) as [ts els], (rec (map gg c) (gg nx)) as [ts1 els1]. destruct Hrec as ([= -> ->] & A & B). cbn [fst snd] in A, B |- *.
  rewrite map_length. rewrite <- (gg_add nx) by lia. rewrite <- (gg_add (nx + N.of_nat (length ts))) by lia.
  specialize (IH Hcs (nx + N.of_nat (length ts) + 1) ltac:(lia)).
  destruct (go_list rec cs _) as [ts' ls'], (go_list rec (map (map gg) cs) _) as [ts2 ls2]. destruct IH as ([= -> ->] & A' & B'). cbn [fst snd] in A', B' |- *.
  split; [cbn [fst snd]; by rewrite map_app|]. cbn [fst snd]. split.
  - apply Forall_app_2; [done|]. by apply Forall_cons_2.
  - apply Forall_cons_2; [right; lia|done].
Qed.
Lemma sim_tolist shape : forall ls nx, Forall PP ls -> n1 <= nx -> simt (tolist shape ls nx) (tolist shape (map gg ls) (gg nx)).
Proof.
  induction shape as [|n rest IH]; intros ls nx Hl Hn; [by repeat split; apply Forall_nil_2|].
  destruct rest as [|n' rest]; [split; [done|]; split; [apply Forall_nil_2|exact Hl]|].
  rewrite !tolist_go, map_chunks. apply sim_go; [|by apply chunks_forall|done]. intros c nx' Hc Hn'. by apply IH.
Qed.
Lemma sim_with_temps ts a r r' : Forall obj_in ts -> simp r r' -> simp (res_map (with_temps ts a) r) (res_map (with_temps (map (moved gg) ts) a) r').
Proof.
  intros Ht. destruct r as [p|], r' as [p'|]; cbn [res_map]; try done. intros [[A B] ->]. split.
  - split; [by apply Forall_app_2|done].
  - unfold with_temps, mv_plan. cbn [p_temps p_nocomp p_data p_attrs p_fail p_subs]. by rewrite map_app.
Qed.
Lemma enum_locs (vs : list pystr) nx : n1 <= nx ->
  map (fun '(i, _) => gg nx + i) (enumerate vs) = map gg (map (fun '(i, _) => nx + i) (enumerate vs)) /\
  Forall PP (map (fun '(i, _) => nx + i) (enumerate vs)).
Proof.
  intros Hn. split.
  - rewrite map_map. apply map_ext. intros [i s]. by rewrite gg_add.
  - apply Forall_map. apply list.Forall_forall. intros [i s] _. right. simpl. lia.
Qed.
Lemma sim_np_array h h' nx o : hsim h h' -> n1 <= nx -> obj_in o -> simp (create_np_array E h nx o) (create_np_array E h' (gg nx) (moved gg o)).
Proof.
  intros Hs Hn Ho. unfold create_np_array. destruct o as [c v]. destruct v as [| | | | | |d shape vs|w shape vs|shape ls| | | | | |]; cbn [moved ocls oval moved_val]; try done.
  - destruct shape as [|? ?]; [destruct vs as [|? [|? ?]]; try done|]; apply plan_data_sim.
  - destruct shape as [|k shape].
    + destruct vs as [|s [|? ?]]; try done. destruct (utf8_encode s); cbn [res_map]; [apply plan_data_sim|done].
    + assert (forall X Y : res plan, (forall vs', vs' = vs -> simp X Y) ->
        simp (match vs with [_] => X | _ => X end) (match vs with [_] => Y | _ => Y end)) as _ by (intros; destruct vs as [|? [|? ?]]; by eapply H).
      destruct (enum_locs vs nx Hn) as [A B]. rewrite A.
      pose proof (sim_tolist (k :: shape) _ (nx + N.of_nat (length vs)) B ltac:(lia)) as X. rewrite gg_add in X by done.
      destruct (tolist (k :: shape) (map (fun '(i, _) => nx + i) (enumerate vs)) (nx + N.of_nat (length vs))) as [ts els]. destruct X as (-> & X1 & X2). cbn [fst snd] in X1, X2 |- *.
      set (ss := map (fun s => Obj CStr (VStr s)) vs).
      assert (ss ++ map (moved gg) ts = map (moved gg) (ss ++ ts)) as -> by (rewrite map_app; f_equal; unfold ss; rewrite map_map; by apply map_ext).
      assert (Forall obj_in (ss ++ ts)) as Ht.
      { apply Forall_app_2; [|done]. unfold ss. apply Forall_map, list.Forall_forall. intros s _. apply Forall_nil_2. }
      destruct vs as [|? [|? ?]]; (apply sim_with_temps; [exact Ht|]; apply sim_list_items; [by apply hsim_temps|done]).
  - unfold obj_in, parts, refs in Ho. simpl in Ho. destruct shape as [|k shape].
    + destruct ls as [|l [|? ?]]; cbn [map]; try done. apply Forall_cons_1 in Ho as [Hl _].
      rewrite (proj1 Hs l Hl). destruct (h !! l) as [io|] eqn:El; cbn [option_map]; [|done]. change (ocls (moved gg io)) with (ocls io).
      destruct (isinst _ _).
      * apply (sim_with_temps []); [apply Forall_nil_2|]. apply sim_listlike; [done|]. by eapply Hs.
      * split; [|done]. split; [apply Forall_nil_2|]. by apply Forall_cons_2; [|apply Forall_nil_2].
    + pose proof (sim_tolist (k :: shape) ls nx Ho Hn) as X. destruct (tolist (k :: shape) ls nx) as [ts els]. destruct X as (X0 & X1 & X2). cbn [fst snd] in X0, X1, X2 |- *.
      assert (simp (res_map (with_temps ts [(a_np_dtype, ABytes obj_dtype)]) (create_list_items E (temps_heap h nx ts) els))
        (res_map (with_temps (map (moved gg) ts) [(a_np_dtype, ABytes obj_dtype)]) (create_list_items E (temps_heap h' (gg nx) (map (moved gg) ts)) (map gg els)))) as Y.
      { apply sim_with_temps; [done|]. apply sim_list_items; [by apply hsim_temps|done]. }
      destruct ls as [|? [|? ?]]; cbn [map] in *; rewrite X0; exact Y.
Qed.
Lemma sim_create fn h h' nx o : hsim h h' -> n1 <= nx -> obj_in o ->
  simp (create E fn h nx o) (create E fn h' (gg nx) (moved gg o)).
Proof.
  intros Hs Hn Ho. destruct fn; cbn [create]; try done.
  - unfold create_scalar. destruct o as [c []]; cbn [moved ocls oval moved_val]; try done. destruct n; try apply plan_data_sim. destruct (_ && _); apply plan_data_sim.
  - apply plan_data_sim.
  - by apply sim_listlike.
  - unfold create_setlike. destruct o as [c []]; cbn [moved ocls oval moved_val]; try done. by apply sim_list_items.
  - unfold create_dictlike. destruct o as [c v]. destruct v as [| | | | |kvs| | | | | | | | |]; cbn [moved ocls oval moved_val]; try done.
    assert (Forall (fun p => PP (fst p) /\ PP (snd p)) kvs) as Hk.
    { unfold obj_in, parts, refs in Ho. simpl in Ho. apply Forall_app in Ho as [A B]. apply list.Forall_forall. intros [k v] Hin. split; simpl.
      - eapply list.Forall_forall in A; [exact A|]. apply elem_of_list_fmap. by exists (k, v).
      - eapply list.Forall_forall in B; [exact B|]. apply elem_of_list_fmap. by exists (k, v). }
    pose proof (sim_dict_subs h h' kvs Hs Hk nx 0 Hn) as X.
    destruct (dict_subs E h nx 0 kvs) as [[ts ss]|], (dict_subs E h' (gg nx) 0 _) as [[ts' ss']|]; cbn [res_map]; try done.
    destruct X as (A & B & -> & ->). by split.
  - unfold create_pickled. destruct o as [c []]; cbn [moved ocls oval moved_val]; try done. destruct (e_pickles _ _ _); [apply plan_data_sim|done].
  - unfold create_np_scalar. destruct o as [c []]; cbn [moved ocls oval moved_val]; try done. destruct (np_dtype_of_cls c); try done. apply plan_data_sim.
  - unfold create_np_dtype. destruct o as [c []]; cbn [moved ocls oval moved_val]; try done. apply plan_data_sim.
  - by apply sim_np_array.
  - unfold create_np_masked. destruct o as [c v]. destruct v as [| | | | | | | | | |d k| | | |]; cbn [moved ocls oval moved_val]; try done.
    unfold obj_in, parts, refs in Ho. simpl in Ho. rewrite (proj1 Hs d) by (by apply Forall_cons_1 in Ho as [? _]).
    destruct (h !! d) as [[c' v']|]; cbn [option_map]; [|done].
    assert (arr_dtype_str (moved gg (Obj c' v')) = arr_dtype_str (Obj c' v')) as -> by (by destruct v').
    destruct (arr_dtype_str _); [|done]. apply Forall_cons_1 in Ho as [A Ho]. apply Forall_cons_1 in Ho as [B _].
    split; [|done]. split; [apply Forall_nil_2|]. by repeat (apply Forall_cons_2; [done|]).
  - unfold create_sparse. destruct o as [c v]. destruct v as [| | | | | | | | | | |d i p q| | |]; cbn [moved ocls oval moved_val]; try done.
    unfold obj_in, parts, refs in Ho. simpl in Ho. repeat (apply Forall_cons_1 in Ho as [? Ho]). split; [|done]. split; [apply Forall_nil_2|].
    by repeat (apply Forall_cons_2; [done|]).
Qed.

(** ** The whole dump *)
Definition sim (s s' : dst) : Prop :=
  hsim (d_heap s) (d_heap s') /\ n1 <= d_next s /\ d_next s' = gg (d_next s) /\
  (forall z, PP z -> d_memo s' !! gg z = d_memo s !! z) /\
  d_file s' = d_file s /\ d_types s' = d_types s /\ d_bases s' = d_bases s.
Definition simd {A B} (R : A -> B -> Prop) (r : dst * res A) (r' : dst * res B) : Prop :=
  sim (fst r) (fst r') /\
  match snd r, snd r' with
  | Ok a, Ok b => R a b
  | Err e, Err e' => e = e'
  | _, _ => False
  end.
Lemma sim_set_file f s s' : sim s s' -> sim (set_file f s) (set_file f s').
Proof. by intros (A & B & C & D & F & G & H). Qed.
Lemma sim_upd a k s s' : sim s s' -> sim (upd_node a k s) (upd_node a k s').
Proof. intros Hs. pose proof Hs as (A & B & C & D & F & G & H). unfold upd_node. rewrite F. destruct (get_node _ _); [by apply sim_set_file|done]. Qed.
Lemma sim_put_temps ts s s' : sim s s' -> Forall obj_in ts -> sim (put_temps ts s) (put_temps (map (moved gg) ts) s').
Proof.
  intros (A & B & C & D & F & G & H) Ht. split; [cbn [put_temps d_heap]; rewrite C; by apply hsim_temps|].
  split; [cbn [put_temps d_next]; lia|]. split; [cbn [put_temps d_next]; by rewrite map_length, C, gg_add|]. done.
Qed.
Lemma sim_memo x a s s' : sim s s' -> PP x -> sim (set_memo x a s) (set_memo (gg x) a s').
Proof.
  intros (A & B & C & D & F & G & H) Hx. split; [done|]. split; [done|]. split; [done|]. split; [|done]. intros z Hz. cbn [set_memo d_memo].
  destruct (decide (z = x)) as [->|Hn]; [by rewrite !lookup_insert|]. rewrite lookup_insert_ne by (intros Eq; apply Hn; symmetry; by apply gg_inj).
  rewrite lookup_insert_ne by done. by apply D.
Qed.
Lemma sim_base_entry tbl kw base s s' : sim s s' -> simd eq (base_entry tbl kw base s) (base_entry tbl kw base s').
Proof.
  intros Hs. pose proof Hs as (A & B & C & D & F & G & H). unfold base_entry. rewrite F, H. destruct (alist_get _ _); [done|].
  destruct (ascii_encode _); [|done]. destruct (create_dataset _ _ _ _ _) as [[f b]|]; [|done]. split; [|done]. cbn [fst].
  split; [done|]. split; [done|]. split; [done|]. split; [done|]. split; [done|]. split; [done|]. cbn [d_bases]. done.
Qed.
Lemma sim_store_type tbl kw node pt base s s' : sim s s' -> simd eq (store_type E tbl kw node pt base s) (store_type E tbl kw node pt base s').
Proof.
  intros Hs. pose proof Hs as (A & B & C & D & F & G & H). unfold store_type. destruct (bool_decide _); [done|]. rewrite F, G.
  destruct (alist_get _ _) as [e|]; [split; [by apply sim_upd|done]|]. destruct (bool_decide _); [done|]. destruct (negb _); [done|].
  destruct (create_dataset _ _ _ _ _) as [[f e]|]; [|done]. pose proof (sim_base_entry tbl kw base _ _ (sim_set_file f s s' Hs)) as X.
  destruct (base_entry tbl kw base (set_file f s)) as [s1 r1], (base_entry tbl kw base (set_file f s')) as [s1' r1']. destruct X as [X1 X2]. cbn [fst snd] in X1, X2.
  destruct r1 as [b|], r1' as [b'|]; try done. subst b'. split; [|done]. cbn [fst]. apply sim_upd.
  pose proof (sim_upd e (set_attr a_base_type (ARef b)) _ _ X1) as (A2 & B2 & C2 & D2 & F2 & G2 & H2).
  split; [done|]. split; [done|]. split; [done|]. split; [done|]. split; [done|]. split; [cbn [d_types]; by rewrite G2|done].
Qed.
Lemma sim_run_plan kw parent nm p s s' : sim s s' -> plan_in p -> simd eq (run_plan kw parent nm p s) (run_plan kw parent nm (mv_plan p) s').
Proof.
  intros Hs [Hp _]. unfold run_plan. cbn [mv_plan p_temps p_nocomp p_data p_attrs p_fail p_subs]. pose proof (sim_put_temps _ _ _ Hs Hp) as H0.
  pose proof Hs as (_ & _ & _ & _ & F & _ & _). rewrite F.
  destruct (match p_data p with Some d => _ | None => _ end) as [[f a]|]; [|done].
  pose proof (sim_upd a (set_attrs (p_attrs p)) _ _ (sim_set_file f _ _ H0)) as H1. by destruct (p_fail p).
Qed.
Definition node_rel (r r' : addr * bool * list sub) : Prop :=
  fst r = fst r' /\ snd r' = map mv_sub (snd r) /\ Forall (fun s : sub => PP (snd (fst s))) (snd r).
Lemma sim_dump_node L kw tbl o parent nm at_ s s' : sim s s' -> obj_in o ->
  simd node_rel (dump_node E L kw tbl o parent nm at_ s) (dump_node E L kw tbl (moved gg o) parent nm at_ s').
Proof.
  intros Hs Ho. unfold dump_node. change (ocls (moved gg o)) with (ocls o). destruct (L (ocls o)) as [[pt [[fn base] memoise]]|]; [|done].
  pose proof Hs as (A & B & C & D & F & G & H). pose proof (sim_create fn _ _ _ o A B Ho) as X. rewrite <- C in X.
  destruct (create E fn (d_heap s) (d_next s) o) as [p|e], (create E fn (d_heap s') (d_next s') (moved gg o)) as [p'|e']; try done.
  - destruct X as [Hp ->]. pose proof (sim_run_plan kw parent nm p s s' Hs Hp) as X.
    destruct (run_plan kw parent nm p s) as [s1 r1], (run_plan kw parent nm (mv_plan p) s') as [s1' r1']. destruct X as [X1 X2]. cbn [fst snd] in X1, X2.
    destruct r1 as [a|], r1' as [a'|]; try done. subst a'. pose proof (sim_store_type tbl kw a pt base s1 s1' X1) as Y.
    destruct (store_type E tbl kw a pt base s1) as [s2 r2], (store_type E tbl kw a pt base s1') as [s2' r2']. destruct Y as [Y1 Y2]. cbn [fst snd] in Y1, Y2.
    destruct r2 as [?|], r2' as [?|]; try done. split; [by apply sim_upd|]. split; [done|]. split; [done|]. apply Hp.
  - simpl in X. subst e'. destruct e; try done.
    pose proof (sim_create FPickle _ _ _ o A B Ho) as X. cbn [create] in X.
    destruct (create_pickled E o) as [p|e], (create_pickled E (moved gg o)) as [p'|e']; try done.
    destruct X as [Hp ->]. pose proof (sim_run_plan kw parent nm p s s' Hs Hp) as X.
    destruct (run_plan kw parent nm p s) as [s1 r1], (run_plan kw parent nm (mv_plan p) s') as [s1' r1']. destruct X as [X1 X2]. cbn [fst snd] in X1, X2.
    destruct r1 as [a|], r1' as [a'|]; try done. subst a'. split; [by apply sim_upd|]. split; [done|]. split; [done|]. apply Hp.
Qed.
Lemma sim_dump_subs rec subs :
  (forall y nm at_ s s', sim s s' -> PP y -> simd eq (rec y nm at_ s) (rec (gg y) nm at_ s')) ->
  Forall (fun s : sub => PP (snd (fst s))) subs -> forall s s', sim s s' -> simd eq (dump_subs rec subs s) (dump_subs rec (map mv_sub subs) s').
Proof.
  intros Hrec. induction subs as [|[[nm x] at_] r IH]; intros Hp s s' Hs; [done|]. apply Forall_cons_1 in Hp as [Hx Hr]. cbn [map mv_sub fst snd dump_subs].
  specialize (Hrec x nm at_ s s' Hs Hx). destruct (rec x nm at_ s) as [s1 r1], (rec (gg x) nm at_ s') as [s1' r1']. destruct Hrec as [X1 X2]. cbn [fst snd] in X1, X2.
  destruct r1 as [?|], r1' as [?|]; try done. by apply IH.
Qed.
Lemma sim_dump L kw tbl fuel : forall x parent nm at_ s s', sim s s' -> PP x ->
  simd eq (dump_ fuel E L kw tbl x parent nm at_ s) (dump_ fuel E L kw tbl (gg x) parent nm at_ s').
Proof.
  induction fuel as [|fu IH]; intros x parent nm at_ s s' Hs Hx; [done|]. unfold dump_; fold dump_. pose proof Hs as (A & B & C & D & F & G & H).
  rewrite (D x Hx). destruct (d_memo s !! x) as [a|].
  - unfold dump_ref. rewrite F. destruct (create_dataset _ _ _ _ _) as [[f b]|]; [|done]. split; [|done]. by apply sim_upd, sim_set_file.
  - rewrite (proj1 A x Hx). destruct (d_heap s !! x) as [o|] eqn:Eo; cbn [option_map]; [|done].
    pose proof (sim_dump_node L kw tbl o parent nm at_ s s' Hs (proj2 A x o Hx Eo)) as X.
    destruct (dump_node E L kw tbl o parent nm at_ s) as [s1 r1], (dump_node E L kw tbl (moved gg o) parent nm at_ s') as [s1' r1']. destruct X as [X1 X2]. cbn [fst snd] in X1, X2.
    destruct r1 as [[[a memoise] subs]|], r1' as [[[a' memoise'] subs']|]; try done. destruct X2 as ([= -> ->] & X3 & X4). cbn [snd] in X3, X4. subst subs'.
    apply sim_dump_subs; [|done|]; [intros y nm' at' t t' Ht Hy; by apply IH|]. destruct memoise'; [by apply sim_memo|done].
Qed.
End Two.

Lemma dump_file_same C kw opts p f x1 m1 x2 m2 :
  ragged_by_structure (c_env C) -> free_above m1 -> free_above m2 -> all_there (m_heap m1) x1 ->
  same_graph (m_heap m1) x1 (m_heap m2) x2 ->
  fst (fst (dump_file C kw opts x1 p m1 f)) = fst (fst (dump_file C kw opts x2 p m2 f)) /\
  snd (dump_file C kw opts x1 p m1 f) = snd (dump_file C kw opts x2 p m2 f).
Proof.
  intros HR F1 F2 Hall (g0 & G1 & G2 & G3). unfold dump_file. destruct (root_for_dump f p) as [f1 [root|e]]; [|done].
  unfold dump_root. destruct (with_options _ _ _) as [f2 [chain|e]]; [|done]. unfold dump_into.
  destruct (create_node _ _ _ _) as [[f3 tbl]|e]; [|done].
  set (P0 := part_of (m_heap m1) x1).
  assert (forall z, P0 z -> z < m_next m1) as HP1.
  { intros z Hz. destruct (Hall z Hz) as [o Ho]. destruct (decide (z < m_next m1)) as [?|Hn]; [done|]. rewrite F1 in Ho; [done|lia]. }
  assert (forall z, P0 z -> g0 z < m_next m2) as HP2.
  { intros z Hz. destruct (Hall z Hz) as [o Ho]. specialize (G2 z Hz). rewrite Ho in G2. destruct (decide (g0 z < m_next m2)) as [?|Hn]; [done|].
    rewrite F2 in G2; [done|lia]. }
  assert (forall z, P0 z -> gg (m_next m1) (m_next m2) g0 z = g0 z) as Hold.
  { intros z Hz. unfold gg. specialize (HP1 z Hz). destruct (z <? m_next m1) eqn:Ez; [done|lia]. }
  assert (forall z, m_next m1 <= z -> gg (m_next m1) (m_next m2) g0 z = z - m_next m1 + m_next m2) as Hnew.
  { intros z Hz. unfold gg. destruct (z <? m_next m1) eqn:Ez; [lia|done]. }
  pose proof (sim_dump (c_env C) HR (m_next m1) (m_next m2) g0 P0 HP1 HP2 G3 (dump_loader_of (c_world C) chain) kw tbl (c_fuel C) x1 root n_data []
     (Dst (m_heap m1) (m_next m1) f3 ∅ [] []) (Dst (m_heap m2) (m_next m2) f3 ∅ [] [])) as X.
  rewrite Hold in X by apply part_self. rewrite G1 in X.
  destruct X as [X1 X2].
  - split; [split|].
    + intros z [Hz|Hz].
      * rewrite Hold by done. cbn [d_heap]. rewrite (G2 z Hz). destruct (Hall z Hz) as [o Ho]. rewrite Ho. cbn [option_map]. f_equal.
        apply moved_same. intros y Hy. symmetry. apply Hold. eapply part_trans; [exact Hz|]. eapply part_step; [exact Ho|exact Hy|apply part_self].
      * rewrite Hnew by done. cbn [d_heap]. rewrite F1 by lia. by rewrite F2 by lia.
    + intros z o [Hz|Hz] Ho; cbn [d_heap] in Ho; [|by rewrite F1 in Ho by lia].
      apply list.Forall_forall. intros y Hy. left. eapply part_trans; [exact Hz|]. eapply part_step; [exact Ho|exact Hy|apply part_self].
    + cbn [d_next d_memo d_file d_types d_bases]. split; [done|]. split; [rewrite Hnew by done; lia|]. split; [|done]. intros z _. by rewrite !lookup_empty.
  - left. apply part_self.
  - destruct (dump_ _ _ _ _ _ x1 _ _ _ _) as [s r], (dump_ _ _ _ _ _ x2 _ _ _ _) as [s' r']. cbn [fst snd] in X1, X2. destruct X1 as (_ & _ & _ & _ & X1 & _ & _).
    cbn [fst snd]. split; [by symmetry|]. destruct r, r'; try done; by subst.
Qed.
