(** * Same: what is loaded depends on the file only *)
From Verif Require Import Base Utf8 Dec Num PyObj H5 Env Create Repr LoadFns LoadModel Registry Spec RoundTrip LoadFrame Api DumpClosed ApiProofs Fresh.
From Coq Require Import Lia ZifyBool ZifyN.

(** ** Specification: the same structure at other places in memory *)

(** A value with every reference [l] replaced by [g l]. *)
Definition moved_val (g : loc -> loc) (v : val) : val :=
  match v with
  | VSeq xs => VSeq (map g xs)
  | VDict kvs => VDict (map (fun '(k, v) => (g k, g v)) kvs)
  | VObjArr shape xs => VObjArr shape (map g xs)
  | VMasked d m => VMasked (g d) (g m)
  | VSparse d i p s => VSparse (g d) (g i) (g p) (g s)
  | VRecG items a => VRecG (map (fun '(nm, (l, t)) => (nm, (g l, t))) items) a
  | _ => v
  end.
Definition moved (g : loc -> loc) (o : obj) : obj := Obj (ocls o) (moved_val g (oval o)).
(** The objects [x] consists of in [h] and those [y] consists of in [h'] correspond to each
    other, one to one, with the same classes, values and references. *)
Definition same_graph (h : heap) (x : loc) (h' : heap) (y : loc) : Prop :=
  exists g : loc -> loc, g x = y /\
    (forall z, part_of h x z -> h' !! g z = option_map (moved g) (h !! z)) /\
    (forall z w, part_of h x z -> part_of h x w -> g z = g w -> z = w).

(** ** Two runs *)
Section Same.
Context (M1 M2 : mem) (H1 : mem_ok M1) (H2 : mem_ok M2).
Local Notation n1 := (m_next M1).
Local Notation n2 := (m_next M2).
Local Notation new := (new M1).

(** Where the second run puts what the first one puts at [l]. *)
Definition mv (l : loc) : loc := if l =? nobody then nobody else l - n1 + n2.

Definition sim (m m' : mem) : Prop :=
  okm M1 m /\ m_heap m' !! nobody = Some empty_tuple /\ m_next m + n2 = m_next m' + n1 /\
  forall l, n1 <= l -> m_heap m' !! mv l = option_map (moved mv) (m_heap m !! l).
Definition simr (r r' : res (mem * loc)) : Prop :=
  match r, r' with
  | Ok (m, l), Ok (m', l') => sim m m' /\ new l /\ l' = mv l
  | Err e, Err e' => e = e'
  | _, _ => False
  end.

Lemma mv_nobody : mv nobody = nobody.
Proof. reflexivity. Qed.
Lemma pos1 : 0 < n1.
Proof. exact (next_pos M1 H1). Qed.
Lemma pos2 : 0 < n2.
Proof. exact (next_pos M2 H2). Qed.
Lemma mv_new l : n1 <= l -> mv l = l - n1 + n2.
Proof. intros Hl. unfold mv. pose proof pos1. destruct (l =? nobody) eqn:E; [|done]. unfold nobody in E. lia. Qed.
Lemma mv_inj l l' : new l -> new l' -> mv l = mv l' -> l = l'.
Proof.
  pose proof pos1. pose proof pos2. intros [->|Hl] [->|Hl']; [done|..].
  - rewrite mv_nobody, mv_new by done. unfold nobody. lia.
  - rewrite mv_nobody, mv_new by done. unfold nobody. lia.
  - rewrite !mv_new by done. lia.
Qed.
Lemma mv_is_nobody l : new l -> (mv l =? nobody) = (l =? nobody).
Proof.
  intros [->|Hl]; [done|]. rewrite mv_new by done. pose proof pos1. pose proof pos2. unfold nobody. lia.
Qed.
Lemma mv_is_nobody' l : new l -> (nobody =? mv l) = (nobody =? l).
Proof. intros Hl. rewrite !(N.eqb_sym nobody). by apply mv_is_nobody. Qed.
Lemma sim_look m m' l : sim m m' -> new l -> m_heap m' !! mv l = option_map (moved mv) (m_heap m !! l).
Proof.
  intros (A & B & _ & D) [->|Hl]; [|by apply D]. rewrite mv_nobody, B, (okm_nobody M1 H1 m A). done.
Qed.
Lemma sim_start : sim M1 M2.
Proof.
  split; [by apply okm_0|]. split; [apply H2|]. split; [lia|]. intros l Hl. rewrite mv_new by done.
  rewrite (proj1 H1) by done. rewrite (proj1 H2) by lia. done.
Qed.
Lemma sim_alloc o m m' : sim m m' -> o <> empty_tuple -> Forall new (parts o) ->
  simr (Ok (alloc o m)) (Ok (alloc (moved mv o) m')).
Proof.
  intros (A & B & D & F) Hne Hp. pose proof pos2. pose proof pos1. destruct (alloc_ok M1 o m A Hne Hp) as [X Y].
  destruct A as (A1 & A2 & A3 & A4).
  cbn [simr alloc]. split; [|split].
  - split; [exact X|]. cbn [m_heap m_next]. split; [|split].
    + rewrite lookup_insert_ne; [done|]. unfold nobody. lia.
    + lia.
    + intros l Hl. destruct (decide (l = m_next m)) as [->|Hn].
      * rewrite lookup_insert. rewrite mv_new by done. replace (m_next m - n1 + n2) with (m_next m') by lia. by rewrite lookup_insert.
      * rewrite (lookup_insert_ne (m_heap m)) by (intros E; by rewrite E in Hn). rewrite lookup_insert_ne; [by apply F|]. rewrite mv_new by done. lia.
  - exact Y.
  - rewrite mv_new by done. lia.
Qed.
Lemma moved_atom o : parts o = [] -> moved mv o = o.
Proof.
  destruct o as [c v]. unfold moved, parts, refs. simpl. destruct v as [| | | |xs|kvs| | |sh xs| | | |items a| |]; simpl; try done.
  - by intros ->.
  - destruct kvs; [done|discriminate].
  - by intros ->.
  - destruct items; [done|discriminate].
Qed.
Lemma sim_alloc_list os : forall m m', sim m m' -> Forall atomic os ->
  sim (fst (alloc_list os m)) (fst (alloc_list os m')) /\ Forall new (snd (alloc_list os m)) /\
  snd (alloc_list os m') = map mv (snd (alloc_list os m)).
Proof.
  induction os as [|o os IH]; intros m m' Hm Hos; [by split_and!; [|apply Forall_nil_2|]|].
  apply Forall_cons_1 in Hos as [[Ho Hne] Hos]. pose proof (sim_alloc o m m' Hm Hne) as X. rewrite Ho, moved_atom in X by done.
  specialize (X (Forall_nil_2 _)). cbn [alloc_list]. destruct (alloc o m) as [m1 l], (alloc o m') as [m1' l'].
  destruct X as (X1 & X2 & ->). specialize (IH _ _ X1 Hos).
  destruct (alloc_list os m1) as [m2 ls], (alloc_list os m1') as [m2' ls']. cbn [fst snd] in *. destruct IH as (I1 & I2 & ->).
  split_and!; [done|by apply Forall_cons_2|done].
Qed.
Lemma sim_list_eq os m m' m1 ls m1' ls' : alloc_list os m = (m1, ls) -> alloc_list os m' = (m1', ls') -> sim m m' -> Forall atomic os ->
  sim m1 m1' /\ Forall new ls /\ ls' = map mv ls.
Proof. intros E1 E2 Hm Ho. destruct (sim_alloc_list os m m' Hm Ho) as (A & B & D). rewrite E1, E2 in *. done. Qed.

(** ** Keys *)
Fixpoint moved_hv (k : hv) : hv :=
  match k with
  | HNan l => HNan (mv l)
  | HId l => HId (mv l)
  | HCons a r => HCons (moved_hv a) (moved_hv r)
  | _ => k
  end.
Fixpoint hv_new (k : hv) : Prop :=
  match k with
  | HNan l | HId l => new l
  | HCons a r => hv_new a /\ hv_new r
  | _ => True
  end.
Lemma moved_hv_inj k : forall k', hv_new k -> hv_new k' -> moved_hv k = moved_hv k' -> k = k'.
Proof.
  induction k; intros k' Hk Hk' H; destruct k'; simpl in *; try discriminate H; try (injection H as ->; done); try done.
  - injection H as H. f_equal. by apply mv_inj.
  - injection H as Ha Hb. destruct Hk, Hk'. f_equal; auto.
  - injection H as H. f_equal. by apply mv_inj.
Qed.
Lemma moved_hv_eq k k' : hv_new k -> hv_new k' -> bool_decide (moved_hv k = moved_hv k') = bool_decide (k = k').
Proof. intros. apply bool_decide_ext. split; [by apply moved_hv_inj|by intros ->]. Qed.

Lemma sim_hval m m' : sim m m' -> forall fuel l, new l ->
  hval fuel (m_heap m') (mv l) = res_map moved_hv (hval fuel (m_heap m) l) /\ forall k, hval fuel (m_heap m) l = Ok k -> hv_new k.
Proof.
  intros Hm. induction fuel as [|fu IH]; intros l Hl; [done|]. cbn [hval]. rewrite (sim_look m m' l Hm Hl).
  destruct (m_heap m !! l) as [[c v]|] eqn:El; [|done]. cbn [option_map]. unfold moved. cbn [ocls oval].
  pose proof (okm_parts M1 H1 m l _ (proj1 Hm) Hl El) as Hp.
  destruct v as [|n| | |xs| | | | | | | | | |k st]; cbn [moved_val]; try done;
    try (split; [done|]; intros k [= <-]; done).
  - unfold num_hv. destruct (num_val n) as [a b]. destruct (is_nan a || is_nan b); (split; [done|]); intros k [= <-]; done.
  - destruct (isinst c CTuple); [|done]. unfold parts, refs in Hp. simpl in Hp. clear El Hl.
    assert (res_mapM (hval fu (m_heap m')) (map mv xs) = res_map (map moved_hv) (res_mapM (hval fu (m_heap m)) xs) /\
            forall ks, res_mapM (hval fu (m_heap m)) xs = Ok ks -> Forall hv_new ks) as [X Y].
    { induction xs as [|x xs IHx]; [by split; [|intros ks [= <-]; apply Forall_nil_2]|]. apply Forall_cons_1 in Hp as [Hx Hxs].
      destruct (IHx Hxs) as [X Y]. destruct (IH x Hx) as [X0 Y0]. cbn [map res_mapM]. rewrite X0, X. clear X X0 IHx.
      destruct (hval fu (m_heap m) x) as [k|]; cbn [res_map res_bind]; [|done].
      destruct (res_mapM _ xs) as [ks|]; cbn [res_map res_bind]; [|done]. split; [done|]. intros ks' [= <-].
      apply Forall_cons_2; [by apply Y0|by apply Y]. }
    rewrite X. destruct (res_mapM _ xs) as [ks|]; cbn [res_map]; [|done]. specialize (Y ks eq_refl). clear -Y. split.
    + f_equal. induction ks as [|k ks IHk]; [done|]. simpl. apply Forall_cons_1 in Y as [_ Y]. by rewrite IHk.
    + intros k [= <-]. induction ks as [|k ks IHk]; [done|]. apply Forall_cons_1 in Y as [? Y]. split; [done|]. by apply IHk.
  - destruct k; (split; [done|]); intros k [= <-]; done.
Qed.

Definition mvp (p : hv * loc) : hv * loc := (moved_hv (fst p), mv (snd p)).
Definition set_ok (s : list (hv * loc)) : Prop := Forall (fun p => hv_new (fst p) /\ new (snd p)) s.
Lemma sim_has_key k s : hv_new k -> set_ok s -> has_key (moved_hv k) (map mvp s) = has_key k s.
Proof.
  intros Hk. induction s as [|[k' l] s IH]; intros Hs; [done|]. apply Forall_cons_1 in Hs as [[Hk' _] Hs]. cbn [map has_key mvp fst snd].
  by rewrite IH, moved_hv_eq.
Qed.
Lemma sim_set_add fuel m m' s x : sim m m' -> set_ok s -> new x ->
  set_add fuel (m_heap m') (map mvp s) (mv x) = res_map (map mvp) (set_add fuel (m_heap m) s x) /\
  forall s', set_add fuel (m_heap m) s x = Ok s' -> set_ok s'.
Proof.
  intros Hm Hs Hx. unfold set_add. destruct (sim_hval m m' Hm fuel x Hx) as [-> Y].
  destruct (hval fuel (m_heap m) x) as [k|]; cbn [res_map]; [|done]. specialize (Y k eq_refl). rewrite sim_has_key by done.
  destruct (has_key k s); [split; [done|]; by intros s' [= <-]|]. split; [by rewrite map_app|]. intros s' [= <-].
  apply Forall_app_2; [done|]. by apply Forall_cons_2; [|apply Forall_nil_2].
Qed.
Lemma sim_set_of fuel m m' xs : sim m m' -> Forall new xs -> forall s, set_ok s ->
  set_of fuel (m_heap m') (map mvp s) (map mv xs) = res_map (map mvp) (set_of fuel (m_heap m) s xs) /\
  forall s', set_of fuel (m_heap m) s xs = Ok s' -> set_ok s'.
Proof.
  intros Hm. induction xs as [|x xs IH]; intros Hx s Hs; [split; [done|]; by intros s' [= <-]|]. apply Forall_cons_1 in Hx as [Hx Hxs].
  cbn [set_of map]. destruct (sim_set_add fuel m m' s x Hm Hs Hx) as [-> Y].
  destruct (set_add fuel (m_heap m) s x) as [s1|]; cbn [res_map res_bind]; [|done]. apply IH; [done|]. by apply Y.
Qed.
Lemma map_snd_mvp s : map snd (map mvp s) = map mv (map snd s).
Proof. rewrite !map_map. done. Qed.
Lemma set_ok_new s : set_ok s -> Forall new (map snd s).
Proof. intros H. apply Forall_map. eapply list.Forall_impl; [exact H|]. by intros ? [? ?]. Qed.

Lemma map_mv_nil xs : bool_decide (map mv xs = []) = bool_decide (xs = []).
Proof. by destruct xs. Qed.
Lemma sim_construct fuel pt xs m m' : sim m m' -> Forall new xs ->
  simr (construct_seq fuel pt xs m) (construct_seq fuel pt (map mv xs) m').
Proof.
  intros Hm Hx. unfold construct_seq. destruct (base_cls pt) eqn:Ebc; try done.
  - apply (sim_alloc (Obj pt (VSeq xs))); [done| |done]. by intros [= ->].
  - rewrite map_mv_nil. destruct (_ && _) eqn:Eb; [split; [done|]; split; [by left|done]|].
    apply (sim_alloc (Obj pt (VSeq xs))); [done| |done]. intros [= -> ->]. done.
  - destruct (sim_set_of fuel m m' xs Hm Hx [] (Forall_nil_2 _)) as [X Y]. cbn [map] in X. rewrite X. clear X.
    destruct (set_of fuel (m_heap m) [] xs) as [s|]; cbn [res_map]; [|done]. rewrite map_snd_mvp.
    apply (sim_alloc (Obj pt (VSeq (map snd s)))); [done|by intros [= ->]|]. apply set_ok_new. by apply Y.
  - destruct (_ =? _); [|done]. pose proof (sim_alloc (Obj CList (VSeq xs)) m m' Hm ltac:(by intros [=]) Hx) as X.
    change (moved mv (Obj CList (VSeq xs))) with (Obj CList (VSeq (map mv xs))) in X.
    destruct (alloc (Obj CList (VSeq xs)) m) as [m1 l], (alloc (Obj CList (VSeq (map mv xs))) m') as [m1' l'].
    destruct X as (X1 & X2 & ->). apply (sim_alloc (Obj pt (VSeq [l]))); [done|by intros [=]|]. simpl. by apply Forall_cons_2; [|apply Forall_nil_2].
Qed.

(** ** Load functions *)
Lemma sim_alloc_atom o m m' : sim m m' -> atomic o -> simr (Ok (alloc o m)) (Ok (alloc o m')).
Proof. intros Hm [Hp Hne]. pose proof (sim_alloc o m m' Hm Hne) as X. rewrite Hp, moved_atom in X by done. apply X, Forall_nil_2. Qed.
Ltac same := apply sim_alloc_atom; [assumption|split; [reflexivity|by intros [=]]].
Lemma sim_then (os : list obj) m m' (k k' : mem * list loc -> res (mem * loc)) :
  sim m m' -> Forall atomic os ->
  (forall m1 m1' ls, sim m1 m1' -> Forall new ls -> simr (k (m1, ls)) (k' (m1', map mv ls))) ->
  simr (k (alloc_list os m)) (k' (alloc_list os m')).
Proof.
  intros Hm Ho Hk. destruct (sim_alloc_list os m m' Hm Ho) as (A & B & D).
  destruct (alloc_list os m) as [m1 ls], (alloc_list os m') as [m1' ls']. cbn [fst snd] in *. subst ls'. by apply Hk.
Qed.
Ltac steps := repeat (match goal with
  | |- simr (res_map _ ?e) (res_map _ ?e) => destruct e; cbn [res_map]
  | |- simr (res_bind ?e _) (res_bind ?e _) => destruct e; cbn [res_bind]
  | |- simr (Err ?e) (Err ?e) => reflexivity
  | |- simr (let '(_, _) := alloc_list _ _ in _) _ => fail 1
  | |- simr (match ?e with _ => _ end) (match ?e with _ => _ end) => destruct e
  end).

Lemma sim_load_list fuel a d pt m m' : sim m m' -> simr (load_list fuel a d pt m) (load_list fuel a d pt m').
Proof.
  intros Hm. unfold load_list.
  assert (forall os, Forall atomic os -> simr (let '(m1, ls) := alloc_list os m in construct_seq fuel pt ls m1)
    (let '(m1, ls) := alloc_list os m' in construct_seq fuel pt ls m1)) as X.
  { intros os Ho. apply (sim_then os m m' (fun '(m1, ls) => construct_seq fuel pt ls m1) (fun '(m1, ls) => construct_seq fuel pt ls m1)); [done|done|].
    intros. by apply sim_construct. }
  steps; try same; try (by apply X, atoms_none); apply (sim_construct fuel pt [] m m' Hm), Forall_nil_2.
Qed.
Lemma sim_load_fn E fuel fn a d orig pt m m' : sim m m' -> simr (load_fn E fuel fn a d orig pt m) (load_fn E fuel fn a d orig pt m').
Proof.
  intros Hm. destruct fn; cbn [load_fn].
  - unfold load_scalar. steps; same.
  - unfold load_none. same.
  - by apply sim_load_list.
  - unfold load_4x_string. steps; try same; by apply sim_load_list.
  - unfold load_pickled. steps; same.
  - split; [done|]. split; [by left|done].
  - unfold recover_dataset. same.
  - unfold load_np_scalar. steps; same.
  - unfold load_np_dtype. steps; same.
  - unfold load_ndarray.
    assert (forall sh os, Forall atomic os -> simr (let '(m1, ls) := alloc_list os m in Ok (alloc (Obj (arr_cls pt) (VObjArr sh ls)) m1))
      (let '(m1, ls) := alloc_list os m' in Ok (alloc (Obj (arr_cls pt) (VObjArr sh ls)) m1))) as X.
    { intros sh os Ho. apply (sim_then os m m' (fun '(m1, ls) => Ok (alloc (Obj (arr_cls pt) (VObjArr sh ls)) m1)) (fun '(m1, ls) => Ok (alloc (Obj (arr_cls pt) (VObjArr sh ls)) m1))); [done|done|].
      intros m1 m1' ls Hm1 Hls. apply (sim_alloc (Obj (arr_cls pt) (VObjArr sh ls))); [done|by intros [=]|done]. }
    steps; try same; try (by apply X, atoms_none).
    pose proof (X [] [Obj (COpaque (str "h5py") (str "Empty")) (VOpaque OByValue 0)]) as Y. cbn [alloc_list] in Y.
    destruct (alloc (Obj (COpaque (str "h5py") (str "Empty")) (VOpaque OByValue 0)) m), (alloc (Obj (COpaque (str "h5py") (str "Empty")) (VOpaque OByValue 0)) m').
    apply Y. by apply Forall_cons_2; [|apply Forall_nil_2].
  - done.
Qed.
Lemma sim_masked a d mk pt m m' : sim m m' -> simr (load_ndarray_masked a d mk pt m) (load_ndarray_masked a d mk pt m').
Proof.
  intros Hm. unfold load_ndarray_masked. destruct (dataset_numbers d) as [[shape vs]|]; cbn [res_bind]; [|done].
  destruct mk as [md|]; [|done]. destruct (dataset_numbers md) as [[sh ms]|]; cbn [res_bind]; [|done].
  destruct (attr_dtype a); cbn [res_bind]; [|done]. destruct (parse_adtype _) as [ad|]; cbn [res_bind]; [|done].
  destruct ad as [dt| |]; try done. destruct (res_mapM (cast dt) vs) as [vs'|]; cbn [res_bind]; [|done].
  destruct (res_bind _ (fit_mask _)) as [ms'|]; cbn [res_bind]; [|done].
  pose proof (sim_alloc_atom (Obj CNdarray (VArr dt shape vs')) m m' Hm ltac:(split; [done|by intros [=]])) as X1.
  destruct (alloc (Obj CNdarray (VArr dt shape vs')) m) as [m1 l1], (alloc (Obj CNdarray (VArr dt shape vs')) m') as [m1' l1'].
  destruct X1 as (X1 & Y1 & ->).
  pose proof (sim_alloc_atom (Obj CNdarray (VArr DBool shape ms')) m1 m1' X1 ltac:(split; [done|by intros [=]])) as X2.
  destruct (alloc (Obj CNdarray (VArr DBool shape ms')) m1) as [m2 l2], (alloc (Obj CNdarray (VArr DBool shape ms')) m1') as [m2' l2'].
  destruct X2 as (X2 & Y2 & ->). apply (sim_alloc (Obj pt (VMasked l1 l2))); [done|by intros [=]|]. by repeat (apply Forall_cons_2; [done|]).
Qed.
Lemma sim_load_dataset E fuel f a fn at_ d orig pt m m' : sim m m' ->
  simr (load_dataset E fuel f a fn at_ d orig pt m) (load_dataset E fuel f a fn at_ d orig pt m').
Proof.
  intros Hm. destruct fn; try exact (sim_load_fn _ _ _ _ _ _ _ _ _ Hm). cbn [load_dataset].
  destruct (mask_data f a) as [mk|]; cbn [res_bind]; [|done]. by apply sim_masked.
Qed.

(** ** Containers *)
Definition mv_slot (s : dslot) : dslot :=
  match s with SHole => SHole | SPair k v => SPair (mv k) (mv v) | SItem l => SItem (mv l) end.
Definition mv_item (it : pystr * (loc * option attrs)) : pystr * (loc * option attrs) := (fst it, (mv (fst (snd it)), snd (snd it))).
Definition mv_cs (cs : cstate) : cstate :=
  match cs with
  | SList xs => SList (map mv xs)
  | SSet s => SSet (map mvp s)
  | SDict slots => SDict (map mv_slot slots)
  | SNd l => SNd (mv l)
  | SNamed kvs => SNamed (map (fun kv => (fst kv, mv (snd kv))) kvs)
  | SSlots xs => SSlots (map (option_map mv) xs)
  | SRec items => SRec (map mv_item items)
  end.
Definition cs_ok (cs : cstate) : Prop := cs_new M1 cs /\ match cs with SSet s => set_ok s | _ => True end.
Definition simc (r r' : res (mem * cstate)) : Prop :=
  match r, r' with
  | Ok (m, cs), Ok (m', cs') => sim m m' /\ cs_ok cs /\ cs' = mv_cs cs
  | Err e, Err e' => e = e'
  | _, _ => False
  end.

Lemma map_repeat' {A B : Type} (g : A -> B) x n : map g (repeat x n) = repeat (g x) n.
Proof. induction n; simpl; [done|]. by f_equal. Qed.
Lemma sim_init k a : mv_cs (cont_init k a) = cont_init k a /\ cs_ok (cont_init k a).
Proof.
  split; [|split; [apply cont_init_new|destruct k; try exact I; apply Forall_nil_2]].
  destruct k; simpl; try done; by rewrite map_repeat'.
Qed.
Lemma mv_set_slot {A B : Type} (P : A -> Prop) (g : A -> B) hole is_hole hole' is_hole' i x xs :
  g hole = hole' -> (forall y, P y -> is_hole' (g y) = is_hole y) -> P hole -> Forall P xs ->
  set_slot hole' is_hole' i (g x) (map g xs) = res_map (map g) (set_slot hole is_hole i x xs).
Proof.
  intros <- Hh Hp Hx. unfold set_slot. rewrite map_length, <-map_repeat', <-map_app.
  assert (Forall P (xs ++ repeat hole (i + 1 - length xs))) as Hf. { apply Forall_app_2; [done|]. by apply repeat_new. }
  rewrite list_lookup_fmap. destruct ((xs ++ repeat hole (i + 1 - length xs)) !! i) as [y|] eqn:Ey; cbn [fmap option_fmap option_map]; [|done].
  rewrite Hh by (by eapply Forall_lookup_1). destruct (is_hole y); cbn [res_map]; [|done]. f_equal. symmetry. apply list_fmap_insert.
Qed.
Lemma mv_list_append nm l a xs : new l -> Forall new xs ->
  list_append nm (mv l) a (map mv xs) = res_map (map mv) (list_append nm l a xs).
Proof.
  intros Hl Hx. unfold list_append. destruct (index_of _) as [oi|]; cbn [res_bind]; [|done].
  assert (forall i, set_slot nobody (N.eqb nobody) i (mv l) (map mv xs) = res_map (map mv) (set_slot nobody (N.eqb nobody) i l xs)) as X.
  { intros i. apply (mv_set_slot new); [done| |by left|done]. intros y Hy. by apply mv_is_nobody'. }
  destruct oi; [apply X|]. destruct (trailing_int nm); [apply X|]. rewrite mv_is_nobody by done. by destruct (_ =? _).
Qed.
Lemma mv_slot_hole s : slot_new M1 s -> slot_is_hole (mv_slot s) = slot_is_hole s.
Proof. destruct s; simpl; try done. intros Hl. by apply mv_is_nobody. Qed.
Lemma alist_set_map {A B : Type} (g : A -> B) nm v (kvs : list (pystr * A)) :
  alist_set nm (g v) (map (fun kv => (fst kv, g (snd kv))) kvs) = map (fun kv => (fst kv, g (snd kv))) (alist_set nm v kvs).
Proof. induction kvs as [|[k w] r IH]; simpl; [done|]. destruct (decide _); simpl; [done|]. by rewrite IH. Qed.

Definition simd (r r' : res (mem * list dslot)) : Prop :=
  match r, r' with
  | Ok (m, s), Ok (m', s') => sim m m' /\ Forall (slot_new M1) s /\ s' = map mv_slot s
  | Err e, Err e' => e = e'
  | _, _ => False
  end.
Lemma sim_dict_append E nm l a slots m m' : sim m m' -> new l -> Forall (slot_new M1) slots ->
  simd (dict_append E nm l a slots m) (dict_append E nm (mv l) a (map mv_slot slots) m').
Proof.
  intros Hm Hl Hs. unfold dict_append. destruct (dict_key _ _ _) as [ok|] eqn:Ek; cbn [res_bind]; [|done].
  assert (exists m1 m1' slot, match ok with Some o => let '(m1, l0) := alloc o m in (m1, SPair l0 l) | None => (m, SItem l) end = (m1, slot)
     /\ match ok with Some o => let '(m1, l0) := alloc o m' in (m1, SPair l0 (mv l)) | None => (m', SItem (mv l)) end = (m1', mv_slot slot)
     /\ sim m1 m1' /\ slot_new M1 slot) as (m1 & m1' & slot & -> & -> & Hm1 & Hslot).
  { destruct ok as [o|]; [|by eexists _, _, _]. pose proof (sim_alloc_atom o m m' Hm (dict_key_parts _ _ _ _ Ek)) as X.
    destruct (alloc o m) as [m1 l1], (alloc o m') as [m1' l1']. destruct X as (X & Y & ->). by eexists _, _, _. }
  destruct (index_of _) as [oi|]; cbn [res_bind]; [|done]. destruct oi as [i|].
  - rewrite (mv_set_slot (slot_new M1) mv_slot SHole slot_is_hole SHole slot_is_hole i slot slots eq_refl mv_slot_hole I Hs).
    destruct (set_slot SHole slot_is_hole i slot slots) as [s'|] eqn:Es; cbn [res_map]; [|done]. split; [done|]. split; [|done].
    by eapply (set_slot_new (slot_new M1)); [exact Es| | |].
  - destruct slot as [|k v|]; cbn [mv_slot]; try done. rewrite mv_is_nobody by apply Hslot. by destruct (_ =? _).
Qed.

Lemma sim_append E fuel k nm l a cs m m' : sim m m' -> new l -> cs_ok cs ->
  simc (cont_append E fuel k nm l a cs m) (cont_append E fuel k nm (mv l) a (mv_cs cs) m').
Proof.
  intros Hm Hl [Hc Hset].
  assert (forall cs', cs_new M1 cs' -> match cs' with SSet _ => False | _ => True end -> cs_ok cs') as Hok.
  { intros cs' Hn Hx. split; [done|]. by destruct cs'. }
  assert (forall xs, Forall new xs -> Forall new (xs ++ [l])) as Hsn.
  { intros xs Hx. by apply Forall_app_2; [|apply Forall_cons_2]. }
  assert (forall cs, cs_new M1 cs -> simc (res_map (fun cs => (m, cs)) (nd_append nm l a cs)) (res_map (fun cs => (m', cs)) (nd_append nm (mv l) a (mv_cs cs)))) as Hnd.
  { clear cs Hc Hset. intros cs Hc. unfold nd_append. destruct (orb _ _); [split; [done|]; by split; [apply Hok|]|].
    destruct cs as [xs| | | | | |]; cbn [mv_cs]; try done. rewrite mv_list_append by done.
    destruct (list_append nm l a xs) as [ys|] eqn:El; cbn [res_map]; [|done]. split; [done|]. split; [|done]. apply Hok; [|done]. by eapply list_append_new. }
  destruct k; destruct cs as [xs|s|slots|l0|kvs|xs|items]; cbn [cont_append mv_cs]; try (done || (by apply Hnd));
    try (split; [done|]; split; [apply Hok; [by apply Hsn|done]|]; simpl; by rewrite map_app).
  - rewrite mv_list_append by done. destruct (list_append nm l a xs) as [ys|] eqn:El; cbn [res_map]; [|done]. split; [done|].
    split; [|done]. apply Hok; [|done]. by eapply list_append_new.
  - destruct (sim_set_add fuel m m' s l Hm Hset Hl) as [-> Y]. destruct (set_add fuel (m_heap m) s l) as [s1|]; cbn [res_map]; [|done].
    specialize (Y s1 eq_refl). split; [done|]. split; [|done]. split; [by apply set_ok_new|done].
  - pose proof (sim_dict_append E nm l a slots m m' Hm Hl Hc) as X.
    destruct (dict_append E nm l a slots m) as [[m1 s1]|], (dict_append E nm (mv l) a (map mv_slot slots) m') as [[m1' s1']|]; cbn [res_map]; try done.
    destruct X as (X1 & X2 & ->). split; [done|]. by split; [apply Hok|].
  - split; [done|]. assert (is_recovered m' (mv l) = is_recovered m l) as ->.
    { unfold is_recovered. rewrite (sim_look m m' l Hm Hl). by destruct (m_heap m !! l). }
    split.
    + apply Hok; [|done]. simpl. rewrite <-(map_map snd fst). apply Forall_map, (alist_set_new (fun x => new (fst x))); [done|].
      simpl in Hc. rewrite <-(map_map snd fst) in Hc. exact (proj1 (Forall_map _ _ _) Hc).
    + simpl. f_equal. apply (alist_set_map (fun v : loc * option attrs => (mv (fst v), snd v)) nm (l, if is_recovered m l then None else Some (rec_attrs a))).
  - split; [done|]. split; [apply Hok; [|done]; by apply (alist_set_new new)|]. simpl. by rewrite alist_set_map.
  - destruct (sparse_index nm) as [i|]; [|done]. split; [done|]. split.
    + apply Hok; [|done]. by apply Forall_insert.
    + simpl. f_equal. symmetry. apply (list_fmap_insert (option_map mv)).
Qed.

(** ** convert *)
Definition mv2 (p : loc * loc) : loc * loc := (mv (fst p), mv (snd p)).
Lemma sim_slot_pair m m' s : sim m m' -> slot_new M1 s ->
  slot_pair (m_heap m') (mv_slot s) = res_map mv2 (slot_pair (m_heap m) s).
Proof.
  intros Hm Hs. destruct s as [|k v|l]; cbn [mv_slot slot_pair]; try done. rewrite (sim_look m m' l Hm Hs).
  destruct (m_heap m !! l) as [[c w]|]; cbn [option_map]; [|done]. unfold moved. cbn [ocls oval].
  destruct w as [| | | |xs| | | | | | | | | |]; cbn [moved_val]; try done. destruct xs as [|x [|y [|]]]; cbn [map]; try done. by destruct (isinst _ _).
Qed.
Lemma sim_slot_pairs m m' slots : sim m m' -> Forall (slot_new M1) slots ->
  res_mapM (slot_pair (m_heap m')) (map mv_slot slots) = res_map (map mv2) (res_mapM (slot_pair (m_heap m)) slots).
Proof.
  intros Hm. induction slots as [|s r IH]; intros Hs; [done|]. apply Forall_cons_1 in Hs as [Hs Hr]. cbn [map res_mapM].
  rewrite (sim_slot_pair m m' s Hm Hs). destruct (slot_pair (m_heap m) s); cbn [res_map res_bind]; [|done]. rewrite IH by done. by destruct (res_mapM _ r).
Qed.
Definition mv_entry (p : hv * (loc * loc)) : hv * (loc * loc) := (moved_hv (fst p), mv2 (snd p)).
Definition entries_ok (d : list (hv * (loc * loc))) : Prop := Forall (fun p => hv_new (fst p) /\ pair_new M1 p) d.
Lemma sim_dict_put k kl vl d : hv_new k -> new kl -> new vl -> entries_ok d ->
  dict_put (moved_hv k) (mv kl) (mv vl) (map mv_entry d) = map mv_entry (dict_put k kl vl d) /\ entries_ok (dict_put k kl vl d).
Proof.
  intros Hk Hkl Hvl. induction d as [|[k' [a b]] r IH]; intros Hd; [split; [done|]; by apply Forall_cons_2; [|apply Forall_nil_2]|].
  apply Forall_cons_1 in Hd as [[Hk' [Ha Hb]] Hr]. simpl in Hk'. destruct (IH Hr) as [X Y].
  cbn [map dict_put]. unfold mv_entry at 1. cbn [fst snd mv2]. rewrite moved_hv_eq by done.
  destruct (bool_decide _); cbn [map].
  - split; [done|]. by apply Forall_cons_2.
  - split; [by rewrite X|]. by apply Forall_cons_2.
Qed.
Lemma sim_dict_of fuel m m' ps : sim m m' -> Forall (fun p => new (fst p) /\ new (snd p)) ps -> forall d, entries_ok d ->
  dict_of fuel (m_heap m') (map mv_entry d) (map mv2 ps) = res_map (map mv_entry) (dict_of fuel (m_heap m) d ps).
Proof.
  intros Hm. induction ps as [|[k v] r IH]; intros Hp d Hd; [done|]. apply Forall_cons_1 in Hp as [[Hk Hv] Hr]. cbn [map mv2 dict_of fst snd].
  destruct (sim_hval m m' Hm fuel k Hk) as [-> Y]. destruct (hval fuel (m_heap m) k) as [h|]; cbn [res_map res_bind]; [|done].
  destruct (sim_dict_put h k v d (Y h eq_refl) Hk Hv Hd) as [-> Hd']. by apply IH.
Qed.

Definition mv_count (p : hv * (loc * Z)) : hv * (loc * Z) := (moved_hv (fst p), (mv (fst (snd p)), snd (snd p))).
Definition counts_ok (d : list (hv * (loc * Z))) : Prop := Forall (fun p => hv_new (fst p) /\ count_new M1 p) d.
Lemma sim_count_put k l d : hv_new k -> new l -> counts_ok d ->
  count_put (moved_hv k) (mv l) (map mv_count d) = map mv_count (count_put k l d) /\ counts_ok (count_put k l d).
Proof.
  intros Hk Hl. induction d as [|[k' [a n]] r IH]; intros Hd; [split; [done|]; by apply Forall_cons_2; [|apply Forall_nil_2]|].
  apply Forall_cons_1 in Hd as [[Hk' Ha] Hr]. simpl in Hk'. destruct (IH Hr) as [X Y].
  cbn [map count_put]. unfold mv_count at 1. cbn [fst snd]. rewrite moved_hv_eq by done.
  destruct (bool_decide _); cbn [map].
  - split; [done|]. by apply Forall_cons_2.
  - split; [by rewrite X|]. by apply Forall_cons_2.
Qed.
Definition simk (r r' : res (mem * list (hv * (loc * Z)))) : Prop :=
  match r, r' with
  | Ok (m, d), Ok (m', d') => sim m m' /\ counts_ok d /\ d' = map mv_count d
  | Err e, Err e' => e = e'
  | _, _ => False
  end.
Lemma sim_count_slots fuel slots : forall d m m', sim m m' -> Forall (slot_new M1) slots -> counts_ok d ->
  simk (count_slots fuel slots d m) (count_slots fuel (map mv_slot slots) (map mv_count d) m').
Proof.
  induction slots as [|s r IH]; intros d m m' Hm Hs Hd; [done|]. apply Forall_cons_1 in Hs as [Hs Hr]. cbn [map count_slots].
  assert (exists m1 m1' l, match s with SHole => (m, nobody) | SPair k v => alloc (Obj CTuple (VSeq [k; v])) m | SItem l => (m, l) end = (m1, l) /\
    match mv_slot s with SHole => (m', nobody) | SPair k v => alloc (Obj CTuple (VSeq [k; v])) m' | SItem l => (m', l) end = (m1', mv l) /\
    sim m1 m1' /\ new l) as (m1 & m1' & l & -> & -> & Hm1 & Hl).
  { destruct s as [|k v|l]; cbn [mv_slot].
    - exists m, m', nobody. split; [done|]. split; [done|]. split; [done|]. by left.
    - destruct Hs as [Hk Hv]. pose proof (sim_alloc (Obj CTuple (VSeq [k; v])) m m' Hm ltac:(by intros [=]) ltac:(by repeat (apply Forall_cons_2; [done|]))) as X.
      change (moved mv (Obj CTuple (VSeq [k; v]))) with (Obj CTuple (VSeq [mv k; mv v])) in X.
      destruct (alloc (Obj CTuple (VSeq [k; v])) m) as [m1 l], (alloc (Obj CTuple (VSeq [mv k; mv v])) m') as [m1' l']. destruct X as (X & Y & ->). by eexists _, _, _.
    - by exists m, m', l. }
  destruct (sim_hval m1 m1' Hm1 fuel l Hl) as [-> Y]. destruct (hval fuel (m_heap m1) l) as [k|]; cbn [res_map res_bind]; [|done].
  destruct (sim_count_put k l d (Y k eq_refl) Hl Hd) as [-> Hd']. by apply IH.
Qed.

Lemma sim_dict_convert fuel pt slots m m' : sim m m' -> Forall (slot_new M1) slots ->
  simr (dict_convert fuel pt slots m) (dict_convert fuel pt (map mv_slot slots) m').
Proof.
  intros Hm Hs. unfold dict_convert.
  assert (simr (res_bind (res_mapM (slot_pair (m_heap m)) slots) (fun ps =>
        res_map (fun d => alloc (Obj pt (VDict (map snd d))) m) (dict_of fuel (m_heap m) [] ps)))
     (res_bind (res_mapM (slot_pair (m_heap m')) (map mv_slot slots)) (fun ps =>
        res_map (fun d => alloc (Obj pt (VDict (map snd d))) m') (dict_of fuel (m_heap m') [] ps)))) as Hd.
  { rewrite (sim_slot_pairs m m' slots Hm Hs). destruct (res_mapM (slot_pair (m_heap m)) slots) as [ps|] eqn:Ep; cbn [res_map res_bind]; [|done].
    pose proof (slot_pairs_new M1 H1 m slots ps (proj1 Hm) Ep Hs) as Hps.
    pose proof (sim_dict_of fuel m m' ps Hm Hps [] (Forall_nil_2 _)) as X. cbn [map] in X. rewrite X.
    destruct (dict_of fuel (m_heap m) [] ps) as [d|] eqn:Ed; cbn [res_map]; [|done].
    pose proof (dict_of_new M1 _ _ _ _ _ Ed Hps (Forall_nil_2 _)) as Hd. apply dict_parts in Hd.
    pose proof (sim_alloc (Obj pt (VDict (map snd d))) m m' Hm ltac:(by intros [=]) Hd) as Y.
    replace (map snd (map mv_entry d)) with (map (fun '(k, v) => (mv k, mv v)) (map snd d)); [exact Y|].
    rewrite !map_map. apply map_ext. by intros [? [? ?]]. }
  destruct (base_cls pt); try done; try exact Hd.
  pose proof (sim_count_slots fuel slots [] m m' Hm Hs (Forall_nil_2 _)) as X. cbn [map] in X.
  destruct (count_slots fuel slots [] m) as [[m1 d]|], (count_slots fuel (map mv_slot slots) [] m') as [[m1' d']|]; cbn [res_map]; try done.
  destruct X as (X1 & X2 & ->).
  replace (map (fun '(_, (_, n)) => Obj CInt (VNum (NZ n))) (map mv_count d)) with (map (fun '((_, (_, n)) : hv * (loc * Z)) => Obj CInt (VNum (NZ n))) d)
    by (rewrite map_map; apply map_ext; by intros [? [? ?]]).
  set (os := map (fun '((_, (_, n)) : hv * (loc * Z)) => Obj CInt (VNum (NZ n))) d).
  destruct (alloc_list os m1) as [m2 vs] eqn:E1, (alloc_list os m1') as [m2' vs'] eqn:E2.
  destruct (sim_list_eq os m1 m1' m2 vs m2' vs' E1 E2 X1) as (Y1 & Y2 & ->); [apply atoms_none; by intros [? [? ?]]|].
  assert (Forall new (map fst (zip (map (fun '(_, (l, _)) => l) d) vs) ++ map snd (zip (map (fun '(_, (l, _)) => l) d) vs))) as Hn.
  { apply list.Forall_forall. intros l Hl. apply elem_of_app in Hl as [Hl|Hl].
    - apply elem_of_list_fmap in Hl as ([a b] & -> & Hl). apply elem_of_zip_l in Hl.
      apply elem_of_list_fmap in Hl as ([? [? ?]] & -> & Hl). eapply list.Forall_forall in X2 as Hx; [|exact Hl]. apply Hx.
    - apply elem_of_list_fmap in Hl as ([a b] & -> & Hl). apply elem_of_zip_r in Hl.
      by eapply list.Forall_forall in Y2 as Hx; [|exact Hl]. }
  pose proof (sim_alloc (Obj pt (VDict (zip (map (fun '(_, (l, _)) => l) d) vs))) m2 m2' Y1 ltac:(by intros [=]) Hn) as HZ.
  replace (zip (map (fun '(_, (l, _)) => l) (map mv_count d)) (map mv vs)) with (map (fun '(k, v) => (mv k, mv v)) (zip (map (fun '((_, (l, _)) : hv * (loc * Z)) => l) d) vs)); [exact HZ|].
  clear. revert vs. induction d as [|[k [l n]] d IH]; intros vs; [done|]. destruct vs as [|v vs]; [done|]. simpl. by rewrite IH.
Qed.

Lemma sim_discover m m' : sim m m' -> forall fuel l, new l -> discover fuel (m_heap m') (mv l) = discover fuel (m_heap m) l.
Proof.
  intros Hm. induction fuel as [|fu IH]; intros l Hl; [done|]. cbn [discover]. rewrite (sim_look m m' l Hm Hl).
  destruct (m_heap m !! l) as [[c v]|] eqn:El; [|done]. cbn [option_map]. unfold moved. cbn [ocls oval].
  pose proof (okm_parts M1 H1 m l _ (proj1 Hm) Hl El) as Hp.
  destruct v as [| | | |xs| | | | | | | | | |]; cbn [moved_val]; try done. rewrite map_length. destruct (_ || _); [|done]. f_equal. f_equal.
  unfold parts, refs in Hp. simpl in Hp. rewrite map_map. clear -IH Hp. induction xs as [|x xs IHx]; [done|]. apply Forall_cons_1 in Hp as [Hx Hp].
  simpl. rewrite IH, IHx by done. done.
Qed.
Lemma sim_leaves m m' : sim m m' -> forall d l, new l -> leaves d (m_heap m') (mv l) = option_map (map mv) (leaves d (m_heap m) l).
Proof.
  intros Hm. induction d as [|d IH]; intros l Hl; [done|]. cbn [leaves]. rewrite (sim_look m m' l Hm Hl).
  destruct (m_heap m !! l) as [[c v]|] eqn:El; [|done]. cbn [option_map]. unfold moved. cbn [ocls oval].
  pose proof (okm_parts M1 H1 m l _ (proj1 Hm) Hl El) as Hp.
  destruct v as [| | | |xs| | | | | | | | | |]; cbn [moved_val]; try done. unfold parts, refs in Hp. simpl in Hp. clear El Hl.
  assert (mapM (leaves d (m_heap m')) (map mv xs) = option_map (map (map mv)) (mapM (leaves d (m_heap m)) xs)) as ->.
  { induction xs as [|x xs IHx]; [done|]. apply Forall_cons_1 in Hp as [Hx Hp]. specialize (IHx Hp). cbn [map mapM]. rewrite IH by done.
    destruct (leaves d (m_heap m) x) as [y|]; cbn [option_map]; [|done].
    destruct (mapM (leaves d (m_heap m')) (map mv xs)) as [ys'|], (mapM (leaves d (m_heap m)) xs) as [ys|]; try done. injection IHx as ->. done. }
  destruct (mapM _ xs) as [yss|]; cbn [option_map]; [|done]. f_equal. symmetry. apply concat_map.
Qed.
Lemma sim_awkward m m' l : sim m m' -> new l -> awkward (m_heap m') (mv l) = awkward (m_heap m) l.
Proof.
  intros Hm Hl. unfold awkward. rewrite (sim_look m m' l Hm Hl). destruct (m_heap m !! l) as [[c v]|]; [|done]. cbn [option_map]. unfold moved. cbn [ocls oval].
  by destruct v; cbn [moved_val].
Qed.
Lemma sim_str_of m m' l : sim m m' -> new l -> str_of (m_heap m') (mv l) = str_of (m_heap m) l.
Proof.
  intros Hm Hl. unfold str_of. rewrite (sim_look m m' l Hm Hl). destruct (m_heap m !! l) as [[c v]|]; [|done]. cbn [option_map]. unfold moved. cbn [ocls oval].
  by destruct v; cbn [moved_val].
Qed.
Lemma sim_nd_convert a pt cs m m' : sim m m' -> cs_new M1 cs -> simr (nd_convert a pt cs m) (nd_convert a pt (mv_cs cs) m').
Proof.
  intros Hm Hc. unfold nd_convert.
  assert (exists m1 m1' l, match cs with SList xs => alloc (Obj CList (VSeq xs)) m | SNd l => (m, l) | _ => (m, nobody) end = (m1, l) /\
     match mv_cs cs with SList xs => alloc (Obj CList (VSeq xs)) m' | SNd l => (m', l) | _ => (m', nobody) end = (m1', mv l)
     /\ sim m1 m1' /\ new l) as (m1 & m1' & l & -> & -> & Hm1 & Hl).
  { destruct cs as [xs| | |l| | |]; cbn [mv_cs]; try (exists m, m', nobody; split; [done|]; split; [done|]; split; [done|]; by left).
    - pose proof (sim_alloc (Obj CList (VSeq xs)) m m' Hm ltac:(by intros [=]) Hc) as X. change (moved mv (Obj CList (VSeq xs))) with (Obj CList (VSeq (map mv xs))) in X.
      destruct (alloc (Obj CList (VSeq xs)) m) as [m1 l], (alloc (Obj CList (VSeq (map mv xs))) m') as [m1' l']. destruct X as (X & Y & ->). by eexists _, _, _.
    - by exists m, m', l. }
  destruct (attr_dtype a) as [s|]; cbn [res_bind]; [|done]. destruct (parse_adtype s) as [ad|]; cbn [res_bind]; [|done].
  rewrite (sim_discover m1 m1' Hm1) by done. rewrite (sim_leaves m1 m1' Hm1) by done.
  set (sh := discover 32 (m_heap m1) l). destruct (leaves (length sh) (m_heap m1) l) as [ls|] eqn:Els; cbn [option_map]; [|done].
  pose proof (leaves_new M1 H1 m1 _ (proj1 Hm1) l ls Hl Els) as Hls.
  assert (existsb (awkward (m_heap m1')) (map mv ls) = existsb (awkward (m_heap m1)) ls) as ->.
  { clear Els. induction ls as [|x ls IH]; [done|]. apply Forall_cons_1 in Hls as [Hx Hls]. simpl. by rewrite (sim_awkward m1 m1'), IH. }
  destruct (existsb _ ls); [done|]. destruct ad as [|w|]; [done| |].
  - assert (res_mapM (str_of (m_heap m1')) (map mv ls) = res_mapM (str_of (m_heap m1)) ls) as ->.
    { clear Els. induction ls as [|x ls IH]; [done|]. apply Forall_cons_1 in Hls as [Hx Hls]. cbn [map res_mapM]. by rewrite (sim_str_of m1 m1'), IH. }
    destruct (res_mapM _ ls); cbn [res_bind]; [|done]. destruct (_ || _); [same|done].
  - destruct (_ || _); [|done]. apply (sim_alloc (Obj CNdarray (VObjArr sh ls))); [done|by intros [=]|done].
Qed.
Lemma alist_get_map {A B : Type} (g : A -> B) nm (kvs : list (pystr * A)) :
  alist_get nm (map (fun kv => (fst kv, g (snd kv))) kvs) = option_map g (alist_get nm kvs).
Proof. induction kvs as [|[k w] r IH]; simpl; [done|]. by destruct (decide _). Qed.

Lemma sim_convert fuel k a orig pt cs m m' : sim m m' -> cs_ok cs ->
  simr (cont_convert fuel k a orig pt cs m) (cont_convert fuel k a orig pt (mv_cs cs) m').
Proof.
  intros Hm [Hc Hset]. destruct k; destruct cs as [xs|s|slots|l0|kvs|xs|items]; cbn [cont_convert];
    try done; try (by apply sim_nd_convert); cbn [mv_cs]; try (unfold load_none; same).
  - destruct (bool_decide _); [|by apply sim_construct]. apply (sim_alloc (Obj CList (VSeq xs))); [done|by intros [=]|done].
  - rewrite map_snd_mvp. destruct (bool_decide _); [|by apply sim_construct]. apply (sim_alloc (Obj CSet (VSeq (map snd s)))); [done|by intros [=]|done].
  - by apply sim_dict_convert.
  - destruct xs as [|x xs]; [done|]. apply Forall_cons_1 in Hc as [Hx _]. done.
  - destruct xs as [|x xs]; [done|]. apply Forall_cons_1 in Hc as [Hx _]. done.
  - pose proof (sim_alloc (Obj CRecoveredGroup (VRecG items (rec_attrs (<[a_base_type := ABytes orig]> a)))) m m' Hm ltac:(by intros [=]) Hc) as X.
    unfold moved in X. cbn [ocls oval moved_val] in X.
    replace (map mv_item items) with (map (fun '(nm, (l, t)) => (nm, (mv l, t))) items); [exact X|]. apply map_ext. by intros [? [? ?]].
  - unfold masked_convert. rewrite !alist_get_map. destruct (alist_get (str "data") kvs) as [d|] eqn:Ed; cbn [option_map]; [|done].
    destruct (alist_get (str "mask") kvs) as [k|] eqn:Ek; cbn [option_map]; [|done].
    apply (sim_alloc (Obj pt (VMasked d k))); [done|by intros [=]|]. simpl in Hc. by repeat (apply Forall_cons_2; [by eapply (alist_get_in new)|]).
  - unfold sparse_convert. destruct xs as [|[d|] xs]; cbn [map option_map]; try done. destruct xs as [|[i|] xs]; cbn [map option_map]; try done.
    destruct xs as [|[p|] xs]; cbn [map option_map]; try done. destruct xs as [|[q|] xs]; cbn [map option_map]; try done.
    destruct xs; cbn [map]; try done. apply (sim_alloc (Obj pt (VSparse d i p q))); [done|by intros [=]|].
    simpl in Hc. repeat (apply Forall_cons_1 in Hc as [? Hc]; apply Forall_cons_2; [done|]). done.
Qed.

(** ** The whole load *)
Definition sims (s s' : lst) : Prop :=
  sim (l_mem s) (l_mem s') /\ (forall a l, l_memo s !! a = Some l -> new l) /\
  forall a, l_memo s' !! a = option_map mv (l_memo s !! a).
Definition siml (r r' : res (lst * loc)) : Prop :=
  match r, r' with
  | Ok (s, l), Ok (s', l') => sims s s' /\ new l /\ l' = mv l
  | Err e, Err e' => e = e'
  | _, _ => False
  end.
Lemma sims_mem m m' s s' : sim m m' -> sims s s' -> sims (set_mem m s) (set_mem m' s').
Proof. intros Hm (_ & B & D). split; [exact Hm|]. by split. Qed.
Lemma sims_put a l s s' (memoise : bool) : new l -> sims s s' -> sims (if memoise then memo_put a l s else s) (if memoise then memo_put a (mv l) s' else s').
Proof.
  intros Hl (A & B & D). destruct memoise; [|by split]. split; [exact A|]. cbn [memo_put l_memo]. split.
  - intros a' l'. destruct (decide (a' = a)) as [->|Hn]; [rewrite lookup_insert; by intros [= <-]|rewrite lookup_insert_ne by done; apply B].
  - intros a'. destruct (decide (a' = a)) as [->|Hn]; [by rewrite !lookup_insert|by rewrite !lookup_insert_ne by done].
Qed.
Definition simm {A} (r r' : res (lst * cstate * A)) : Prop :=
  match r, r' with
  | Ok (s, cs, x), Ok (s', cs', x') => sims s s' /\ cs_ok cs /\ cs' = mv_cs cs /\ x = x'
  | Err e, Err e' => e = e'
  | _, _ => False
  end.
Lemma sim_members E fuel f rec rec' k ms : (forall a s s', sims s s' -> siml (rec a s) (rec' a s')) ->
  forall cs s s', sims s s' -> cs_ok cs ->
  match load_members E fuel f rec k ms cs s, load_members E fuel f rec' k ms (mv_cs cs) s' with
  | Ok (s, cs), Ok (s', cs') => sims s s' /\ cs_ok cs /\ cs' = mv_cs cs
  | Err e, Err e' => e = e'
  | _, _ => False
  end.
Proof.
  intros Hr. induction ms as [|[nm a] ms IH]; intros cs s s' Hs Hc; cbn [load_members]; [done|].
  destruct (get_node f a) as [n|]; [|done]. specialize (Hr a s s' Hs).
  destruct (rec a s) as [[s1 l]|], (rec' a s') as [[s1' l']|]; cbn [res_bind]; try done. destruct Hr as (Hs1 & Hl & ->).
  pose proof (sim_append E fuel k nm l (nd_attrs n) cs (l_mem s1) (l_mem s1') (proj1 Hs1) Hl Hc) as X.
  destruct (cont_append _ _ _ _ l _ _ _) as [[m2 cs2]|], (cont_append _ _ _ _ (mv l) _ _ _) as [[m2' cs2']|]; cbn [res_bind]; try done.
  destruct X as (X1 & X2 & ->). apply IH; [|done]. by apply sims_mem.
Qed.
Lemma sim_redirected E fuel LD f a n d at_ s s' : sims s s' ->
  siml (load_redirected E fuel LD f a n d at_ s) (load_redirected E fuel LD f a n d at_ s').
Proof.
  intros Hs. unfold load_redirected. rewrite (proj2 (proj2 Hs) a).
  destruct (l_memo s !! a) as [l|] eqn:El; cbn [option_map]; [split; [done|]; split; [by eapply Hs|done]|].
  destruct (resolve_type _ _ _ _) as [r|]; cbn [res_bind]; [|done]. destruct (ld_load _ _ _) as [[c memoise]|]; cbn [res_bind]; [|done].
  pose proof (sim_load_dataset E fuel f a (default LRecover (ld_types LD (r_base r))) at_ d (r_orig r) c (l_mem s) (l_mem s') (proj1 Hs)) as X.
  destruct (load_dataset _ _ _ _ _ _ _ _ _ (l_mem s)) as [[m1 l1]|], (load_dataset _ _ _ _ _ _ _ _ _ (l_mem s')) as [[m1' l1']|]; cbn [res_map]; try done.
  destruct X as (X1 & X2 & ->). split; [|done]. apply sims_put; [done|]. by apply sims_mem.
Qed.
Lemma sim_redirect_members E fuel LD f ms : forall pt cs s s', sims s s' -> cs_ok cs ->
  simm (redirect_members E fuel LD f ms pt cs s) (redirect_members E fuel LD f ms pt (mv_cs cs) s').
Proof.
  induction ms as [|[nm a] ms IH]; intros pt cs s s' Hs Hc; cbn [redirect_members]; [done|].
  destruct (get_node f a) as [n|]; [|done]. destruct (Proxy.redirect _ _ _) as [[p|]|]; cbn [res_bind]; [| |done]; [|by apply IH].
  assert (forall d, simm (res_bind (if bool_decide (nm = str "data") then matrix_class E (nd_attrs n) else Ok pt) (fun pt' =>
       res_bind (load_redirected E fuel LD f a n d (Proxy.px_own p ∪ Proxy.px_node p) s) (fun '(s1, l) =>
         res_bind (cont_append E fuel KSparse nm l (Proxy.px_own p ∪ Proxy.px_node p) cs (l_mem s1)) (fun '(m, cs') =>
           redirect_members E fuel LD f ms pt' cs' (set_mem m s1)))))
     (res_bind (if bool_decide (nm = str "data") then matrix_class E (nd_attrs n) else Ok pt) (fun pt' =>
       res_bind (load_redirected E fuel LD f a n d (Proxy.px_own p ∪ Proxy.px_node p) s') (fun '(s1, l) =>
         res_bind (cont_append E fuel KSparse nm l (Proxy.px_own p ∪ Proxy.px_node p) (mv_cs cs) (l_mem s1)) (fun '(m, cs') =>
           redirect_members E fuel LD f ms pt' cs' (set_mem m s1)))))) as X.
  { intros d. destruct (if bool_decide (nm = str "data") then _ else _) as [c1|]; cbn [res_bind]; [|done].
    pose proof (sim_redirected E fuel LD f a n d (Proxy.px_own p ∪ Proxy.px_node p) s s' Hs) as X.
    destruct (load_redirected _ _ _ _ _ _ _ _ s) as [[s1 l]|], (load_redirected _ _ _ _ _ _ _ _ s') as [[s1' l']|]; cbn [res_bind]; try done.
    destruct X as (Hs1 & Hl & ->).
    pose proof (sim_append E fuel KSparse nm l (Proxy.px_own p ∪ Proxy.px_node p) cs (l_mem s1) (l_mem s1') (proj1 Hs1) Hl Hc) as X.
    destruct (cont_append _ _ _ _ l _ _ _) as [[m2 cs2]|], (cont_append _ _ _ _ (mv l) _ _ _) as [[m2' cs2']|]; cbn [res_bind]; try done.
    destruct X as (X1 & X2 & ->). apply IH; [|done]. by apply sims_mem. }
  destruct (nd_body n) as [|d]; [done|]. destruct d; try done; apply X.
Qed.

Lemma sim_load E LD f fuel : forall a s s', sims s s' -> siml (load_ fuel E LD f a s) (load_ fuel E LD f a s').
Proof.
  induction fuel as [|fu IH]; intros a s s' Hs; [done|]. unfold load_; fold load_. rewrite (proj2 (proj2 Hs) a).
  destruct (l_memo s !! a) as [l0|] eqn:El; cbn [option_map]; [split; [done|]; split; [by eapply Hs|done]|].
  destruct (get_node f a) as [n|]; [|done]. destruct (resolve_type _ _ _ _) as [r|]; cbn [res_bind]; [|done].
  destruct (ld_load _ _ _) as [[pt memoise]|]; cbn [res_bind]; [|done].
  match goal with |- siml (res_map _ ?e) (res_map _ ?e') => assert (siml e e') as X end.
  { destruct (r_cont r).
    - destruct (members _ _ _ _ _) as [ms|]; cbn [res_bind]; [|done].
      set (k := default KRecover (ld_conts LD (r_base r))). destruct (sim_init k (nd_attrs n)) as [I1 I2].
      destruct (redirected k pt).
      + destruct (ld_legacy LD); [|done].
        pose proof (sim_redirect_members E fu LD f ms pt (cont_init k (nd_attrs n)) s s' Hs I2) as X. rewrite I1 in X.
        destruct (redirect_members _ _ _ _ _ _ _ s) as [[[s2 cs] pt2]|], (redirect_members _ _ _ _ _ _ _ s') as [[[s2' cs'] pt2']|]; cbn [res_bind]; try done.
        destruct X as (X1 & X2 & -> & <-).
        pose proof (sim_convert fu k (nd_attrs n) (r_orig r) pt2 cs (l_mem s2) (l_mem s2') (proj1 X1) X2) as Y.
        destruct (cont_convert _ _ _ _ _ cs _) as [[m3 l3]|], (cont_convert _ _ _ _ _ (mv_cs cs) _) as [[m3' l3']|]; cbn [res_map]; try done.
        destruct Y as (Y1 & Y2 & ->). split; [|done]. by apply sims_mem.
      + pose proof (sim_members E fu f (load_ fu E LD f) (load_ fu E LD f) k ms IH (cont_init k (nd_attrs n)) s s' Hs I2) as X. rewrite I1 in X.
        destruct (load_members _ _ _ _ _ _ _ s) as [[s2 cs]|], (load_members _ _ _ _ _ _ _ s') as [[s2' cs']|]; cbn [res_bind]; try done.
        destruct X as (X1 & X2 & ->).
        pose proof (sim_convert fu k (nd_attrs n) (r_orig r) pt cs (l_mem s2) (l_mem s2') (proj1 X1) X2) as Y.
        destruct (cont_convert _ _ _ _ _ cs _) as [[m3 l3]|], (cont_convert _ _ _ _ _ (mv_cs cs) _) as [[m3' l3']|]; cbn [res_map]; try done.
        destruct Y as (Y1 & Y2 & ->). split; [|done]. by apply sims_mem.
    - destruct (nd_body n) as [|d]; [done|].
      pose proof (sim_load_dataset E fu f a (default LRecover (ld_types LD (r_base r))) (nd_attrs n) d (r_orig r) pt (l_mem s) (l_mem s') (proj1 Hs)) as Y.
      destruct (load_dataset _ _ _ _ _ _ _ _ _ (l_mem s)) as [[m3 l3]|], (load_dataset _ _ _ _ _ _ _ _ _ (l_mem s')) as [[m3' l3']|]; cbn [res_map]; try done.
      destruct Y as (Y1 & Y2 & ->). split; [|done]. by apply sims_mem. }
  match goal with |- siml (res_map _ ?e) (res_map _ ?e') => destruct e as [[s1 l1]|], e' as [[s1' l1']|]; cbn [res_map]; try done end.
  destruct X as (X1 & X2 & ->). split; [|done]. by apply sims_put.
Qed.

Lemma sim_same m m' x : sim m m' -> new x -> same_graph (m_heap m) x (m_heap m') (mv x).
Proof.
  intros Hm Hx. exists mv. split; [done|]. split.
  - intros z Hz. apply (sim_look m m' z Hm). by eapply parts_new; [..|exact Hx]; [|apply Hm|exact Hz].
  - intros z w Hz Hw. apply mv_inj; (eapply parts_new; [..|exact Hx]; [|apply Hm|]); done.
Qed.
End Same.

Definition same_result (r r' : res (mem * loc)) : Prop :=
  match r, r' with
  | Ok (m, x), Ok (m', x') => same_graph (m_heap m) x (m_heap m') x'
  | Err e, Err e' => e = e'
  | _, _ => False
  end.
Lemma load_data_same C chain legacy f root m m' : mem_ok m -> mem_ok m' ->
  same_result (load_data C chain legacy f root m) (load_data C chain legacy f root m').
Proof.
  intros Hm Hm'. unfold load_data. destruct (child f root n_data) as [a|]; [|done].
  pose proof (sim_load m m' Hm Hm' (c_env C) (loader_of (c_world C) chain legacy) f (c_fuel C) a (Lst m ∅) (Lst m' ∅)) as X.
  assert (sims m m' (Lst m ∅) (Lst m' ∅)) as Hs.
  { split; [by apply sim_start|]. cbn [l_memo]. split; [intros a0 l; by rewrite lookup_empty|]. intros a0. by rewrite !lookup_empty. }
  specialize (X Hs).
  destruct (load_ _ _ _ _ _ (Lst m ∅)) as [[s l]|], (load_ _ _ _ _ _ (Lst m' ∅)) as [[s' l']|]; cbn [res_map]; try done.
  destruct X as (X1 & X2 & ->). cbn [same_result]. apply (sim_same m m' Hm Hm'); [apply X1|done].
Qed.
Lemma load_file_same C w f p m m' : mem_ok m -> mem_ok m' -> not_v3 f ->
  fst (fst (load_file C w f p m)) = fst (fst (load_file C w f p m')) /\
  snd (load_file C w f p m) = snd (load_file C w f p m') /\
  same_result (snd (fst (load_file C w f p m))) (snd (fst (load_file C w f p m'))).
Proof.
  intros Hm Hm' Hv. unfold load_file. destruct (get_path f p) as [root|]; [|done].
  destruct (get_node f root) as [n|]; [|done]. destruct (is_group n); [|done].
  assert (fst (fst (load_root C w f root m)) = fst (fst (load_root C w f root m')) /\
    snd (load_root C w f root m) = snd (load_root C w f root m') /\
    same_result (snd (fst (load_root C w f root m))) (snd (fst (load_root C w f root m')))) as HL.
  { unfold load_root. destruct (detect _ _) as [[]|]; try done.
    all: destruct (options_of _ _ _); try done; destruct (load_table _ _ _) as [f1 [o|]]; try done; cbn [fst snd];
      split; [done|]; split; [done|]; by apply load_data_same. }
  destruct (detect _ _) as [[]|] eqn:Ed; try done. exfalso. revert Ed. unfold detect. unfold not_v3 in Hv. rewrite Hv. clear Hv HL.
  destruct (forallb (attr_set (nd_attrs n)) v4_attrs); [|intros Hx; discriminate Hx]. destruct (_ !! _) as [[]|]; try (by intros [=]).
  destruct (Z_parse _) as [z|]; [|by intros [=]]. simpl. by destruct (z =? 4)%Z; intros [=].
Qed.
