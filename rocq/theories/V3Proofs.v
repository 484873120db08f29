(** * V3Proofs: hickle 3 files load to what was dumped *)
From Coq Require Import ZifyBool ZifyN.
From Verif Require Import Base Utf8 Utf8Proofs Dec DecProofs Num NumProofs PyObj Env Repr ReprProofs
  Legacy LegacyProofs LegacyV3 V3Spec.
Local Open Scope N_scope.
Local Open Scope list_scope.

(** ** Induction over values *)
Section Ind.
Variable P : val3 -> Prop.
Hypothesis Pnone : P PNone.
Hypothesis Pnum : forall n, P (PNum n).
Hypothesis Pnp : forall d n, P (PNp d n).
Hypothesis Pstr : forall s, P (PStr s).
Hypothesis Pbytes : forall b, P (PBytes b).
Hypothesis Pseq : forall k l, Forall P l -> P (PSeq k l).
Hypothesis Pdict : forall l, Forall (fun e => P (fst e) /\ P (snd e)) l -> P (PDict l).
Hypothesis Parr : forall a, P (PArr a).
Hypothesis Pmasked : forall a m, P (PMasked a m).
Hypothesis Psparse : forall k a b c d, P (PSparse k a b c d).
Hypothesis Pother : forall c n, P (POther c n).
Hypothesis Pcontainer : forall c n k l, P (PContainer c n k l).
Fixpoint val3_ind' (v : val3) : P v :=
  match v with
  | PNone => Pnone | PNum n => Pnum n | PNp d n => Pnp d n | PStr s => Pstr s | PBytes b => Pbytes b
  | PSeq k l => Pseq k l ((fix go (l : list val3) : Forall P l := match l with [] => Forall_nil_2 _ | x :: r => Forall_cons_2 _ _ _ (val3_ind' x) (go r) end) l)
  | PDict l => Pdict l ((fix go (l : list (val3 * val3)) : Forall (fun e => P (fst e) /\ P (snd e)) l :=
      match l with [] => Forall_nil_2 _ | e :: r => Forall_cons_2 _ _ _ (conj (val3_ind' (fst e)) (val3_ind' (snd e))) (go r) end) l)
  | PArr a => Parr a | PMasked a m => Pmasked a m | PSparse k a b c d => Psparse k a b c d
  | POther c n => Pother c n | PContainer c n k l => Pcontainer c n k l
  end.
End Ind.

(** ** Small facts *)
Lemma drop_nuls_id b : no_final_nul b -> drop_nuls b = b.
Proof.
  induction b as [|c b IH]; intros H; [done|]. simpl.
  destruct b as [|d b'].
  - simpl. destruct (N.eqb_spec c 0) as [-> |]; [|done]. exfalso. by apply (H []).
  - rewrite IH; [done|]. intros r E. apply (H (c :: r)). by rewrite E.
Qed.
Lemma utf8_char_final c r : utf8_char c = Some (r ++ [0]) -> c = 0.
Proof.
  intros H.
  assert (forall l, Some l = Some (r ++ [0]) -> List.last l 1 = 0) as F.
  { intros l E. injection E as ->. apply last_last. }
  unfold utf8_char in H.
  repeat match type of H with
         | (if ?x then _ else _) = _ => destruct x
         | Some _ = _ => apply F in H; cbn [List.last] in H
         | None = _ => discriminate H
         end; lia.
Qed.
Lemma utf8_char_cons c b : utf8_char c = Some b -> b <> [].
Proof.
  unfold utf8_char. intros H ->.
  repeat match type of H with (if ?x then _ else _) = _ => destruct x end; discriminate H.
Qed.
Lemma utf8_no_final_nul s b : utf8_encode s = Ok b -> no_final_nul s -> no_final_nul b.
Proof.
  revert b. induction s as [|c s IH]; intros b H Hs.
  - injection H as <-. intros r E. by destruct r.
  - simpl in H. destruct (utf8_char c) as [bc|] eqn:Ec; [|done].
    destruct (utf8_encode s) as [bs|] eqn:Es; [|done]. injection H as <-. intros r E.
    destruct s as [|d s'].
    + injection Es as <-. rewrite app_nil_r in E. subst bc. apply utf8_char_final in Ec as ->.
      by apply (Hs []).
    + assert (bs <> []) as Hne.
      { intros ->. simpl in Es. destruct (utf8_char d) as [bd|] eqn:Ed; [|done].
        destruct (utf8_encode s'); [|done]. injection Es as E'.
        apply app_eq_nil in E' as [-> _]. by apply (utf8_char_cons d []). }
      destruct (exists_last Hne) as (bs' & x & ->). rewrite app_assoc in E.
      apply app_inj_tail in E as [_ ->].
      apply (IH _ eq_refl) with (r := bs'); [|done].
      intros r' E'. apply (Hs (c :: r')). by rewrite E'.
Qed.

Lemma res_mapM_ok {A B} (f : A -> res B) l r : res_mapM f l = Ok r <-> Forall2 (fun x y => f x = Ok y) l r.
Proof.
  revert r. induction l as [|x l IH]; intros r; simpl.
  - split; [intros [= <-]; constructor|inversion 1; done].
  - destruct (f x) as [y|] eqn:E; simpl.
    + destruct (res_mapM f l) as [ys|] eqn:E2; simpl; split.
      * intros [= <-]. constructor; [done|]. by apply IH.
      * inversion 1 as [|? ? ? ? H1 H2]; subst. apply IH in H2. congruence.
      * done.
      * inversion 1 as [|? ? ? ? H1 H2]; subst. apply IH in H2. congruence.
    + split; [done|]. inversion 1; subst. congruence.
Qed.

(** ** Sorting names *)
Lemma sort_keys_perm ks : Forall (fun k => Forall (fun c => c < 128) k) ks ->
  exists out, sort_keys ks = Ok out /\ Permutation out ks.
Proof.
  intros H. unfold sort_keys. rewrite key_to_bytes_all.
  - simpl. eexists. split; [done|]. destruct (_ && _); apply sorted_by_perm.
  - apply List.forallb_forall. intros k Hk. apply List.forallb_forall. intros c Hc.
    rewrite list.Forall_forall in H. apply elem_of_list_In, H in Hk.
    rewrite list.Forall_forall in Hk. apply elem_of_list_In, Hk in Hc. by apply N.ltb_lt.
Qed.
Lemma listing_perm L kids : Permutation (listing L kids) kids.
Proof. unfold listing. destruct (l_track L); [done|apply sorted_by_perm]. Qed.

(** ** Looking up what was read *)
Definition outcomes (es : list (pystr * val3)) : list (pystr * res val3) :=
  map (fun e => (fst e, Ok (snd e))) es.
Definition pick (out : list (pystr * res val3)) (n : pystr) : res val3 :=
  match alist_get n out with Some r => r | None => Err KeyError end.
Lemma pick_in es e : NoDup (map fst es) -> In e es -> pick (outcomes es) (fst e) = Ok (snd e).
Proof.
  unfold pick. induction es as [|e' es IH]; intros Hn Hi; [done|].
  simpl in Hn. apply list.NoDup_cons in Hn as [Hn1 Hn2]. simpl.
  destruct Hi as [-> |Hi]; [by rewrite decide_True|].
  rewrite decide_False; [by apply IH|].
  intros E. apply Hn1. rewrite <- E. by apply elem_of_list_In, in_map.
Qed.
Lemma pick_all es es' : NoDup (map fst es) -> Permutation es' es ->
  res_mapM (pick (outcomes es)) (map fst es') = Ok (map snd es').
Proof.
  intros Hn P. apply res_mapM_ok. assert (forall e, In e es' -> In e es) as Hi.
  { intros e. apply Permutation_in, P. }
  clear P. induction es' as [|e es' IH]; [constructor|]. simpl. constructor.
  - apply pick_in; [done|]. apply Hi. by left.
  - apply IH. intros e' He. apply Hi. by right.
Qed.

(** ** The loader on groups, without the inner recursion *)
Lemma load_group L sibs nm a kids :
  load3 L sibs nm (TGroup a kids) =
  res_bind (get_type a) (fun ctype =>
  res_bind (if bool_decide (ctype = str "dict_item")
            then match alist_get a3_key_type a with Some kt => Ok (Some kt) | None => Err KeyError end
            else Ok None) (fun kt =>
  res_bind (if unsorted ctype then Ok (map fst (listing L kids)) else sort_keys (map fst (listing L kids))) (fun order =>
  res_bind (res_mapM (pick (map (fun e => (fst e, load3 L kids (fst e) (snd e))) kids)) order)
    (convert L ctype nm kt)))).
Proof.
  cbn [load3]. destruct (get_type a) as [ctype|]; [|done]. cbn [res_bind].
  destruct (if bool_decide _ then _ else _) as [kt|]; [|done]. cbn [res_bind].
  destruct (if unsorted ctype then _ else _) as [order|]; [|done]. cbn [res_bind].
  f_equal. f_equal. unfold pick. 
  assert (forall ks, (fix go (l : list (list N * tree)) : list (pystr * res val3) :=
     match l with [] => [] | (n, u) :: r => (n, load3 L ks n u) :: go r end) kids
    = map (fun e => (fst e, load3 L ks (fst e) (snd e))) kids) as E.
  { intros ks. clear. induction kids as [|[n u] r IH]; [done|]. simpl. by rewrite IH. }
  by rewrite E.
Qed.

(** ** The writer on containers, without the inner recursion *)
Definition dump_items (L : env3) : N -> list val3 -> res (list (list N * tree)) :=
  fix go (j : N) (l : list val3) :=
    match l with
    | [] => Ok []
    | x :: r => res_bind (dump3 L j x) (fun xs => res_map (app xs) (go (j + 1) r))
    end.
Definition dump_entries (L : env3) : list (list N * tree) -> list (val3 * val3) -> res (list (list N * tree)) :=
  fix go kids l :=
    match l with
    | [] => Ok kids
    | (k, x) :: r =>
        res_bind (dump3 L 0 x) (fun xs =>
        res_bind (put_path (path3 (key_text L k)) (dict_item k xs) kids) (fun kids' => go kids' r))
    end.
Lemma dump_seq L i k l : dump3 L i (PSeq k l) =
  let group := res_map (fun kids => [(name3 i, TGroup [(a3_type, type3 (PSeq k l))] kids)]) (dump_items L 0 l) in
  match item_type l with
  | Some c =>
      if bool_decide (c ∈ dumpable)
      then match k with SOther _ => Ok (no_match i (PSeq k l)) | _ => create_listlike i (PSeq k l) l end
      else group
  | None => group
  end.
Proof. reflexivity. Qed.
Lemma dump_dict L i l : dump3 L i (PDict l) =
  res_map (fun kids => [(name3 i, TGroup [(a3_type, type3 (PDict l))] kids)]) (dump_entries L [] l).
Proof. reflexivity. Qed.

(** Read to a value equal to [v], wherever the member is. *)
Definition loads_as (L : env3) (t : tree) (w : val3) : Prop := forall sibs nm, load3 L sibs nm t = Ok w.
Definition reads (L : env3) (v : val3) (i : N) (kids : list (list N * tree)) : Prop :=
  exists t w, kids = [(name3 i, t)] /\ same3 v w /\ loads_as L t w.

Definition names_from (n : nat) (k : nat) : list pystr := map (fun i => item_name (N.of_nat i)) (seq n k).
Lemma names_nodup n k : NoDup (names_from n k).
Proof.
  apply NoDup_ListNoDup, FinFun.Injective_map_NoDup, seq_NoDup.
  intros a b E. pose proof (item_name_number (N.of_nat a)) as Ea. rewrite E, item_name_number in Ea.
  injection Ea. lia.
Qed.
Lemma names_length n k : length (names_from n k) = k.
Proof. unfold names_from. by rewrite map_length, seq_length. Qed.

Lemma items_read L l n kids :
  Forall (fun x => forall i kids, dump3 L i x = Ok kids -> reads L x i kids) l ->
  dump_items L (N.of_nat n) l = Ok kids ->
  exists ts ws, kids = zip (names_from n (length l)) ts /\ Forall2 same3 l ws /\ Forall2 (loads_as L) ts ws.
Proof.
  intros H. revert n kids. induction H as [|x l Hx Hl IH]; intros n kids E.
  - injection E as <-. exists [], []. done.
  - simpl in E. destruct (dump3 L (N.of_nat n) x) as [xs|] eqn:Ex; [|done]. cbn [res_bind] in E.
    replace (N.of_nat n + 1) with (N.of_nat (S n)) in E by lia.
    destruct (dump_items L (N.of_nat (S n)) l) as [r|] eqn:Er; [|done].
    injection E as <-. apply Hx in Ex as (t & w & -> & Hs & Hw).
    apply IH in Er as (ts & ws & -> & H1 & H2). exists (t :: ts), (w :: ws). 
    split; [done|]. split; by constructor.
Qed.

Lemma outcomes_zip L kids names ts ws : Forall2 (loads_as L) ts ws ->
  map (fun e => (fst e, load3 L kids (fst e) (snd e))) (zip names ts) = outcomes (zip names ws).
Proof.
  intros H. revert names. induction H as [|t w ts ws Ht H IH]; intros [|n names]; [done..|].
  simpl. rewrite (Ht kids n). f_equal. apply IH.
Qed.
Lemma zip_fst {A B} (l : list A) (k : list B) : length l = length k -> map fst (zip l k) = l.
Proof. revert k. induction l as [|x l IH]; intros [|y k] H; try done. simpl. f_equal. apply IH. simpl in H. lia. Qed.
Lemma zip_snd {A B} (l : list A) (k : list B) : length l = length k -> map snd (zip l k) = k.
Proof. revert k. induction l as [|x l IH]; intros [|y k] H; try done. simpl. f_equal. apply IH. simpl in H. lia. Qed.

(** A group with the items of a list, tuple or set is converted from all of them, in order. *)
Lemma group_reads L ctype l kids :
  Forall (fun x => forall i kids, dump3 L i x = Ok kids -> reads L x i kids) l ->
  dump_items L 0 l = Ok kids -> ctype <> str "dict_item" -> unsorted ctype = false ->
  exists ws, Forall2 same3 l ws /\
    forall sibs nm, load3 L sibs nm (TGroup [(a3_type, ctype)] kids) = convert L ctype nm None ws.
Proof.
  intros H E Hc Hu. change 0 with (N.of_nat 0) in E.
  apply items_read in E as (ts & ws & -> & H1 & H2); [|done]. exists ws. split; [done|]. intros sibs nm.
  assert (length ts = length l) as Lt.
  { rewrite (Forall2_length _ _ _ H2). symmetry. apply (Forall2_length _ _ _ H1). }
  assert (length ws = length l) as Lw by (symmetry; apply (Forall2_length _ _ _ H1)).
  rewrite load_group. change (get_type [(a3_type, ctype)]) with (Ok (A := list N) ctype). cbn [res_bind].
  rewrite bool_decide_false by done. cbn [res_bind]. rewrite Hu.
  rewrite (outcomes_zip _ _ _ _ ws) by done.
  rewrite (sort_keys_items (length l)).
  2:{ rewrite (Permutation_map fst (listing_perm L _)). rewrite zip_fst; [done|]. by rewrite names_length. }
  cbn [res_bind]. change (map _ (seq 0 (length l))) with (names_from 0 (length l)).
  set (es := zip (names_from 0 (length l)) ws).
  replace (names_from 0 (length l)) with (map fst es) at 1.
  2:{ unfold es. apply zip_fst. rewrite names_length. done. }
  rewrite pick_all; [|unfold es; rewrite zip_fst by (rewrite names_length; done); apply names_nodup|done].
  cbn [res_bind]. unfold es. rewrite zip_snd by (rewrite names_length; done). done.
Qed.

(** ** Sets *)
Fixpoint hvs (l : list val3) : res (list hv) :=
  match l with [] => Ok [] | x :: r => res_bind (hv3 x) (fun y => res_map (cons y) (hvs r)) end.
Lemma hv3_tuple l : hv3 (PSeq STuple l) = res_map (foldr HCons HNil) (hvs l).
Proof.
  reflexivity.
Qed.
Lemma same_hv v : forall w h, same3 v w -> hv3 v = Ok h -> hv3 w = Ok h.
Proof.
  induction v as [ | | | | |k l IH|l IH| | | | | ] using val3_ind'; intros w h Hs Hv; inversion Hs; subst; try done.
  - destruct k; try done. rewrite hv3_tuple in *.
    assert (forall hs, hvs l = Ok hs -> hvs l' = Ok hs) as G.
    { clear Hv Hs. induction H2 as [|x y l l' Hxy H IHl]; intros hs E; [done|].
      inversion IH as [|? ? IHx IHr]; subst. simpl in *.
      destruct (hv3 x) as [hx|] eqn:Ex; [|done]. rewrite (IHx _ _ Hxy eq_refl). simpl in *.
      destruct (hvs l) as [hl|] eqn:El; [|done]. by rewrite (IHl IHr _ eq_refl). }
    destruct (hvs l) as [hs|]; [|done]. by rewrite (G _ eq_refl).
Qed.

Lemma hv_same_spec a b : hv_same a b = true -> a = b /\ hv_nan a = false.
Proof. unfold hv_same. intros H. apply andb_prop in H as [H1 H2]. apply bool_decide_eq_true in H1. by destruct (hv_nan a). Qed.
Notation solid := (List.filter (fun h => negb (hv_nan h))).
Lemma set3_all ws hs seen :
  Forall2 (fun v h => hv3 v = Ok h) ws hs -> NoDup (solid hs) -> (forall h, In h seen -> In h (solid hs) -> False) ->
  set3 seen ws = Ok ws.
Proof.
  intros H. revert seen. induction H as [|w h ws hs Hw H IH]; intros seen Hn Hd; [done|].
  simpl. rewrite Hw. cbn [res_bind].
  assert (existsb (hv_same h) seen = false) as ->.
  { apply not_true_iff_false. intros E. apply existsb_exists in E as (h' & Hi & E).
    apply hv_same_spec in E as [<- E]. apply (Hd h Hi). simpl. rewrite E. by left. }
  rewrite IH; [done| |].
  - simpl in Hn. destruct (negb (hv_nan h)); [|done]. by apply list.NoDup_cons in Hn as [_ Hn].
  - intros h' [<- |Hi] Hi2.
    + simpl in Hn. pose proof Hi2 as Hi3. apply filter_In in Hi3 as [_ Hx]. rewrite Hx in Hn.
      apply list.NoDup_cons in Hn as [Hn _]. by apply Hn, elem_of_list_In.
    + apply (Hd h' Hi). simpl. destruct (negb (hv_nan h)); [by right|done].
Qed.
Lemma set_of_same l ws : distinct3 l -> Forall2 same3 l ws -> set3 [] ws = Ok ws.
Proof.
  intros (hs & H1 & H2) Hs. apply set3_all with hs; [|done|done].
  clear H2. revert hs H1. induction Hs as [|x y l ws Hxy Hs IH]; intros hs H1; inversion H1; subst; constructor; auto.
  by eapply same_hv.
Qed.

(** [list], [tuple], [set] of items equal to those dumped. *)
Lemma make_seq_same k l ws : builtin_seq k -> (k = SSet -> distinct3 l) -> Forall2 same3 l ws ->
  exists w, make_seq k ws = Ok w /\ same3 (PSeq k l) w.
Proof.
  intros Hk Hd Hs. unfold make_seq. destruct k; try (eexists; split; [done|by constructor]).
  rewrite (set_of_same l) by auto. eexists; split; [done|]. by constructor.
Qed.

(** ** Datasets *)
Ltac decide_names :=
  repeat first [rewrite bool_decide_true by (vm_compute; reflexivity)
               |rewrite bool_decide_false by (vm_compute; discriminate)].

Lemma get_type_cons t r : get_type ((a3_type, t) :: r) = Ok t.
Proof. unfold get_type. cbn [alist_get]. by rewrite decide_True. Qed.
Ltac open_leaf :=
  cbn [load3]; unfold load_dataset3; rewrite get_type_cons; cbn [res_bind]; decide_names.

Lemma listlike_cases l d st : listlike_data l = Ok (d, st) ->
  (exists ss bs, l = map PStr ss /\ ss <> [] /\ d = XFixed bs /\ st = Some (type_text (str "str")) /\
     Forall2 (fun s b => utf8_encode s = Ok b) ss bs) \/
  (exists bs, l = map PBytes bs /\ bs <> [] /\ d = XFixed bs /\ st = Some (type_text (str "bytes"))) \/
  (exists n ns, l = map PNum (n :: ns) /\ d = XArr (dtype3 n, [N.of_nat (length l)], n :: ns) /\ st = None /\
     Forall (fun m => num_of_dtype (dtype3 n) m = true) (n :: ns)).
Proof.
  intros H. destruct l as [|v l0]; [done|]. set (l := v :: l0) in *.
  destruct v; try discriminate H; unfold listlike_data in H; unfold l in H; fold l in H.
  - right; right. unfold l in H.
    destruct (res_mapM _ (PNum n :: l0)) as [ns|] eqn:E; [|done]. injection H as <- <-.
    apply res_mapM_ok in E.
    assert (l = map PNum ns /\ Forall (fun m => num_of_dtype (dtype3 n) m = true) ns) as [El Hn].
    { unfold l. clear -E. induction E as [|x m l ms Hx E IH]; [split; [done|constructor]|].
      destruct x; try discriminate Hx. destruct (num_of_dtype _ n0) eqn:En; [|done]. injection Hx as ->.
      destruct IH as [IH1 IH2]. simpl. rewrite IH1. split; [done|]. by constructor. }
    destruct ns as [|n' ns]; [discriminate El|]. assert (n' = n) as -> by (unfold l in El; simpl in El; congruence).
    exists n, ns. repeat split; try done.
  - left. unfold l in H.
    destruct (res_mapM _ (PStr s :: l0)) as [bs|] eqn:E; [|done]. injection H as <- <-.
    apply res_mapM_ok in E.
    assert (exists ss, l = map PStr ss /\ Forall2 (fun s b => utf8_encode s = Ok b) ss bs) as (ss & El & Hs).
    { unfold l. clear -E. induction E as [|x m l ms Hx E IH]; [exists []; split; [done|constructor]|].
      destruct x; try discriminate Hx. destruct IH as (ss & IH1 & IH2).
      eexists (_ :: ss). simpl. rewrite IH1. split; [done|]. by constructor. }
    exists ss, bs. repeat split; try done. intros ->. discriminate El.
  - right; left. unfold l in H.
    destruct (res_mapM _ (PBytes b :: l0)) as [bs|] eqn:E; [|done]. injection H as <- <-.
    apply res_mapM_ok in E.
    assert (l = map PBytes bs) as El.
    { unfold l. clear -E. induction E as [|x m l ms Hx E IH]; [done|].
      destruct x; try discriminate Hx. injection Hx as ->. simpl. by rewrite IH. }
    exists bs. repeat split; try done. intros ->. discriminate El.
Qed.

Lemma listlike_load L sibs nm a d k ws v : builtin_seq k ->
  get_type a = Ok (type3 (PSeq k v)) -> list_items a d = Ok ws -> load_dataset3 L sibs nm a d = make_seq k ws.
Proof.
  intros Hk Ht Hi. unfold load_dataset3. rewrite Ht, Hi. cbn [res_bind].
  destruct Hk as [-> |[-> | ->]]; decide_names; done.
Qed.

Lemma dtype3_same n m : num_of_dtype (dtype3 n) m = true -> dtype3 m = dtype3 n.
Proof. by destruct n, m. Qed.

Lemma Forall2_map_both {A B C D} (R : C -> D -> Prop) (f : A -> C) (g : B -> D) l l' :
  Forall2 (fun x y => R (f x) (g y)) l l' -> Forall2 R (map f l) (map g l').
Proof. induction 1; constructor; auto. Qed.

Lemma distinct_map {A} (f : A -> val3) (g : A -> hv) l :
  (forall x, hv3 (f x) = Ok (g x)) -> (forall x, hv_nan (g x) = false) -> (forall x y, g x = g y -> x = y) ->
  NoDup l -> distinct3 (map f l).
Proof.
  intros H1 H2 H3 Hn. exists (map g l). split.
  - induction l; constructor; [apply H1|]. apply IHl. by apply list.NoDup_cons in Hn as [_ Hn].
  - assert (solid (map g l) = map g l) as ->.
    { clear -H2. induction l as [|x l IH]; [done|]. simpl. rewrite H2. simpl. by rewrite IH. }
    apply NoDup_fmap_2_strong; [|done]. intros x y _ _. apply H3.
Qed.

(** A list, tuple or set stored as one dataset. *)
Lemma listlike_reads L i k l kids :
  builtin_seq k -> (k = SSet -> distinct3 l) ->
  (all_text l -> forall s, In (PStr s) l -> no_final_nul s) ->
  (all_bytes l -> forall b, In (PBytes b) l -> no_final_nul b /\ exists s, utf8_encode s = Ok b) ->
  create_listlike i (PSeq k l) l = Ok kids -> reads L (PSeq k l) i kids.
Proof.
  intros Hk Hd Ht Hb E. unfold create_listlike in E.
  destruct (listlike_data l) as [[d st]|] eqn:Ed; [|done]. injection E as <-.
  set (a := (a3_type, type3 (PSeq k l)) :: _).
  assert (exists ws, list_items a d = Ok ws /\ Forall2 same3 l ws) as (ws & Hi & Hs).
  { apply listlike_cases in Ed as [(ss & bs & El & Hne & -> & -> & He)|[(bs & El & Hne & -> & ->)|(n & ns & El & -> & -> & Hn)]].
    - exists (map PStr ss). split.
      + unfold list_items. change (alist_get a3_string a) with (Some (type_text (str "str"))).
        cbn [fst snd]. decide_names. apply res_mapM_ok.
        assert (forall s, In s ss -> no_final_nul s) as Hf.
        { intros s Hs. apply Ht; [by exists ss|]. rewrite El. by apply in_map. }
        clear -He Hf. induction He as [|s b ss bs Hsb He IH]; [constructor|]. simpl. constructor.
        * rewrite drop_nuls_id by (apply (utf8_no_final_nul s); [done|]; apply Hf; by left).
          by rewrite (utf8_decode_encode s).
        * apply IH. intros s' Hs'. apply Hf. by right.
      + rewrite El. apply Forall2_map_both. clear. induction ss; constructor; [constructor|done].
    - exists (map PBytes bs). split.
      + unfold list_items. change (alist_get a3_string a) with (Some (type_text (str "bytes"))).
        cbn [fst snd]. decide_names. apply res_mapM_ok.
        assert (forall b, In b bs -> no_final_nul b /\ exists s, utf8_encode s = Ok b) as Hf.
        { intros s Hs. apply Hb; [by exists bs|]. rewrite El. by apply in_map. }
        clear -Hf. induction bs as [|b bs IH]; [constructor|]. simpl. constructor.
        * destruct (Hf b) as (Hf1 & s & Hf2); [by left|]. rewrite drop_nuls_id by done.
          rewrite (utf8_decode_encode s) by done. cbn [res_bind]. by rewrite Hf2.
        * apply IH. intros s' Hs'. apply Hf. by right.
      + rewrite El. apply Forall2_map_both. clear. induction bs; constructor; [constructor|done].
    - exists (map (PNp (dtype3 n)) (n :: ns)). split; [done|].
      rewrite El. apply Forall2_map_both. revert Hn. generalize (n :: ns). intros l0 Hn.
      induction Hn as [|m l0 Hm Hn IH]; constructor; [|done].
      rewrite <- (dtype3_same _ _ Hm). constructor. }
  destruct (make_seq_same k l ws Hk Hd Hs) as (w & Hw & Hsw).
  eexists _, w. split; [done|]. split; [done|]. intros sibs nm. cbn [load3].
  rewrite (listlike_load L sibs nm a d k ws l); [done|done|done|done].
Qed.

(** Values stored as one dataset each. *)
Lemma leaf_reads L i v kids :
  match v with
  | PNone | PNum _ | PNp _ _ | PArr _ | POther _ _ => True
  | PStr _ => l_text L = true
  | PBytes b => no_final_nul b
  | _ => False
  end -> dump3 L i v = Ok kids -> reads L v i kids.
Proof.
  intros Hv E. destruct v; try contradiction; cbn [dump3] in E.
  - injection E as <-. eexists _, _. split; [done|]. split; [constructor|]. intros sibs nm.
    open_leaf. done.
  - unfold create_python_dtype in E. destruct (num_of_dtype _ n) eqn:En; [|done]. injection E as <-.
    eexists _, _. split; [done|]. split; [constructor|]. intros sibs nm.
    open_leaf.
    change (alist_get a3_subtype _) with (Some (type3 (PNum n))). unfold to_python.
    destruct n; decide_names; done.
  - assert (kids = create_np_scalar3 i d n) as -> by (by injection E as <-).
    destruct d; (eexists _, _; split; [done|]; split; [constructor|]; intros sibs nm;
      open_leaf; try done).
    all: match goal with |- context [alist_get a3_np_dtype ?x] => change (alist_get a3_np_dtype x) with (Some (snd (nth 1 x ([], [])))) end;
      cbn [nth snd]; rewrite bool_decide_true by done; done.
  - unfold create_str in E. destruct (has_char 0 s); [done|]. destruct (utf8_encode s); [|done]. injection E as <-.
    eexists _, _. split; [done|]. split; [constructor|]. intros sibs nm.
    open_leaf. by rewrite Hv.
  - injection E as <-. eexists _, _. split; [done|]. split; [constructor|]. intros sibs nm.
    open_leaf. by rewrite drop_nuls_id.
  - injection E as <-. eexists _, _. split; [done|]. split; [constructor|]. intros sibs nm.
    open_leaf. done.
  - injection E as <-. eexists _, _. split; [done|]. split; [constructor|]. intros sibs nm.
    open_leaf. done.
Qed.

(** ** Keys *)
Lemma split_plain c s : ~ In c s -> split_char c s = [s].
Proof.
  induction s as [|a s IH]; intros H; [done|]. simpl.
  destruct (N.eqb_spec a c) as [-> |]; [exfalso; apply H; by left|].
  rewrite IH; [done|]. intros Hi. apply H. by right.
Qed.
Lemma path3_plain s : Forall (fun c => c <> 47) s -> s <> [] -> s <> str "." -> path3 s = [s].
Proof.
  intros H1 H2 H3. unfold path3. rewrite split_plain.
  - simpl. by rewrite !bool_decide_false.
  - intros Hi. rewrite list.Forall_forall in H1. apply elem_of_list_In, H1 in Hi. done.
Qed.
Lemma Z_dec_plain z : plain_name (Z_dec z) /\ Z_dec z <> [] /\ Z_dec z <> str ".".
Proof.
  pose proof (Z_dec_first z) as (c & r & E & Hc). pose proof (Z_dec_chars z) as Hz. split; [|split].
  - eapply list.Forall_impl; [exact Hz|]. intros x [-> |Hx]; [lia|]. unfold is_digit in Hx. lia.
  - rewrite E. done.
  - rewrite E. intros Ed. injection Ed as -> _. destruct Hc as [Hc|Hc]; [lia|discriminate].
Qed.

Lemma key_reads L k : env3_ok L -> fine_key L k ->
  plain_name (key_text L k) /\ path3 (key_text L k) = [key_text L k] /\ load_key3 L (type3 k) (key_text L k) = Ok k.
Proof.
  intros HL Hk.
  enough (plain_name (key_text L k) /\ (key_text L k <> [] /\ key_text L k <> str ".") /\
          load_key3 L (type3 k) (key_text L k) = Ok k) as (H1 & (H2 & H3) & H4).
  { split; [done|]. split; [|done]. apply path3_plain; [|done|done].
    eapply list.Forall_impl; [exact H1|]. intros x [_ Hx]. done. }
  pose proof (ok3_env L HL) as HE.
  destruct Hk as [s Hw Hs| |z|f Hf|a b Ha Hb|l r Hr Hp He].
  - split; [|split].
    + unfold plain_name. cbn [key_text].
      assert (Forall (fun c => c < 128) (repr_str (l_printable L) s)) as Ha.
      { apply repr_str_ascii. eapply list.Forall_impl; [exact Hs|]. intros x [_ Hx]. done. }
      apply list.Forall_forall. intros x Hx. rewrite list.Forall_forall in Ha. split; [by apply Ha|].
      apply elem_of_list_In in Hx. apply repr_str_in in Hx as [Hx|[_ Hx]]; [|done].
      rewrite list.Forall_forall in Hs. apply elem_of_list_In, Hs in Hx as [Hx _]. done.
    + split; [done|]. cbn [key_text]. unfold repr_str. destruct (quote_for_cases s) as [-> | ->]; done.
    + unfold load_key3. decide_names. cbn [key_text]. by rewrite eval_repr.
  - split; [|split]; [apply (bool_decide_unpack _); vm_compute; exact I|done|].
    unfold load_key3. decide_names. done.
  - destruct (Z_dec_plain z) as (H1 & H2 & H3). split; [done|]. split; [done|].
    unfold load_key3. decide_names. cbn [key_text num_repr]. by rewrite Z_parse_dec.
  - cbn [key_text num_repr]. split; [|split].
    + pose proof (ok3_frepr L HL f) as H1. pose proof (ok_frepr_plain _ HE f) as H2.
      apply list.Forall_forall. intros x Hx. rewrite list.Forall_forall in H1. split; [by apply H1|].
      rewrite List.forallb_forall in H2. apply elem_of_list_In, H2 in Hx. unfold plain_char in Hx. lia.
    + split; [|apply (ok3_fdot L HL)]. pose proof (ok_frepr_first _ HE f) as H1. by destruct (e_frepr _ f).
    + unfold load_key3. decide_names. by rewrite (ok_fparse _ HE).
  - cbn [key_text num_repr]. split; [|split].
    + pose proof (ok3_crepr L HL a b) as H1. pose proof (ok_crepr_plain _ HE a b) as H2.
      apply list.Forall_forall. intros x Hx. rewrite list.Forall_forall in H1. split; [by apply H1|].
      rewrite List.forallb_forall in H2. apply elem_of_list_In, H2 in Hx. unfold plain_char in Hx. lia.
    + split; [|apply (ok3_cdot L HL)]. pose proof (ok_crepr_first _ HE a b) as H1. by destruct (e_crepr _ a b).
    + unfold load_key3. decide_names. by rewrite (ok_cparse _ HE).
  - cbn [key_text]. rewrite Hr. split; [|split].
    + apply list.Forall_cons; split; [lia|done].
    + done.
    + unfold load_key3. decide_names. by rewrite He.
Qed.

(** ** Dicts *)
Lemma filter_perm {A} (f : A -> bool) l l' : Permutation l l' -> Permutation (List.filter f l) (List.filter f l').
Proof.
  induction 1; simpl; [done|by destruct (f x); [apply Permutation_cons|]| |by etransitivity].
  destruct (f x), (f y); try done. apply perm_swap.
Qed.
Lemma Forall2_perm {A B} (R : A -> B -> Prop) l l' : Permutation l l' -> forall hs, Forall2 R l hs ->
  exists hs', Forall2 R l' hs' /\ Permutation hs hs'.
Proof.
  induction 1 as [|x l l' P IH|x y l|l l' l'' P1 IH1 P2 IH2]; intros hs H.
  - inversion H; subst. by exists [].
  - inversion H as [|? h ? hs0 Hx Hr]; subst. destruct (IH _ Hr) as (hs' & H1 & H2).
    exists (h :: hs'). split; [by constructor|by apply Permutation_cons].
  - inversion H as [|? h ? hs0 Hx Hr]; subst. inversion Hr as [|? h' ? hs1 Hy Hr']; subst.
    exists (h' :: h :: hs1). split; [by repeat constructor|apply perm_swap].
  - destruct (IH1 _ H) as (hs1 & H1 & H2). destruct (IH2 _ H1) as (hs2 & H3 & H4).
    exists hs2. split; [done|by etransitivity].
Qed.
Lemma distinct_perm l l' : Permutation l l' -> distinct3 l -> distinct3 l'.
Proof.
  intros P (hs & H1 & H2). destruct (Forall2_perm _ _ _ P _ H1) as (hs' & H3 & H4).
  exists hs'. split; [done|]. by rewrite <- (filter_perm _ _ _ H4).
Qed.
Lemma dict_set_new h k x d : (forall h', In h' (map fst d) -> hv_same h h' = false) ->
  dict_set3 h k x d = d ++ [(h, (k, x))].
Proof.
  induction d as [|[h' [k' x']] d IH]; intros H; [done|]. simpl. rewrite (H h') by (by left).
  rewrite IH; [done|]. intros h'' Hi. apply H. by right.
Qed.
Lemma dict3_all l hs d :
  Forall2 (fun e h => hv3 (fst e) = Ok h) l hs -> NoDup (solid hs) ->
  (forall h, In h (map fst d) -> In h (solid hs) -> False) ->
  dict3 d l = Ok (map snd d ++ l).
Proof.
  intros H. revert d. induction H as [|[k x] h l hs Hk H IH]; intros d Hn Hd; [by rewrite app_nil_r|].
  simpl in *. rewrite Hk. cbn [res_bind]. rewrite dict_set_new.
  2:{ intros h' Hi. apply not_true_iff_false. intros E. apply hv_same_spec in E as [<- E].
      rewrite E in Hd. apply (Hd h Hi). by left. }
  rewrite IH.
  - rewrite map_app, <- app_assoc. done.
  - destruct (negb (hv_nan h)); [|done]. by apply list.NoDup_cons in Hn as [_ Hn].
  - intros h' Hi Hi2. rewrite map_app in Hi. apply in_app_or in Hi as [Hi|[<- |[]]].
    + apply (Hd h' Hi). destruct (negb (hv_nan h)); [by right|done].
    + cbn [fst] in Hi2. pose proof Hi2 as Hi3. apply filter_In in Hi3 as [_ Hx]. rewrite Hx in Hn.
      apply list.NoDup_cons in Hn as [Hn _]. by apply Hn, elem_of_list_In.
Qed.
Lemma dict_of_distinct l : distinct3 (map fst l) -> dict3 [] l = Ok l.
Proof.
  intros (hs & H1 & H2). apply (dict3_all l hs []); [|done|done].
  clear H2. remember (map fst l) as ks. revert l Heqks.
  induction H1 as [|k h ks hs Hk H IH]; intros [|e l] E; try discriminate E; constructor.
  - injection E as -> _. done.
  - apply IH. by injection E.
Qed.

(** The members a dict is written as. *)
Definition entry_node (L : env3) (e : val3) (xs : list (list N * tree)) : list N * tree := (key_text L e, dict_item e xs).
Lemma alist_get_none {V} (k : list N) (l : list (list N * V)) : alist_get k l = None -> k ∉ map fst l.
Proof.
  induction l as [|[k' v] l IH]; simpl; intros H; [apply not_elem_of_nil|].
  destruct (decide (k = k')) as [|Hn]; [done|]. apply not_elem_of_cons. split; [done|]. by apply IH.
Qed.
Lemma entries_written L l kids0 kids : env3_ok L -> Forall (fun e => fine_key L (fst e)) l ->
  dump_entries L kids0 l = Ok kids -> NoDup (map fst kids0) ->
  exists xss, Forall2 (fun e xs => dump3 L 0 (snd e) = Ok xs) l xss /\
    kids = kids0 ++ zip_with (fun e xs => entry_node L (fst e) xs) l xss /\ NoDup (map fst kids).
Proof.
  intros HL Hl. revert kids0. induction Hl as [|[k x] l Hk Hl IH]; intros kids0 E Hn.
  - injection E as <-. exists []. split; [constructor|]. split; [by rewrite app_nil_r|done].
  - simpl in E. destruct (dump3 L 0 x) as [xs|] eqn:Ex; [|done]. cbn [res_bind] in E.
    destruct (key_reads L k HL Hk) as (_ & Hp & _). rewrite Hp in E. cbn [put_path] in E.
    destruct (alist_get (key_text L k) kids0) eqn:Eg; [done|]. cbn [res_bind] in E.
    apply IH in E as (xss & H1 & -> & H3).
    + exists (xs :: xss). split; [by constructor|]. split; [|done]. simpl. by rewrite <- app_assoc.
    + rewrite map_app. apply NoDup_app. split; [done|]. split; [|apply NoDup_singleton].
      intros n Hi Hi2. simpl in Hi2. apply elem_of_list_singleton in Hi2 as ->. by apply alist_get_none in Eg.
Qed.

(** A group made for one value (the entry of a dict, the group dumped to) has it as first item. *)
Lemma group_single L x xs : fine L x -> (~ is_masked x -> reads L x 0 xs) -> dump3 L 0 x = Ok xs ->
  exists w ws, same3 x w /\ forall sibs nm ct r kt, unsorted ct = false ->
    (if bool_decide (ct = str "dict_item")
     then match alist_get a3_key_type ((a3_type, ct) :: r) with Some kt => Ok (Some kt) | None => Err KeyError end
     else Ok None) = Ok kt ->
    load3 L sibs nm (TGroup ((a3_type, ct) :: r) xs) = convert L ct nm kt (w :: ws).
Proof.
  intros Hf Hr E.
  assert (is_masked x \/ ~ is_masked x) as [Hm|Hm].
  { destruct x; try (right; by intros (? & ? & [=])). left. by eexists _, _. }
  - destruct Hm as (a & m & ->). injection E as <-.
    exists (PMasked a (Some match m with None => map (fun _ => NB false) (snd a) | Some ns => ns end)), [PNone].
    split. { destruct m; constructor. }
    intros sibs nm ct r kt Hu Hk. rewrite load_group, get_type_cons. cbn [res_bind]. rewrite Hk. cbn [res_bind].
    rewrite Hu. unfold create_masked.
    assert (forall d1 d2, listing L [(name3 0, d1); (name3 0 ++ mask_suffix, d2)]
                          = [(name3 0, d1); (name3 0 ++ mask_suffix, d2)]) as ->.
    { intros d1 d2. unfold listing. destruct (l_track L); [done|]. reflexivity. }
    cbn [map fst].
    assert (sort_keys [name3 0; name3 0 ++ mask_suffix] = Ok [name3 0; name3 0 ++ mask_suffix]) as ->.
    { vm_compute. reflexivity. }
    cbn [res_bind map fst snd]. unfold pick. cbn [res_mapM alist_get].
    rewrite decide_True by done. rewrite decide_False by (vm_compute; discriminate).
    rewrite decide_True by done.
    match goal with |- context [load3 L ?kids (name3 0) (TData ?a1 ?d1)] =>
      assert (load3 L kids (name3 0) (TData a1 d1) =
        Ok (PMasked a (Some match m with None => map (fun _ => NB false) (snd a) | Some ns => ns end))) as ->
    end.
    { open_leaf. cbn [alist_get]. rewrite decide_False by (vm_compute; discriminate).
      rewrite decide_True by done. inversion Hf as [ | | | |? ? Hm| | | | | | | | | ]; subst.
      destruct m as [ns|]; cbn [mask_data load_masked].
      - rewrite bool_decide_true by done. f_equal. f_equal. f_equal.
        clear -Hm. induction Hm as [|n ns [b ->] Hm IH]; [done|]. simpl. f_equal. exact IH.
      - done. }
    cbn [res_bind]. open_leaf. done.
  - apply Hr in Hm as (t & w & -> & Hs & Hw). exists w, []. split; [done|].
    intros sibs nm ct r kt Hu Hk. rewrite load_group, get_type_cons. cbn [res_bind]. rewrite Hk. cbn [res_bind].
    rewrite Hu. assert (listing L [(name3 0, t)] = [(name3 0, t)]) as ->.
    { unfold listing. by destruct (l_track L). }
    cbn [map fst]. assert (sort_keys [name3 0] = Ok [name3 0]) as -> by (vm_compute; reflexivity).
    cbn [res_bind map fst snd]. unfold pick. cbn [res_mapM alist_get]. rewrite decide_True by done.
    by rewrite (Hw _ _).
Qed.

(** The members read, one triple (key, value, rest) for each entry. *)
Definition item_read (L : env3) (q : val3 * val3 * list val3) : list N * val3 :=
  let '(k, w, ws) := q in
  (key_text L k, PContainer (str "dict_item") (key_text L k) (Some (type3 k)) (w :: ws)).

Lemma entries_read L kids l xss :
  Forall (fun e => fine_key L (fst e) /\ fine L (snd e)) l ->
  Forall (fun e => fine L (snd e) -> ~ is_masked (snd e) -> forall i kids, dump3 L i (snd e) = Ok kids -> reads L (snd e) i kids) l ->
  Forall2 (fun e xs => dump3 L 0 (snd e) = Ok xs) l xss ->
  exists qs, map (fun q => fst (fst q)) qs = map fst l /\
    Forall2 (fun e q => same3 (snd e) (snd (fst q))) l qs /\
    map (fun e => (fst e, load3 L kids (fst e) (snd e))) (zip_with (fun e xs => entry_node L (fst e) xs) l xss)
    = outcomes (map (item_read L) qs).
Proof.
  intros Hf Hr H. induction H as [|[k x] xs l xss Hx H IH].
  - exists []. split; [done|]. split; [constructor|done].
  - apply list.Forall_cons in Hf as [[Hk Hfx] Hf]. apply list.Forall_cons in Hr as [Hrx Hr]. cbn [fst snd] in *.
    destruct (IH Hf Hr) as (qs & H1 & H2 & H3).
    destruct (group_single L x xs Hfx) as (w & ws & Hs & Hw); [intros Hm; by apply Hrx|done|].
    exists ((k, w, ws) :: qs). split; [simpl; by rewrite H1|]. split; [by constructor|].
    cbn [zip_with map outcomes]. f_equal; [|exact H3].
    cbn [item_read fst snd]. unfold entry_node at 1. cbn [fst]. f_equal.
    unfold entry_node, dict_item. cbn [snd].
    rewrite (Hw _ _ _ _ (Some (type3 k))).
    + unfold convert. decide_names. done.
    + vm_compute. reflexivity.
    + rewrite bool_decide_true by done. cbn [alist_get].
      rewrite decide_False by (vm_compute; discriminate). rewrite decide_True by done. done.
Qed.

Lemma Forall2_fst_same l qs : map (fun q : val3 * val3 * list val3 => fst (fst q)) qs = map fst l ->
  Forall2 (fun e q => same3 (snd e) (snd (fst q))) l qs ->
  Forall2 (fun p q => fst p = fst q /\ same3 (snd p) (snd q)) l (map fst qs).
Proof.
  intros H1 H. induction H as [|e q l qs Hx H IH]; [constructor|]. simpl in *. injection H1 as H0 H1.
  constructor; [by split|by apply IH].
Qed.

Lemma dict_reads L i l kids : env3_ok L ->
  Forall (fun e => fine_key L (fst e) /\ fine L (snd e)) l -> distinct3 (map fst l) ->
  Forall (fun e => fine L (snd e) -> ~ is_masked (snd e) -> forall i kids, dump3 L i (snd e) = Ok kids -> reads L (snd e) i kids) l ->
  dump3 L i (PDict l) = Ok kids -> reads L (PDict l) i kids.
Proof.
  intros HL Hf Hd Hr E. rewrite dump_dict in E.
  destruct (dump_entries L [] l) as [ks|] eqn:Ee; [|done]. injection E as <-.
  assert (Forall (fun e => fine_key L (fst e)) l) as Hk by (eapply list.Forall_impl; [exact Hf|]; by intros e [H _]).
  apply entries_written in Ee as (xss & H1 & -> & H3); [|done|done|constructor].
  simpl in H3. simpl. set (ks := zip_with _ l xss) in *.
  destruct (entries_read L ks l xss Hf Hr H1) as (qs & Hq1 & Hq2 & Hq3). fold ks in Hq3.
  assert (Forall (fun q => fine_key L (fst (fst q))) qs) as Hqk.
  { apply list.Forall_forall. intros q Hq. assert (fst (fst q) ∈ map fst l) as Hi.
    { rewrite <- Hq1. by apply (elem_of_list_fmap_1 (fun q => fst (fst q))). }
    apply elem_of_list_fmap in Hi as (e & -> & Hi). rewrite list.Forall_forall in Hk. by apply Hk. }
  assert (map fst ks = map fst (map (item_read L) qs)) as Hn.
  { transitivity (map fst (map (fun e => (fst e, load3 L ks (fst e) (snd e))) ks)).
    - by rewrite map_map.
    - rewrite Hq3. unfold outcomes. by rewrite map_map. }
  destruct (sort_keys_perm (map fst (listing L ks))) as (out & Ho & Hp).
  { rewrite (Permutation_map fst (listing_perm L ks)), Hn.
    apply list.Forall_forall. intros n Hi. apply elem_of_list_fmap in Hi as (e & -> & Hi).
    apply elem_of_list_fmap in Hi as (q & -> & Hi). rewrite list.Forall_forall in Hqk. apply Hqk in Hi.
    destruct q as [[k w] ws]. simpl in *. destruct (key_reads L k HL Hi) as (Hpl & _ & _).
    eapply list.Forall_impl; [exact Hpl|]. by intros c [Hc _]. }
  rewrite (Permutation_map fst (listing_perm L ks)), Hn in Hp. rewrite map_map in Hp.
  destruct (Permutation_map_inv _ _ Hp) as (qs' & -> & Hpq).
  assert (Permutation (map fst qs) (map fst qs')) as Hpf by (apply Permutation_map; by symmetry).
  exists (TGroup [(a3_type, type3 (PDict l))] ks), (PDict (map fst qs')).
  split; [done|]. split. { econstructor; [by apply Forall2_fst_same|]. done. }
  intros sibs nm. rewrite load_group, get_type_cons. cbn [res_bind].
  change (type3 (PDict l)) with (type_text (str "dict")).
  assert (unsorted (type_text (str "dict")) = false) as -> by (vm_compute; reflexivity).
  rewrite bool_decide_false by (vm_compute; discriminate). cbn [res_bind]. rewrite Ho. cbn [res_bind].
  rewrite Hq3.
  replace (map (fun x => fst (item_read L x)) qs') with (map fst (map (item_read L) qs')) by (by rewrite map_map).
  rewrite pick_all; [|by rewrite <- Hn|by apply Permutation_map; symmetry]. cbn [res_bind].
  unfold convert. decide_names.
  assert (existsb (fun k => bool_decide (type_text (str "dict") = sparse_type k [])) sparse_kinds = false) as ->
    by (vm_compute; reflexivity).
  assert (res_mapM (entry_of L) (map snd (map (item_read L) qs')) = Ok (map fst qs')) as ->.
  { assert (Forall (fun q => fine_key L (fst (fst q))) qs') as Hqk' by (by rewrite <- Hpq).
    clear -Hqk' HL. apply res_mapM_ok. induction Hqk' as [|[[k w] ws] qs' Hx H IH]; [constructor|].
    simpl. constructor; [|done]. simpl. destruct (key_reads L k HL Hx) as (_ & _ & ->). done. }
  cbn [res_bind]. rewrite dict_of_distinct; [done|].
  apply (distinct_perm (map fst l)); [|done]. rewrite <- Hq1. rewrite map_map. by apply Permutation_map.
Qed.

(** ** Sparse matrices *)
Lemma sparse_reads L i k a b c d : reads L (PSparse k a b c d) i (create_sparse3 i k a b c d).
Proof.
  unfold create_sparse3. eexists _, _. split; [done|]. split; [constructor|].
  intros sibs nm. rewrite load_group, get_type_cons. cbn [res_bind].
  assert (unsorted (sparse_type k []) = true) as -> by (destruct k; vm_compute; reflexivity).
  rewrite bool_decide_false by (destruct k; vm_compute; discriminate). cbn [res_bind].
  match goal with |- context [listing L ?l] => assert (listing L l = l) as ->  end.
  { unfold listing. destruct (l_track L); [done|]. reflexivity. }
  cbn [map fst snd].
  match goal with |- context [load3 L ?kids (str "data") ?t] => set (ks := kids) end.
  assert (forall x, load3 L ks (str "data") (TData [(a3_type, sparse_type k (str "_data"))] (XArr a)) = x ->
    x = Ok (PSparse k a b c d)) as G1.
  { intros x <-. cbn [load3]. unfold load_dataset3. rewrite get_type_cons. cbn [res_bind].
    destruct k; decide_names; reflexivity. }
  rewrite (G1 _ eq_refl).
  assert (forall p, p = str "_indices" \/ p = str "_indptr" \/ p = str "_shape" ->
    forall n x, load3 L ks n (TData [(a3_type, sparse_type k p)] (XArr x)) = Ok PNone) as G2.
  { intros p Hp n x. cbn [load3]. unfold load_dataset3. rewrite get_type_cons. cbn [res_bind].
    destruct Hp as [-> | [-> | ->]]; destruct k; decide_names; reflexivity. }
  rewrite !G2 by auto. unfold pick. cbn [res_mapM alist_get].
  repeat first [rewrite decide_True by done | rewrite decide_False by (vm_compute; discriminate)].
  cbn [res_bind res_map]. unfold convert. destruct k; decide_names; reflexivity.
Qed.

(** ** All values *)
Lemma pickled_reads L i c l v kids : In v l ->
  (exists n, v = PNum n) \/ (exists s, v = PStr s) \/ (exists b, v = PBytes b) ->
  Forall (fun x => class3 x = class3 v) l ->
  dump3 L i (PSeq (SOther c) l) = Ok kids -> reads L (PSeq (SOther c) l) i kids.
Proof.
  intros Hi Hv Hl E. rewrite dump_seq in E.
  assert (item_type l = Some (class3 v)) as Et.
  { destruct l as [|x r]; [done|]. apply list.Forall_cons in Hl as [Hx Hr]. unfold item_type. rewrite Hx.
    replace (forallb _ r) with true; [done|]. symmetry. apply List.forallb_forall. intros y Hy.
    rewrite list.Forall_forall in Hr. apply bool_decide_eq_true. by apply Hr, elem_of_list_In. }
  rewrite Et in E. cbn zeta in E. rewrite bool_decide_true in E.
  2:{ destruct Hv as [([] & ->)|[(? & ->)|(? & ->)]]; apply (bool_decide_unpack _); vm_compute; exact I. }
  injection E as <-. eexists _, _. split; [done|]. split; [constructor|]. intros sibs nm. open_leaf. done.
Qed.

Lemma items_group_reads L i k l kids : builtin_seq k -> (k = SSet -> distinct3 l) ->
  Forall (fun x => forall i kids, dump3 L i x = Ok kids -> reads L x i kids) l ->
  res_map (fun kids => [(name3 i, TGroup [(a3_type, type3 (PSeq k l))] kids)]) (dump_items L 0 l) = Ok kids ->
  reads L (PSeq k l) i kids.
Proof.
  intros Hk Hd Hr E. destruct (dump_items L 0 l) as [ks|] eqn:Ei; [|done]. injection E as <-.
  destruct (group_reads L (type3 (PSeq k l)) l ks Hr Ei) as (ws & Hs & Hw).
  { destruct Hk as [-> | [-> | ->]]; vm_compute; discriminate. }
  { destruct Hk as [-> | [-> | ->]]; vm_compute; reflexivity. }
  destruct (make_seq_same k l ws Hk Hd Hs) as (w & Em & Hsw).
  eexists _, w. split; [done|]. split; [done|]. intros sibs nm. rewrite Hw.
  unfold convert. destruct Hk as [-> | [-> | ->]]; cbn [type3]; decide_names; exact Em.
Qed.

Lemma dumped_reads L : env3_ok L -> forall v, fine L v -> ~ is_masked v ->
  forall i kids, dump3 L i v = Ok kids -> reads L v i kids.
Proof.
  intros HL v. induction v as [ | | | | |k l IH|l IH| |a m|k a b c d| | ] using val3_ind'; intros Hf Hm i kids E.
  1-5,8,11: apply leaf_reads; [|done]; inversion Hf; subst; done.
  - inversion Hf as [ | | | | | | | | |? ss Hk Hss Hn Hset|? bs Hk Hbs Hn Hw Hset|? ? Hk Ht Hb Hx Hset|? ? v Hi Hv Hc| ]; subst.
    + rewrite dump_seq in E. cbn zeta in E.
      assert (item_type (map PStr ss) = Some (str "str")) as Et.
      { destruct ss as [|s ss]; [done|]. unfold item_type. cbn [map].
        replace (forallb _ _) with true; [done|]. symmetry. apply List.forallb_forall. intros y Hy.
        apply in_map_iff in Hy as (z & <- & _). by apply bool_decide_eq_true. }
      rewrite Et in E. rewrite bool_decide_true in E by (apply (bool_decide_unpack _); vm_compute; exact I).
      apply listlike_reads; try done.
      * intros ->. apply (distinct_map _ HStr); try done; [congruence|by apply Hset].
      * intros _ s Hi. apply in_map_iff in Hi as (s' & [= ->] & Hi). rewrite list.Forall_forall in Hn.
        by apply Hn, elem_of_list_In.
      * intros (bs & Hb & Eb). destruct ss, bs; try done.
      * by destruct Hk as [-> | [-> | ->]].
    + rewrite dump_seq in E. cbn zeta in E.
      assert (item_type (map PBytes bs) = Some (str "bytes")) as Et.
      { destruct bs as [|s ss]; [done|]. unfold item_type. cbn [map].
        replace (forallb _ _) with true; [done|]. symmetry. apply List.forallb_forall. intros y Hy.
        apply in_map_iff in Hy as (z & <- & _). by apply bool_decide_eq_true. }
      rewrite Et in E. rewrite bool_decide_true in E by (apply (bool_decide_unpack _); vm_compute; exact I).
      apply listlike_reads; try done.
      * intros ->. apply (distinct_map _ HBytes); try done; [congruence|by apply Hset].
      * intros (ss & Hb & Eb). destruct ss, bs; try done.
      * intros _ s Hi. apply in_map_iff in Hi as (s' & [= ->] & Hi). rewrite list.Forall_forall in Hn, Hw.
        apply elem_of_list_In in Hi. split; [by apply Hn|]. destruct (Hw _ Hi) as (x & _ & Hx). by exists x.
      * by destruct Hk as [-> | [-> | ->]].
    + rewrite dump_seq in E. cbn zeta in E.
      assert (Forall (fun x => forall i kids, dump3 L i x = Ok kids -> reads L x i kids) l) as Hr.
      { apply list.Forall_forall. intros x Hi. rewrite list.Forall_forall in IH, Hx.
        destruct (Hx x Hi) as [H1 H2]. by apply IH. }
      destruct (item_type l) as [c|]; [|by apply items_group_reads].
      destruct (bool_decide (c ∈ dumpable)); [|by apply items_group_reads].
      apply listlike_reads; try done. by destruct Hk as [-> | [-> | ->]].
    + by eapply pickled_reads.
  - inversion Hf as [ | | | | | | | | | | | | |? Hx Hd]; subst. apply dict_reads; try done.
    eapply list.Forall_impl; [exact IH|]. intros e [_ H] H1 H2 j ks. by apply H.
  - destruct Hm. by eexists _, _.
  - injection E as <-. apply sparse_reads.
  - inversion Hf.
Qed.

Theorem v3_round_trip L v t : env3_ok L -> fine L v -> dump_v3 L v = Ok t ->
  exists w, load_v3 L t = Ok w /\ same3 v w.
Proof.
  intros HL Hf E. unfold dump_v3 in E. destruct (dump3 L 0 v) as [xs|] eqn:Ex; [|done]. injection E as <-.
  destruct (group_single L v xs Hf) as (w & ws & Hs & Hw); [intros Hm; by apply dumped_reads|done|].
  exists w. split; [|done]. unfold load_v3. rewrite (Hw _ _ _ _ None); [|vm_compute; reflexivity|by rewrite bool_decide_false by (vm_compute; discriminate)].
  unfold convert. decide_names. cbn [existsb sparse_kinds].
  match goal with |- context [if ?x then _ else _] => assert (x = false) as -> by (vm_compute; reflexivity) end.
  done.
Qed.
