(** * LoaderSearch: the loader found for a class does not depend on earlier searches *)
From Verif Require Import Base Utf8 Dec Num PyObj H5 Env Create Dump LoadFns LoadModel Registry RegistryStd RegistryProofs.
From Coq Require Import Lia ZifyBool ZifyN.
Local Open Scope N_scope.
Local Open Scope list_scope.

(** ** Specification

    The loader module responsible for a class is the one named after its package. *)
Definition package (W : world) (c : cls) : option pystr :=
  if bool_decide (part 0 (cls_module c) = str "__main__") then w_main W else Some (part 0 (cls_module c)).
Definition responsible (W : world) (c : cls) (nm : pystr) : Prop :=
  exists pkg, package W c = Some pkg /\ nm = loader_prefix ++ pkg.

(** How instances of [c] are dumped under option [o], according to the loader modules that
    can be found and to what is registered at run time ([g0]). *)
Inductive registered (W : world) (g0 : registry) (o : opt) (c : cls) : dump_item -> Prop :=
| RegModule nm m e fn mo : (nm, m) ∈ w_modules W -> e ∈ lm_register m -> re_cls e = c -> re_opt e = o ->
    re_dump e = Some (fn, mo) -> registered W g0 o c (fn, re_base e, re_memo e)
| RegRun i : alist_get (o, c) (g_py g0) = Some i -> registered W g0 o c i.

(** The first of the active options with an entry for the class decides. *)
Definition class_item (W : world) (g0 : registry) (opts : list opt) (c : cls) (i : dump_item) : Prop :=
  exists o1 o o2, opts = o1 ++ o :: o2 /\ registered W g0 o c i /\ (forall o' j, o' ∈ o1 -> ~ registered W g0 o' c j).
Definition no_item (W : world) (g0 : registry) (opts : list opt) (c : cls) : Prop :=
  forall o j, o ∈ opts -> ~ registered W g0 o c j.
(** The first class of the mro with an entry decides. *)
Definition search_finds (W : world) (g0 : registry) (opts : list opt) (cs : list cls) (i : dump_item) : Prop :=
  exists c1 c c2, cs = c1 ++ c :: c2 /\ class_item W g0 opts c i /\ (forall c', c' ∈ c1 -> no_item W g0 opts c').

(** Names of base types a module registers or excludes. *)
Definition module_names (m : loader_module) : list bytes := map re_base (lm_register m) ++ map fst (lm_exclude m).
(** Keys a module registers a dump function for. *)
Definition dump_keys (m : loader_module) : list (opt * cls) :=
  omap (fun e => match re_dump e with Some _ => Some (re_opt e, re_cls e) | None => None end) (lm_register m).

(** A registration that is not refused, whatever has been registered before. *)
Definition acceptable (e : reg_entry) : bool :=
  negb (core_only (re_cls e)) && negb (protected (re_base e)) && known_option (re_opt e)
  && forallb (fun c => c <? 128) (re_base e).
Definition excludable (p : bytes * opt) : bool :=
  negb (bool_decide (fst p = [])) && negb (bool_decide (fst p ∈ disallowed_to_ignore)) && known_option (snd p)
  && forallb (fun c => c <? 128) (fst p).

(** Loader modules that keep to the classes of their package, register each class once per
    option, use base types of their own and are not refused. *)
Record tidy (W : world) : Prop := {
  ty_names : NoDup (map fst (w_modules W));
  ty_own : forall nm m e, (nm, m) ∈ w_modules W -> e ∈ lm_register m -> re_dump e <> None ->
    in_hickle (re_cls e) = true \/ responsible W (re_cls e) nm;
  ty_once : forall nm m, (nm, m) ∈ w_modules W -> NoDup (dump_keys m);
  ty_accepted : forall nm m, (nm, m) ∈ w_modules W -> forallb acceptable (lm_register m) = true /\ forallb excludable (lm_exclude m) = true;
  ty_bases : forall nm m nm' m' b, (nm, m) ∈ w_modules W -> (nm', m') ∈ w_modules W ->
    b ∈ module_names m -> b ∈ module_names m' -> nm = nm'
}.
(** Before any module is loaded; what is registered at run time leaves alone the classes
    the loader modules register. *)
Definition fresh (W : world) (g0 : registry) : Prop :=
  g_loaded g0 = [] /\
  forall nm m e o, (nm, m) ∈ w_modules W -> e ∈ lm_register m -> re_dump e <> None -> alist_get (o, re_cls e) (g_py g0) = None.

(** What is left by a sequence of searches, failed ones included. *)
Definition after (W : world) (g0 : registry) (h : list (list opt * cls * option bytes)) : registry :=
  foldl (fun g '(opts, c, base) => fst (load_loader W opts g c base)) g0 h.

(** No class of the mro is defined by hickle. *)
Definition not_hickle (c : cls) : bool := forallb (fun k => negb (in_hickle k)) (mro c).

(** ** Updates of a table *)
Section Updates.
  Context {K V : Type} `{EqDecision K}.
  Definition update (t : list (K * V)) (us : list (K * V)) : list (K * V) := foldl (fun t '(k, v) => alist_set k v t) t us.
  Fixpoint last_of (us : list (K * V)) (k : K) : option V :=
    match us with
    | [] => None
    | (k', v) :: r => match last_of r k with Some w => Some w | None => if decide (k = k') then Some v else None end
    end.
  Lemma update_app t us us' : update t (us ++ us') = update (update t us) us'.
  Proof. apply foldl_app. Qed.
  Lemma update_get us : forall t k,
    alist_get k (update t us) = match last_of us k with Some v => Some v | None => alist_get k t end.
  Proof.
    induction us as [|[k' v] us IH]; intros t k; [done|]. cbn [last_of update foldl].
    change (foldl _ (alist_set k' v t) us) with (update (alist_set k' v t) us).
    rewrite IH, alist_get_set. destruct (last_of us k); [done|].
    repeat case_decide; congruence.
  Qed.
  Lemma last_of_in us k v : last_of us k = Some v -> (k, v) ∈ us.
  Proof.
    induction us as [|[k' w] us IH]; [done|]. cbn [last_of]. destruct (last_of us k) as [x|].
    - intros [= ->]. right. by apply IH.
    - case_decide; [|done]. intros [= ->]. subst. left.
  Qed.
  Lemma last_of_none us k v : last_of us k = None -> (k, v) ∉ us.
  Proof.
    induction us as [|[k' w] us IH]; [intros _ H; inversion H|]. cbn [last_of]. destruct (last_of us k); [done|].
    case_decide; [done|]. intros _ [[= -> ->]|Hx]%elem_of_cons; [done|]. by apply IH.
  Qed.
  Lemma last_of_unique us k v : NoDup (map fst us) -> (k, v) ∈ us -> last_of us k = Some v.
  Proof.
    induction us as [|[k' w] us IH]; [intros _ H; inversion H|]. cbn [map fst last_of].
    intros [Hni Hnd]%list.NoDup_cons [[= -> ->]|H]%elem_of_cons.
    - destruct (last_of us k') eqn:E; [|by rewrite decide_True].
      apply last_of_in in E. destruct Hni. apply elem_of_list_fmap. by exists (k', v).
    - by rewrite (IH Hnd H).
  Qed.
End Updates.

(** ** What loading a module does *)
Definition py_of (e : reg_entry) : list ((opt * cls) * dump_item) :=
  match re_dump e with Some (fn, _) => [((re_opt e, re_cls e), (fn, re_base e, re_memo e))] | None => [] end.
Definition fn_of (e : reg_entry) : list ((opt * bytes) * loadfn) :=
  match re_load e with Some (fn, _) => [((re_opt e, re_base e), fn)] | None => [] end.
Definition ct_of (e : reg_entry) : list ((opt * bytes) * contk) :=
  match re_cont e with Some (k, _) => [((re_opt e, re_base e), k)] | None => [] end.
Definition py_ups (m : loader_module) := concat (map py_of (lm_register m)).
Definition fn_ups (m : loader_module) :=
  concat (map fn_of (lm_register m)) ++ map (fun p : bytes * opt => ((snd p, fst p), LNothing)) (lm_exclude m).
Definition ct_ups (m : loader_module) :=
  concat (map ct_of (lm_register m)) ++ map (fun p : bytes * opt => ((snd p, fst p), KNo)) (lm_exclude m).

Lemma register_class_acceptable g e : acceptable e = true ->
  register_class g e = (Registry (update (g_py g) (py_of e)) (update (g_fn g) (fn_of e)) (update (g_ct g) (ct_of e)) (g_loaded g), Ok tt).
Proof.
  unfold acceptable, protected. rewrite !andb_true_iff, !negb_true_iff. intros [[[Hc Hp] Ho] Ha].
  unfold register_class. rewrite Hc, Hp, Ho, Ha, andb_false_r. cbn [andb negb].
  unfold py_of, fn_of, ct_of.
  destruct (re_dump e) as [[]|]; destruct (re_load e) as [[]|]; destruct (re_cont e) as [[]|]; by destruct g.
Qed.
Lemma register_all_acceptable es : forall g, forallb acceptable es = true ->
  register_all g es = (Registry (update (g_py g) (concat (map py_of es))) (update (g_fn g) (concat (map fn_of es)))
    (update (g_ct g) (concat (map ct_of es))) (g_loaded g), Ok tt).
Proof.
  induction es as [|e es IH]; intros g; [by destruct g|].
  cbn [forallb]. intros [He Hes]%andb_true_iff. cbn [register_all map concat].
  rewrite register_class_acceptable by done. rewrite IH by done. cbn [g_py g_fn g_ct g_loaded].
  by rewrite !update_app.
Qed.
Lemma exclude_all_ok es : forall g, forallb excludable es = true ->
  exclude_all g es = (Registry (g_py g) (update (g_fn g) (map (fun p : bytes * opt => ((snd p, fst p), LNothing)) es))
    (update (g_ct g) (map (fun p : bytes * opt => ((snd p, fst p), KNo)) es)) (g_loaded g), Ok tt).
Proof.
  induction es as [|[b o] es IH]; intros g; [by destruct g|].
  cbn [forallb]. intros [He Hes]%andb_true_iff. cbn [exclude_all map].
  unfold excludable in He. cbn [fst snd] in He. rewrite !andb_true_iff, !negb_true_iff in He.
  destruct He as [[[Hb Hd] Ho] Ha].
  unfold register_class_exclude. destruct b as [|x b]; [by rewrite bool_decide_eq_true_2 in Hb|].
  rewrite Hd, Ho, Ha. cbn [negb]. rewrite IH by done. done.
Qed.
Lemma load_module_ok g nm m : forallb acceptable (lm_register m) = true -> forallb excludable (lm_exclude m) = true ->
  load_module g nm m = (Registry (update (g_py g) (py_ups m)) (update (g_fn g) (fn_ups m)) (update (g_ct g) (ct_ups m))
                          (nm :: g_loaded g), Ok tt).
Proof.
  intros H1 H2. unfold load_module. rewrite register_all_acceptable by done. rewrite exclude_all_ok by done.
  cbn [g_py g_fn g_ct g_loaded]. unfold fn_ups, ct_ups. by rewrite !update_app.
Qed.

Lemma py_ups_in m o c i : ((o, c), i) ∈ py_ups m <->
  exists e fn mo, e ∈ lm_register m /\ re_cls e = c /\ re_opt e = o /\ re_dump e = Some (fn, mo) /\ i = (fn, re_base e, re_memo e).
Proof.
  unfold py_ups. rewrite elem_of_list_In, in_concat. split.
  - intros (l & Hl & Hi). apply in_map_iff in Hl. destruct Hl as (e & <- & He). apply elem_of_list_In in He.
    unfold py_of in Hi. destruct (re_dump e) as [[fn mo]|] eqn:Ed; [|done]. destruct Hi as [[= <- <- <-]|[]].
    by exists e, fn, mo.
  - intros (e & fn & mo & He & <- & <- & Hd & ->). exists (py_of e). split.
    + apply in_map. by apply elem_of_list_In.
    + unfold py_of. rewrite Hd. by left.
Qed.
Lemma py_ups_keys m : map fst (py_ups m) = dump_keys m.
Proof.
  unfold py_ups, dump_keys. induction (lm_register m) as [|e es IH]; [done|].
  cbn [map concat]. rewrite map_app, IH. unfold py_of. cbn. by destruct (re_dump e) as [[]|].
Qed.
Lemma fn_ups_name m o b v : ((o, b), v) ∈ fn_ups m -> b ∈ module_names m.
Proof.
  unfold fn_ups, module_names. rewrite !elem_of_app. intros [H|H].
  - left. apply elem_of_list_In, in_concat in H. destruct H as (l & Hl & Hi). apply in_map_iff in Hl.
    destruct Hl as (e & <- & He). unfold fn_of in Hi. destruct (re_load e) as [[]|]; [|done].
    destruct Hi as [[= _ <- _]|[]]. apply elem_of_list_In, in_map_iff. by exists e.
  - right. apply elem_of_list_fmap in H. destruct H as (p & [= -> -> ->] & Hp). apply elem_of_list_fmap. by exists p.
Qed.
Lemma ct_ups_name m o b v : ((o, b), v) ∈ ct_ups m -> b ∈ module_names m.
Proof.
  unfold ct_ups, module_names. rewrite !elem_of_app. intros [H|H].
  - left. apply elem_of_list_In, in_concat in H. destruct H as (l & Hl & Hi). apply in_map_iff in Hl.
    destruct Hl as (e & <- & He). unfold ct_of in Hi. destruct (re_cont e) as [[]|]; [|done].
    destruct Hi as [[= _ <- _]|[]]. apply elem_of_list_In, in_map_iff. by exists e.
  - right. apply elem_of_list_fmap in H. destruct H as (p & [= -> -> ->] & Hp). apply elem_of_list_fmap. by exists p.
Qed.

(** ** The tables during a history *)
Lemma alist_get_in {K V} `{EqDecision K} (k : K) (v : V) l : alist_get k l = Some v -> (k, v) ∈ l.
Proof.
  induction l as [|[k' w] l IH]; [done|]. cbn [alist_get]. case_decide; [intros [= ->]; subst; left|right; by apply IH].
Qed.
Lemma alist_get_unique {K V} `{EqDecision K} (k : K) (v : V) l : NoDup (map fst l) -> (k, v) ∈ l -> alist_get k l = Some v.
Proof.
  induction l as [|[k' w] l IH]; [intros _ H; inversion H|]. cbn [map fst alist_get].
  intros [Hni Hnd]%list.NoDup_cons [[= -> ->]|H]%elem_of_cons; [by rewrite decide_True|].
  rewrite decide_False; [by apply IH|]. intros ->. destruct Hni. apply elem_of_list_fmap. by exists (k', v).
Qed.

Section History.
  Variables (W : world) (g0 : registry).
  Hypothesis HT : tidy W.
  Hypothesis HF : fresh W g0.

  (** A table [t] that started as [t0] and got the updates of the modules in [ld]; [P]: the
      keys considered. *)
  Definition tracks {K V} `{EqDecision K} (P : K -> Prop) (ups : loader_module -> list (K * V)) (t0 t : list (K * V)) (ld : list pystr) : Prop :=
    forall k, P k ->
      (forall nm m v, (nm, m) ∈ w_modules W -> nm ∈ ld -> last_of (ups m) k = Some v -> alist_get k t = Some v) /\
      ((forall nm m, (nm, m) ∈ w_modules W -> nm ∈ ld -> last_of (ups m) k = None) -> alist_get k t = alist_get k t0).
  Definition apart {K V} `{EqDecision K} (P : K -> Prop) (ups : loader_module -> list (K * V)) : Prop :=
    forall k nm m v nm' m' v', P k -> (nm, m) ∈ w_modules W -> (nm', m') ∈ w_modules W ->
      last_of (ups m) k = Some v -> last_of (ups m') k = Some v' -> nm = nm'.

  Lemma module_unique nm m m' : (nm, m) ∈ w_modules W -> (nm, m') ∈ w_modules W -> m = m'.
  Proof.
    intros H H'. apply (alist_get_unique _ _ _ (ty_names _ HT)) in H, H'. congruence.
  Qed.
  Lemma tracks_load {K V} `{EqDecision K} (P : K -> Prop) (ups : loader_module -> list (K * V)) t0 t ld nm m :
    apart P ups -> (nm, m) ∈ w_modules W -> tracks P ups t0 t ld -> tracks P ups t0 (update t (ups m)) (nm :: ld).
  Proof.
    intros HA Hm Ht k HP. destruct (Ht k HP) as [H1 H2]. rewrite update_get. split.
    - intros nm' m' v Hm' Hin Hl. destruct (last_of (ups m) k) as [w|] eqn:E.
      + assert (nm = nm') by (eapply HA; eauto). subst. rewrite (module_unique _ _ _ Hm' Hm) in Hl. congruence.
      + apply elem_of_cons in Hin. destruct Hin as [-> |Hin].
        * rewrite (module_unique _ _ _ Hm' Hm) in Hl. congruence.
        * by eapply H1.
    - intros Hn. rewrite (Hn nm m Hm) by left. apply H2. intros nm' m' Hm' Hin. apply (Hn nm' m' Hm'). by right.
  Qed.

  Definition outside (k : opt * cls) : Prop := in_hickle (snd k) = false.
  Definition anyk (k : opt * bytes) : Prop := True.

  Lemma responsible_unique c nm nm' : responsible W c nm -> responsible W c nm' -> nm = nm'.
  Proof. intros (p & Hp & ->) (p' & Hp' & ->). congruence. Qed.
  Lemma ups_responsible nm m o c i : (nm, m) ∈ w_modules W -> in_hickle c = false -> last_of (py_ups m) (o, c) = Some i -> responsible W c nm.
  Proof.
    intros Hm Hc Hl. apply last_of_in, py_ups_in in Hl. destruct Hl as (e & fn & mo & He & <- & _ & Hd & _).
    destruct (ty_own _ HT nm m e Hm He) as [H|H]; [by rewrite Hd|congruence|done].
  Qed.
  Lemma py_apart : apart outside py_ups.
  Proof.
    intros [o c] nm m v nm' m' v' HP Hm Hm' H H'.
    exact (responsible_unique c nm nm' (ups_responsible _ _ _ _ _ Hm HP H) (ups_responsible _ _ _ _ _ Hm' HP H')).
  Qed.
  Lemma fn_apart : apart anyk fn_ups.
  Proof.
    intros [o b] nm m v nm' m' v' _ Hm Hm' H H'. apply last_of_in, fn_ups_name in H, H'. exact (ty_bases _ HT _ _ _ _ _ Hm Hm' H H').
  Qed.
  Lemma ct_apart : apart anyk ct_ups.
  Proof.
    intros [o b] nm m v nm' m' v' _ Hm Hm' H H'. apply last_of_in, ct_ups_name in H, H'. exact (ty_bases _ HT _ _ _ _ _ Hm Hm' H H').
  Qed.

  Definition inv (g : registry) : Prop :=
    tracks outside py_ups (g_py g0) (g_py g) (g_loaded g) /\
    tracks anyk fn_ups (g_fn g0) (g_fn g) (g_loaded g) /\
    tracks anyk ct_ups (g_ct g0) (g_ct g) (g_loaded g).
  Lemma inv_start : inv g0.
  Proof.
    unfold inv. rewrite (proj1 HF).
    split; [|split]; intros k _; (split; [intros ? ? ? _ H; inversion H|done]).
  Qed.
  Lemma inv_load g nm m : inv g -> (nm, m) ∈ w_modules W ->
    exists g', load_module g nm m = (g', Ok tt) /\ inv g' /\ g_loaded g' = nm :: g_loaded g.
  Proof.
    intros (H1 & H2 & H3) Hm. destruct (ty_accepted _ HT nm m Hm) as [Ha He].
    rewrite load_module_ok by done. eexists. split; [done|]. split; [|done]. split; [|split]; cbn [g_py g_fn g_ct g_loaded].
    - apply tracks_load; [apply py_apart|done|done].
    - apply tracks_load; [apply fn_apart|done|done].
    - apply tracks_load; [apply ct_apart|done|done].
  Qed.
  Lemma inv_try opts g c nm : inv g -> exists g' st, try_module W opts g c nm = (g', st) /\ inv g' /\ g_loaded g ⊆ g_loaded g'.
  Proof.
    intros Hi. unfold try_module. destruct (alist_get nm (w_modules W)) as [m|] eqn:E; [|by exists g, Next].
    apply alist_get_in in E. destruct (inv_load g nm m Hi E) as (g' & -> & Hi' & Hl).
    assert (Hs : g_loaded g ⊆ g_loaded g') by (rewrite Hl; intros x; by right).
    destruct (chain_get opts c (g_py g')); by eauto 6.
  Qed.
  Lemma inv_step opts g base c g' st : inv g -> load_loader_step W opts g base c = (g', st) -> inv g' /\ g_loaded g ⊆ g_loaded g'.
  Proof.
    intros Hi. unfold load_loader_step. destruct (chain_get opts c (g_py g)); [by intros [= <- <-]|].
    case_bool_decide as Hh.
    - case_bool_decide; [by intros [= <- <-]|]. destruct (negb _).
      { destruct base; [destruct (in_tables g opts _)|]; by intros [= <- <-]. }
      destruct (_ || _); [by intros [= <- <-]|].
      set (g1 := Registry _ _ _ _).
      assert (Hi1 : inv g1).
      { destruct Hi as (H1 & H2 & H3). split; [|done]. intros [o k] Hk. subst g1. cbn [g_py g_loaded].
        rewrite alist_get_set, decide_False; [by apply H1|]. intros [= _ ->]. unfold outside, in_hickle in Hk. cbn [snd] in Hk.
        by rewrite bool_decide_eq_true_2 in Hk. }
      case_bool_decide; [intros [= <- <-]; done|].
      destruct (inv_try opts g1 c (cls_module c) Hi1) as (g2 & st2 & -> & Hi2 & Hs). intros [= <- <-]. done.
    - destruct (if bool_decide _ then _ else _) as [pkg|]; [|by intros [= <- <-]].
      case_bool_decide; [by intros [= <- <-]|].
      destruct (inv_try opts g c (loader_prefix ++ pkg) Hi) as (g2 & st2 & -> & Hi2 & Hs). intros [= <- <-]. done.
  Qed.
  Lemma inv_mro opts base cs : forall g, inv g ->
    inv (fst (load_loader_mro W opts g base cs)) /\ g_loaded g ⊆ g_loaded (fst (load_loader_mro W opts g base cs)).
  Proof.
    induction cs as [|c cs IH]; intros g Hi; [done|]. cbn [load_loader_mro].
    destruct (load_loader_step W opts g base c) as [g' st] eqn:E. destruct (inv_step _ _ _ _ _ _ Hi E) as [Hi' Hs].
    destruct st; [done| |done]. destruct (IH g' Hi') as [H1 H2]. split; [done|]. set_solver.
  Qed.
  Lemma inv_search opts base c g : inv g ->
    inv (fst (load_loader W opts g c base)) /\ g_loaded g ⊆ g_loaded (fst (load_loader W opts g c base)).
  Proof.
    intros Hi. unfold load_loader. pose proof (inv_mro opts base (mro c) g Hi) as H.
    destruct (load_loader_mro W opts g base (mro c)). done.
  Qed.
  Lemma inv_after h : inv (after W g0 h).
  Proof.
    unfold after. assert (forall g, inv g -> inv (foldl (fun g '(opts, c, base) => fst (load_loader W opts g c base)) g h)) as H; [|apply H, inv_start].
    induction h as [|[[opts c] base] h IH]; intros g Hg; [done|]. cbn [foldl]. apply IH. by apply inv_search.
  Qed.

  (** ** One class *)
  Definition entry_for (o : opt) (c : cls) : option dump_item :=
    match package W c with
    | Some pkg => match alist_get (loader_prefix ++ pkg) (w_modules W) with
                  | Some m => match last_of (py_ups m) (o, c) with Some i => Some i | None => alist_get (o, c) (g_py g0) end
                  | None => alist_get (o, c) (g_py g0)
                  end
    | None => alist_get (o, c) (g_py g0)
    end.
  Fixpoint first_opt (opts : list opt) (c : cls) : option dump_item :=
    match opts with
    | [] => None
    | o :: r => match entry_for o c with Some i => Some i | None => first_opt r c end
    end.
  Fixpoint first_cls (opts : list opt) (cs : list cls) : option dump_item :=
    match cs with
    | [] => None
    | c :: r => match first_opt opts c with Some i => Some i | None => first_cls opts r end
    end.

  Lemma chain_entry opts g c : (forall o, alist_get (o, c) (g_py g) = entry_for o c) -> chain_get opts c (g_py g) = first_opt opts c.
  Proof. intros H. induction opts as [|o r IH]; [done|]. cbn [chain_get first_opt]. by rewrite H, IH. Qed.

  Lemma fresh_none nm m o o' c i : (nm, m) ∈ w_modules W -> last_of (py_ups m) (o, c) = Some i -> alist_get (o', c) (g_py g0) = None.
  Proof.
    intros Hm Hl. apply last_of_in, py_ups_in in Hl. destruct Hl as (e & fn & mo & He & <- & _ & Hd & _).
    apply (proj2 HF nm m e o' Hm He). by rewrite Hd.
  Qed.

  (** The entries of [c] before its module is loaded, and afterwards. *)
  Lemma entries_loaded g c : inv g -> in_hickle c = false ->
    (forall pkg m, package W c = Some pkg -> alist_get (loader_prefix ++ pkg) (w_modules W) = Some m -> loader_prefix ++ pkg ∈ g_loaded g) ->
    forall o, alist_get (o, c) (g_py g) = entry_for o c.
  Proof.
    intros (H1 & _) Hc Hld o. destruct (H1 (o, c) Hc) as [Ha Hb]. unfold entry_for.
    destruct (package W c) as [pkg|] eqn:Ep.
    - destruct (alist_get (loader_prefix ++ pkg) (w_modules W)) as [m|] eqn:Em.
      + pose proof (alist_get_in _ _ _ Em) as Hm. destruct (last_of (py_ups m) (o, c)) as [i|] eqn:El.
        * by eapply Ha; [done|eapply Hld|].
        * apply Hb. intros nm' m' Hm' _. destruct (last_of (py_ups m') (o, c)) as [j|] eqn:Ej; [|done].
          destruct (ups_responsible _ _ _ _ _ Hm' Hc Ej) as (p & Hp & ->). assert (p = pkg) as -> by congruence.
          rewrite (module_unique _ _ _ Hm' Hm) in Ej. congruence.
      + apply Hb. intros nm' m' Hm' _. destruct (last_of (py_ups m') (o, c)) as [j|] eqn:Ej; [|done].
        destruct (ups_responsible _ _ _ _ _ Hm' Hc Ej) as (p & Hp & ->). assert (p = pkg) as -> by congruence.
        apply (alist_get_unique _ _ _ (ty_names _ HT)) in Hm'. congruence.
    - apply Hb. intros nm' m' Hm' _. destruct (last_of (py_ups m') (o, c)) as [j|] eqn:Ej; [|done].
      destruct (ups_responsible _ _ _ _ _ Hm' Hc Ej) as (p & Hp & ->). congruence.
  Qed.
  Lemma entries_not_loaded g c pkg : inv g -> in_hickle c = false -> package W c = Some pkg -> loader_prefix ++ pkg ∉ g_loaded g ->
    forall o, alist_get (o, c) (g_py g) = alist_get (o, c) (g_py g0).
  Proof.
    intros (H1 & _) Hc Hp Hn o. destruct (H1 (o, c) Hc) as [_ Hb]. apply Hb. intros nm m Hm Hin.
    destruct (last_of (py_ups m) (o, c)) as [j|] eqn:Ej; [|done].
    destruct (ups_responsible _ _ _ _ _ Hm Hc Ej) as (p & Hp' & ->). assert (p = pkg) as -> by congruence. done.
  Qed.
  Lemma chain_get_ext {K V} `{EqDecision K} opts (c : K) (t t' : list ((opt * K) * V)) :
    (forall o, alist_get (o, c) t = alist_get (o, c) t') -> chain_get opts c t = chain_get opts c t'.
  Proof. intros H. induction opts as [|o r IH]; [done|]. cbn [chain_get]. by rewrite H, IH. Qed.
  Lemma chain_get_some {K V} `{EqDecision K} opts (c : K) (t : list ((opt * K) * V)) i :
    chain_get opts c t = Some i -> exists o, alist_get (o, c) t = Some i.
  Proof. induction opts as [|o r IH]; [done|]. cbn [chain_get]. destruct (alist_get (o, c) t) eqn:E; [intros [= ->]; by exists o|done]. Qed.

  Lemma step_answer opts g base c : inv g -> in_hickle c = false ->
    exists g', load_loader_step W opts g base c = (g', match first_opt opts c with Some i => Found i | None => Next end) /\ inv g' /\
      (forall pkg m, package W c = Some pkg -> alist_get (loader_prefix ++ pkg) (w_modules W) = Some m ->
         (exists o, last_of (py_ups m) (o, c) <> None) -> loader_prefix ++ pkg ∈ g_loaded g').
  Proof.
    intros Hi Hc. destruct (load_loader_step W opts g base c) as [g' st] eqn:Es.
    destruct (inv_step _ _ _ _ _ _ Hi Es) as [Hi' Hsub]. exists g'. split; [|split; [done|]].
    - f_equal. revert Es. unfold load_loader_step.
      destruct (package W c) as [pkg|] eqn:Ep.
      2:{ rewrite (chain_entry opts g c) by (apply entries_loaded; [done|done|intros; congruence]).
          destruct (first_opt opts c); [by intros [= _ <-]|]. unfold in_hickle in Hc. rewrite Hc. unfold package in Ep. rewrite Ep.
          by intros [= _ <-]. }
      destruct (decide (loader_prefix ++ pkg ∈ g_loaded g)) as [Hin|Hnin].
      + rewrite (chain_entry opts g c) by (apply entries_loaded; [done|done|intros ? ? Hp0 _; rewrite Ep in Hp0; injection Hp0 as <-; done]).
        destruct (first_opt opts c); [by intros [= _ <-]|]. unfold in_hickle in Hc. rewrite Hc. unfold package in Ep. rewrite Ep.
        rewrite bool_decide_eq_true_2 by done. by intros [= _ <-].
      + pose proof (entries_not_loaded g c pkg Hi Hc Ep Hnin) as Hg.
        destruct (alist_get (loader_prefix ++ pkg) (w_modules W)) as [m|] eqn:Em.
        * pose proof (alist_get_in _ _ _ Em) as Hm.
          destruct (chain_get opts c (g_py g)) as [i|] eqn:Eg.
          -- intros [= _ <-]. rewrite <- (chain_entry opts g c), Eg; [done|]. intros o. rewrite Hg. unfold entry_for. rewrite Ep, Em.
             destruct (chain_get_some _ _ _ _ Eg) as [o1 Ho1]. rewrite Hg in Ho1.
             destruct (last_of (py_ups m) (o, c)) eqn:El; [|done].
             rewrite (fresh_none _ _ _ o1 _ _ Hm El) in Ho1. done.
          -- unfold in_hickle in Hc. rewrite Hc. unfold package in Ep. rewrite Ep. rewrite bool_decide_eq_false_2 by done.
             unfold try_module. rewrite Em. destruct (inv_load g _ m Hi Hm) as (g2 & -> & Hi2 & Hl2).
             rewrite (chain_entry opts g2 c).
             ++ destruct (first_opt opts c); by intros [= _ <-].
             ++ apply entries_loaded; [done|done|]. intros p m' Hp' _. unfold package in Hp'. rewrite Ep in Hp'. injection Hp' as <-.
                rewrite Hl2. left.
        * rewrite (chain_entry opts g c).
          2:{ intros o. rewrite Hg. unfold entry_for. by rewrite Ep, Em. }
          destruct (first_opt opts c); [by intros [= _ <-]|]. unfold in_hickle in Hc. rewrite Hc. unfold package in Ep. rewrite Ep.
          rewrite bool_decide_eq_false_2 by done. unfold try_module. rewrite Em. by intros [= _ <-].
    - intros pkg m Ep Em (o & Ho). revert Es. unfold load_loader_step.
      destruct (decide (loader_prefix ++ pkg ∈ g_loaded g)) as [Hin|Hnin]; [intros _; by apply Hsub|].
      pose proof (entries_not_loaded g c pkg Hi Hc Ep Hnin) as Hg. pose proof (alist_get_in _ _ _ Em) as Hm.
      destruct (last_of (py_ups m) (o, c)) eqn:El; [|done].
      destruct (chain_get opts c (g_py g)) as [i|] eqn:Eg.
      { destruct (chain_get_some _ _ _ _ Eg) as [o1 Ho1]. rewrite Hg in Ho1. rewrite (fresh_none _ _ _ o1 _ _ Hm El) in Ho1. done. }
      unfold in_hickle in Hc. rewrite Hc. unfold package in Ep. rewrite Ep. rewrite bool_decide_eq_false_2 by done.
      unfold try_module. rewrite Em. destruct (inv_load g _ m Hi Hm) as (g2 & -> & Hi2 & Hl2).
      destruct (chain_get opts c (g_py g2)); intros [= <- _]; rewrite Hl2; left.
  Qed.
  Lemma mro_answer opts base cs : forall g, inv g -> forallb (fun k => negb (in_hickle k)) cs = true ->
    snd (load_loader_mro W opts g base cs) = Ok (first_cls opts cs).
  Proof.
    induction cs as [|c cs IH]; intros g Hi; [done|]. cbn [forallb]. intros [Hc Hcs]%andb_true_iff. apply negb_true_iff in Hc.
    cbn [load_loader_mro first_cls]. destruct (step_answer opts g base c Hi Hc) as (g' & -> & Hi' & _).
    destruct (first_opt opts c); [done|]. by apply IH.
  Qed.
  Lemma search_answer opts base c g : inv g -> not_hickle c = true ->
    snd (load_loader W opts g c base) = Ok (match first_cls opts (mro c) with Some i => (c, i) | None => fallback end).
  Proof.
    intros Hi Hc. unfold load_loader. pose proof (mro_answer opts base (mro c) g Hi Hc) as H.
    destruct (load_loader_mro W opts g base (mro c)) as [g' r]. cbn [snd] in *. subst r. done.
  Qed.
  Lemma history_independent h opts base c : not_hickle c = true ->
    snd (load_loader W opts (after W g0 h) c base) = snd (load_loader W opts g0 c base).
  Proof. intros Hc. rewrite !search_answer by first [apply inv_after|apply inv_start|done]. done. Qed.

  (** ** The specification *)
  Lemma entry_for_registered o c i : in_hickle c = false -> entry_for o c = Some i <-> registered W g0 o c i.
  Proof.
    intros Hc. split.
    - unfold entry_for. destruct (package W c) as [pkg|]; [|apply RegRun].
      destruct (alist_get _ _) as [m|] eqn:Em; [|apply RegRun].
      destruct (last_of (py_ups m) (o, c)) as [j|] eqn:El; [|apply RegRun]. intros [= <-].
      apply last_of_in, py_ups_in in El. destruct El as (e & fn & mo & He & <- & <- & Hd & ->).
      apply alist_get_in in Em. by eapply RegModule.
    - intros [nm m e fn mo Hm He Hec Ho Hd|j Hj].
      + assert (Hin : ((o, c), (fn, re_base e, re_memo e)) ∈ py_ups m).
        { apply py_ups_in. by exists e, fn, mo. }
        pose proof (last_of_unique (py_ups m) (o, c) _ ltac:(rewrite py_ups_keys; exact (ty_once _ HT nm m Hm)) Hin) as Hl.
        destruct (ups_responsible _ _ _ _ _ Hm Hc Hl) as (pkg & Hp & ->).
        unfold entry_for. rewrite Hp, (alist_get_unique _ _ _ (ty_names _ HT) Hm), Hl. done.
      + unfold entry_for. destruct (package W c) as [pkg|]; [|done].
        destruct (alist_get _ (w_modules W)) as [m|] eqn:Em; [|done].
        destruct (last_of (py_ups m) (o, c)) as [k|] eqn:El; [|done].
        apply alist_get_in in Em. rewrite (fresh_none _ _ _ o _ _ Em El) in Hj. done.
  Qed.
  Lemma entry_for_none o c : in_hickle c = false -> entry_for o c = None <-> (forall j, ~ registered W g0 o c j).
  Proof.
    intros Hc. split.
    - intros He j Hj. apply (entry_for_registered _ _ _ Hc) in Hj. congruence.
    - intros H. destruct (entry_for o c) as [i|] eqn:E; [|done]. by apply entry_for_registered, H in E.
  Qed.
  Lemma first_opt_item opts c : in_hickle c = false ->
    match first_opt opts c with Some i => class_item W g0 opts c i | None => no_item W g0 opts c end.
  Proof.
    intros Hc. induction opts as [|o r IH]; [intros o j H; inversion H|]. cbn [first_opt].
    destruct (entry_for o c) as [i|] eqn:E.
    - exists [], o, r. split; [done|]. split; [by apply entry_for_registered|]. intros o' j H; inversion H.
    - pose proof (proj1 (entry_for_none _ _ Hc) E) as Hn. destruct (first_opt r c) as [i|].
      + destruct IH as (o1 & o2 & o3 & -> & Hr & Hno). exists (o :: o1), o2, o3. split; [done|]. split; [done|].
        intros o' j [-> |Hin]%elem_of_cons; [apply Hn|by apply Hno].
      + intros o' j [-> |Hin]%elem_of_cons; [apply Hn|by apply IH].
  Qed.
  Lemma first_cls_item opts cs : forallb (fun k => negb (in_hickle k)) cs = true ->
    match first_cls opts cs with Some i => search_finds W g0 opts cs i | None => forall c, c ∈ cs -> no_item W g0 opts c end.
  Proof.
    induction cs as [|c cs IH]; [intros _ c H; inversion H|]. cbn [forallb]. intros [Hc Hcs]%andb_true_iff. apply negb_true_iff in Hc.
    specialize (IH Hcs). cbn [first_cls]. pose proof (first_opt_item opts c Hc) as Hf. destruct (first_opt opts c) as [i|].
    - exists [], c, cs. split; [done|]. split; [done|]. intros c' H; inversion H.
    - destruct (first_cls opts cs) as [i|].
      + destruct IH as (c1 & c2 & c3 & -> & Hr & Hno). exists (c :: c1), c2, c3. split; [done|]. split; [done|].
        intros c' [-> |Hin]%elem_of_cons; [done|by apply Hno].
      + intros c' [-> |Hin]%elem_of_cons; [done|by apply IH].
  Qed.
  Lemma class_item_unique opts c i j : in_hickle c = false -> class_item W g0 opts c i -> first_opt opts c = Some j -> i = j.
  Proof.
    intros Hc (o1 & o & o2 & -> & Hr & Hno). induction o1 as [|x o1 IH]; cbn [app first_opt].
    - rewrite (proj2 (entry_for_registered _ _ _ Hc) Hr). congruence.
    - rewrite (proj2 (entry_for_none x c Hc)). 2:{ intros k. apply Hno. left. }
      apply IH. intros o' k Hin. apply Hno. by right.
  Qed.
  Lemma no_item_none opts c : in_hickle c = false -> no_item W g0 opts c -> first_opt opts c = None.
  Proof.
    intros Hc Hn. pose proof (first_opt_item opts c Hc) as H. destruct (first_opt opts c) as [i|]; [|done].
    destruct H as (o1 & o & o2 & -> & Hr & _). destruct (Hn o i); [|done]. apply elem_of_app. right. left.
  Qed.
  Lemma class_item_some opts c i : in_hickle c = false -> class_item W g0 opts c i -> first_opt opts c = Some i.
  Proof.
    intros Hc Hi. destruct (first_opt opts c) as [j|] eqn:E; [f_equal; symmetry; by eapply class_item_unique|].
    pose proof (first_opt_item opts c Hc) as H. rewrite E in H. destruct Hi as (o1 & o & o2 & -> & Hr & _).
    destruct (H o i); [|done]. apply elem_of_app. right. left.
  Qed.
  Lemma search_first opts cs i : forallb (fun k => negb (in_hickle k)) cs = true -> search_finds W g0 opts cs i -> first_cls opts cs = Some i.
  Proof.
    intros Hcs (c1 & c & c2 & -> & Hi & Hno). induction c1 as [|x c1 IH]; cbn [app first_cls].
    - cbn [app forallb] in Hcs. apply andb_true_iff in Hcs. destruct Hcs as [Hc _]. apply negb_true_iff in Hc.
      by rewrite (class_item_some _ _ _ Hc Hi).
    - cbn [app forallb] in Hcs. apply andb_true_iff in Hcs. destruct Hcs as [Hc Hcs]. apply negb_true_iff in Hc.
      rewrite (no_item_none _ _ Hc). 2:{ apply Hno. left. }
      apply IH; [done|]. intros c' Hin. apply Hno. by right.
  Qed.

  (** Either of the two, after any history. *)
  Lemma search_most_specific h opts base c i : not_hickle c = true -> search_finds W g0 opts (mro c) i ->
    snd (load_loader W opts (after W g0 h) c base) = Ok (c, i).
  Proof. intros Hc Hs. rewrite search_answer by first [apply inv_after|done]. by rewrite (search_first _ _ _ Hc Hs). Qed.
  Lemma search_pickle h opts base c : not_hickle c = true -> (forall k, k ∈ mro c -> no_item W g0 opts k) ->
    snd (load_loader W opts (after W g0 h) c base) = Ok fallback.
  Proof.
    intros Hc Hn. rewrite search_answer by first [apply inv_after|done].
    destruct (first_cls opts (mro c)) as [i|] eqn:E; [|done].
    pose proof (first_cls_item opts (mro c) Hc) as H. rewrite E in H. destruct H as (c1 & k & c2 & Hm & (o1 & o & o2 & -> & Hr & _) & _).
    destruct (Hn k ltac:(rewrite Hm; apply elem_of_app; right; left) o i); [|done]. apply elem_of_app. right. left.
  Qed.
  Lemma search_cases opts c : not_hickle c = true -> (exists i, search_finds W g0 opts (mro c) i) \/ (forall k, k ∈ mro c -> no_item W g0 opts k).
  Proof.
    intros Hc. pose proof (first_cls_item opts (mro c) Hc) as H. destruct (first_cls opts (mro c)); [left; by eexists|by right].
  Qed.

  (** ** Loading everything beforehand *)
  Lemma inv_load_all : inv (load_all W g0) /\ forall nm m, (nm, m) ∈ w_modules W -> nm ∈ g_loaded (load_all W g0).
  Proof.
    unfold load_all.
    assert (forall ms g, (forall p, p ∈ ms -> p ∈ w_modules W) -> inv g ->
      let g' := foldl (fun g '(nm, m) => fst (load_module g nm m)) g ms in
      inv g' /\ g_loaded g ⊆ g_loaded g' /\ forall nm m, (nm, m) ∈ ms -> nm ∈ g_loaded g') as H.
    { induction ms as [|[nm m] ms IH]; intros g Hin Hi; [split; [done|]; split; [done|]; intros ? ? H; inversion H|].
      cbn [foldl]. destruct (inv_load g nm m Hi (Hin _ ltac:(left))) as (g1 & -> & Hi1 & Hl1). cbn [fst].
      destruct (IH g1 ltac:(intros p Hp; apply Hin; by right) Hi1) as (H1 & H2 & H3). split; [done|]. rewrite Hl1 in H2.
      split; [set_solver|]. intros nm' m' [[= -> ->]|Hp]%elem_of_cons; [apply H2; left|by eapply H3]. }
    destruct (H (w_modules W) g0 ltac:(done) inv_start) as (H1 & _ & H3). done.
  Qed.
  Lemma search_full h opts base c : not_hickle c = true ->
    snd (load_loader W opts (after W g0 h) c base) = snd (load_loader W opts (load_all W g0) c base).
  Proof. intros Hc. rewrite !search_answer by first [apply inv_after|apply inv_load_all|done]. done. Qed.

  Lemma tracks_same {V} (ups : loader_module -> list ((opt * bytes) * V)) t0 t t' ld ld' nm m b :
    tracks anyk ups t0 t ld -> tracks anyk ups t0 t' ld' ->
    (forall nm m o v, (nm, m) ∈ w_modules W -> last_of (ups m) (o, b) = Some v -> b ∈ module_names m) ->
    (nm, m) ∈ w_modules W -> b ∈ module_names m -> nm ∈ ld -> nm ∈ ld' -> forall opts, chain_get opts b t = chain_get opts b t'.
  Proof.
    intros H H' Hn Hm Hb Hl Hl' opts. apply chain_get_ext. intros o.
    destruct (H (o, b) I) as [Ha Hz]. destruct (H' (o, b) I) as [Ha' Hz'].
    destruct (last_of (ups m) (o, b)) as [v|] eqn:E.
    - rewrite (Ha nm m v), (Ha' nm m v) by done. done.
    - assert (Hnone : forall nm' m', (nm', m') ∈ w_modules W -> last_of (ups m') (o, b) = None).
      { intros nm' m' Hm'. destruct (last_of (ups m') (o, b)) as [v|] eqn:E'; [|done].
        pose proof (ty_bases _ HT _ _ _ _ _ Hm Hm' Hb (Hn _ _ _ _ Hm' E')) as ->.
        rewrite (module_unique _ _ _ Hm' Hm) in E'. congruence. }
      rewrite Hz, Hz' by eauto. done.
  Qed.
  (** Once the module is loaded its base types are loaded the way they are with all modules. *)
  Lemma bases_full g nm m b opts : inv g -> (nm, m) ∈ w_modules W -> nm ∈ g_loaded g -> b ∈ module_names m ->
    chain_get opts b (g_fn g) = chain_get opts b (g_fn (load_all W g0)) /\
    chain_get opts b (g_ct g) = chain_get opts b (g_ct (load_all W g0)).
  Proof.
    intros (_ & H2 & H3) Hm Hl Hb. destruct inv_load_all as [(_ & H2' & H3') Hall]. split.
    - eapply (tracks_same fn_ups); [exact H2|exact H2'| |done|done|done|by eapply Hall].
      intros ? ? ? ? _ Hx. by eapply fn_ups_name, last_of_in.
    - eapply (tracks_same ct_ups); [exact H3|exact H3'| |done|done|done|by eapply Hall].
      intros ? ? ? ? _ Hx. by eapply ct_ups_name, last_of_in.
  Qed.
  (** The search for a class that a module of [W] registers leaves the module loaded. *)
  Lemma mro_loads opts base cs : forall g c i, inv g -> forallb (fun k => negb (in_hickle k)) cs = true ->
    (exists c1 c2, cs = c1 ++ c :: c2 /\ class_item W g0 opts c i /\ forall c', c' ∈ c1 -> no_item W g0 opts c') ->
    forall nm m e, (nm, m) ∈ w_modules W -> e ∈ lm_register m -> re_cls e = c -> re_dump e <> None ->
    nm ∈ g_loaded (fst (load_loader_mro W opts g base cs)).
  Proof.
    induction cs as [|k cs IH]; intros g c i Hi; [intros _ ([|] & ? & ? & _); done|]. cbn [forallb]. intros [Hk Hcs]%andb_true_iff. apply negb_true_iff in Hk.
    intros (c1 & c2 & Heq & Hci & Hno) nm m e Hm He Hec Hd. cbn [load_loader_mro].
    destruct (step_answer opts g base k Hi Hk) as (g' & -> & Hi' & Hload).
    destruct c1 as [|x c1]; injection Heq as -> ->.
    - rewrite (class_item_some _ _ _ Hk Hci). cbn [fst].
      destruct (re_dump e) as [[fn mo]|] eqn:Ed; [|done].
      destruct (last_of (py_ups m) (re_opt e, c)) as [j|] eqn:El.
      + destruct (ups_responsible _ _ _ _ _ Hm Hk El) as (pkg & Hp & ->).
        apply (Hload pkg m Hp); [by apply (alist_get_unique _ _ _ (ty_names _ HT))|]. exists (re_opt e). congruence.
      + apply (last_of_none _ _ (fn, re_base e, re_memo e)) in El. destruct El. apply py_ups_in. by exists e, fn, mo.
    - rewrite (no_item_none _ _ Hk). 2:{ apply Hno. left. }
      eapply IH; [done|done| |exact Hm|exact He|exact Hec|by rewrite ?Hd]. exists c1, c2. split; [done|]. split; [done|]. intros c' Hin. apply Hno. by right.
  Qed.
  Lemma bases_after_search h opts base c k c1 c2 i nm m e b opts' :
    not_hickle c = true -> mro c = c1 ++ k :: c2 -> class_item W g0 opts k i -> (forall c', c' ∈ c1 -> no_item W g0 opts c') ->
    (nm, m) ∈ w_modules W -> e ∈ lm_register m -> re_cls e = k -> re_dump e <> None -> b ∈ module_names m ->
    let g' := fst (load_loader W opts (after W g0 h) c base) in
    chain_get opts' b (g_fn g') = chain_get opts' b (g_fn (load_all W g0)) /\
    chain_get opts' b (g_ct g') = chain_get opts' b (g_ct (load_all W g0)).
  Proof.
    intros Hc Hmro Hci Hno Hm He Hk Hd Hb g'. eapply bases_full; [by apply inv_search, inv_after|exact Hm| |exact Hb].
    pose proof (mro_loads opts base (mro c) (after W g0 h) k i (inv_after h) Hc ltac:(by exists c1, c2) nm m e Hm He Hk Hd) as H.
    unfold g', load_loader. destruct (load_loader_mro W opts (after W g0 h) base (mro c)). done.
  Qed.
End History.
