(** * RegistryStd: what the loaders shipped with hickle answer

    The search of Registry.v, with the builtins, numpy, scipy and pandas loader modules,
    reduced to a table. *)
From Verif Require Import Base Utf8 Dec Num PyObj H5 Env Create Dump LoadFns LoadModel Registry DumpProofs DumpStored.
From Coq Require Import Lia ZifyBool ZifyN.

Definition G : registry := full_registry std_world.

(** The load function for the masked arrays of hickle 4 is registered for files of hickle 4 only. *)
Lemma alist_get_forallb {K V : Type} `{EqDecision K} (p : K -> V -> bool) (l : list (K * V)) k v :
  forallb (fun x => p (fst x) (snd x)) l = true -> alist_get k l = Some v -> p k v = true.
Proof.
  induction l as [|[k' v'] l IH]; simpl; [done|]. intros [H1 H2]%andb_true_iff.
  destruct (decide (k = k')) as [->|]; [intros [= <-]; done|auto].
Qed.
Lemma std_not_masked b : ld_types std_loader b <> Some LNdarrayMasked.
Proof.
  change (ld_types std_loader b) with (match alist_get (None : opt, b) (g_fn G) with Some v => Some v | None => None end).
  destruct (alist_get (None : opt, b) (g_fn G)) as [v|] eqn:Hv; [|done]. intros [= ->].
  apply (alist_get_forallb (fun k v => match fst k, v with None, LNdarrayMasked => false | _, _ => true end)) in Hv; [done|].
  by vm_compute.
Qed.

(** ** The table of dump functions *)
Definition std_item (c : cls) : option dump_item :=
  match c with
  | CList => Some (FList, str "list", true)
  | CTuple => Some (FList, str "tuple", true)
  | CDict => Some (FDict, str "dict", true)
  | CSet => Some (FSet, str "set", true)
  | CBytes => Some (FList, str "bytes", true)
  | CStr => Some (FList, str "str", true)
  | CInt => Some (FScalar, str "int", false)
  | CFloat => Some (FScalar, str "float", false)
  | CComplex => Some (FScalar, str "complex", false)
  | CBool => Some (FScalar, str "bool", false)
  | CNoneType => Some (FNone, str "None", false)
  | CNpDtype => Some (FNpDtype, str "np_dtype", true)
  | CNpNumber | CNpGeneric => Some (FNpScalar, str "np_scalar", false)
  | CNdarray => Some (FNpArray, str "ndarray", true)
  | CMasked => Some (FNpMasked, str "ndarray_masked", true)
  | CMatrix => Some (FNpArray, str "np_matrix", true)
  | CSparse SCsr => Some (FSparse, str "csr_matrix", true)
  | CSparse SCsc => Some (FSparse, str "csc_matrix", true)
  | CSparse SBsr => Some (FSparse, str "bsr_matrix", true)
  | CNodeReference => Some (FNothing, b_reference, false)
  | _ => None
  end.

Definition G_py : list ((opt * cls) * dump_item) := Eval vm_compute in g_py G.
Definition G_fn : list ((opt * bytes) * loadfn) := Eval vm_compute in g_fn G.
Definition G_ct : list ((opt * bytes) * contk) := Eval vm_compute in g_ct G.
Definition G_loaded : list pystr := Eval vm_compute in g_loaded G.
Lemma G_eq : G = Registry G_py G_fn G_ct G_loaded.
Proof. vm_compute. reflexivity. Qed.

Lemma std_item_table c : chain_get [None] c G_py = std_item c.
Proof.
  unfold chain_get, G_py.
  destruct c; try (vm_compute; reflexivity).
  destruct k; vm_compute; reflexivity.
Qed.

(** ** The search along the mro *)
Fixpoint first_item (cs : list cls) : option dump_item :=
  match cs with
  | [] => None
  | c :: r => match std_item c with Some i => Some i | None => first_item r end
  end.

(** Classes defined in hickle itself are looked for in a special way. *)
Definition in_hickle (c : cls) : bool := bool_decide (part 0 (cls_module c) = str "hickle").
Definition foreign (c : cls) : bool :=
  forallb (fun k => match std_item k with Some _ => true | None => negb (in_hickle k) end) (mro c).

Lemma loaded_iff nm : nm ∈ G_loaded \/ alist_get nm (w_modules std_world) = None.
Proof.
  simpl. repeat (case_decide; [left; subst; apply (bool_decide_unpack _); vm_compute; exact I|]). by right.
Qed.

Lemma std_step base c :
  (match std_item c with Some _ => true | None => negb (in_hickle c) end) = true ->
  load_loader_step std_world [None] G base c =
    (G, match std_item c with Some i => Found i | None => Next end).
Proof.
  intros H. unfold load_loader_step. rewrite G_eq. cbn [g_py g_loaded].
  rewrite std_item_table. destruct (std_item c) as [i|]; [done|].
  unfold in_hickle in H. case_bool_decide as Hh; [done|].
  destruct (if bool_decide (part 0 (cls_module c) = str "__main__") then _ else _) as [pkg|]; [|done].
  set (nm := loader_prefix ++ pkg).
  destruct (loaded_iff nm) as [Hin|Hno].
  - by rewrite bool_decide_eq_true_2.
  - case_bool_decide; [done|]. unfold try_module. by rewrite Hno.
Qed.

Lemma std_mro base cs :
  forallb (fun k => match std_item k with Some _ => true | None => negb (in_hickle k) end) cs = true ->
  load_loader_mro std_world [None] G base cs = (G, Ok (first_item cs)).
Proof.
  induction cs as [|c cs IH]; [done|]. cbn [forallb]. intros [H1 H2]%andb_true_iff.
  cbn [load_loader_mro first_item]. rewrite std_step by done.
  destruct (std_item c); [done|]. by apply IH.
Qed.

Definition std_answer (c : cls) : cls * dump_item :=
  match first_item (mro c) with Some i => (c, i) | None => fallback end.

Lemma std_load_loader base c :
  foreign c = true -> load_loader std_world [None] G c base = (G, Ok (std_answer c)).
Proof. intros H. unfold load_loader. by rewrite std_mro. Qed.

Lemma std_dump_answer c : foreign c = true -> std_dump c = Ok (std_answer c).
Proof. intros H. unfold std_dump, dump_loader_of. fold G. by rewrite std_load_loader. Qed.

Lemma std_ld_load c b : foreign c = true ->
  ld_load std_loader c b = Ok (fst (std_answer c), snd (snd (std_answer c))).
Proof.
  intros H. simpl. fold G. rewrite std_load_loader by done. simpl.
  destruct (std_answer c) as [? [[? ?] ?]]. done.
Qed.

(** ** The conditions the dump proofs put on a loader *)
Definition leaf_fn (fn : dumpfn) : bool :=
  match fn with FScalar | FNone | FNpScalar | FNothing | FNotDumpable => true | _ => false end.
Definition item_ok (i : dump_item) : Prop :=
  let '(fn, _, m) := i in fn <> FNotHicklable /\ (m = false -> leaf_fn fn = true).
Definition reg_ok (g : registry) : Prop := Forall (fun p => item_ok (snd p)) (g_py g).
Definition entry_good (e : reg_entry) : Prop :=
  match re_dump e with Some (fn, _) => item_ok (fn, re_base e, re_memo e) | None => True end.
Definition world_ok (W : world) : Prop :=
  Forall (fun p => Forall entry_good (lm_register (snd p))) (w_modules W).

Lemma alist_set_Forall {K V} `{EqDecision K} (P : V -> Prop) (k : K) v l :
  P v -> Forall (fun p => P (snd p)) l -> Forall (fun p => P (snd p)) (alist_set k v l).
Proof.
  intros Hv. induction 1 as [|[k' v'] l H1 H2 IH]; simpl; [by repeat constructor|].
  case_decide; by constructor.
Qed.
Lemma alist_get_Forall {K V} `{EqDecision K} (P : V -> Prop) (k : K) v l :
  Forall (fun p => P (snd p)) l -> alist_get k l = Some v -> P v.
Proof.
  induction 1 as [|[k' v'] l H1 H2 IH]; simpl; [done|]. case_decide; [by intros [= <-]|done].
Qed.
Lemma chain_get_Forall {K V} `{EqDecision K} (P : V -> Prop) opts (k : K) v (l : list ((opt * K) * V)) :
  Forall (fun p => P (snd p)) l -> chain_get opts k l = Some v -> P v.
Proof.
  intros Hf. induction opts as [|o opts IH]; simpl; [done|].
  destruct (alist_get _ _) eqn:E1; [|done]. intros [= <-]. eapply alist_get_Forall; eauto.
Qed.

Lemma register_class_reg_ok g e : reg_ok g -> entry_good e -> reg_ok (fst (register_class g e)).
Proof.
  intros Hg He. unfold register_class.
  repeat match goal with |- context [if ?b then (g, Err _) else _] => destruct b; [done|] end.
  unfold entry_good in He. unfold reg_ok in *. destruct (re_dump e) as [[fn ?]|]; cbn [g_py g_fn g_ct g_loaded].
  - pose proof (alist_set_Forall item_ok (re_opt e, re_cls e) _ (g_py g) He Hg).
    destruct (re_load e) as [[]|], (re_cont e) as [[]|], (forallb (fun c => c <? 128) (re_base e)); done.
  - destruct (re_load e) as [[]|], (re_cont e) as [[]|], (forallb (fun c => c <? 128) (re_base e)); done.
Qed.
Lemma register_all_reg_ok es : forall g, reg_ok g -> Forall entry_good es -> reg_ok (fst (register_all g es)).
Proof.
  induction es as [|e es IH]; intros g Hg Hf; [done|]. inversion Hf; subst. simpl.
  pose proof (register_class_reg_ok g e Hg H1) as Hr.
  destruct (register_class g e) as [g' []]; simpl in *; [by apply IH|done].
Qed.
Lemma exclude_py g b o : g_py (fst (register_class_exclude g b o)) = g_py g.
Proof.
  unfold register_class_exclude. destruct b; [done|]. repeat (case_match; [done|]).
  done.
Qed.
Lemma exclude_all_py es : forall g, g_py (fst (exclude_all g es)) = g_py g.
Proof.
  induction es as [|[b o] es IH]; intros g; [done|]. simpl.
  pose proof (exclude_py g b o) as Hp. destruct (register_class_exclude g b o) as [g' []]; simpl in *; [|done].
  by rewrite IH.
Qed.
Lemma load_module_reg_ok g nm m :
  reg_ok g -> Forall entry_good (lm_register m) -> reg_ok (fst (load_module g nm m)).
Proof.
  intros Hg Hf. unfold load_module. pose proof (register_all_reg_ok _ g Hg Hf) as Hr.
  destruct (register_all g (lm_register m)) as [g1 []]; simpl in *; [|done].
  pose proof (exclude_all_py (lm_exclude m) g1) as Hp.
  destruct (exclude_all g1 (lm_exclude m)) as [g2 []]; simpl in *; unfold reg_ok in *; simpl; by rewrite Hp.
Qed.

Lemma step_reg_ok W opts g base c g' st :
  world_ok W -> reg_ok g -> load_loader_step W opts g base c = (g', st) ->
  reg_ok g' /\ (forall i, st = Found i -> item_ok i).
Proof.
  intros HW Hg.
  assert (forall g0 name, reg_ok g0 -> try_module W opts g0 c name = (g', st) ->
    reg_ok g' /\ (forall i, st = Found i -> item_ok i)) as Htry.
  { intros g0 name H0. unfold try_module. destruct (alist_get name (w_modules W)) as [m|] eqn:Em.
    2: { intros [= <- <-]. done. }
    assert (Forall entry_good (lm_register m)) as Hm.
    { eapply (alist_get_Forall (fun m => Forall entry_good (lm_register m))); eauto. }
    pose proof (load_module_reg_ok g0 name m H0 Hm) as Hr.
    destruct (load_module g0 name m) as [g1 []]; simpl in Hr.
    - destruct (chain_get opts c (g_py g1)) eqn:Ec; intros [= <- <-]; split; try done.
      intros i [= <-]. eapply chain_get_Forall; eauto.
    - by intros [= <- <-]. }
  unfold load_loader_step. destruct (chain_get opts c (g_py g)) as [i|] eqn:Ec.
  { intros [= <- <-]. split; [done|]. intros i' [= <-]. eapply chain_get_Forall; eauto. }
  case_bool_decide.
  - case_bool_decide; [by intros [= <- <-]|].
    case_match.
    + destruct base as [b|]; [|by intros [= <- <-]].
      destruct (in_tables g opts b); intros [= <- <-]; (split; [done|]); [|done].
      intros i [= <-]. done.
    + case_match; [by intros [= <- <-]|].
      set (it := (FNotDumpable, str "NotHicklable", false)).
      assert (reg_ok (Registry (alist_set (default None (head opts), c) it (g_py g)) (g_fn g) (g_ct g) (g_loaded g))) as Hr.
      { unfold reg_ok. simpl. by apply alist_set_Forall. }
      destruct (bool_decide (cls_module c ∈ g_loaded g)).
      * intros [= <- <-]. split; [done|]. intros i [= <-]. done.
      * by apply Htry.
  - destruct (if bool_decide (part 0 (cls_module c) = str "__main__") then _ else _) as [pkg|]; [|by intros [= <- <-]].
    case_bool_decide; [by intros [= <- <-]|]. by apply Htry.
Qed.

Lemma mro_reg_ok W opts base cs : forall g g' r,
  world_ok W -> reg_ok g -> load_loader_mro W opts g base cs = (g', r) ->
  reg_ok g' /\ (forall i, r = Ok (Some i) -> item_ok i).
Proof.
  induction cs as [|c cs IH]; intros g g' r HW Hg; simpl; [by intros [= <- <-]|].
  destruct (load_loader_step W opts g base c) as [g1 st] eqn:Es.
  destruct (step_reg_ok _ _ _ _ _ _ _ HW Hg Es) as [H1 H2].
  destruct st as [i| |e].
  - intros [= <- <-]. split; [done|]. intros i' [= <-]. by apply H2.
  - by apply IH.
  - by intros [= <- <-].
Qed.

Lemma load_loader_item_ok W opts g pt base g' c i :
  world_ok W -> reg_ok g -> load_loader W opts g pt base = (g', Ok (c, i)) ->
  (c = pt \/ c = CObject) /\ item_ok i.
Proof.
  intros HW Hg. unfold load_loader.
  destruct (load_loader_mro W opts g base (mro pt)) as [g1 r] eqn:Em.
  destruct (mro_reg_ok _ _ _ _ _ _ _ HW Hg Em) as [H1 H2].
  destruct r as [[i'|]|]; simpl; intros [= <- <- <-].
  - split; [by left|]. by apply H2.
  - split; [by right|]. done.
Qed.

Lemma load_all_reg_ok W g : world_ok W -> reg_ok g -> reg_ok (load_all W g).
Proof.
  unfold world_ok, load_all. intros HW. revert g.
  induction HW as [|[nm m] ms H1 H2 IH]; intros g Hg; [done|]. simpl. apply IH.
  by apply load_module_reg_ok.
Qed.
Lemma core_reg_ok : reg_ok core_registry.
Proof. unfold core_registry. apply register_all_reg_ok; [constructor|]. repeat constructor; done. Qed.

Lemma leaf_create E fn h nx o pl :
  leaf_fn fn = true -> create E fn h nx o = Ok pl -> p_data pl <> None /\ p_subs pl = [].
Proof.
  destruct fn; try done; intros _; simpl; try done.
  - unfold create_scalar. destruct (oval o); try done.
    destruct n; [|destruct (_ && _)|..]; by intros [= <-].
  - by intros [= <-].
  - unfold create_np_scalar. destruct (oval o); try done. destruct (np_dtype_of_cls _); try done. by intros [= <-].
Qed.

Lemma dump_loader_ok E W opts : world_ok W -> loader_ok E (dump_loader_of W opts).
Proof.
  intros HW.
  assert (forall c pt i, dump_loader_of W opts c = Ok (pt, i) -> (pt = c \/ pt = CObject) /\ item_ok i) as H.
  { intros c pt i. unfold dump_loader_of.
    destruct (load_loader W opts (full_registry W) c None) as [g' r] eqn:El. simpl. intros ->.
    eapply load_loader_item_ok; [done| |exact El]. apply load_all_reg_ok; [done|apply core_reg_ok]. }
  split.
  - intros c pt i Hc. by eapply H.
  - intros c pt fn b m Hc. by apply H in Hc as [_ [? _]].
  - intros c pt fn b h nx o pl Hc. apply H in Hc as [_ [_ Hl]]. apply leaf_create. by apply Hl.
Qed.
Lemma std_world_ok : world_ok std_world.
Proof. repeat constructor; done. Qed.
Lemma std_dump_ok E : loader_ok E std_dump.
Proof. apply dump_loader_ok, std_world_ok. Qed.
