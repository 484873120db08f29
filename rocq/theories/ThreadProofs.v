(** * ThreadProofs: what holds for every schedule of threads searching loaders *)
From Verif Require Import Base Utf8 Dec Num PyObj H5 Env Create Dump LoadFns LoadModel Registry RegistryStd RegistryProofs LoaderSearch Threads.
From Coq Require Import Lia ZifyBool ZifyN.
Local Open Scope N_scope.
Local Open Scope list_scope.

(** ** A thread on its own computes [load_loader] *)
Definition alone (W : world) (opts : list opt) (base : option bytes) (n : nat) (s : registry * pc) : registry * pc :=
  Nat.iter n (fun s => thread_step W opts base (fst s) (snd s)) s.
Lemma alone_app W opts base n k s : alone W opts base (n + k) s = alone W opts base n (alone W opts base k s).
Proof. apply Nat.iter_add. Qed.
Lemma alone_S W opts base n g p : alone W opts base (S n) (g, p) = alone W opts base n (thread_step W opts base g p).
Proof. unfold alone. rewrite Nat.iter_succ_r. done. Qed.

Section Alone.
  Context (W : world) (opts : list opt) (base : option bytes).
  Lemma alone_exclude c r nm xs : forall g, exists n,
    alone W opts base n (g, PReg c r nm [] xs) =
      match exclude_all g xs with
      | (g', Ok _) => (Registry (g_py g') (g_fn g') (g_ct g') (nm :: g_loaded g'), PAgain c r)
      | (g', Err x) => (g', PDone (Err x)) end.
  Proof.
    induction xs as [|[b o] xs IH]; intros g.
    - by exists 1%nat.
    - cbn [exclude_all]. destruct (register_class_exclude g b o) as [g' [u|x]] eqn:E.
      + destruct (IH g') as (n & Hn). exists (S n). rewrite alone_S. cbn [thread_step]. by rewrite E.
      + exists 1%nat. rewrite alone_S. cbn [thread_step]. by rewrite E.
  Qed.
  Lemma alone_register c r nm xs es : forall g, exists n,
    alone W opts base n (g, PReg c r nm es xs) =
      match load_module g nm (LoaderModule es xs) with
      | (g', Ok _) => (g', PAgain c r)
      | (g', Err x) => (g', PDone (Err x)) end.
  Proof.
    unfold load_module. cbn [lm_register lm_exclude].
    induction es as [|e es IH]; intros g; cbn [register_all].
    - destruct (alone_exclude c r nm xs g) as (n & Hn). exists n. rewrite Hn. by destruct (exclude_all g xs) as [g' [u|x]].
    - destruct (register_class g e) as [g' [u|x]] eqn:E.
      + destruct (IH g') as (n & Hn). exists (S n). rewrite alone_S. cbn [thread_step]. by rewrite E.
      + exists 1%nat. rewrite alone_S. cbn [thread_step]. by rewrite E.
  Qed.
  Lemma alone_try c r nm g : exists n,
    alone W opts base n (g, begin_module W c r nm) =
      match try_module W opts g c nm with
      | (g', Found i) => (g', PDone (Ok (Some i)))
      | (g', Next) => (g', PLook r)
      | (g', Fail x) => (g', PDone (Err x)) end.
  Proof.
    unfold begin_module, try_module. destruct (alist_get nm (w_modules W)) as [[es xs]|]; [|by exists 0%nat]. cbn [lm_register lm_exclude].
    destruct (alone_register c r nm xs es g) as (n & Hn). destruct (load_module g nm _) as [g' [u|x]].
    - exists (S n). rewrite (alone_app W opts base 1 n), Hn, alone_S. cbn [thread_step]. by destruct (chain_get opts c (g_py g')).
    - by exists n.
  Qed.
  Lemma alone_step c r g : exists n,
    alone W opts base n (g, PLook (c :: r)) =
      match load_loader_step W opts g base c with
      | (g', Found i) => (g', PDone (Ok (Some i)))
      | (g', Next) => (g', PLook r)
      | (g', Fail x) => (g', PDone (Err x)) end.
  Proof.
    unfold load_loader_step. destruct (chain_get opts c (g_py g)) as [i|] eqn:Eg.
    { exists 1%nat. rewrite alone_S. cbn [thread_step]. by rewrite Eg. }
    assert (forall n, alone W opts base (S (S n)) (g, PLook (c :: r)) = alone W opts base n (thread_step W opts base g (PMiss c r))) as H.
    { intros n. rewrite alone_S. cbn [thread_step]. rewrite Eg, alone_S. done. }
    cbn [thread_step] in H. cbv zeta in H |- *.
    repeat match goal with
    | H : forall n, _ = alone _ _ _ n (_, begin_module W c r ?nm) |- exists n, _ = match try_module W opts ?g' c ?nm with _ => _ end =>
        destruct (alone_try c r nm g') as (n & Hn); exists (S (S n)); by rewrite H, Hn
    | H : forall n, _ = alone _ _ _ n (_, PDone _) |- _ => exists 2%nat; by rewrite H
    | H : forall n, _ = alone _ _ _ n (_, PLook _) |- _ => exists 2%nat; by rewrite H
    | |- context [if ?b then _ else _] => destruct b
    | |- context [match ?b with Some _ => _ | None => _ end] => destruct b
    end.
  Qed.
  Lemma alone_mro cs : forall g, exists n,
    alone W opts base n (g, PLook cs) = let '(g', r) := load_loader_mro W opts g base cs in (g', PDone r).
  Proof.
    induction cs as [|c cs IH]; intros g; [by exists 1%nat|]. cbn [load_loader_mro].
    destruct (alone_step c cs g) as (n & Hn). destruct (load_loader_step W opts g base c) as [g' [i| |x]]; [by exists n| |by exists n].
    destruct (IH g') as (k & Hk). exists (k + n)%nat. by rewrite alone_app, Hn, Hk.
  Qed.
End Alone.

Lemma run_app W s l l' : run W s (l ++ l') = run W (run W s l) l'.
Proof. apply foldl_app. Qed.
Lemma turn_spec W g ts i t : ts !! i = Some t ->
  turn W (g, ts) i = (fst (thread_step W (t_opts t) (t_base t) g (t_pc t)), <[i := set_pc t (snd (thread_step W (t_opts t) (t_base t) g (t_pc t)))]> ts).
Proof. intros H. unfold turn. cbn [fst snd]. rewrite H. by destruct (thread_step _ _ _ _ _). Qed.
(** A thread that is not interrupted. *)
Lemma run_alone W i n : forall g ts t, ts !! i = Some t ->
  run W (g, ts) (repeat i n) = (fst (alone W (t_opts t) (t_base t) n (g, t_pc t)), <[i := set_pc t (snd (alone W (t_opts t) (t_base t) n (g, t_pc t)))]> ts).
Proof.
  induction n as [|n IH]; intros g ts t Ht.
  - cbn. rewrite list_insert_id; [done|]. rewrite Ht. by destruct t.
  - cbn [repeat]. unfold run. cbn [foldl]. rewrite (turn_spec _ _ _ _ _ Ht). rewrite alone_S.
    destruct (thread_step W (t_opts t) (t_base t) g (t_pc t)) as [g1 p1]. cbn [fst snd].
    match goal with |- foldl (turn W) ?s ?l = _ => change (foldl (turn W) s l) with (run W s l) end. rewrite (IH g1 _ (set_pc t p1)) by (apply list_lookup_insert; by eapply lookup_lt_Some). cbn [set_pc t_opts t_base t_pc].
    by rewrite list_insert_insert.
Qed.
Lemma run_through W g ts i opts base c : ts !! i = Some (start opts base c) -> exists n g' ts',
  run W (g, ts) (repeat i n) = (g', ts') /\ g' = fst (load_loader W opts g c base) /\
  (ts' !! i) ≫= answer = Some (snd (load_loader W opts g c base)) /\ forall j, j <> i -> ts' !! j = ts !! j.
Proof.
  intros Hi. destruct (alone_mro W opts base (mro c) g) as (n & Hn). exists n.
  rewrite (run_alone _ _ _ _ _ _ Hi). cbn [start t_opts t_base t_pc]. rewrite Hn. unfold load_loader.
  destruct (load_loader_mro W opts g base (mro c)) as [g' r]. cbn [fst snd]. eexists _, _. split; [done|]. split; [done|]. split.
  - rewrite list_lookup_insert by (by eapply lookup_lt_Some). done.
  - intros j Hj. by apply list_lookup_insert_ne.
Qed.

(** ** Every thread finishes *)
Definition module_size (m : loader_module) : nat := length (lm_register m) + length (lm_exclude m).
Definition budget (W : world) : nat := sum_list (map (fun p => module_size (snd p)) (w_modules W)).
Definition cost (W : world) (p : pc) : nat :=
  let per_class cs := (length cs * (budget W + 5))%nat in
  match p with
  | PLook cs => S (per_class cs)
  | PMiss _ r => (per_class r + budget W + 4)%nat
  | PReg _ r _ es xs => (per_class r + length es + length xs + 3)%nat
  | PAgain _ r => (per_class r + 2)%nat
  | PDone _ => 0%nat
  end.
Lemma budget_module W nm m : alist_get nm (w_modules W) = Some m -> (module_size m <= budget W)%nat.
Proof.
  intros H. apply alist_get_in in H. unfold budget. induction (w_modules W) as [|[nm' m'] l IH]; [inversion H|].
  apply elem_of_cons in H as [[= <- <-]|H]; cbn [map sum_list_with snd]; unfold id at 1; [lia|]. specialize (IH H). lia.
Qed.
Lemma cost_begin W c r nm : (cost W (begin_module W c r nm) < cost W (PMiss c r))%nat.
Proof.
  unfold begin_module. destruct (alist_get nm (w_modules W)) as [m|] eqn:E; cbn [cost]; [|lia].
  apply budget_module in E. unfold module_size in E. lia.
Qed.
Lemma cost_step W opts base g p : cost W p <> 0%nat -> (cost W (snd (thread_step W opts base g p)) < cost W p)%nat.
Proof.
  intros Hp. destruct p as [[|c r]|c r|c r nm [|e es] [|[b o] xs]|c r|a]; cbn [thread_step]; try (by cbn [cost] in Hp).
  - cbn. lia.
  - destruct (chain_get _ _ _); cbn; lia.
  - cbv zeta. pose proof (cost_begin W c r (cls_module c)) as B1.
    repeat match goal with
    | |- context [if ?b then _ else _] => destruct b
    | |- context [match ?b with Some _ => _ | None => _ end] => destruct b
    end; cbn [snd]; try apply cost_begin; cbn [cost]; lia.
  - cbn. lia.
  - destruct (register_class_exclude _ _ _) as [? []]; cbn; lia.
  - destruct (register_class _ _) as [? []]; cbn; lia.
  - destruct (register_class _ _) as [? []]; cbn; lia.
  - destruct (chain_get _ _ _); cbn; lia.
Qed.
Lemma turn_lookup W g ts i j t : ts !! j = Some t -> exists t', snd (turn W (g, ts) i) !! j = Some t' /\
  t_opts t' = t_opts t /\ t_base t' = t_base t /\ t_cls t' = t_cls t /\
  (i = j -> t_pc t' = snd (thread_step W (t_opts t) (t_base t) g (t_pc t))) /\ (i <> j -> t' = t).
Proof.
  intros Hj. destruct (decide (i = j)) as [-> |Hij].
  - rewrite (turn_spec _ _ _ _ _ Hj). cbn [snd]. eexists. rewrite list_lookup_insert by (by eapply lookup_lt_Some). done.
  - exists t. split; [|done]. unfold turn. cbn [fst snd]. destruct (ts !! i) as [u|]; [|done]. destruct (thread_step _ _ _ _ _). cbn [snd].
    by rewrite list_lookup_insert_ne.
Qed.
Fixpoint turns (i : nat) (sched : list nat) : nat :=
  match sched with [] => 0%nat | j :: r => ((if decide (j = i) then 1 else 0) + turns i r)%nat end.
Lemma run_finishes W sched : forall g ts i t, ts !! i = Some t -> (cost W (t_pc t) <= turns i sched)%nat ->
  exists t' a, snd (run W (g, ts) sched) !! i = Some t' /\ t_pc t' = PDone a.
Proof.
  induction sched as [|j sched IH]; intros g ts i t Hi Hc.
  - cbn [turns] in Hc. exists t. destruct (t_pc t) as [cs| | | |a] eqn:E; cbn [cost] in Hc; try lia. exists a. by split.
  - unfold run. cbn [foldl]. destruct (turn W (g, ts) j) as [g1 ts1] eqn:E1.
    destruct (turn_lookup W g ts j i t Hi) as (t1 & Ht1 & _ & _ & _ & S1 & S2). rewrite E1 in Ht1. cbn [snd] in Ht1.
    apply (IH g1 ts1 i t1 Ht1). cbn [turns] in Hc. case_decide as Hji.
    + rewrite (S1 Hji). destruct (decide (cost W (t_pc t) = 0%nat)) as [H0|H0].
      * destruct (t_pc t); cbn [cost] in H0; try lia. cbn [thread_step snd cost]. lia.
      * pose proof (cost_step W (t_opts t) (t_base t) g (t_pc t) H0). lia.
    + rewrite (S2 Hji). lia.
Qed.

(** ** The class tables while threads search *)
Section Pool.
  Variables (W : world) (g0 : registry).
  Hypothesis HT : tidy W.
  Hypothesis HF : fresh W g0.

  (** Each entry is as it will be, or missing because the module is not loaded yet. *)
  Definition good (g : registry) (o : opt) (c : cls) : Prop := alist_get (o, c) (g_py g) = entry_for W g0 o c.
  Definition partly (g : registry) : Prop :=
    forall o c, in_hickle c = false -> good g o c \/
      (alist_get (o, c) (g_py g) = None /\ exists pkg m, package W c = Some pkg /\ alist_get (loader_prefix ++ pkg) (w_modules W) = Some m /\
         last_of (py_ups m) (o, c) <> None /\ loader_prefix ++ pkg ∉ g_loaded g).
  Definition grows (g g' : registry) : Prop :=
    (forall o c, in_hickle c = false -> good g o c -> good g' o c) /\ g_loaded g ⊆ g_loaded g'.
  Lemma grows_refl g : grows g g.
  Proof. by split. Qed.
  Lemma grows_trans g1 g2 g3 : grows g1 g2 -> grows g2 g3 -> grows g1 g3.
  Proof. intros [A B] [C D]. split; [auto|]. by etrans. Qed.

  Lemma inv_partly g : inv W g0 g -> partly g.
  Proof.
    intros Hi o c Hc. destruct (package W c) as [pkg|] eqn:Ep.
    2: { left. apply (entries_loaded W g0 HT g c Hi Hc). intros; congruence. }
    destruct (decide (loader_prefix ++ pkg ∈ g_loaded g)) as [Hin|Hnin].
    { left. apply (entries_loaded W g0 HT g c Hi Hc). intros p m Hp _. rewrite Ep in Hp. by injection Hp as <-. }
    pose proof (entries_not_loaded W g0 HT g c pkg Hi Hc Ep Hnin o) as Hg. unfold good, entry_for. rewrite Ep, Hg.
    destruct (alist_get (loader_prefix ++ pkg) (w_modules W)) as [m|] eqn:Em; [|by left].
    destruct (last_of (py_ups m) (o, c)) as [i|] eqn:El; [|by left]. right. split.
    - apply alist_get_in in Em. by eapply (fresh_none W g0 HF).
    - exists pkg, m. split; [done|]. split; [done|]. split; [by rewrite El|done].
  Qed.

  (** What a module registers is what will be there. *)
  Lemma entry_of nm m e fn mo : (nm, m) ∈ w_modules W -> e ∈ lm_register m -> re_dump e = Some (fn, mo) -> in_hickle (re_cls e) = false ->
    entry_for W g0 (re_opt e) (re_cls e) = Some (fn, re_base e, re_memo e).
  Proof. intros Hm He Hd Hc. apply (entry_for_registered W g0 HT HF _ _ _ Hc). by eapply RegModule. Qed.

  Lemma register_partly g nm m e : partly g -> (nm, m) ∈ w_modules W -> e ∈ lm_register m ->
    exists g', register_class g e = (g', Ok tt) /\ partly g' /\ grows g g' /\
      (re_dump e <> None -> in_hickle (re_cls e) = false -> good g' (re_opt e) (re_cls e)).
  Proof.
    intros Hg Hm He. destruct (ty_accepted _ HT nm m Hm) as [Ha _].
    rewrite register_class_acceptable by (rewrite List.forallb_forall in Ha; apply Ha; by apply elem_of_list_In).
    eexists. split; [done|]. unfold py_of. destruct (re_dump e) as [[fn mo]|] eqn:Ed.
    - assert (forall o c, in_hickle c = false ->
        alist_get (o, c) (alist_set (re_opt e, re_cls e) (fn, re_base e, re_memo e) (g_py g)) =
        if decide ((o, c) = (re_opt e, re_cls e)) then entry_for W g0 o c else alist_get (o, c) (g_py g)) as Hget.
      { intros o c Hc. rewrite alist_get_set. case_decide as Hk; [|done]. injection Hk as -> ->. symmetry. by eapply entry_of. }
      split; [|split].
      + intros o c Hc. unfold good. cbn [g_py g_loaded update foldl]. rewrite Hget by done. case_decide; [by left|]. by apply Hg.
      + split; [|done]. intros o c Hc Hgo. unfold good. cbn [g_py update foldl]. rewrite Hget by done. by case_decide.
      + intros _ Hc. unfold good. cbn [g_py update foldl]. rewrite Hget by done. by rewrite decide_True.
    - split; [exact Hg|]. split; [by split|done].
  Qed.
  Lemma exclude_partly g b o : partly g -> excludable (b, o) = true -> exists g', register_class_exclude g b o = (g', Ok tt) /\ partly g' /\ grows g g'.
  Proof.
    intros Hg He. pose proof (exclude_all_ok [(b, o)] g) as Hx. cbn [forallb exclude_all] in Hx. rewrite He in Hx. specialize (Hx eq_refl).
    destruct (register_class_exclude g b o) as [g' [[]|x]] eqn:E; [|done]. injection Hx as ->. eexists. split; [done|]. split; [exact Hg|by split].
  Qed.
  (** Once all is registered the module may be marked. *)
  Lemma mark_partly g nm m : partly g -> (nm, m) ∈ w_modules W ->
    (forall e, e ∈ lm_register m -> re_dump e <> None -> in_hickle (re_cls e) = false -> good g (re_opt e) (re_cls e)) ->
    let g' := Registry (g_py g) (g_fn g) (g_ct g) (nm :: g_loaded g) in partly g' /\ grows g g'.
  Proof.
    intros Hg Hm Hall g'. split.
    - intros o c Hc. destruct (Hg o c Hc) as [H|(Hn & pkg & m' & Ep & Em & Hl & Hnin)]; [by left|].
      destruct (decide (loader_prefix ++ pkg = nm)) as [Heq|Hne].
      + left. apply alist_get_in in Em. rewrite Heq in Em. rewrite (module_unique W HT _ _ _ Em Hm) in Hl.
        destruct (last_of (py_ups m) (o, c)) as [i|] eqn:El; [|done]. apply last_of_in, py_ups_in in El.
        destruct El as (e & fn & mo & He & <- & <- & Hd & _). apply Hall; [done|by rewrite Hd|done].
      + right. split; [done|]. exists pkg, m'. split; [done|]. split; [done|]. split; [done|]. cbn [g_loaded].
        intros [H|H]%elem_of_cons; done.
    - split; [done|]. intros x. cbn [g_loaded]. by right.
  Qed.

  (** Where a thread can be, and what it knows. *)
  Definition pc_ok (g : registry) (t : thread) : Prop :=
    match t_pc t with
    | PLook cs => exists pre, mro (t_cls t) = pre ++ cs
    | PMiss c r | PAgain c r => exists pre, mro (t_cls t) = pre ++ c :: r
    | PReg c r nm es xs => (exists pre, mro (t_cls t) = pre ++ c :: r) /\
        exists m es0 xs0, (nm, m) ∈ w_modules W /\ lm_register m = es0 ++ es /\ lm_exclude m = xs0 ++ xs /\
          forall e, e ∈ es0 -> re_dump e <> None -> in_hickle (re_cls e) = false -> good g (re_opt e) (re_cls e)
    | PDone a => exists oi, a = Ok oi /\ forall i, oi = Some i -> exists c o, c ∈ mro (t_cls t) /\ o ∈ t_opts t /\ registered W g0 o c i
    end.
  Definition thread_ok (g : registry) (t : thread) : Prop := not_hickle (t_cls t) = true /\ pc_ok g t.
  Lemma thread_grows g g' t : grows g g' -> thread_ok g t -> thread_ok g' t.
  Proof.
    intros [Hg _] [Hc Ht]. split; [done|]. unfold pc_ok in *. destruct (t_pc t); try done.
    destruct Ht as (A & m & es0 & xs0 & B & C & D & E). split; [done|]. exists m, es0, xs0. split; [done|]. split; [done|]. split; [done|]. auto.
  Qed.
  Lemma outside_at t pre c r : not_hickle (t_cls t) = true -> mro (t_cls t) = pre ++ c :: r -> in_hickle c = false.
  Proof.
    unfold not_hickle. intros H E. rewrite E in H. rewrite List.forallb_forall in H. specialize (H c).
    apply negb_true_iff, H. apply elem_of_list_In, elem_of_app. right. left.
  Qed.
  Lemma found_registered g t c i : partly g -> in_hickle c = false -> c ∈ mro (t_cls t) -> chain_get (t_opts t) c (g_py g) = Some i ->
    exists c o, c ∈ mro (t_cls t) /\ o ∈ t_opts t /\ registered W g0 o c i.
  Proof.
    intros Hg Hc Hin Hch. assert (exists o, o ∈ t_opts t /\ alist_get (o, c) (g_py g) = Some i) as (o & Ho & Hget).
    { induction (t_opts t) as [|o r IH]; [done|]. cbn [chain_get] in Hch. destruct (alist_get (o, c) (g_py g)) eqn:E.
      - injection Hch as ->. exists o. split; [left|done].
      - destruct (IH Hch) as (o' & A & B). exists o'. split; [by right|done]. }
    exists c, o. split; [done|]. split; [done|]. apply (entry_for_registered W g0 HT HF _ _ _ Hc).
    destruct (Hg o c Hc) as [H|[H _]]; unfold good in *; congruence.
  Qed.
  Lemma step_ok g t g' p : partly g -> thread_ok g t -> thread_step W (t_opts t) (t_base t) g (t_pc t) = (g', p) ->
    partly g' /\ grows g g' /\ thread_ok g' (set_pc t p).
  Proof.
    intros Hg [Hc Ht] Hs. unfold pc_ok in Ht. destruct (t_pc t) as [[|c r]|c r|c r nm [|e es] xs|c r|a]; cbn [thread_step] in Hs.
    - injection Hs as <- <-. split; [done|]. split; [apply grows_refl|]. split; [done|]. cbn. by exists None.
    - destruct Ht as (pre & Hpre). pose proof (outside_at _ _ _ _ Hc Hpre) as Hout.
      destruct (chain_get (t_opts t) c (g_py g)) as [i|] eqn:E; injection Hs as <- <-; (split; [done|]; split; [apply grows_refl|]; split; [done|]); cbn.
      + exists (Some i). split; [done|]. intros ? [= <-]. eapply found_registered; [done|done| |done]. rewrite Hpre. apply elem_of_app. right. left.
      + by exists pre.
    - destruct Ht as (pre & Hpre). pose proof (outside_at _ _ _ _ Hc Hpre) as Hout. unfold in_hickle in Hout. rewrite Hout in Hs.
      assert (pc_ok g (set_pc t (PLook r))) as Hnext. { exists (pre ++ [c]). by rewrite <- app_assoc. }
      destruct (if bool_decide (part 0 (cls_module c) = str "__main__") then _ else _) as [pkg|].
      2: { injection Hs as <- <-. split; [done|]. split; [apply grows_refl|]. by split. }
      cbv zeta in Hs. remember (loader_prefix ++ pkg) as nm eqn:Enm in Hs. clear Enm.
      destruct (bool_decide (nm ∈ g_loaded g)); injection Hs as <- <-; (split; [done|]; split; [apply grows_refl|]; split; [done|]); [done|].
      unfold begin_module. destruct (alist_get nm (w_modules W)) as [m|] eqn:Em; [|done]. cbn.
      split; [by exists pre|]. exists m, [], []. split; [by apply alist_get_in|]. split; [done|]. split; [done|]. intros e He. by apply elem_of_nil in He.
    - destruct Ht as (Hpre & m & es0 & xs0 & Hm & Hes & Hxs & Hall). rewrite app_nil_r in Hes. subst es0. destruct xs as [|[b o] xs].
      + injection Hs as <- <-. destruct (mark_partly g nm m Hg Hm Hall) as [A B]. split; [done|]. split; [done|]. split; [done|]. exact Hpre.
      + destruct (ty_accepted _ HT nm m Hm) as [_ Hx]. rewrite List.forallb_forall in Hx.
        destruct (exclude_partly g b o Hg) as (g1 & E & A & B). { apply Hx. rewrite Hxs. apply in_or_app. right. by left. }
        rewrite E in Hs. injection Hs as <- <-. split; [done|]. split; [done|]. split; [done|]. cbn. split; [done|].
        exists m, (lm_register m), (xs0 ++ [(b, o)]). rewrite app_nil_r, <- app_assoc. split; [done|]. split; [done|]. split; [done|].
        intros e He Hd Hi. apply B; [done|]. by apply Hall.
    - destruct Ht as (Hpre & m & es0 & xs0 & Hm & Hes & Hxs & Hall).
      destruct (register_partly g nm m e Hg Hm) as (g1 & E & A & B & C). { rewrite Hes. apply elem_of_app. right. left. }
      rewrite E in Hs. injection Hs as <- <-. split; [done|]. split; [done|]. split; [done|]. cbn. split; [done|].
      exists m, (es0 ++ [e]), xs0. rewrite <- app_assoc. split; [done|]. split; [done|]. split; [done|].
      intros e' [He| ->%elem_of_list_singleton]%elem_of_app Hd Hi; [|by apply C]. apply B; [done|]. by apply Hall.
    - destruct Ht as (pre & Hpre). pose proof (outside_at _ _ _ _ Hc Hpre) as Hout.
      destruct (chain_get (t_opts t) c (g_py g)) as [i|] eqn:E; injection Hs as <- <-; (split; [done|]; split; [apply grows_refl|]; split; [done|]); cbn.
      + exists (Some i). split; [done|]. intros ? [= <-]. eapply found_registered; [done|done| |done]. rewrite Hpre. apply elem_of_app. right. left.
      + exists (pre ++ [c]). by rewrite <- app_assoc.
    - injection Hs as <- <-. split; [done|]. split; [apply grows_refl|]. by split.
  Qed.

  Definition pool_ok (s : registry * list thread) : Prop := partly (fst s) /\ Forall (thread_ok (fst s)) (snd s).
  Lemma turn_ok s i : pool_ok s -> pool_ok (turn W s i) /\ grows (fst s) (fst (turn W s i)).
  Proof.
    destruct s as [g ts]. intros [Hg Hts]. cbn [fst snd] in *. destruct (ts !! i) as [t|] eqn:Ei.
    2: { unfold turn. cbn [fst snd]. rewrite Ei. split; [by split|apply grows_refl]. }
    rewrite (turn_spec _ _ _ _ _ Ei). destruct (thread_step W (t_opts t) (t_base t) g (t_pc t)) as [g' p] eqn:Es. cbn [fst snd].
    destruct (step_ok g t g' p Hg) as (A & B & C); [by eapply Forall_lookup_1|done|]. split; [|done]. split; [done|]. cbn [fst snd].
    apply Forall_insert; [|done]. eapply list.Forall_impl; [exact Hts|]. intros u. by apply thread_grows.
  Qed.
  Lemma run_ok sched : forall s, pool_ok s -> pool_ok (run W s sched) /\ grows (fst s) (fst (run W s sched)).
  Proof.
    induction sched as [|i sched IH]; intros s Hs; [split; [done|apply grows_refl]|]. unfold run. cbn [foldl]. destruct (turn_ok s i Hs) as [A B].
    destruct (IH _ A) as [C D]. split; [exact C|]. eapply grows_trans; [exact B|exact D].
  Qed.

  (** ** A thread whose loader modules are loaded *)
  Definition settled (g : registry) (c : cls) : Prop :=
    forall k pkg m, k ∈ mro c -> package W k = Some pkg -> alist_get (loader_prefix ++ pkg) (w_modules W) = Some m -> loader_prefix ++ pkg ∈ g_loaded g.
  Lemma settled_good g c k o : partly g -> settled g c -> in_hickle k = false -> k ∈ mro c -> good g o k.
  Proof.
    intros Hg Hs Hk Hin. destruct (Hg o k Hk) as [H|(_ & pkg & m & Ep & Em & _ & Hn)]; [done|]. by destruct Hn; eapply Hs.
  Qed.
  Lemma settled_grows g g' c : grows g g' -> settled g c -> settled g' c.
  Proof. intros [_ H] Hs k pkg m A B C. by eapply H, Hs. Qed.
  Definition on_course (t : thread) : Prop :=
    let final := first_cls W g0 (t_opts t) (mro (t_cls t)) in
    match t_pc t with
    | PLook cs => first_cls W g0 (t_opts t) cs = final
    | PMiss c r => first_opt W g0 (t_opts t) c = None /\ first_cls W g0 (t_opts t) r = final
    | PDone a => a = Ok final
    | _ => False
    end.
  Lemma step_course g t g' p : partly g -> thread_ok g t -> settled g (t_cls t) -> on_course t ->
    thread_step W (t_opts t) (t_base t) g (t_pc t) = (g', p) -> on_course (set_pc t p).
  Proof.
    intros Hg [Hc Ht] Hset Hon Hs. unfold pc_ok in Ht. unfold on_course in *. cbn [set_pc t_opts t_cls t_pc].
    destruct (t_pc t) as [[|c r]|c r|c r nm es xs|c r|a]; cbn [thread_step] in Hs; try done.
    - injection Hs as <- <-. by rewrite <- Hon.
    - destruct Ht as (pre & Hpre). pose proof (outside_at _ _ _ _ Hc Hpre) as Hout.
      rewrite (chain_entry W g0) in Hs.
      2: { intros o. apply (settled_good g (t_cls t) c o Hg Hset Hout). rewrite Hpre. apply elem_of_app. right. left. }
      cbn [first_cls] in Hon. destruct (first_opt W g0 (t_opts t) c) as [i|] eqn:Ef; injection Hs as <- <-; [by rewrite Hon|by split].
    - destruct Ht as (pre & Hpre). pose proof (outside_at _ _ _ _ Hc Hpre) as Hout. unfold in_hickle in Hout. rewrite Hout in Hs.
      destruct Hon as [H1 H2].
      assert (forall pkg m, package W c = Some pkg -> alist_get (loader_prefix ++ pkg) (w_modules W) = Some m -> loader_prefix ++ pkg ∈ g_loaded g) as Hl.
      { intros pkg m. apply (Hset c). rewrite Hpre. apply elem_of_app. right. left. }
      unfold package in Hl. destruct (if bool_decide (part 0 (cls_module c) = str "__main__") then _ else _) as [pkg|].
      2: { by injection Hs as <- <-. }
      specialize (Hl pkg). cbv zeta in Hs. remember (loader_prefix ++ pkg) as nm eqn:Enm in Hs, Hl. clear Enm.
      clear Hout. case_bool_decide as Hb; [by injection Hs as <- <-|]. unfold begin_module in Hs. destruct (alist_get nm (w_modules W)) as [m|] eqn:Em.
      + by destruct Hb; apply (Hl m).
      + by injection Hs as <- <-.
    - injection Hs as <- <-. done.
  Qed.
  Lemma run_course sched : forall s i t, pool_ok s -> snd s !! i = Some t -> settled (fst s) (t_cls t) -> on_course t ->
    exists t', snd (run W s sched) !! i = Some t' /\ on_course t' /\ t_cls t' = t_cls t /\ t_opts t' = t_opts t.
  Proof.
    induction sched as [|j sched IH]; intros s i t Hs Hi Hset Hon; [by exists t|]. unfold run. cbn [foldl].
    destruct (turn_ok s j Hs) as [A B]. destruct s as [g ts]. cbn [fst snd] in *.
    destruct (turn_lookup W g ts j i t Hi) as (t1 & Ht1 & E1 & E2 & E3 & S1 & S2).
    destruct (IH (turn W (g, ts) j) i t1 A Ht1) as (t' & P1 & P2 & P3 & P4).
    - rewrite E3. by eapply settled_grows.
    - destruct (decide (j = i)) as [Hji|Hji]; [|by rewrite (S2 Hji)].
      destruct (thread_step W (t_opts t) (t_base t) g (t_pc t)) as [g' p] eqn:Es.
      assert (t1 = set_pc t p) as ->. { destruct t1, t. cbn in *. unfold set_pc. cbn. rewrite (S1 Hji). congruence. }
      eapply step_course; [apply Hs| |exact Hset|exact Hon|exact Es]. eapply Forall_lookup_1; [apply Hs|exact Hi].
    - exists t'. split; [exact P1|]. split; [done|]. split; congruence.
  Qed.

  (** ** A search that is not interrupted, others being stopped anywhere *)
  Lemma load_partly g nm m : partly g -> (nm, m) ∈ w_modules W ->
    exists g', load_module g nm m = (g', Ok tt) /\ partly g' /\
      forall o c, alist_get (o, c) (g_py g') = match last_of (py_ups m) (o, c) with Some i => Some i | None => alist_get (o, c) (g_py g) end.
  Proof.
    intros Hg Hm. destruct (ty_accepted _ HT nm m Hm) as [Ha He]. rewrite load_module_ok by done. eexists. split; [done|].
    assert (forall o c, alist_get (o, c) (update (g_py g) (py_ups m)) = match last_of (py_ups m) (o, c) with Some i => Some i | None => alist_get (o, c) (g_py g) end) as Hget.
    { intros o c. apply update_get. }
    split; [|exact Hget]. intros o c Hc. unfold good. cbn [g_py g_loaded]. rewrite Hget.
    destruct (last_of (py_ups m) (o, c)) as [i|] eqn:El.
    - left. apply last_of_in, py_ups_in in El. destruct El as (e & fn & mo & Hin & <- & <- & Hd & ->). symmetry. by eapply entry_of.
    - destruct (Hg o c Hc) as [H|(Hn & pkg & m' & Ep & Em & Hl & Hnin)]; [by left|]. right. split; [done|]. exists pkg, m'.
      split; [done|]. split; [done|]. split; [done|]. intros [H|H]%elem_of_cons; [|done].
      apply alist_get_in in Em. rewrite H in Em. rewrite (module_unique W HT _ _ _ Em Hm) in Hl. done.
  Qed.
  Lemma step_whole g o base c : partly g -> in_hickle c = false ->
    exists g', load_loader_step W [o] g base c = (g', match entry_for W g0 o c with Some i => Found i | None => Next end) /\ partly g'.
  Proof.
    intros Hg Hc. unfold load_loader_step. cbn [chain_get].
    destruct (alist_get (o, c) (g_py g)) as [i|] eqn:Eg.
    { exists g. split; [|done]. destruct (Hg o c Hc) as [H|[H _]]; unfold good in *; [|congruence]. by rewrite <- H, Eg. }
    pose proof Hc as Hc'. unfold in_hickle in Hc'. rewrite Hc'.
    destruct (Hg o c Hc) as [H|(_ & pkg & m & Ep & Em & Hl & Hnin)]; unfold good in *.
    - rewrite Eg in H. rewrite <- H. pose proof H as Hent. unfold entry_for, package in Hent.
      destruct (if bool_decide (part 0 (cls_module c) = str "__main__") then _ else _) as [pkg|]; [|by exists g].
      cbv zeta. remember (loader_prefix ++ pkg) as nm eqn:Enm in Hent |- *. clear Enm.
      clear Hc'. case_bool_decide; [by exists g|]. unfold try_module. destruct (alist_get nm (w_modules W)) as [m|] eqn:Em; [|by exists g].
      apply alist_get_in in Em. destruct (load_partly g nm m Hg Em) as (g' & -> & Hg' & Hget). exists g'. split; [|done].
      cbn [chain_get]. rewrite Hget, Eg. by destruct (last_of (py_ups m) (o, c)).
    - unfold package in Ep. rewrite Ep. cbv zeta. rewrite bool_decide_eq_false_2 by done. unfold try_module. rewrite Em.
      assert (entry_for W g0 o c = last_of (py_ups m) (o, c)) as ->.
      { unfold entry_for, package. rewrite Ep, Em. by destruct (last_of (py_ups m) (o, c)). }
      apply alist_get_in in Em. destruct (load_partly g _ m Hg Em) as (g' & -> & Hg' & Hget). exists g'. split; [|done].
      cbn [chain_get]. rewrite Hget, Eg. by destruct (last_of (py_ups m) (o, c)).
  Qed.
  Lemma mro_whole o base cs : forall g, partly g -> forallb (fun k => negb (in_hickle k)) cs = true ->
    snd (load_loader_mro W [o] g base cs) = Ok (first_cls W g0 [o] cs).
  Proof.
    induction cs as [|c cs IH]; intros g Hg; [done|]. cbn [forallb]. intros [Hc Hcs]%andb_true_iff. apply negb_true_iff in Hc.
    cbn [load_loader_mro first_cls first_opt]. destruct (step_whole g o base c Hg Hc) as (g' & -> & Hg').
    destruct (entry_for W g0 o c); [done|]. by apply IH.
  Qed.
  Lemma search_whole g o base c : partly g -> not_hickle c = true ->
    snd (load_loader W [o] g c base) = Ok (match first_cls W g0 [o] (mro c) with Some i => (c, i) | None => fallback end).
  Proof.
    intros Hg Hc. unfold load_loader. pose proof (mro_whole o base (mro c) g Hg Hc) as H.
    destruct (load_loader_mro W [o] g base (mro c)) as [g' r]. cbn [snd] in *. subst r. done.
  Qed.
  Lemma begin_ok h ts : Forall (fun t => not_hickle (t_cls t) = true /\ t_pc t = PLook (mro (t_cls t))) ts -> pool_ok (after W g0 h, ts).
  Proof.
    intros H. split; [apply inv_partly, inv_after; done|]. cbn [fst snd]. eapply list.Forall_impl; [exact H|]. intros t [A B]. split; [done|].
    unfold pc_ok. rewrite B. by exists [].
  Qed.
End Pool.
