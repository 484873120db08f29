(** * ManagerProofs: what every interleaving of calls does to the tables of managers *)
From Verif Require Import Base Managers.
Local Open Scope list_scope.

(** Calls that have not begun. *)
Definition begun (j : job) : bool := match j_stage j with SCheck ML => false | _ => true end.
Definition waiting (js : list job) : Prop :=
  Forall (fun j => j = call (j_file j) (j_bad j) (j_work j) (j_raises j)) js.
Definition ended (j : job) : Prop := match j_stage j with SEnd _ => True | _ => False end.

(** The call has the entry of class [k] made and not yet removed. *)
Definition holds (k : mcls) (s : stage) : Prop :=
  match k, s with
  | ML, (SCheck MR | SMake MR | SWork _ | SDrop _ _ | SPop _ _) => True
  | MR, (SWork _ | SDrop MR _ | SPop MR _) => True
  | _, _ => False
  end.

Lemma put_same t k f v : put t k f v k f = v.
Proof. unfold put. by rewrite bool_decide_true. Qed.
Lemma put_other t k f v k' f' : k' <> k \/ f' <> f -> put t k f v k' f' = t k' f'.
Proof. intros H. unfold put. rewrite bool_decide_false; [done|]. intros [-> ->]. by destruct H. Qed.
Lemma put_cases t k f v k' f' : (k' = k /\ f' = f /\ put t k f v k' f' = v) \/ ((k' <> k \/ f' <> f) /\ put t k f v k' f' = t k' f').
Proof.
  destruct (decide (k' = k)) as [->|Hk]; [destruct (decide (f' = f)) as [->|Hf]|].
  - left. by rewrite put_same.
  - right. split; [by right|]. apply put_other. by right.
  - right. split; [by left|]. apply put_other. by left.
Qed.

Definition fired (e : event) (t : table) (j : job) : table * job :=
  match e with Turn i => job_step i t j | Collect k _ => fin_step k t j end.
Lemma act_eq s e j : snd s !! event_job e = Some j ->
  act s e = (fst (fired e (fst s) j), <[event_job e := snd (fired e (fst s) j)]> (snd s)).
Proof. intros H. unfold act. rewrite H. by destruct e. Qed.
Lemma act_none s e : snd s !! event_job e = None -> act s e = s.
Proof. intros H. unfold act. by rewrite H. Qed.

(** A step keeps the description of the call and touches the entries of its file only. *)
Lemma fired_keeps e t j : let j' := snd (fired e t j) in
  j_file j' = j_file j /\ j_bad j' = j_bad j /\ j_work j' = j_work j /\ j_raises j' = j_raises j.
Proof.
  destruct e as [i|k i]; cbn [fired].
  - unfold job_step. destruct (j_stage j) as [k|k|[|[] w]|k o|k o|o]; try (by repeat case_match).
  - unfold fin_step. destruct (j_stage j), (j_fin j k), k; try done; by destruct (t _ _).
Qed.
Lemma fired_file e t j k f : f <> j_file j -> fst (fired e t j) k f = t k f.
Proof.
  intros Hf. destruct e as [i|k' i]; cbn [fired].
  - unfold job_step. destruct (j_stage j) as [k'|k'|[|[] w]|k' o|k' o|o]; try (by repeat case_match).
    + destruct (j_bad j k'); [done|]. apply put_other. by right.
    + apply put_other. by right.
  - unfold fin_step. destruct (j_stage j), (j_fin j k'); try done; try (by destruct (t _ _)). apply put_other. by right.
Qed.
(** What it does to the entries of its file depends on these alone. *)
Lemma fired_local e t1 t2 j : (forall k, t1 k (j_file j) = t2 k (j_file j)) ->
  snd (fired e t1 j) = snd (fired e t2 j) /\ forall k, fst (fired e t1 j) k (j_file j) = fst (fired e t2 j) k (j_file j).
Proof.
  intros H. destruct e as [i|k' i]; cbn [fired].
  - unfold job_step. destruct (j_stage j) as [k'|k'|[|[] w]|k' o|k' o|o]; rewrite ?H; try (by repeat case_match).
    + destruct (j_bad j k'); [done|]. split; [done|]. intros k. unfold put. cbn [fst]. by rewrite H.
    + split; [done|]. intros k. unfold put. cbn [fst]. by rewrite H.
  - unfold fin_step. destruct (j_stage j), (j_fin j k'); rewrite ?H; try done; try (by destruct (t2 _ _)).
    split; [done|]. intros k. unfold put. cbn [fst]. by rewrite H.
Qed.

Lemma act_files s e i : (fun j => j_file j) <$> (snd (act s e) !! i) = j_file <$> (snd s !! i).
Proof.
  destruct (snd s !! event_job e) as [j|] eqn:Hj; [|by rewrite act_none].
  rewrite (act_eq _ _ _ Hj). cbn [snd]. destruct (decide (i = event_job e)) as [->|Hi].
  - rewrite list_lookup_insert by (by eapply lookup_lt_Some). rewrite Hj. cbn. f_equal. apply fired_keeps.
  - by rewrite list_lookup_insert_ne.
Qed.

(** ** Every entry belongs to a call that will remove it *)
Definition owned (s : table * list job) : Prop :=
  forall k f i, fst s k f = Some i -> exists j, snd s !! i = Some j /\ j_file j = f /\ holds k (j_stage j).

Lemma holds_to k j s : holds k (j_stage (to j s)) = holds k s.
Proof. done. Qed.
Lemma set_fin_stage j k x : j_stage (set_fin j k x) = j_stage j.
Proof. by destruct k. Qed.
Lemma set_fin_file j k x : j_file (set_fin j k x) = j_file j.
Proof. by destruct k. Qed.

(** What a step of call [i] leaves under a key: nothing, or what was there; its own entry
    only while it holds it. *)
Lemma job_step_entry i t j k f m : fst (job_step i t j) k f = Some m ->
  (t k f = Some m /\ (m = i -> f = j_file j -> holds k (j_stage j) -> holds k (j_stage (snd (job_step i t j))))) \/
  (m = i /\ f = j_file j /\ holds k (j_stage (snd (job_step i t j)))).
Proof.
  unfold job_step. destruct (j_stage j) as [k'|k'|[|[] w]|k' o|k' o|o]; cbn [fst snd].
  - destruct (t k' (j_file j)); cbn [fst snd]; intros H; left; (split; [done|]); intros _ _; by destruct k, k'.
  - destruct (j_bad j k') eqn:Eb; cbn [fst snd].
    + intros H; left; (split; [done|]). intros _ _. by destruct k, k'.
    + intros H. destruct (put_cases t k' (j_file j) (Some i) k f) as [(-> & -> & E)|(Hne & E)]; rewrite E in H.
      * right. injection H as <-. split_and!; [done..|]. by destruct k'.
      * left. split; [done|]. intros _ _. cbn [to j_stage]. by destruct k, k'.
  - intros H; left; (split; [done|]). intros _ _ _. by destruct k.
  - destruct (t MR (j_file j)); cbn [fst snd]; intros H; left; (split; [done|]); intros _ _ _; by destruct k.
  - intros H; left; (split; [done|]). intros _ _ _. by destruct k.
  - destruct (t k' (j_file j)) eqn:Et; cbn [fst snd]; intros H; left; (split; [done|]); intros _ Hf; subst f; destruct k, k'; try done; by rewrite Et in H.
  - intros H. destruct (put_cases t k' (j_file j) None k f) as [(-> & -> & E)|(Hne & E)]; rewrite E in H; [done|].
    left. split; [done|]. intros _ Hf. destruct Hne as [Hne|?]; [|done]. by destruct k, k'.
  - intros H. left. split; [done|]. intros _ _. by destruct k.
Qed.
Lemma fin_step_entry k' t j k f m : fst (fin_step k' t j) k f = Some m -> t k f = Some m.
Proof.
  unfold fin_step. destruct (j_stage j), (j_fin j k'); try done; try (by destruct (t _ _)).
  cbn [fst]. destruct (put_cases t k' (j_file j) None k f) as [(-> & -> & E)|(Hne & E)]; by rewrite E.
Qed.
Lemma fin_step_stage k t j : j_stage (snd (fin_step k t j)) = j_stage j.
Proof. unfold fin_step. destruct (j_stage j) eqn:E, (j_fin j k); try done; try destruct (t _ _); cbn [snd]; by rewrite ?set_fin_stage. Qed.

Lemma act_owned s e : owned s -> owned (act s e).
Proof.
  intros HO. destruct (snd s !! event_job e) as [j|] eqn:Hj; [|by rewrite act_none].
  rewrite (act_eq _ _ _ Hj). intros k f m. cbn [fst snd]. intros H.
  pose proof (fired_keeps e (fst s) j) as (Hf & _). pose proof (lookup_lt_Some _ _ _ Hj) as Hl.
  destruct e as [i|k' i]; cbn [fired event_job] in *.
  - destruct (job_step_entry _ _ _ _ _ _ H) as [[H0 Hk]|(-> & -> & Hh)].
    + destruct (HO _ _ _ H0) as (j0 & A & B & C). destruct (decide (m = i)) as [->|Hne].
      * rewrite Hj in A. injection A as <-. eexists. rewrite list_lookup_insert by done. split; [done|]. split; [congruence|].
        by apply Hk.
      * exists j0. by rewrite list_lookup_insert_ne.
    + eexists. by rewrite list_lookup_insert.
  - destruct (HO _ _ _ (fin_step_entry _ _ _ _ _ _ H)) as (j0 & A & B & C). destruct (decide (m = i)) as [->|Hne].
    + rewrite Hj in A. injection A as <-. eexists. rewrite list_lookup_insert by done. split; [done|]. split; [congruence|].
      by rewrite fin_step_stage.
    + exists j0. by rewrite list_lookup_insert_ne.
Qed.
Lemma run_owned es s : owned s -> owned (run s es).
Proof. revert s. induction es as [|e es IH]; intros s H; [done|]. cbn. apply IH. by apply act_owned. Qed.
Lemma released es js : Forall ended (snd (run (no_managers, js) es)) ->
  forall k f, fst (run (no_managers, js) es) k f = None.
Proof.
  intros HE k f. assert (HO : owned (run (no_managers, js) es)) by (by apply run_owned).
  destruct (fst (run (no_managers, js) es) k f) as [m|] eqn:H; [|done].
  destruct (HO _ _ _ H) as (j & A & B & C). pose proof (Forall_lookup_1 _ _ _ _ HE A) as D. unfold ended in D.
  destruct (j_stage j); try done. by destruct k.
Qed.

(** ** Calls on other files make no difference *)
Definition on (js : list job) (f : N) (e : event) : bool :=
  match js !! event_job e with Some j => bool_decide (j_file j = f) | None => false end.
Definition alike (f : N) (s1 s2 : table * list job) : Prop :=
  (forall k, fst s1 k f = fst s2 k f) /\
  (forall i, j_file <$> (snd s1 !! i) = j_file <$> (snd s2 !! i)) /\
  (forall i j, j_file j = f -> snd s1 !! i = Some j -> snd s2 !! i = Some j).

Lemma act_other f s1 s2 e j : alike f s1 s2 -> snd s1 !! event_job e = Some j -> j_file j <> f -> alike f (act s1 e) s2.
Proof.
  intros (A & B & C) Hj Hf. split_and!.
  - intros k. rewrite (act_eq _ _ _ Hj). cbn [fst]. rewrite fired_file by done. apply A.
  - intros i. rewrite <- B. apply act_files.
  - intros i j' Hf'. rewrite (act_eq _ _ _ Hj). cbn [snd]. destruct (decide (i = event_job e)) as [->|Hi].
    + rewrite list_lookup_insert by (by eapply lookup_lt_Some). intros [= <-].
      destruct (fired_keeps e (fst s1) j) as (E & _). congruence.
    + rewrite list_lookup_insert_ne by done. by apply C.
Qed.
Lemma act_same f s1 s2 e j : alike f s1 s2 -> snd s1 !! event_job e = Some j -> j_file j = f -> alike f (act s1 e) (act s2 e).
Proof.
  intros (A & B & C) Hj Hf. pose proof (C _ _ Hf Hj) as Hj2. subst f.
  destruct (fired_local e (fst s1) (fst s2) j A) as [E1 E2]. split_and!.
  - intros k. rewrite (act_eq _ _ _ Hj), (act_eq _ _ _ Hj2). cbn [fst]. apply E2.
  - intros i. rewrite !act_files. apply B.
  - intros i j' Hf'. rewrite (act_eq _ _ _ Hj), (act_eq _ _ _ Hj2). cbn [snd]. rewrite E1. destruct (decide (i = event_job e)) as [->|Hi].
    + rewrite !list_lookup_insert by (by eapply lookup_lt_Some). done.
    + rewrite !list_lookup_insert_ne by done. by apply C.
Qed.
Lemma run_alike f js es s1 s2 : (forall i, j_file <$> (snd s1 !! i) = j_file <$> (js !! i)) -> alike f s1 s2 ->
  alike f (run s1 es) (run s2 (List.filter (on js f) es)).
Proof.
  revert s1 s2. induction es as [|e es IH]; intros s1 s2 Hjs H; [done|]. cbn [List.filter]. unfold on at 1.
  pose proof (Hjs (event_job e)) as He. assert (Hjs' : forall i, j_file <$> (snd (act s1 e) !! i) = j_file <$> (js !! i)).
  { intros i. rewrite act_files. apply Hjs. }
  destruct (snd s1 !! event_job e) as [j|] eqn:Hj.
  - destruct (js !! event_job e) as [j'|]; [|done]. injection He as He. case_bool_decide as Hf.
    + cbn [run foldl]. apply IH; [done|]. eapply act_same; [done|done|congruence].
    + apply IH; [done|]. eapply act_other; [done|done|congruence].
  - destruct (js !! event_job e) as [j'|]; [done|]. cbn [run foldl]. rewrite (act_none s1) by done. by apply IH.
Qed.

(** ** Calls whose managers are made and removed undisturbed *)

(** What may happen next: nothing on a file between the check and the making of an entry of
    its, and no finalizer as long as a call on its file is under way. *)
Definition idle (j : job) : Prop := match j_stage j with SCheck ML | SEnd _ => True | _ => False end.
Definition quiet (s : table * list job) (e : event) : Prop :=
  forall j, snd s !! event_job e = Some j ->
    (forall i j', snd s !! i = Some j' -> j_file j' = j_file j -> match j_stage j' with SMake _ => e = Turn i | _ => True end) /\
    match e with
    | Turn _ => True
    | Collect _ _ => forall i j', snd s !! i = Some j' -> j_file j' = j_file j -> idle j'
    end.
Fixpoint calm (s : table * list job) (es : list event) : Prop :=
  match es with
  | [] => True
  | e :: r => quiet s e /\ calm (act s e) r
  end.

Definition mine (s : table * list job) : Prop := forall i j, snd s !! i = Some j ->
  (forall k, holds k (j_stage j) -> fst s k (j_file j) = Some i) /\
  (forall k, j_stage j = SMake k -> fst s k (j_file j) = None) /\
  Forall (eq i) (j_got j) /\
  match j_stage j with SDrop _ o | SPop _ o | SEnd o => o <> OLost | _ => True end.

Lemma holds_upto k s : holds MR s -> holds k s.
Proof. destruct s as [[]|[]|w|[] o|[] o|o]; by destruct k. Qed.

(** A step of a call on a file where no other call is between check and entry. *)
Lemma turn_mine s i j : mine s -> snd s !! i = Some j -> quiet s (Turn i) -> mine (act s (Turn i)).
Proof.
  intros HM Hj HQ. destruct (HQ j Hj) as [HQ1 _]. destruct (HM _ _ Hj) as (Hh & Hm & Hg & Ho).
  rewrite (act_eq _ (Turn i) _ Hj). cbn [fired event_job].
  assert (Hothers : forall i' j', i' <> i -> snd s !! i' = Some j' ->
            (forall k, holds k (j_stage j') -> fst (job_step i (fst s) j) k (j_file j') = Some i') /\
            (forall k, j_stage j' = SMake k -> fst (job_step i (fst s) j) k (j_file j') = None)).
  { intros i' j' Hi Hj'. destruct (HM _ _ Hj') as (Hh' & Hm' & _). destruct (decide (j_file j' = j_file j)) as [Hf|Hf].
    2: { change (job_step i (fst s) j) with (fired (Turn i) (fst s) j). split; intros k Hk; rewrite fired_file by done; auto. }
    assert (Hno : forall k, j_stage j' <> SMake k).
    { intros k Hk. pose proof (HQ1 _ _ Hj' Hf) as Hq. rewrite Hk in Hq. injection Hq as Hq. congruence. }
    split; [|intros k Hk; by destruct (Hno k)]. intros k Hk. pose proof (Hh' k Hk) as He. rewrite Hf in He |- *.
    unfold job_step. destruct (j_stage j) as [k'|k'|[|[] w]|k' o|k' o|o] eqn:Es; try (by repeat case_match).
    - destruct (j_bad j k'); [done|]. cbn [fst]. destruct (decide (k = k')) as [->|Hk']; [|rewrite put_other; [done|by left]].
      specialize (Hm k' eq_refl). congruence.
    - cbn [fst]. destruct (decide (k = k')) as [->|Hk']; [|rewrite put_other; [done|by left]].
      assert (fst s k' (j_file j) = Some i) by (apply Hh; by destruct k'). congruence. }
  intros i' j'. cbn [fst snd]. destruct (decide (i' = i)) as [->|Hi].
  2: { rewrite list_lookup_insert_ne by done. intros Hj'. destruct (Hothers _ _ Hi Hj') as [A B].
       destruct (HM _ _ Hj') as (_ & _ & C & D). done. }
  rewrite list_lookup_insert by (by eapply lookup_lt_Some). intros [= <-].
  destruct (fired_keeps (Turn i) (fst s) j) as (Ef & _). cbn [fired] in Ef. rewrite Ef. clear Ef Hothers HQ HQ1.
  unfold job_step. destruct (j_stage j) as [k'|k'|[|[] w]|k' o|k' o|o] eqn:Es; cbn [fst snd].
  - destruct (fst s k' (j_file j)) eqn:Et; cbn [fst snd to j_stage j_got].
    + split_and!; [|by destruct k'|done|by destruct k']. intros k Hk. apply Hh. by destruct k, k'.
    + split_and!; [|by intros k [= <-]|done|done]. intros k Hk. apply Hh. by destruct k, k'.
  - pose proof (Hm k' eq_refl) as Et. destruct (j_bad j k'); cbn [fst snd to j_stage j_got].
    + split_and!; [|by destruct k'|done|by destruct k']. intros k Hk. apply Hh. by destruct k, k'.
    + split_and!; [|by destruct k'|by destruct k'|by destruct k']. intros k Hk. destruct (decide (k = k')) as [->|Hk']; [by rewrite put_same|].
      rewrite put_other by (by left). apply Hh. by destruct k, k'.
  - cbn [to j_stage j_got]. split_and!; [|done|done|by destruct (j_raises j)]. intros k _. apply Hh. by destruct k.
  - rewrite (Hh MR I). cbn [fst snd got j_stage j_got]. split_and!; [|done|by constructor|done]. intros k _. apply Hh. by destruct k.
  - cbn [to j_stage j_got]. split_and!; [|done|done|done]. intros k _. apply Hh. by destruct k.
  - rewrite (Hh k') by (by destruct k'). cbn [fst snd to j_stage j_got]. split_and!; [|done|done|done]. intros k Hk. apply Hh. by destruct k, k'.
  - cbn [to j_stage j_got]. split_and!; [|by destruct k'|done|by destruct k']. intros k Hk.
    rewrite put_other by (left; by destruct k, k'). apply Hh. by destruct k, k'.
  - rewrite Es. split_and!; [|done|done|done]. intros k Hk. by destruct k.
Qed.
Lemma collect_mine s k i j : mine s -> snd s !! i = Some j -> quiet s (Collect k i) -> mine (act s (Collect k i)).
Proof.
  intros HM Hj HQ. destruct (HQ j Hj) as [_ HQ2]. rewrite (act_eq _ (Collect k i) _ Hj). cbn [fired event_job].
  assert (Hkeep : forall i' j', snd s !! i' = Some j' ->
            (forall k', holds k' (j_stage j') -> fst (fin_step k (fst s) j) k' (j_file j') = Some i') /\
            (forall k', j_stage j' = SMake k' -> fst (fin_step k (fst s) j) k' (j_file j') = None)).
  { intros i' j' Hj'. destruct (HM _ _ Hj') as (Hh' & Hm' & _). destruct (decide (j_file j' = j_file j)) as [Hf|Hf].
    - specialize (HQ2 _ _ Hj' Hf). unfold idle in HQ2. destruct (j_stage j') as [[]|[]|w|[] o|[] o|o]; try done; split; intros []; done.
    - change (fin_step k (fst s) j) with (fired (Collect k i) (fst s) j). split; intros k' Hk'; rewrite fired_file by done; auto. }
  assert (Hgot : j_got (snd (fin_step k (fst s) j)) = j_got j).
  { unfold fin_step. destruct (j_stage j), (j_fin j k), k; try done; by destruct (fst s _ _). }
  intros i' j'. cbn [fst snd]. destruct (decide (i' = i)) as [->|Hi].
  - rewrite list_lookup_insert by (by eapply lookup_lt_Some). intros [= <-]. destruct (fired_keeps (Collect k i) (fst s) j) as (Ef & _).
    cbn [fired] in Ef. rewrite Ef, fin_step_stage, Hgot. destruct (Hkeep _ _ Hj) as [A B]. destruct (HM _ _ Hj) as (_ & _ & C & D). done.
  - rewrite list_lookup_insert_ne by done. intros Hj'. destruct (Hkeep _ _ Hj') as [A B].
    destruct (HM _ _ Hj') as (_ & _ & C & D). done.
Qed.
Lemma act_mine s e : mine s -> quiet s e -> mine (act s e).
Proof.
  intros HM HQ. destruct (snd s !! event_job e) as [j|] eqn:Hj; [|by rewrite act_none].
  destruct e; [by eapply turn_mine|by eapply collect_mine].
Qed.
Lemma run_mine es s : mine s -> calm s es -> mine (run s es).
Proof. revert s. induction es as [|e es IH]; intros s H HC; [done|]. destruct HC as [A B]. cbn. apply IH; [|done]. by apply act_mine. Qed.
Lemma waiting_mine t js : waiting js -> mine (t, js).
Proof. intros H i j Hj. pose proof (Forall_lookup_1 _ _ _ _ H Hj) as ->. cbn. split_and!; try done. by intros []. Qed.

(** ** A call left alone *)
Definition free (t : table) (f : N) : Prop := forall k, t k f = None.
Lemma run_app s a b : run s (a ++ b) = run (run s a) b.
Proof. unfold run. apply foldl_app. Qed.
Fixpoint steps (n : nat) (i : nat) (t : table) (j : job) : table * job :=
  match n with
  | O => (t, j)
  | S n => let r := job_step i t j in steps n i (fst r) (snd r)
  end.
Lemma run_steps n i t js j : js !! i = Some j ->
  run (t, js) (repeat (Turn i) n) = (fst (steps n i t j), <[i := snd (steps n i t j)]> js).
Proof.
  revert t js j. induction n as [|n IH]; intros t js j Hj; [cbn; by rewrite list_insert_id|].
  cbn [repeat run foldl steps]. fold run. change (foldl act ?s ?l) with (run s l). rewrite (act_eq (t, js) (Turn i) j Hj). cbn [fired event_job fst snd].
  rewrite (IH _ _ (snd (job_step i t j))) by (rewrite list_lookup_insert; [done|by eapply lookup_lt_Some]).
  by rewrite list_insert_insert.
Qed.
Lemma steps_add a b i t j : steps (a + b) i t j = steps b i (fst (steps a i t j)) (snd (steps a i t j)).
Proof. revert t j. induction a as [|a IH]; intros t j; [done|]. cbn [Nat.add steps]. apply IH. Qed.

(** How a call ends that nothing interrupts. *)
Definition alone (t : table) (j : job) : outcome :=
  match t ML (j_file j) with
  | Some _ => ORefused
  | None =>
      if j_bad j ML then OFailed
      else match t MR (j_file j) with
           | Some _ => ORefused
           | None => if j_bad j MR || j_raises j then OFailed else ODone
           end
  end.

Lemma steps_work i t f bad w0 r w g a b : t MR f = Some i -> exists g',
  steps (length w) i t (Job f bad w0 r (SWork w) g a b) = (t, Job f bad w0 r (SWork []) g' a b).
Proof.
  intros Ht. revert g. induction w as [|[] w IH]; intros g; [by exists g| |].
  - cbn [length steps]. unfold job_step. cbn [j_stage j_file]. rewrite Ht. apply IH.
  - cbn [length steps]. unfold job_step. cbn [j_stage j_file]. apply IH.
Qed.

Section Alone.
  Context (i : nat) (f : N) (bad : mcls -> bool) (w : list bool) (r : bool).
  Notation J s g a b := (Job f bad w r s g a b).
  Lemma st_check n t k g a b : steps (S n) i t (J (SCheck k) g a b) =
    match t k f with Some _ => steps n i t (J (out_of k ORefused) g a b) | None => steps n i t (J (SMake k) g a b) end.
  Proof. cbn [steps]. unfold job_step. cbn [j_stage j_file]. by destruct (t k f). Qed.
  Lemma st_make_l n t g a b : steps (S n) i t (J (SMake ML) g a b) =
    if bad ML then steps n i t (J (SEnd OFailed) g a b) else steps n i (put t ML f (Some i)) (J (SCheck MR) g FWait b).
  Proof. cbn [steps]. unfold job_step. cbn [j_stage j_file j_bad]. by destruct (bad ML). Qed.
  Lemma st_make_r n t g a b : steps (S n) i t (J (SMake MR) g a b) =
    if bad MR then steps n i t (J (SDrop ML OFailed) g a b) else steps n i (put t MR f (Some i)) (J (SWork w) g a FWait).
  Proof. cbn [steps]. unfold job_step. cbn [j_stage j_file j_bad]. by destruct (bad MR). Qed.
  Lemma st_out n t g a b : steps (S n) i t (J (SWork []) g a b) = steps n i t (J (SDrop MR (if r then OFailed else ODone)) g a b).
  Proof. done. Qed.
  Lemma st_drop n t k o m g a b : t k f = Some m ->
    steps (S (S n)) i t (J (SDrop k o) g a b) = steps n i (put t k f None) (J (out_of k o) g a b).
  Proof.
    intros H. assert (E : job_step i t (J (SDrop k o) g a b) = (t, J (SPop k o) g a b)).
    { unfold job_step. cbn [j_stage j_file]. by rewrite H. }
    cbn [steps]. rewrite E. done.
  Qed.

  Lemma steps_alone t : exists n,
    j_stage (snd (steps n i t (call f bad w r))) = SEnd (alone t (call f bad w r)) /\
    forall k g, fst (steps n i t (call f bad w r)) k g = t k g.
  Proof.
    unfold alone, call. cbn [j_file j_bad j_raises]. destruct (t ML f) as [m|] eqn:E1.
    { exists 1%nat. rewrite st_check, E1. done. }
    destruct (bad ML) eqn:B1.
    { exists 2%nat. rewrite st_check, E1, st_make_l, B1. done. }
    set (t1 := put t ML f (Some i)). assert (P1 : t1 ML f = Some i) by apply put_same.
    assert (P2 : t1 MR f = t MR f) by (apply put_other; by left).
    destruct (t MR f) as [m|] eqn:E2.
    { exists 5%nat. rewrite st_check, E1, st_make_l, B1, st_check. fold t1. rewrite P2. cbn [out_of]. rewrite (st_drop _ _ _ _ _ _ _ _ P1).
      split; [done|]. cbn [steps fst]. intros k g. destruct (put_cases t1 ML f None k g) as [(-> & -> & E)|(Hne & E)]; rewrite E; [done|].
      by apply put_other. }
    destruct (bad MR) eqn:B2.
    { exists 6%nat. rewrite st_check, E1, st_make_l, B1, st_check. fold t1. rewrite P2, st_make_r, B2. rewrite (st_drop _ _ _ _ _ _ _ _ P1).
      split; [done|]. cbn [steps fst]. intros k g. destruct (put_cases t1 ML f None k g) as [(-> & -> & E)|(Hne & E)]; rewrite E; [done|].
      by apply put_other. }
    set (t2 := put t1 MR f (Some i)). assert (P3 : t2 MR f = Some i) by apply put_same.
    destruct (steps_work i t2 f bad w r w [] FWait FWait P3) as [g' Hw].
    exists (4 + (length w + 5))%nat. cbn [Nat.add]. rewrite st_check, E1, st_make_l, B1, st_check. fold t1. rewrite P2, st_make_r, B2. fold t2.
    rewrite steps_add, Hw. cbn [fst snd]. rewrite st_out, (st_drop _ _ _ _ _ _ _ _ P3). cbn [out_of].
    set (t3 := put t2 MR f None). assert (P4 : t3 ML f = Some i).
    { unfold t3, t2. rewrite !put_other by (by left). done. }
    rewrite (st_drop _ _ _ _ _ _ _ _ P4). split; [by destruct r|]. cbn [steps fst]. intros k g.
    destruct (put_cases t3 ML f None k g) as [(-> & -> & E)|(Hne & E)]; rewrite E; [done|]. unfold t3.
    destruct (put_cases t2 MR f None k g) as [(-> & -> & E')|(Hne' & E')]; rewrite E'; [done|].
    unfold t2. rewrite put_other by done. by apply put_other.
  Qed.
End Alone.

(** ** Calls that get their turns end *)
Definition cost (j : job) : nat :=
  match j_stage j with
  | SEnd _ => 0
  | SPop ML _ => 1
  | SDrop ML _ => 2
  | SPop MR _ => 3
  | SDrop MR _ => 4
  | SWork w => 5 + length w
  | SMake MR => 6 + length (j_work j)
  | SCheck MR => 7 + length (j_work j)
  | SMake ML => 8 + length (j_work j)
  | SCheck ML => 9 + length (j_work j)
  end%nat.
Lemma job_step_cost i t j : (cost (snd (job_step i t j)) <= pred (cost j))%nat.
Proof.
  unfold cost at 2. unfold job_step. destruct (j_stage j) as [k|k|[|[] w]|k o|k o|o] eqn:Es.
  - destruct (t k (j_file j)), k; cbn; lia.
  - destruct (j_bad j k), k; cbn; lia.
  - cbn; lia.
  - destruct (t MR (j_file j)); cbn; lia.
  - cbn; lia.
  - destruct (t k (j_file j)), k; cbn; lia.
  - destruct k; cbn; lia.
  - unfold cost. cbn [snd]. rewrite Es. lia.
Qed.
Lemma fin_step_cost k t j : cost (snd (fin_step k t j)) = cost j.
Proof.
  unfold cost. rewrite fin_step_stage. destruct (fired_keeps (Collect k O) t j) as (_ & _ & Hw & _). cbn [fired] in Hw. by rewrite Hw.
Qed.
Definition turns (i : nat) (es : list event) : nat :=
  length (List.filter (fun e => match e with Turn j => Nat.eqb i j | Collect _ _ => false end) es).
Lemma run_ends es s i j : snd s !! i = Some j -> (cost j <= turns i es)%nat ->
  exists j', snd (run s es) !! i = Some j' /\ ended j'.
Proof.
  revert s j. induction es as [|e es IH]; intros s j Hj Hc.
  { exists j. split; [done|]. unfold cost in Hc. unfold ended. cbn in Hc. destruct (j_stage j) as [[]|[]|w|[] o|[] o|o]; (done || lia). }
  cbn [run foldl]. change (foldl act ?s ?l) with (run s l). unfold turns in Hc. cbn [List.filter] in Hc. fold (turns i es) in Hc.
  destruct (snd s !! event_job e) as [j0|] eqn:Hj0.
  2: { rewrite act_none by done. apply (IH _ j); [done|]. destruct e as [i0|k i0]; [|done].
       destruct (Nat.eqb_spec i i0) as [->|Hne]; [|done]. cbn in Hj0. by rewrite Hj in Hj0. }
  rewrite (act_eq _ _ _ Hj0). destruct (decide (event_job e = i)) as [Hi|Hi].
  - rewrite Hi in Hj0. rewrite Hj in Hj0. injection Hj0 as <-.
    apply (IH _ (snd (fired e (fst s) j))); [cbn [snd]; rewrite Hi; by rewrite list_lookup_insert by (by eapply lookup_lt_Some)|].
    destruct e as [i0|k i0]; cbn [event_job fired] in *.
    + subst i0. rewrite Nat.eqb_refl in Hc. cbn [length] in Hc. fold (turns i es) in Hc. pose proof (job_step_cost i (fst s) j). lia.
    + rewrite fin_step_cost. exact Hc.
  - apply (IH _ j); [cbn [snd]; by rewrite list_lookup_insert_ne|]. destruct e as [i0|k i0]; [|exact Hc].
    cbn [event_job] in Hi. destruct (Nat.eqb_spec i i0) as [->|Hne]; [done|exact Hc].
Qed.

(** ** One thread: a call that a loader makes ends before the call that uses the loader goes on *)
Definition working (j : job) : Prop := match j_stage j with SWork _ => True | _ => False end.
(** [st]: the calls under way, the innermost first. *)
Inductive may (st : list nat) (s : table * list job) : event -> list nat -> Prop :=
| May_go i r : st = i :: r -> may st s (Turn i) st
| May_call i j : snd s !! i = Some j -> j_stage j = SCheck ML ->
    match st with [] => True | i0 :: _ => exists j0, snd s !! i0 = Some j0 /\ working j0 end ->
    i ∉ st -> may st s (Turn i) (i :: st)
| May_collect k i : (forall j i' j', snd s !! i = Some j -> snd s !! i' = Some j' -> j_file j' = j_file j -> idle j') ->
    may st s (Collect k i) st.
Definition settle (st : list nat) (s : table * list job) : list nat :=
  match st with
  | i :: r => match snd s !! i with Some j => match j_stage j with SEnd _ => r | _ => st end | None => r end
  | [] => []
  end.
Inductive nested : list nat -> table * list job -> list event -> Prop :=
| Nested_nil st s : nested st s []
| Nested_cons st s e es st' : may st s e st' -> nested (settle st' (act s e)) (act s e) es -> nested st s (e :: es).

Definition stack_ok (st : list nat) (s : table * list job) : Prop :=
  NoDup st /\
  (forall i j, snd s !! i = Some j -> i ∉ st -> idle j) /\
  (forall i0 r i, st = i0 :: r -> i ∈ r -> exists j, snd s !! i = Some j /\ working j).

Lemma act_stage_ne s e i : i <> event_job e -> snd (act s e) !! i = snd s !! i.
Proof.
  intros Hi. destruct (snd s !! event_job e) as [j|] eqn:Hj; [|by rewrite act_none]. rewrite (act_eq _ _ _ Hj). cbn [snd].
  by rewrite list_lookup_insert_ne.
Qed.
Lemma settle_ok i r s : NoDup (i :: r) -> (forall i' j, snd s !! i' = Some j -> i' ∉ i :: r -> idle j) ->
  (forall i', i' ∈ r -> exists j, snd s !! i' = Some j /\ working j) -> stack_ok (settle (i :: r) s) s.
Proof.
  intros Hd Hi Hw. assert (Hr : stack_ok (i :: r) s).
  { split_and!; [done|done|]. intros i0 r0 i' [= <- <-]. apply Hw. }
  assert (Hpop : (forall j, snd s !! i = Some j -> idle j) -> stack_ok r s).
  { intros Hj. split_and!; [by inversion Hd| |].
    - intros i' j Hj' Hn. destruct (decide (i' = i)) as [->|Hne]; [by apply Hj|]. apply (Hi i'); [done|].
      intros [->|H]%elem_of_cons; [done|]. by apply Hn.
    - intros i0 r0 i' -> H. apply Hw. by right. }
  unfold settle. destruct (snd s !! i) as [j|] eqn:E; [|apply Hpop; congruence].
  destruct (j_stage j) eqn:Es; try done. apply Hpop. intros j' [= <-]. unfold idle. by rewrite Es.
Qed.
Lemma may_ok st s e st' : stack_ok st s -> may st s e st' -> quiet s e /\ stack_ok (settle st' (act s e)) (act s e).
Proof.
  intros (Hd & Hi & Hw) Hm. destruct Hm as [i r Hst|i j Hj Hs Htop Hn|k i Hidle].
  - subst st. split.
    + intros j Hj. split; [|done]. intros i' j' Hj' Hf. destruct (j_stage j') eqn:Es; try done.
      destruct (decide (i' = i)) as [->|Hne]; [done|]. destruct (decide (i' ∈ r)) as [Hr|Hr].
      * destruct (Hw i r i' eq_refl Hr) as (j1 & A & B). rewrite Hj' in A. injection A as <-. unfold working in B. by rewrite Es in B.
      * assert (Hx : idle j') by (apply (Hi i'); [done|]; intros [->|H]%elem_of_cons; done). unfold idle in Hx. by rewrite Es in Hx.
    + apply settle_ok; [done| |].
      * intros i' j' Hj' Hn. rewrite act_stage_ne in Hj'; [by apply (Hi i')|]. intros ->. apply Hn. by left.
      * intros i' Hr. destruct (Hw i r i' eq_refl Hr) as (j1 & A & B). exists j1. rewrite act_stage_ne; [done|].
        intros ->. by inversion Hd.
  - split.
    + intros j0 Hj0. split; [|done]. intros i' j' Hj' Hf. destruct (j_stage j') eqn:Es; try done. exfalso.
      destruct (decide (i' ∈ st)) as [Hin|Hin].
      * destruct st as [|i0 r]; [by apply elem_of_nil in Hin|]. apply elem_of_cons in Hin as [->|Hin].
        -- destruct Htop as (j1 & A & B). rewrite Hj' in A. injection A as <-. unfold working in B. by rewrite Es in B.
        -- destruct (Hw i0 r i' eq_refl Hin) as (j1 & A & B). rewrite Hj' in A. injection A as <-. unfold working in B. by rewrite Es in B.
      * assert (Hx : idle j') by (by apply (Hi i')). unfold idle in Hx. by rewrite Es in Hx.
    + apply settle_ok.
      * by constructor.
      * intros i' j' Hj' Hn'. rewrite act_stage_ne in Hj'; [|intros ->; apply Hn'; by left]. apply (Hi i'); [done|].
        intros H. apply Hn'. by right.
      * intros i' Hin. destruct st as [|i0 r]; [by apply elem_of_nil in Hin|].
        assert (Hne : i' <> i) by (intros ->; done).
        rewrite act_stage_ne by done. apply elem_of_cons in Hin as [->|Hin]; [done|]. by apply (Hw i0 r).
  - assert (Hq : quiet s (Collect k i)).
    { intros j Hj. cbn [event_job] in Hj. split; [|intros i' j' Hj' Hf; by apply (Hidle j i')].
      intros i' j' Hj' Hf. specialize (Hidle j i' j' Hj Hj' Hf). unfold idle in Hidle. by destruct (j_stage j'). }
    split; [done|]. assert (Hstage : forall i' j', snd (act s (Collect k i)) !! i' = Some j' ->
       exists j1, snd s !! i' = Some j1 /\ j_stage j' = j_stage j1).
    { intros i' j' H. destruct (decide (i' = i)) as [->|Hne]; [|exists j'; by rewrite act_stage_ne in H].
      destruct (snd s !! i) as [j|] eqn:E; [|by rewrite act_none, E in H]. exists j. split; [done|].
      rewrite (act_eq _ (Collect k i) _ E) in H. cbn [snd event_job] in H. rewrite list_lookup_insert in H by (by eapply lookup_lt_Some).
      injection H as <-. cbn [fired]. apply fin_step_stage. }
    assert (Hback : forall i' j1, snd s !! i' = Some j1 -> exists j', snd (act s (Collect k i)) !! i' = Some j' /\ j_stage j' = j_stage j1).
    { intros i' j1 H. destruct (decide (i' = i)) as [->|Hne]; [|exists j1; by rewrite act_stage_ne].
      rewrite (act_eq _ (Collect k i) _ H). cbn [snd event_job]. rewrite list_lookup_insert by (by eapply lookup_lt_Some).
      eexists. split; [done|]. cbn [fired]. apply fin_step_stage. }
    assert (Hok : stack_ok st (act s (Collect k i))).
    { split_and!; [done| |].
      - intros i' j' Hj' Hn. destruct (Hstage _ _ Hj') as (j1 & A & B). unfold idle. rewrite B. exact (Hi i' j1 A Hn).
      - intros i0 r i' Hst Hin. destruct (Hw i0 r i' Hst Hin) as (j1 & A & B). destruct (Hback _ _ A) as (j' & A' & B').
        exists j'. split; [done|]. unfold working. by rewrite B'. }
    destruct st as [|i0 r]; [done|]. destruct Hok as (X & Y & W). apply settle_ok; [done|done|]. intros i' Hin. by apply (W i0 r).
Qed.
Lemma nested_calm st s es : stack_ok st s -> nested st s es -> calm s es.
Proof.
  intros Hs H. induction H as [st s|st s e es st' Hm Hn IH]; [done|]. destruct (may_ok _ _ _ _ Hs Hm) as [A B]. split; [done|]. by apply IH.
Qed.
Lemma waiting_stack t js : waiting js -> stack_ok [] (t, js).
Proof.
  intros H. split_and!; [constructor| |done]. intros i j Hj _. pose proof (Forall_lookup_1 _ _ _ _ H Hj) as ->. done.
Qed.
