(** * PropsManagers: calls overlapping on open files (C66)

    [run (t, js) es]: the tables of managers and the calls of [dump] and [load] after the
    events [es], from the tables [t] and the calls [js] (Managers.v).  An event is a step of a
    call ([Turn i]) or of the finalizer of a manager of an ended call ([Collect k i]).
    From ManagerProofs.v: [waiting js], none of the calls has begun; [ended j], the call
    returned or raised; [turns i es], how many steps call [i] gets; [on js f e], the event
    is one of a call on file [f]; [alone t j], how a call ends that nothing interrupts;
    [calm], nothing on a file happens between the check for a manager and the making of
    the entry, and no finalizer runs as long as a call on its file is under way. *)
From Verif Require Import Base Managers ManagerProofs.
Local Open Scope list_scope.

(** The call is inside [_dump] or [_load]. *)
Definition at_work (j : job) : Prop := match j_stage j with SWork _ => True | _ => False end.
Definition refused (j : job) : Prop := j_stage j = SEnd ORefused.

(** A call left alone ends as FileIO.v says: refused if the file has a manager of either
    class, otherwise as what it does makes it; the tables are as before. *)
Theorem C66_steps t js i f bad w r : js !! i = Some (call f bad w r) -> exists n t' j',
  run (t, js) (repeat (Turn i) n) = (t', <[i := j']> js) /\
  j_stage j' = SEnd (alone t (call f bad w r)) /\ forall k g, t' k g = t k g.
Proof.
  intros Hi. destruct (steps_alone i f bad w r t) as (n & A & B). exists n, (fst (steps n i t (call f bad w r))), (snd (steps n i t (call f bad w r))).
  split; [|done]. by apply run_steps.
Qed.
Print Assumptions C66_steps.

(** Every call that gets enough turns ends: none waits for another. *)
Theorem C66_finishes s i j : snd s !! i = Some j ->
  exists n, forall es, (n <= turns i es)%nat -> exists j', snd (run s es) !! i = Some j' /\ ended j'.
Proof. intros Hi. exists (cost j). intros es. by apply run_ends. Qed.
Print Assumptions C66_finishes.

(** Every interleaving: once the calls have ended no manager is left, so that no later call
    is refused. *)
Theorem C66_released es js : Forall ended (snd (run (no_managers, js) es)) ->
  forall k f, fst (run (no_managers, js) es) k f = None.
Proof. exact (released es js). Qed.
Print Assumptions C66_released.

(** Every interleaving: what happens on a file is what happens without the calls on other
    files. *)
Theorem C66_other_files t js es f :
  (forall k, fst (run (t, js) es) k f = fst (run (t, js) (List.filter (on js f) es)) k f) /\
  forall i j, j_file j = f -> snd (run (t, js) es) !! i = Some j -> snd (run (t, js) (List.filter (on js f) es)) !! i = Some j.
Proof. destruct (run_alike f js es (t, js) (t, js)) as (A & _ & B); [done|done|]. done. Qed.
Print Assumptions C66_other_files.

(** The property: while one call is at work on a file no other is. *)
Definition one_at_a_time (s : table * list job) : Prop := forall i j i' j',
  snd s !! i = Some j -> snd s !! i' = Some j' -> j_file j = j_file j' -> at_work j -> at_work j' -> i = i'.
(** No call meets the manager of another, or none. *)
Definition own_managers (s : table * list job) : Prop := forall i j,
  snd s !! i = Some j -> Forall (eq i) (j_got j) /\ j_stage j <> SEnd OLost.

(** It holds of calm runs, however the calls overlap otherwise. *)
Theorem C66_exclusive_partial t js es : waiting js -> calm (t, js) es ->
  one_at_a_time (run (t, js) es) /\ own_managers (run (t, js) es).
Proof.
  intros Hw Hc. pose proof (run_mine es _ (waiting_mine t js Hw) Hc) as HM. split.
  - intros i j i' j' Hi Hi' Hf Ha Ha'. unfold at_work in *. destruct (HM _ _ Hi) as (A & _). destruct (HM _ _ Hi') as (B & _).
    specialize (A MR). specialize (B MR). destruct (j_stage j); try done. destruct (j_stage j'); try done.
    specialize (A I). specialize (B I). rewrite Hf in A. congruence.
  - intros i j Hi. destruct (HM _ _ Hi) as (_ & _ & A & B). split; [done|]. intros E. by rewrite E in B.
Qed.
Print Assumptions C66_exclusive_partial.

(** In a calm run a call that begins while another is at work on its file is refused. *)
Theorem C66_refuses_partial t js es i j i' j' : waiting js -> calm (t, js) es ->
  snd (run (t, js) es) !! i = Some j -> at_work j ->
  snd (run (t, js) es) !! i' = Some j' -> j_file j' = j_file j -> j_stage j' = SCheck ML ->
  exists j2, snd (run (t, js) (es ++ [Turn i'])) !! i' = Some j2 /\ refused j2.
Proof.
  intros Hw Hc Hi Ha Hi' Hf Hs. pose proof (run_mine es _ (waiting_mine t js Hw) Hc) as HM. destruct (HM _ _ Hi) as (A & _).
  specialize (A ML). unfold at_work in Ha. destruct (j_stage j); try done. specialize (A I).
  rewrite run_app. cbn [run foldl]. change (foldl act (t, js) es) with (run (t, js) es). rewrite (act_eq _ (Turn i') _ Hi'). cbn [fired event_job snd].
  rewrite list_lookup_insert by (by eapply lookup_lt_Some). eexists. split; [done|].
  unfold job_step, refused. rewrite Hs, Hf, A. done.
Qed.
Print Assumptions C66_refuses_partial.

(** A single thread whose loaders may call hickle again ([nested []]: a call begins when none
    is under way or the innermost one is at work, and ends before that goes on) makes calm
    runs, if managers are collected only when no call on their file is under way: every
    inner call on a file in use is refused. *)
Theorem C66_one_thread_partial t js es : waiting js -> nested [] (t, js) es ->
  one_at_a_time (run (t, js) es) /\ own_managers (run (t, js) es) /\
  forall i j i' j', snd (run (t, js) es) !! i = Some j -> at_work j ->
    snd (run (t, js) es) !! i' = Some j' -> j_file j' = j_file j -> j_stage j' = SCheck ML ->
    exists j2, snd (run (t, js) (es ++ [Turn i'])) !! i' = Some j2 /\ refused j2.
Proof.
  intros Hw Hn. pose proof (nested_calm [] (t, js) es (waiting_stack t js Hw) Hn) as Hc.
  destruct (C66_exclusive_partial t js es Hw Hc) as [A B]. split; [done|]. split; [done|].
  intros i j i' j'. exact (C66_refuses_partial t js es i j i' j' Hw Hc).
Qed.
Print Assumptions C66_one_thread_partial.

(** ** It does not hold of every run *)
Definition good : mcls -> bool := fun _ => false.
Definition T (l : list nat) : list event := Turn <$> l.
Lemma both_work s i i' f : i <> i' ->
  match snd s !! i, snd s !! i' with
  | Some j, Some j' => j_file j = f /\ j_file j' = f /\ at_work j /\ at_work j'
  | _, _ => False
  end -> ~ one_at_a_time s.
Proof.
  intros Hne H HO. destruct (snd s !! i) as [j|] eqn:Hi; [|done]. destruct (snd s !! i') as [j'|] eqn:Hi'; [|done].
  destruct H as (A & B & C & D). apply Hne. apply (HO i j i' j'); congruence.
Qed.

(** Two calls on file 1 and one on file 2; all of them ask for their manager. *)
Definition two : list job := [call 1 good [true] false; call 1 good [true; true] false; call 2 good [true] true].
Lemma two_waiting : waiting two.
Proof. by repeat constructor. Qed.

(** Two threads both find that the file has no manager before either makes one: both dump
    into the file at the same time. *)
Theorem C66_race_refuted : exists js is, waiting js /\ ~ one_at_a_time (run (no_managers, js) (T is)).
Proof.
  exists two, [0; 1; 0; 1; 0; 1; 0; 1]%nat. split; [exact two_waiting|]. apply (both_work _ 0%nat 1%nat 1%N); [done|].
  vm_compute. done.
Qed.
Print Assumptions C66_race_refuted.

(** The first to leave removes the manager of the other, which then fails although nothing is
    wrong with it. *)
Theorem C66_lost_refuted : exists js is i j, waiting js /\ js !! i = Some (call (j_file j) good (j_work j) false) /\
  snd (run (no_managers, js) (T is)) !! i = Some j /\ j_stage j = SEnd OLost.
Proof.
  exists two, ([0; 1; 0; 1; 0; 1; 0; 1] ++ repeat 0 10 ++ repeat 1 10)%nat, 1%nat. eexists.
  split; [exact two_waiting|]. split; [|split; [vm_compute; reflexivity|done]]. done.
Qed.
Print Assumptions C66_lost_refuted.

(** One thread is enough.  Call 0 raises and ends; its managers live on in the traceback.
    Call 1 is at work on the file when they are collected: their finalizers remove the
    entries of call 1.  Call 2, made by a loader that call 1 uses, is accepted, and call 1
    goes on with the manager of call 2. *)
Definition three : list job := [call 1 good [] true; call 1 good [false; true] false; call 1 good [false] false].
Theorem C66_collected_refuted : exists js n1 n2 n3 n4, waiting js /\
  let es := T (repeat 0%nat n1) ++ T (repeat 1%nat n2) ++ [Collect MR 0; Collect MR 0; Collect ML 0; Collect ML 0] ++ T (repeat 2%nat n3) in
  (exists j, snd (run (no_managers, js) (T (repeat 0%nat n1))) !! 0%nat = Some j /\ ended j) /\
  ~ one_at_a_time (run (no_managers, js) es) /\ ~ own_managers (run (no_managers, js) (es ++ T (repeat 1%nat n4))).
Proof.
  exists three, 20%nat, 4%nat, 4%nat, 2%nat. split; [by repeat constructor|]. cbn zeta. split_and!.
  - eexists. split; [vm_compute; reflexivity|done].
  - apply (both_work _ 1%nat 2%nat 1%N); [done|]. vm_compute. done.
  - intros H. destruct (H 1%nat (Job 1 good [false; true] false (SWork []) [2%nat] FWait FWait)) as [A _]; [vm_compute; reflexivity|].
    apply Forall_inv in A. done.
Qed.
Print Assumptions C66_collected_refuted.

(** A calm run in which calls overlap: call 0 is at work when call 1 begins and is refused,
    call 2 works on another file meanwhile and raises, and its managers are collected before
    call 0 ends; at the end all have ended and no manager is left. *)
Definition overlapping : list event :=
  T [0; 0; 0; 2; 2; 0; 2; 2; 0; 1; 2; 2; 2; 2; 2; 2]%nat ++ [Collect MR 2; Collect ML 2] ++ T (repeat 0%nat 8%nat).
Fixpoint calm_b (s : table * list job) (es : list event) : bool :=
  match es with
  | [] => true
  | e :: r =>
      match snd s !! event_job e with
      | None => false
      | Some j =>
          forallb (fun p => negb (bool_decide (j_file (snd p) = j_file j)) ||
            (match j_stage (snd p) with SMake _ => match e with Turn i => Nat.eqb i (fst p) | _ => false end | _ => true end &&
             match e with Turn _ => true | Collect _ _ => match j_stage (snd p) with SCheck ML | SEnd _ => true | _ => false end end))
            (zip (seq 0 (length (snd s))) (snd s))
      end && calm_b (act s e) r
  end.
Lemma calm_b_ok es s : calm_b s es = true -> calm s es.
Proof.
  revert s. induction es as [|e es IH]; intros s H; [done|]. cbn [calm_b] in H. destruct (snd s !! event_job e) as [j0|] eqn:E; [|done].
  apply andb_prop in H as [H1 H2]. split; [|by apply IH]. intros j Hj. rewrite E in Hj. injection Hj as <-.
  rewrite forallb_forall in H1.
  assert (Hat : forall i j', snd s !! i = Some j' -> j_file j' = j_file j0 ->
    match j_stage j' with SMake _ => match e with Turn i0 => Nat.eqb i0 i | _ => false end | _ => true end = true /\
    match e with Turn _ => true | Collect _ _ => match j_stage j' with SCheck ML | SEnd _ => true | _ => false end end = true).
  { intros i j' Hi Hf. specialize (H1 (i, j')). cbn [fst snd] in H1. rewrite bool_decide_true in H1 by done. apply andb_prop, H1.
    apply elem_of_list_In, elem_of_list_lookup. exists i. apply lookup_zip_with_Some. exists i, j'. split_and!; [done| |done].
    apply lookup_seq. split; [done|]. by eapply lookup_lt_Some. }
  split.
  - intros i j' Hi Hf. destruct (Hat i j' Hi Hf) as [A _]. destruct (j_stage j'); try done. destruct e as [i0|]; [|done].
    apply Nat.eqb_eq in A. by subst.
  - destruct e as [i1|k1 i1]; [done|]. intros i j' Hi Hf. destruct (Hat i j' Hi Hf) as [_ A]. unfold idle. by destruct (j_stage j') as [[]| | | | |].
Qed.
Example C66_applies : waiting two /\ calm (no_managers, two) overlapping /\
  (j_stage <$> snd (run (no_managers, two) (take 10 overlapping))) = [SWork []; SEnd ORefused; SWork [true]] /\
  (j_stage <$> snd (run (no_managers, two) overlapping)) = [SEnd ODone; SEnd ORefused; SEnd OFailed] /\
  Forall ended (snd (run (no_managers, two) overlapping)) /\
  List.filter (on two 2) overlapping = T (repeat 2%nat 10%nat) ++ [Collect MR 2; Collect ML 2].
Proof.
  split; [exact two_waiting|]. split; [apply calm_b_ok; vm_compute; reflexivity|].
  split; [vm_compute; reflexivity|]. split; [vm_compute; reflexivity|]. split; [vm_compute; by repeat constructor|]. vm_compute; reflexivity.
Qed.

(** Call 0 makes call 1 on its own file, which is refused, then call 2 on another file, which
    raises; its managers are collected while call 0 is still at work. *)
Definition may_b (st : list nat) (s : table * list job) (e : event) : option (list nat) :=
  match e with
  | Turn i =>
      let inner :=
        match snd s !! i with
        | Some j =>
            if match j_stage j with SCheck ML => true | _ => false end && bool_decide (i ∉ st) &&
               match st with
               | [] => true
               | i0 :: _ => match snd s !! i0 with Some j0 => match j_stage j0 with SWork _ => true | _ => false end | None => false end
               end
            then Some (i :: st) else None
        | None => None
        end in
      match st with
      | i0 :: _ => if Nat.eqb i i0 then Some st else inner
      | [] => inner
      end
  | Collect k i => if calm_b s [Collect k i] then Some st else None
  end.
Fixpoint nested_b (st : list nat) (s : table * list job) (es : list event) : bool :=
  match es with
  | [] => true
  | e :: r => match may_b st s e with Some st' => nested_b (settle st' (act s e)) (act s e) r | None => false end
  end.
Lemma may_b_ok st s e st' : may_b st s e = Some st' -> may st s e st'.
Proof.
  destruct e as [i|k i]; cbn [may_b].
  - assert (Hin : forall j, snd s !! i = Some j ->
      (if match j_stage j with SCheck ML => true | _ => false end && bool_decide (i ∉ st) &&
          match st with
          | [] => true
          | i0 :: _ => match snd s !! i0 with Some j0 => match j_stage j0 with SWork _ => true | _ => false end | None => false end
          end then Some (i :: st) else None) = Some st' -> may st s (Turn i) st').
    { intros j Hj H. destruct (j_stage j) as [[]| | | | |] eqn:Es; try done. cbn [andb] in H.
      destruct (bool_decide (i ∉ st)) eqn:Eb; [|done]. apply bool_decide_eq_true in Eb. cbn [andb] in H.
      assert (Hst : st' = i :: st /\ match st with [] => True | i0 :: _ => exists j0, snd s !! i0 = Some j0 /\ working j0 end).
      { destruct st as [|i0 r]; [by injection H as <-|]. destruct (snd s !! i0) as [j0|]; [|done].
        destruct (j_stage j0) eqn:E0; try done. injection H as <-. split; [done|]. exists j0. split; [done|]. unfold working. by rewrite E0. }
      destruct Hst as [-> Htop]. by eapply May_call. }
    destruct st as [|i0 r]; [destruct (snd s !! i) eqn:E; [by eapply Hin|done]|].
    destruct (Nat.eqb_spec i i0) as [->|Hne]; [intros [= <-]; by eapply May_go|].
    destruct (snd s !! i) eqn:E; [by eapply Hin|done].
  - destruct (calm_b s [Collect k i]) eqn:E; [|done]. intros [= <-]. apply calm_b_ok in E as [Hq _]. apply May_collect.
    intros j i' j' Hj Hj' Hf. destruct (Hq j Hj) as [_ H]. by apply (H i').
Qed.
Lemma nested_b_ok es st s : nested_b st s es = true -> nested st s es.
Proof.
  revert st s. induction es as [|e es IH]; intros st s H; [constructor|]. cbn [nested_b] in H.
  destruct (may_b st s e) as [st'|] eqn:E; [|done]. econstructor; [by apply may_b_ok|by apply IH].
Qed.
Example C66_one_thread_applies : let es := T ([0; 0; 0; 0] ++ [1] ++ repeat 2 10 ++ [0])%nat ++ [Collect MR 2] in
  nested [] (no_managers, two) es /\
  (j_stage <$> snd (run (no_managers, two) es)) = [SWork []; SEnd ORefused; SEnd OFailed].
Proof. cbn zeta. split; [apply nested_b_ok|]; vm_compute; reflexivity. Qed.
