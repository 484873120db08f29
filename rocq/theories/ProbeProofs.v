(** * ProbeProofs: what the tests of file_opener settle *)
From Verif Require Import Base Num PyObj H5 Env Create Dump LoadFns LoadModel Registry RegistryStd Api FileIO Probe.
From Coq Require Import Lia ZifyBool ZifyN.
Local Open Scope N_scope.
Local Open Scope list_scope.

(** ** Specification *)

(** The object can be read and positioned: it says so, or if it is silent, the methods work. *)
Definition can_read (f : flike) : Prop :=
  match fl_readable f with Some b => b = true | None => fl_read f = Works end.
Definition can_seek (f : flike) : Prop :=
  match fl_seekable f with Some b => b = true | None => fl_seek f = Works /\ fl_tell f = Works end.
(** Writing no bytes works. *)
Definition can_write (f : flike) : Prop :=
  match fl_writeable f with Some b => b = true | None => fl_write f = Works end.
(** Modes: w, x and a with anything after, r with a plus; only reading: r without a plus. *)
Definition writing_mode (m : pystr) : Prop :=
  exists c r, m = c :: r /\ ((c = 119 \/ c = 120 \/ c = 97) \/ (c = 114 /\ 43 ∈ r)).
Definition reading_mode (m : pystr) : Prop := exists r, m = 114 :: r /\ 43 ∉ r.
Definition suitable (f : flike) (m : pystr) : Prop :=
  fl_closed f = false /\ can_read f /\ can_seek f /\ (reading_mode m \/ (writing_mode m /\ can_write f)).
(** An object of Python's io classes. *)
Definition io_like (f : flike) : Prop :=
  is_Some (fl_readable f) /\ is_Some (fl_seekable f) /\ is_Some (fl_writable f) /\ fl_writeable f = None.

(** ** Proofs *)
Lemma ask_read f : snd (ask f (fl_readable f) [CRead]) = true <-> can_read f.
Proof. unfold can_read, ask. destruct (fl_readable f); [done|]. simpl. by destruct (fl_read f). Qed.
Lemma ask_seek f : snd (ask f (fl_seekable f) [CSeek; CTell]) = true <-> can_seek f.
Proof. unfold can_seek, ask. destruct (fl_seekable f); [done|]. simpl. destruct (fl_seek f), (fl_tell f); simpl; naive_solver. Qed.
Lemma ask_write f : snd (ask f (fl_writeable f) [CWrite]) = true <-> can_write f.
Proof. unfold can_write, ask. destruct (fl_writeable f); [done|]. simpl. by destruct (fl_write f). Qed.
Lemma for_writing_spec c r : for_writing c r = true <-> writing_mode (c :: r).
Proof.
  unfold for_writing, writing_mode. rewrite orb_true_iff, andb_true_iff, !bool_decide_eq_true, N.eqb_eq.
  change (str "xwa") with [120; 119; 97]. rewrite !elem_of_cons, elem_of_nil. split.
  - intros H. exists c, r. split; [done|]. naive_solver.
  - intros (c' & r' & [= <- <-] & H). naive_solver.
Qed.
Lemma ask_calls f attr cs : sublist (fst (ask f attr cs)) cs.
Proof.
  unfold ask. destruct attr; [apply sublist_nil_l|]. unfold not_io_base_like. destruct cs as [|c0 cs0]; [apply sublist_nil_l|].
  generalize (c0 :: cs0). clear. intros cs. induction cs as [|c cs IH]; simpl; [constructor|].
  destruct (method f c); simpl; [apply sublist_nil_l|apply sublist_skip, sublist_nil_l|].
  destruct (must_test f cs). simpl in *. by constructor.
Qed.

Lemma check_like_spec f mode : snd (check_like f mode) = Ok tt <-> suitable f mode.
Proof.
  unfold check_like, suitable. destruct (fl_closed f); [naive_solver|].
  pose proof (ask_read f) as HR. destruct (ask f (fl_readable f) [CRead]) as [t1 reads]. simpl in HR.
  pose proof (ask_seek f) as HS. destruct (ask f (fl_seekable f) [CSeek; CTell]) as [t2 seeks]. simpl in HS.
  pose proof (ask_write f) as HW. destruct (ask f (fl_writeable f) [CWrite]) as [t3 writes]. simpl in HW.
  destruct reads; simpl; [|split; [done|]; intros (_ & H & _); by apply HR in H].
  destruct seeks; simpl; [|split; [done|]; intros (_ & _ & H & _); by apply HS in H].
  destruct mode as [|c r]; simpl.
  { split; [done|]. intros (_ & _ & _ & [(r & H & _)|[(c & r & H & _) _]]); done. }
  destruct (for_writing c r) eqn:Ef; simpl.
  - apply for_writing_spec in Ef as Hw. split.
    + destruct writes; [|done]. intros _. split; [done|]. split; [by apply HR|]. split; [by apply HS|]. right. split; [done|]. by apply HW.
    + intros (_ & _ & _ & [(r' & [= -> <-] & Hp)|[_ H]]); [|apply HW in H; by rewrite H].
      destruct Hw as (c' & r' & [= <- <-] & [H|[_ H]]); [lia|done].
  - destruct (N.eqb_spec c 114) as [-> |Hne]; simpl.
    + split; [|done]. intros _. split; [done|]. split; [by apply HR|]. split; [by apply HS|]. left. exists r. split; [done|].
      intros Hp. assert (for_writing 114 r = true) as Hx; [|congruence]. apply for_writing_spec. exists 114, r. split; [done|]. by right.
    + split; [done|]. intros (_ & _ & _ & [(r' & [= -> <-] & Hp)|[H _]]); [done|]. apply for_writing_spec in H. congruence.
Qed.

(** The calls made. *)
Lemma check_like_calls f mode : sublist (fst (check_like f mode)) [CRead; CSeek; CTell; CWrite].
Proof.
  unfold check_like. destruct (fl_closed f); [apply sublist_nil_l|].
  pose proof (ask_calls f (fl_readable f) [CRead]) as HR. destruct (ask f (fl_readable f) [CRead]) as [t1 reads]. simpl in HR.
  pose proof (ask_calls f (fl_seekable f) [CSeek; CTell]) as HS. destruct (ask f (fl_seekable f) [CSeek; CTell]) as [t2 seeks]. simpl in HS.
  pose proof (ask_calls f (fl_writeable f) [CWrite]) as HW. destruct (ask f (fl_writeable f) [CWrite]) as [t3 writes]. simpl in HW.
  pose proof (sublist_app _ _ _ _ HS HW) as H23. pose proof (sublist_app _ _ _ _ HR H23) as H123. simpl in H123.
  pose proof (sublist_app _ _ _ _ HR (sublist_inserts_r [CWrite] _ _ HS)) as H12. simpl in H12.
  pose proof (sublist_inserts_r [CSeek; CTell; CWrite] _ _ HR) as H1. simpl in H1.
  destruct (negb reads); [done|]. destruct (negb seeks); [done|]. destruct mode as [|c r]; [done|].
  destruct (for_writing c r); [done|]. by destruct (c =? 114).
Qed.
Lemma check_like_writes f mode : CWrite ∈ fst (check_like f mode) -> writing_mode mode /\ fl_writeable f = None.
Proof.
  unfold check_like. destruct (fl_closed f); [intros H; by apply elem_of_nil in H|].
  pose proof (ask_calls f (fl_readable f) [CRead]) as HR. destruct (ask f (fl_readable f) [CRead]) as [t1 reads]. simpl in HR.
  pose proof (ask_calls f (fl_seekable f) [CSeek; CTell]) as HS. destruct (ask f (fl_seekable f) [CSeek; CTell]) as [t2 seeks]. simpl in HS.
  assert (CWrite ∉ t1) as H1. { intros H. apply sublist_submseteq in HR. pose proof (elem_of_submseteq _ _ _ H HR) as Hx. rewrite elem_of_list_singleton in Hx. done. }
  assert (CWrite ∉ t2) as H2. { intros H. apply sublist_submseteq in HS. pose proof (elem_of_submseteq _ _ _ H HS) as Hx. rewrite !elem_of_cons, elem_of_nil in Hx. naive_solver. }
  destruct (negb reads); [done|]. destruct (negb seeks); simpl; [rewrite elem_of_app; naive_solver|].
  destruct mode as [|c r]; simpl; [rewrite elem_of_app; naive_solver|].
  destruct (for_writing c r) eqn:Ef; [|destruct (c =? 114); simpl; rewrite elem_of_app; naive_solver].
  apply for_writing_spec in Ef. destruct (fl_writeable f) as [b|]; simpl.
  - rewrite app_nil_r, elem_of_app. naive_solver.
  - naive_solver.
Qed.
Lemma check_like_io f mode : io_like f -> fst (check_like f mode) = [] \/ fst (check_like f mode) = [CWrite].
Proof.
  intros ([b1 H1] & [b2 H2] & _ & H3). unfold check_like. rewrite H1, H2, H3. destruct (fl_closed f); [by left|]. simpl.
  destruct b1; simpl; [|by left]. destruct b2; simpl; [|by left]. destruct mode as [|c r]; [by left|].
  destruct (for_writing c r); [|destruct (c =? 114); by left]. destruct (fl_write f); simpl; [by left|by right|by right].
Qed.

(** FileIO.v takes the answers for given. *)
Definition as_fobj (k : key) (f : flike) : fobj :=
  FLike k (fl_closed f) (snd (ask f (fl_readable f) [CRead])) (snd (ask f (fl_seekable f) [CSeek; CTell]))
        (snd (ask f (fl_writeable f) [CWrite])).
Lemma check_like_opener H k f path mode :
  match snd (check_like f mode) with
  | Err e => open_like H (as_fobj k f) path mode = (H, Err e)
  | Ok _ => exists m, open_like H (as_fobj k f) path mode =
              let '(H', i) := h5_open H true k m in (H', res_map (fun i => (i, path, true)) i)
  end.
Proof.
  unfold check_like, as_fobj, open_like. destruct (fl_closed f); [done|].
  destruct (ask f (fl_readable f) [CRead]) as [t1 []]; simpl; [|done].
  destruct (ask f (fl_seekable f) [CSeek; CTell]) as [t2 []]; simpl; [|done].
  destruct mode as [|c r]; simpl; [done|]. fold (for_writing c r).
  destruct (for_writing c r) eqn:Ef; simpl.
  - destruct (ask f (fl_writeable f) [CWrite]) as [t3 []]; simpl; [|done]. by eexists.
  - destruct (c =? 114); simpl; [by eexists|done].
Qed.
