(** * Managers: the tables of managers, calls overlapping on one open file

    FileIO.v models a call of [dump] or [load] as one function that finds the tables of
    managers and leaves them as they have to be.  Here such a call is cut into the steps
    between which Python may switch threads, call a loader that calls hickle again, or
    collect garbage.
    Simplifications: what the calls write is left out, only the tables of managers are
    shared; a call on a hickle 4.x file, whose reference manager never leaves the table
    (C23), is not among them; making an entry, removing it and looking it up are steps of
    their own, which is what the interpreter lock gives. *)
From Verif Require Import Base.
Local Open Scope list_scope.

(** The two manager classes, [LoaderManager] and [ReferenceManager]: lookup.py:364, :853.
    Each has a table of its own, lookup.py:248-256. *)
Inductive mcls := ML | MR.
Global Instance mcls_eq : EqDecision mcls.
Proof. solve_decision. Defined.

(** [__managers__] of both classes: the call whose manager is the entry of a file.  A manager
    is named by the call (job) that made it. *)
Definition table := mcls -> N -> option nat.
Definition put (t : table) (k : mcls) (f : N) (v : option nat) : table :=
  fun k' f' => if bool_decide (k' = k /\ f' = f) then v else t k' f'.
Definition no_managers : table := fun _ _ => None.

(** How a call ends: it did what it has to, was refused with [LookupError]
    (lookup.py:320-325), raised something else, or did not find its manager
    ([ReferenceError], lookup.py:346-349). *)
Inductive outcome := ODone | ORefused | OFailed | OLost.

(** Where a call is: hickle.py:226-229 and :382-390. *)
Inductive stage :=
| SCheck (k : mcls)                (** before [__managers__.get], lookup.py:319 *)
| SMake (k : mcls)                 (** before the entry is made, lookup.py:327 *)
| SWork (w : list bool)            (** inside both [with] blocks; the steps left, [true]: one that calls [get_manager] *)
| SDrop (k : mcls) (o : outcome)   (** in [__exit__], before [__managers__.get], lookup.py:284 *)
| SPop (k : mcls) (o : outcome)    (** an entry was found, before [pop], lookup.py:287 *)
| SEnd (o : outcome).

(** The finalizer of a manager, lookup.py:328: not set up, waiting for the manager to be
    collected, between the [get] and the [pop] of [_drop_manager], over. *)
Inductive fin := FNone | FWait | FGot | FOver.

(** A call on the open file [j_file].  [j_bad k]: making the manager of class [k] raises;
    [j_work]: the steps of [_dump] or [_load]; [j_raises]: it ends by raising; [j_got]: the
    managers [get_manager] returned, the last first; [j_fl], [j_fr]: the finalizers of its
    managers. *)
Record job := Job { j_file : N; j_bad : mcls -> bool; j_work : list bool; j_raises : bool;
  j_stage : stage; j_got : list nat; j_fl : fin; j_fr : fin }.
Definition call (f : N) (bad : mcls -> bool) (w : list bool) (raises : bool) : job :=
  Job f bad w raises (SCheck ML) [] FNone FNone.
Definition to (j : job) (s : stage) : job :=
  Job (j_file j) (j_bad j) (j_work j) (j_raises j) s (j_got j) (j_fl j) (j_fr j).
Definition got (j : job) (m : nat) (w : list bool) : job :=
  Job (j_file j) (j_bad j) (j_work j) (j_raises j) (SWork w) (m :: j_got j) (j_fl j) (j_fr j).
Definition j_fin (j : job) (k : mcls) : fin := match k with ML => j_fl j | MR => j_fr j end.
Definition set_fin (j : job) (k : mcls) (x : fin) : job :=
  match k with
  | ML => Job (j_file j) (j_bad j) (j_work j) (j_raises j) (j_stage j) (j_got j) x (j_fr j)
  | MR => Job (j_file j) (j_bad j) (j_work j) (j_raises j) (j_stage j) (j_got j) (j_fl j) x
  end.

(** Leaving the [with] blocks from the inside out; a call whose manager of class [k] could
    not be made leaves only the blocks around it. *)
Definition out_of (k : mcls) (o : outcome) : stage := match k with MR => SDrop ML o | ML => SEnd o end.

(** A step of call [i]. *)
Definition job_step (i : nat) (t : table) (j : job) : table * job :=
  let f := j_file j in
  match j_stage j with
  | SCheck k => match t k f with
                | Some _ => (t, to j (out_of k ORefused))
                | None => (t, to j (SMake k))
                end
  | SMake k => if j_bad j k then (t, to j (out_of k OFailed))
               else (put t k f (Some i),
                     to (set_fin j k FWait) (match k with ML => SCheck MR | MR => SWork (j_work j) end))
  | SWork (true :: w) => match t MR f with
                         | Some m => (t, got j m w)
                         | None => (t, to j (SDrop MR OLost))
                         end
  | SWork (false :: w) => (t, to j (SWork w))
  | SWork [] => (t, to j (SDrop MR (if j_raises j then OFailed else ODone)))
  | SDrop k o => match t k f with
                 | Some _ => (t, to j (SPop k o))
                 | None => (t, to j (out_of k o))
                 end
  | SPop k o => (put t k f None, to j (out_of k o))
  | SEnd _ => (t, j)
  end.

(** A step of the finalizer of the manager of class [k] of call [j].  It can run once the call
    is over: until then the call refers to the manager. *)
Definition fin_step (k : mcls) (t : table) (j : job) : table * job :=
  let f := j_file j in
  match j_stage j, j_fin j k with
  | SEnd _, FWait => match t k f with
                     | Some _ => (t, set_fin j k FGot)
                     | None => (t, set_fin j k FOver)
                     end
  | SEnd _, FGot => (put t k f None, set_fin j k FOver)
  | _, _ => (t, j)
  end.

(** What happens next: a step of a call, or of the finalizer of one of its managers. *)
Inductive event := Turn (i : nat) | Collect (k : mcls) (i : nat).
Definition event_job (e : event) : nat := match e with Turn i | Collect _ i => i end.
Definition act (s : table * list job) (e : event) : table * list job :=
  match snd s !! event_job e with
  | None => s
  | Some j =>
      let r := match e with Turn i => job_step i (fst s) j | Collect k _ => fin_step k (fst s) j end in
      (fst r, <[event_job e := snd r]> (snd s))
  end.
Definition run (s : table * list job) (es : list event) : table * list job := foldl act s es.
