(** * MemoAlloc: the memo of a dump is keyed by memory addresses

    hickle/hickle.py:106-107 and :132-138.  Dump.v takes [id(py_obj)] for the identity of
    the object.  In CPython it is its address, and the address of an object that has gone
    can be given to another one while the dump goes on: create functions make
    temporary objects all the time.  Here objects and addresses are kept apart, and an
    adversary decides when which object is made, at which free address, and when
    an object that nobody holds any more goes. *)
From Verif Require Import Base.

Notation ident := N (only parsing).        (** an object: numbered at birth *)
Notation place := N (only parsing).        (** a memory address *)
Notation hnode := N (only parsing).        (** a node of the file *)

Record astate := AState {
  a_live : gmap ident place;               (** living objects and where they are *)
  a_born : ident;                          (** number of the next object *)
  a_memo : gmap place (hnode * ident);     (** memo[py_obj_id] = (h_node, py_obj) *)
  a_frames : list ident;                   (** py_obj of the calls of _dump under way *)
  a_pending : option (ident * place)       (** between memo.get and memo[...] = ...: py_obj
                                               and py_obj_id of the innermost call *)
}.

Inductive aevent :=
| EAlloc (p : place)                       (** an object is made at [p] *)
| EFree (o : ident)                        (** an object is released *)
| EEnter (o : ident)                       (** _dump(o) is called, :106-107 *)
| ERecord (n : hnode) (memoise : bool)     (** the node is made, :137-138 *)
| ELeave.                                  (** _dump returns *)

(** What is written to the file: a reference to node [n] in place of [o], or [o] itself
    as node [n], which is entered in the memo or not. *)
Inductive aout := ORef (o : ident) (n : hnode) | ONew (o : ident) (n : hnode) (memoised : bool).

Definition frames (s : astate) : list ident :=
  match a_pending s with Some (o, _) => o :: a_frames s | None => a_frames s end.

(** [keep]: the memo keeps the object, as :138 does.  Objects in the local variable py_obj
    of a call live as well.  [None]: the event is impossible in this state. *)
Definition held (keep : bool) (s : astate) (o : ident) : bool :=
  bool_decide (o ∈ frames s) || (keep && bool_decide (map_Exists (fun _ e => snd e = o) (a_memo s))).

Definition astep (keep : bool) (s : astate) (e : aevent) : option (astate * list aout) :=
  match e with
  | EAlloc p =>
      if bool_decide (map_Exists (fun _ q => q = p) (a_live s)) then None
      else Some (AState (<[a_born s := p]> (a_live s)) (a_born s + 1) (a_memo s) (a_frames s) (a_pending s), [])
  | EFree o =>
      if held keep s o || bool_decide (a_live s !! o = None) then None
      else Some (AState (delete o (a_live s)) (a_born s) (a_memo s) (a_frames s) (a_pending s), [])
  | EEnter o =>
      match a_pending s, a_live s !! o with
      | None, Some p =>
          match a_memo s !! p with
          | Some (n, _) => Some (s, [ORef o n])
          | None => Some (AState (a_live s) (a_born s) (a_memo s) (a_frames s) (Some (o, p)), [])
          end
      | _, _ => None
      end
  | ERecord n m =>
      match a_pending s with
      | Some (o, p) =>
          Some (AState (a_live s) (a_born s) (if m then <[p := (n, o)]> (a_memo s) else a_memo s)
                       (o :: a_frames s) None, [ONew o n m])
      | None => None
      end
  | ELeave =>
      match a_pending s, a_frames s with
      | None, _ :: r => Some (AState (a_live s) (a_born s) (a_memo s) r None, [])
      | _, _ => None
      end
  end.

Fixpoint arun (keep : bool) (s : astate) (es : list aevent) : option (astate * list aout) :=
  match es with
  | [] => Some (s, [])
  | e :: r =>
      match astep keep s e with
      | None => None
      | Some (s1, o1) =>
          match arun keep s1 r with
          | None => None
          | Some (s2, o2) => Some (s2, o1 ++ o2)
          end
      end
  end.

(** A dump starts with an empty memo; any objects may exist. *)
Definition afresh (live : gmap ident place) (born : ident) : astate := AState live born ∅ [] None.
