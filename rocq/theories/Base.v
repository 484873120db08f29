(** * Base: strings, bytes, exceptions and small list helpers

    Vocabulary shared by all model files.  Nothing here models hickle itself. *)
From Coq Require Export NArith ZArith String Ascii List Bool.
From stdpp Require Export base list gmap numbers option.
Export ListNotations.
Global Open Scope N_scope.
Global Open Scope list_scope.

(** A Python [str] is a list of code points (0 .. 0x10FFFF), a Python [bytes]
    object a list of numbers below 256.  Both are plain lists of [N]; the
    well-formedness predicates are [wf_str] (Utf8.v) and [wf_bytes]. *)
Notation pystr := (list N) (only parsing).
Notation bytes := (list N) (only parsing).

Definition wf_bytes (b : bytes) : Prop := Forall (fun c => c < 256) b.
Definition wf_bytesb (b : bytes) : bool := forallb (fun c => c <? 256) b.

(** ASCII literals. *)
Definition str (s : string) : pystr := map N_of_ascii (list_ascii_of_string s).

(** Inverse of [str] used where the model keeps names as Coq strings. *)
Definition to_string (s : pystr) : string := string_of_list_ascii (map ascii_of_N s).

Definition pystr_eqb (a b : pystr) : bool := bool_decide (a = b).

(** Python exceptions as values.  [Unmodelled] marks behaviour of an external
    library the model deliberately says nothing about, [OutOfFuel] is the
    exhausted recursion budget of the model (Python: RecursionError when no
    budget suffices). *)
Inductive exn :=
| TypeError | ValueError | KeyError | IndexError | AttributeError
| OverflowError | UnicodeError | RuntimeError | AssertionError
| NotImplementedError | OSError | ImportError | PicklingError
| NotHicklable | LookupErr | ReferenceErr | FileError | ClosedFileError
| NameExists     (** h5py: "name already exists" *)
| Unmodelled
| OutOfFuel.

Inductive res (A : Type) := Ok (a : A) | Err (e : exn).
Arguments Ok {A} a.
Arguments Err {A} e.

Definition res_bind {A B} (m : res A) (f : A -> res B) : res B :=
  match m with Ok a => f a | Err e => Err e end.
Definition res_map {A B} (f : A -> B) (m : res A) : res B :=
  match m with Ok a => Ok (f a) | Err e => Err e end.

(** [[f x | x in l]] stopping at the first error. *)
Fixpoint res_mapM {A B} (f : A -> res B) (l : list A) : res (list B) :=
  match l with
  | [] => Ok []
  | x :: r => res_bind (f x) (fun y => res_bind (res_mapM f r) (fun ys => Ok (y :: ys)))
  end.

(** Association lists read as Python dicts: the first entry wins, [alist_set]
    keeps the position of an existing key (insertion order semantics). *)
Section AList.
  Context {K V : Type} `{EqDecision K}.
  Fixpoint alist_get (k : K) (l : list (K * V)) : option V :=
    match l with
    | [] => None
    | (k', v) :: r => if decide (k = k') then Some v else alist_get k r
    end.
  Fixpoint alist_set (k : K) (v : V) (l : list (K * V)) : list (K * V) :=
    match l with
    | [] => [(k, v)]
    | (k', v') :: r => if decide (k = k') then (k', v) :: r else (k', v') :: alist_set k v r
    end.
  Definition alist_del (k : K) (l : list (K * V)) : list (K * V) :=
    List.filter (fun p => negb (bool_decide (fst p = k))) l.
End AList.

(** [is_prefix p s], [str.startswith]. *)
Fixpoint is_prefix (p s : pystr) : bool :=
  match p, s with
  | [], _ => true
  | _, [] => false
  | a :: p', b :: s' => (a =? b) && is_prefix p' s'
  end.

(** [x in s] for a single character. *)
Definition has_char (c : N) (s : pystr) : bool := existsb (N.eqb c) s.

(** [s.split(sep)] for a one character separator. *)
Fixpoint split_char (c : N) (s : pystr) : list pystr :=
  match s with
  | [] => [[]]
  | a :: r =>
      if a =? c then [] :: split_char c r
      else match split_char c r with
           | [] => [[a]]        (* unreachable: split never returns [] *)
           | w :: ws => (a :: w) :: ws
           end
  end.

Definition enumerate {A} (l : list A) : list (N * A) :=
  (fix go i l := match l with [] => [] | x :: r => (i, x) :: go (i + 1) r end) 0 l.
