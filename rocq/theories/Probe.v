(** * Probe: how file_opener finds out what a file object can do *)
From Verif Require Import Base Num PyObj H5 Env Create Dump LoadFns LoadModel Registry RegistryStd Api FileIO.
Local Open Scope N_scope.
Local Open Scope list_scope.

(** A method of the object: it is missing, or raises an exception when called with the
    arguments of the tests, or returns. *)
Inductive meth := Missing | Raises | Works.
(** The calls file_opener may make: [f.read(0)], [f.seek(0)], [f.tell()], [f.write(b'')]. *)
Inductive call := CRead | CSeek | CTell | CWrite.

(** What is asked of an object.  [fl_readable] and the like: [None] if the object has no
    such attribute, else what calling it returns (that these calls raise is not modelled).
    [fl_writable] is the method of Python's io classes; file_opener asks for the attribute
    'writeable' ([fl_writeable]), which none of them has. *)
Record flike := Flike {
  fl_closed : bool;
  fl_readable : option bool;
  fl_seekable : option bool;
  fl_writable : option bool;
  fl_writeable : option bool;
  fl_read : meth;
  fl_seek : meth;
  fl_tell : meth;
  fl_write : meth
}.
Definition method (f : flike) (c : call) : meth :=
  match c with CRead => fl_read f | CSeek => fl_seek f | CTell => fl_tell f | CWrite => fl_write f end.

(** fileio.py:62-73, [must_test]: the calls made and the answer. *)
Fixpoint must_test (f : flike) (cs : list call) : list call * bool :=
  match cs with
  | [] => ([], true)
  | c :: r =>
      match method f c with
      | Missing => ([], false)
      | Raises => ([c], false)
      | Works => let '(t, b) := must_test f r in (c :: t, b)
      end
  end.
(** fileio.py:33-74, [not_io_base_like]. *)
Definition not_io_base_like (f : flike) (cs : list call) : list call * bool :=
  match cs with [] => ([], false) | _ => must_test f cs end.
(** [getattr(f,'readable',not_io_base_like(...))()] and the like, fileio.py:191-192, 198. *)
Definition ask (f : flike) (attr : option bool) (cs : list call) : list call * bool :=
  match attr with Some b => ([], b) | None => not_io_base_like f cs end.

(** fileio.py:197: whether the mode is one for writing. *)
Definition for_writing (c : N) (r : pystr) : bool := bool_decide (c ∈ str "xwa") || (bool_decide (43 ∈ r) && (c =? 114)).

(** fileio.py:180-208 and 216-219: the calls made to the object, and the exception if it is
    refused; otherwise it is handed to h5py. *)
Definition check_like (f : flike) (mode : pystr) : list call * res unit :=
  if fl_closed f then ([], Err ClosedFileError)
  else
    let '(t1, reads) := ask f (fl_readable f) [CRead] in
    if negb reads then (t1, Err FileError)
    else
      let '(t2, seeks) := ask f (fl_seekable f) [CSeek; CTell] in
      if negb seeks then (t1 ++ t2, Err FileError)
      else
        match mode with
        | [] => (t1 ++ t2, Err IndexError)
        | c :: r =>
            if for_writing c r then
              let '(t3, writes) := ask f (fl_writeable f) [CWrite] in
              (t1 ++ t2 ++ t3, if writes then Ok tt else Err FileError)
            else if c =? 114 then (t1 ++ t2, Ok tt)
            else (t1 ++ t2, Err ValueError)
        end.
