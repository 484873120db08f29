(** * PropsProbe: which file objects are accepted (C68)

    [flike] describes a Python object given to dump or load as file (Probe.v): which of the
    methods it has and what they do.  [check_like f mode] gives the calls file_opener makes
    to find out what the object can do, and [Ok] if it hands the object to h5py.
    [suitable], [io_like] and what they rest on are in ProbeProofs.v. *)
From Verif Require Import Base Num PyObj H5 Env Create Dump LoadFns LoadModel Registry RegistryStd Api FileIO Probe ProbeProofs.
From Coq Require Import Lia ZifyBool ZifyN.
Local Open Scope N_scope.
Local Open Scope list_scope.

(** Accepted are exactly the open objects that can be read and positioned and, if the mode
    is one for writing, accept bytes; other modes are refused. *)
Theorem C68_accepted_partial f mode : snd (check_like f mode) = Ok tt <-> suitable f mode.
Proof. exact (check_like_spec f mode). Qed.
Print Assumptions C68_accepted_partial.

(** Testing calls nothing but read(0), seek(0), tell() and write(b''), in this order and each
    once at most; write only if the mode is one for writing.  Objects of Python's io classes
    are not even positioned. *)
Theorem C68_calls f mode :
  sublist (fst (check_like f mode)) [CRead; CSeek; CTell; CWrite] /\
  (CWrite ∈ fst (check_like f mode) -> writing_mode mode) /\
  (io_like f -> fst (check_like f mode) = [] \/ fst (check_like f mode) = [CWrite]).
Proof.
  split; [apply check_like_calls|]. split; [|apply check_like_io]. intros H. by destruct (check_like_writes _ _ H).
Qed.
Print Assumptions C68_calls.

(** This is the file_opener of C21-C23, C32, C41, C42 and C63: a refused object ends the call
    with the error and leaves everything as it was, an accepted one is opened. *)
Theorem C68_opener H k f path mode :
  match snd (check_like f mode) with
  | Err e => open_like H (as_fobj k f) path mode = (H, Err e)
  | Ok _ => exists m, open_like H (as_fobj k f) path mode =
              let '(H', i) := h5_open H true k m in (H', res_map (fun i => (i, path, true)) i)
  end.
Proof. exact (check_like_opener H k f path mode). Qed.
Print Assumptions C68_opener.

(** open(name,'rb'), open(name,'r+b'), io.BytesIO, an object with read, seek, tell and write only. *)
Definition reader : flike := Flike false (Some true) (Some true) (Some false) None Works Works Works Raises.
Definition update : flike := Flike false (Some true) (Some true) (Some true) None Works Works Works Works.
Definition duck : flike := Flike false None None None None Works Works Works Works.
(** open(name,'r+'): writing bytes to a text file is an error; a pipe. *)
Definition text : flike := Flike false (Some true) (Some true) (Some true) None Works Works Works Raises.
Definition pipe : flike := Flike false (Some true) (Some false) (Some false) None Works Raises Raises Raises.

Example C68_shows :
  check_like reader (str "r") = ([], Ok tt) /\ check_like reader (str "w") = ([CWrite], Err FileError) /\
  check_like update (str "wb") = ([CWrite], Ok tt) /\ check_like duck (str "r+") = ([CRead; CSeek; CTell; CWrite], Ok tt) /\
  check_like text (str "a") = ([CWrite], Err FileError) /\ check_like pipe (str "r") = ([], Err FileError) /\
  check_like update (str "b") = ([], Err ValueError).
Proof. split_and!; vm_compute; reflexivity. Qed.
Example C68_suitable : suitable update (str "wb") /\ suitable reader (str "rb") /\ ~ suitable reader (str "r+") /\ io_like update.
Proof.
  split; [apply check_like_spec; vm_compute; reflexivity|]. split; [apply check_like_spec; vm_compute; reflexivity|].
  split; [intros H; apply check_like_spec in H; vm_compute in H; done|]. by repeat split; eexists.
Qed.

(** The full claim says that an object that calls itself not writable is refused for writing.
    The question asked is 'writeable', which Python's classes do not know, so their answer is
    never heard: an object whose write takes no bytes without complaint is accepted. *)
Definition tolerant : flike := Flike false (Some true) (Some true) (Some false) None Works Works Works Works.
Theorem C68_not_writable_refuted : exists f mode,
  io_like f /\ fl_writable f = Some false /\ writing_mode mode /\ snd (check_like f mode) = Ok tt.
Proof.
  exists tolerant, (str "w"). split; [by repeat split; eexists|]. split; [done|]. split; [|vm_compute; reflexivity].
  exists 119, []. split; [done|]. left. by left.
Qed.
Print Assumptions C68_not_writable_refuted.

(** And a text file is accepted for reading, though HDF5 needs bytes. *)
Example C68_text_accepted : snd (check_like text (str "r")) = Ok tt.
Proof. vm_compute. reflexivity. Qed.
