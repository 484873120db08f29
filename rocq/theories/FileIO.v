(** * FileIO: opening files, [dump] and [load] as called by the user

    hickle/fileio.py, hickle/hickle.py:205-247 and :310-398, lookup.py:238-362, :453-481,
    :822-843, :1317-1365. *)
From Verif Require Import Base Utf8 Dec Num PyObj H5 Env Create Dump LoadFns LoadModel Registry Api.

(** ** The process and its surroundings

    A file is found by its name, a file-like object by its identity; both are keys here.
    Simplification: different names denote different files. *)
Notation key := (list N) (only parsing).
(** Identifies an open h5py.File: [file.id].
    Simplification: HDF5 numbers the files it opens; no number is used twice. *)
Notation fid := N (only parsing).

Record handle := Handle { hd_key : key; hd_write : bool (** [file.mode == 'r+'] *) }.

(** [h_disk]: content of existing files, [None]: not an HDF5 file.  [h_lmgr], [h_rmgr]:
    keys of [LoaderManager.__managers__] and [ReferenceManager.__managers__].  [h_gc]: the
    garbage collector is enabled.
    Simplification: what is written is in the file at once, so that flush does nothing;
    operations of the operating system do not fail otherwise than stated. *)
Record host := Host {
  h_disk : gmap key (option file);
  h_open : gmap fid handle;
  h_next : fid;
  h_lmgr : gset fid;
  h_rmgr : gset fid;
  h_gc : bool;
  h_mem : mem
}.
Definition set_disk (H : host) (k : key) (f : file) : host :=
  Host (<[k := Some f]> (h_disk H)) (h_open H) (h_next H) (h_lmgr H) (h_rmgr H) (h_gc H) (h_mem H).
Definition new_file : file := File {[ root_addr := Node (str "/") ∅ (BGroup []) ]} 1.

(** [h5py.File(name, mode)] and [h5py.File(fileobj, mode, driver='fileobj')].
    Simplification: opening a file that is open already, and creating an HDF5 file in a
    file-like object that has content, are not modelled. *)
Definition is_open (H : host) (k : key) : bool :=
  bool_decide (map_Exists (fun _ h => hd_key h = k) (h_open H)).
Definition open_handle (H : host) (k : key) (w : bool) : host * res fid :=
  (Host (h_disk H) (<[h_next H := Handle k w]> (h_open H)) (h_next H + 1) (h_lmgr H) (h_rmgr H) (h_gc H) (h_mem H),
   Ok (h_next H)).
Definition create_file (H : host) (k : key) : host * res fid := open_handle (set_disk H k new_file) k true.
Definition h5_open (H : host) (like : bool) (k : key) (mode : pystr) : host * res fid :=
  if is_open H k then (H, Err Unmodelled)
  else if bool_decide (mode = str "r") then
    match h_disk H !! k with Some (Some _) => open_handle H k false | _ => (H, Err OSError) end
  else if bool_decide (mode = str "r+") then
    match h_disk H !! k with Some (Some _) => open_handle H k true | _ => (H, Err OSError) end
  else if bool_decide (mode = str "w") then create_file H k
  else if bool_decide (mode = str "w-") || bool_decide (mode = str "x") then
    match h_disk H !! k with
    | None => create_file H k
    | Some _ => (H, Err (if like then Unmodelled else OSError))
    end
  else if bool_decide (mode = str "a") then
    match h_disk H !! k with
    | None => create_file H k
    | Some (Some _) => open_handle H k true
    | Some None => (H, Err (if like then Unmodelled else OSError))
    end
  else (H, Err ValueError).
Definition close_file (H : host) (i : fid) : host :=
  Host (h_disk H) (delete i (h_open H)) (h_next H) (h_lmgr H) (h_rmgr H) (h_gc H) (h_mem H).

(** ** The file argument *)

(** [filename]: None, a str or bytes, anything else. *)
Inductive fname := NameNone | NameText | NameBad.
(** [FGroup i base]: an h5py.File ([base] is "/") or h5py.Group.  [FLike]: an object with
    the methods a file has; whether it is closed, and whether the tests for reading,
    seeking and writing (fileio.py:33-74, :188, :189, :195) are positive.  IOBase has no
    method [writeable], so that writing is always tested by [f.write(b'')].
    [FPair]: tuple or list with at least two items.  [FDict]: items 'file' and 'name'. *)
Inductive fobj :=
| FPath (k : key)
| FGroup (i : fid) (base : pystr)
| FLike (k : key) (closed reads seeks writes : bool)
| FPair (f : fobj) (second : pystr)
| FDict (f : option fobj) (name : option pystr)
| FOther.

Definition slash : N := 47.
(** [path.rstrip('/')] *)
Fixpoint rstrip_slash (p : pystr) : pystr :=
  match p with
  | [] => []
  | c :: r => match rstrip_slash r with
              | [] => if c =? slash then [] else [c]
              | r' => c :: r'
              end
  end.
Definition with_slash (p : pystr) : pystr := if is_prefix [slash] p then p else slash :: p.

(** fileio.py:180-219 once the file object is known. *)
Definition open_like (H : host) (f : fobj) (path mode : pystr) : host * res (fid * pystr * bool) :=
  match f with
  | FLike k closed reads seeks writes =>
      if closed then (H, Err ClosedFileError)
      else if reads && seeks then
        match mode with
        | [] => (H, Err IndexError)
        | c :: r =>
            let writing := bool_decide (c ∈ str "xwa") || (bool_decide (43 ∈ r) && (c =? 114)) in
            if writing && negb writes then (H, Err FileError)
            else if negb writing && negb (c =? 114) then (H, Err ValueError)
            else
              let '(H', i) := h5_open H true k (if c =? 114 then List.filter (fun c => negb (c =? 98)) mode else [c]) in
              (H', res_map (fun i => (i, path, true)) i)
        end
      else (H, Err FileError)
  | _ => (H, Err FileError)
  end.

(** fileio.py:76-219, file_opener. *)
Definition file_opener (H : host) (f : fobj) (path mode : pystr) (filename : fname)
  : host * res (fid * pystr * bool) :=
  let path := with_slash path in
  match f with
  | FPath k =>
      let '(H', i) := h5_open H false k (List.filter (fun c => negb (c =? 98)) mode) in
      (H', res_map (fun i => (i, path, true)) i)
  | FGroup i base =>
      match h_open H !! i with
      | None => (H, Err ClosedFileError)
      | Some h =>
          if hd_write h then (H, Ok (i, base ++ rstrip_slash path, false))
          else
            match mode with
            | [] => (H, Err IndexError)
            | c :: r =>
                if negb (c =? 114) || bool_decide (43 ∈ r) then (H, Err FileError)
                else (H, Ok (i, base ++ rstrip_slash path, false))
            end
      end
  | _ =>
      match filename with
      | NameText => open_like H f path mode
      | NameBad => (H, Err ValueError)
      | NameNone =>
          match f with
          | FPair g _ => open_like H g path mode
          | FDict g n =>
              match g, n with
              | Some g, Some _ => open_like H g path mode
              | _, _ => (H, Err KeyError)
              end
          | _ => open_like H f path mode
          end
      end
  end.

(** ** Managers: lookup.py:296-329 (create_manager), :352-362 (__exit__)

    [create_manager] refuses a file that has a manager; the entry is made once the manager
    has been constructed. *)
Definition enter (t : gset fid) (i : fid) : gset fid := {[i]} ∪ t.
Definition leave (t : gset fid) (i : fid) : gset fid := t ∖ {[i]}.

(** What a call leaves in the tables of managers, along with the file. *)
Record tables := Tables { t_lmgr : gset fid; t_rmgr : gset fid }.

(** hickle.py:211-231, the body of [dump], for a file opened for writing.  The type table
    is in the file itself, so both managers remove their own entry on exit. *)
Definition dump_body (C : config) (kw : kwargs) (opts : list (pystr * bool)) (x : loc) (p : pystr)
    (i : fid) (t : tables) (m : mem) (f : file) : file * mem * res unit * tables :=
  match root_for_dump f p with
  | (f1, Err e) => (f1, m, Err e, t)
  | (f1, Ok root) =>
      let f2 := stamp C f1 root in
      if bool_decide (i ∈ t_lmgr t) then (f2, m, Err LookupErr, t)
      else
        match with_options f2 root opts with
        | (f3, Err e) => (f3, m, Err e, t)
        | (f3, Ok chain) =>
            let l := enter (t_lmgr t) i in
            if bool_decide (i ∈ t_rmgr t) then (f3, m, Err LookupErr, Tables (leave l i) (t_rmgr t))
            else
              let '(f4, m', r) := dump_into C kw chain x root m f3 in
              (f4, m', r, Tables (leave l i) (leave (enter (t_rmgr t) i) i))
        end
  end.
(** The same if the file is open for reading only: nothing can be written.  A missing
    group cannot be created, the attributes of an empty one not set. *)
Definition dump_body_ro (f : file) (p : pystr) : res unit :=
  match get_path f p with
  | None => Err ValueError
  | Some a =>
      match get_node f a with
      | None => Err Unmodelled
      | Some n => match nd_body n with
                  | BData _ => Err AttributeError
                  | BGroup [] => Err OSError
                  | BGroup _ => Err ValueError
                  end
      end
  end.

Definition content_of (H : host) (i : fid) : option (handle * file) :=
  match h_open H !! i with
  | Some h => match h_disk H !! hd_key h with Some (Some f) => Some (h, f) | _ => None end
  | None => None
  end.

(** The finally clauses of dump and load: hickle.py:232-243, :393-398. *)
Definition finish (H : host) (i : fid) (close : bool) : host :=
  let H1 := if close then close_file H i else H in
  Host (h_disk H1) (h_open H1) (h_next H1) (h_lmgr H1) (h_rmgr H1) true (h_mem H1).

(** hickle.py:148-247, dump. *)
Definition dump (C : config) (H : host) (x : loc) (f : fobj) (mode path : pystr) (filename : fname)
    (opts : list (pystr * bool)) (kw : kwargs) : host * res unit :=
  match file_opener H f path mode filename with
  | (H1, Err e) => (H1, Err e)
  | (H1, Ok (i, p, close)) =>
      match content_of H1 i with
      | None => (finish H1 i close, Err Unmodelled)
      | Some (h, g) =>
          if hd_write h then
            let '(g', m', r, t) := dump_body C kw opts x p i (Tables (h_lmgr H1) (h_rmgr H1)) (h_mem H1) g in
            (finish (Host (<[hd_key h := Some g']> (h_disk H1)) (h_open H1) (h_next H1) (t_lmgr t) (t_rmgr t) (h_gc H1) m') i close, r)
          else (finish H1 i close, dump_body_ro g p)
      end
  end.

(** hickle.py:368-391, both managers around [_load].  [ov]: the id of the overlay file, if
    one is made: [ReferenceManager.__exit__] removes the entry of the file the table
    is in (lookup.py:835), which then is not the entry it has made. *)
Definition load_body (C : config) (w : bool) (i ov : fid) (t : tables) (f : file) (root : addr) (legacy : bool) (m : mem)
  : file * res (mem * loc) * tables :=
  if bool_decide (i ∈ t_lmgr t) then (f, Err LookupErr, t)
  else
    match options_of f root legacy with
    | Err e => (f, Err e, t)
    | Ok chain =>
        let l := enter (t_lmgr t) i in
        if bool_decide (i ∈ t_rmgr t) then (f, Err LookupErr, Tables (leave l i) (t_rmgr t))
        else
          match load_table f root w with
          | (f', Err e) => (f', Err e, Tables (leave l i) (t_rmgr t))
          | (f', Ok overlay) =>
              (f', load_data C chain legacy f' root m,
               Tables (leave l i) (leave (enter (t_rmgr t) i) (if overlay : bool then ov else i)))
          end
    end.
(** hickle.py:312-391, the body of [load]. *)
Definition load_try (C : config) (w : bool) (i ov : fid) (t : tables) (f : file) (p : pystr) (m : mem)
  : file * res (mem * loc) * tables :=
  match get_path f p with
  | None => (f, Err FileError, t)
  | Some root =>
      match get_node f root with
      | None => (f, Err Unmodelled, t)
      | Some n =>
          if is_group n then
            match detect (node_attrs f root_addr) (nd_attrs n) with
            | Err e => (f, Err e, t)
            | Ok V3 => (f, c_v3 C f p m, t)
            | Ok V4 => load_body C w i ov t f root true m
            | Ok V5 => load_body C w i ov t f root false m
            end
          else (f, Err FileError, t)
      end
  end.

(** [except Exception as error: raise ValueError(...)].  Running out of stack
    ([OutOfFuel]) is a RecursionError. *)
Definition as_value_error {A} (r : res A) : res A :=
  match r with
  | Ok a => Ok a
  | Err Unmodelled => Err Unmodelled
  | Err _ => Err ValueError
  end.

(** hickle.py:263-398, load. *)
Definition load (C : config) (H : host) (f : fobj) (path : pystr) (filename : fname) : host * res loc :=
  match file_opener H f path (str "r") filename with
  | (H1, Err e) => (H1, Err e)
  | (H1, Ok (i, p, close)) =>
      match content_of H1 i with
      | None => (finish H1 i close, Err Unmodelled)
      | Some (h, g) =>
          let '(g', r, t) := load_try C (hd_write h) i (h_next H1) (Tables (h_lmgr H1) (h_rmgr H1)) g p (h_mem H1) in
          let m' := match r with Ok (m', _) => m' | Err _ => h_mem H1 end in
          (finish (Host (<[hd_key h := Some g']> (h_disk H1)) (h_open H1) (h_next H1 + 1) (t_lmgr t) (t_rmgr t) (h_gc H1) m') i close,
           as_value_error (res_map snd r))
      end
  end.
