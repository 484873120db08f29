(** * H5: the HDF5 file as hickle sees it through h5py

    Nothing here is hickle code; it is the assumed behaviour of h5py for the calls
    hickle makes: [create_group], [create_dataset], [attrs], [get], references. *)
From Verif Require Import Base Utf8 Num PyObj.

(** ** Nodes and files

    A node is a group with named links in creation order or a dataset.  [nd_name] is
    the last component of [node.name].  Simplification: every object has exactly one
    link, soft and external links do not occur. *)
Inductive body := BGroup (links : list (pystr * addr)) | BData (d : hdata).
Record node := Node { nd_name : pystr; nd_attrs : attrs; nd_body : body }.
Record file := File { f_nodes : gmap addr node; f_next : addr }.

Definition get_node (f : file) (a : addr) : option node := f_nodes f !! a.
Definition is_group (n : node) : bool := match nd_body n with BGroup _ => true | _ => false end.
Definition links (n : node) : list (pystr * addr) :=
  match nd_body n with BGroup l => l | BData _ => [] end.
Definition put_node (f : file) (a : addr) (n : node) : file := File (<[a := n]> (f_nodes f)) (f_next f).
Definition set_attr (k : pystr) (v : attrv) (n : node) : node :=
  Node (nd_name n) (<[k := v]> (nd_attrs n)) (nd_body n).
Definition add_link (nm : pystr) (a : addr) (n : node) : node :=
  Node (nd_name n) (nd_attrs n)
       match nd_body n with BGroup l => BGroup (l ++ [(nm, a)]) | b => b end.
(** [attrs[k] = v] for several keys in order. *)
Definition attrs_update (kvs : list (pystr * attrv)) (m : attrs) : attrs :=
  foldl (fun m '(k, v) => <[k := v]> m) m kvs.
Definition set_attrs (kvs : list (pystr * attrv)) (n : node) : node :=
  Node (nd_name n) (attrs_update kvs (nd_attrs n)) (nd_body n).

(** A link name h5py accepts as a single component.  h5py encodes the name as UTF-8
    (UnicodeEncodeError for lone surrogates).  A slash would create intermediate
    groups and a NUL would cut the name: hickle never passes the former, the latter is
    left out of the model. *)
Definition name_ok (n : pystr) : res unit :=
  match n with
  | [] => Err ValueError
  | _ =>
      if has_char 47 n || has_char 0 n then Err Unmodelled
      else res_map (fun _ => tt) (utf8_encode n)
  end.

(** [parent.create_group(name)] / [parent.create_dataset(name, ...)]: the new node is
    linked into its parent; an existing name is an error and changes nothing. *)
Definition create_node (f : file) (parent : addr) (nm : pystr) (b : body) : res (file * addr) :=
  match get_node f parent with
  | None => Err Unmodelled
  | Some p =>
      if is_group p then
        res_bind (name_ok nm) (fun _ =>
          match alist_get nm (links p) with
          | Some _ => Err NameExists
          | None =>
              let a := f_next f in
              Ok (File (<[parent := add_link nm a p]> (<[a := Node nm ∅ b]> (f_nodes f))) (a + 1), a)
          end)
      else Err AttributeError
  end.

(** ** Keyword arguments of [create_dataset]

    Only their names matter here: chunk and filter options are refused by h5py for
    scalar and empty datasets (TypeError), which is why hickle removes them. *)
Definition kwargs := list pystr.
Definition filter_keys : list pystr :=
  map str ["compression"; "shuffle"; "compression_opts"; "chunks"; "fletcher32"; "scaleoffset"]%string.
Definition is_filter (k : pystr) : bool := bool_decide (k ∈ filter_keys).

Definition is_scalar_or_null (d : hdata) : bool :=
  match d with DNull _ | DScalar _ _ | DRefTo _ | DVlen _ => true | _ => false end.

Definition create_dataset (f : file) (parent : addr) (nm : pystr) (kw : kwargs) (d : hdata)
  : res (file * addr) :=
  if is_scalar_or_null d && existsb is_filter kw then Err TypeError
  else create_node f parent nm (BData d).
