(** * GetRoot: from a node to the group its dump was made in *)
From Verif Require Import Base Num PyObj H5 Env Create Dump LoadFns LoadModel Registry RegistryStd Api.
Local Open Scope N_scope.
Local Open Scope list_scope.

(** [h_node.parent], lookup.py:411, 414, 430 and 440.  h5py takes the directory part of the
    name of the node, and that of '/' is '/'.  Here it is the first group with a link to the
    node: in a file without links made by hand there is one at most.  [None] is the
    ValueError of an anonymous node. *)
Definition links_to (a : addr) (n : node) : bool := existsb (fun l => snd l =? a) (links n).
Definition parent_of (f : file) (a : addr) : option addr :=
  if a =? root_addr then Some root_addr
  else head (omap (fun '(b, n) => if links_to a n then Some b else None) (map_to_list (f_nodes f))).

(** [entry.parent.parent], lookup.py:411 and 440. *)
Definition root_of_entry (f : file) (e : addr) : option addr :=
  match parent_of f e with Some t => parent_of f t | None => None end.

(** lookup.py:395-440, [ReferenceManager.get_root].  [root_addr] is both the file and its
    group '/': h5py's comparison of the two at line 414 says that they are equal. *)
Definition get_root (f : file) (a : addr) : option addr :=
  match get_node f a with
  | None => None
  | Some n =>
      let here := if is_group n then a else root_addr in
      let by_parent :=
        match parent_of f a with
        | None => None
        | Some b =>
            if b =? root_addr then Some here
            else match get_node f b with
                 | None => None
                 | Some bn =>
                     match nd_attrs bn !! a_type with
                     | None => Some here
                     | Some (ARef e) =>
                         match get_node f e with Some _ => root_of_entry f e | None => Some here end
                     | Some _ => Some root_addr
                     end
                 end
        end in
      match nd_attrs n !! a_type with
      | Some (ARef e) => match get_node f e with Some _ => root_of_entry f e | None => by_parent end
      | _ => by_parent
      end
  end.
