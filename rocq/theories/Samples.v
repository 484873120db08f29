(** * Samples: concrete processes, files and objects

    Used by the examples beside the theorems and by the counterexamples.  Nothing here is
    hickle code. *)
From Verif Require Import Base Utf8 Dec Num PyObj H5 Env Create Dump LoadFns LoadModel Registry Spec Instance Api.

(** A process with the concrete environment of Instance.v. *)
Definition C0 : config := Config ienv std_world (str "3.9.0") (fun _ _ _ => Err Unmodelled) 900.
(** A new file. *)
Definition f0 : file := File {[ root_addr := Node (str "/") ∅ (BGroup []) ]} 1.

(** Memory with the listed objects at 0, 1, 2, ...; the empty tuple is first. *)
Definition mem_of (l : list obj) : mem :=
  let l := empty_tuple :: l in
  Mem (list_to_map (zip (map N.of_nat (seq 0 (length l))) l)) (N.of_nat (length l)).
Definition m0 : mem := mem_of [].

Definition o_none : obj := Obj CNoneType VNone.
Definition o_int (z : Z) : obj := Obj CInt (VNum (NZ z)).
Definition o_bool (b : bool) : obj := Obj CBool (VNum (NB b)).
Definition o_float (f : dy) : obj := Obj CFloat (VNum (NF f)).
Definition o_str (s : string) : obj := Obj CStr (VStr (str s)).
Definition o_bytes (s : string) : obj := Obj CBytes (VBytes (str s)).
Definition o_list (xs : list loc) : obj := Obj CList (VSeq xs).
Definition o_tuple (xs : list loc) : obj := Obj CTuple (VSeq xs).
Definition o_set (xs : list loc) : obj := Obj CSet (VSeq xs).
Definition o_dict (kvs : list (loc * loc)) : obj := Obj CDict (VDict kvs).

(** 0.5 *)
Definition half : dy := FFin false 1 (-1).

(** An object with everything it refers to. *)
Inductive view :=
| WNone
| WNum (c : cls) (n : num)
| WStr (c : cls) (s : pystr)
| WBytes (c : cls) (b : bytes)
| WSeq (c : cls) (vs : list view)
| WDict (c : cls) (vs : list (view * view))
| WOther (o : obj)
| WDeep.

Fixpoint view_of (fuel : nat) (h : heap) (l : loc) : view :=
  match fuel with
  | O => WDeep
  | S f =>
      match h !! l with
      | None => WDeep
      | Some (Obj c v) =>
          match v with
          | VNone => WNone
          | VNum n => WNum c n
          | VStr s => WStr c s
          | VBytes b => WBytes c b
          | VSeq xs => WSeq c (map (view_of f h) xs)
          | VDict kvs => WDict c (map (fun '(k, v) => (view_of f h k, view_of f h v)) kvs)
          | _ => WOther (Obj c v)
          end
      end
  end.
Definition see (m : mem) (x : loc) : view := view_of 30 (m_heap m) x.

(** [hickle.dump(x, f)] with a new file, and [hickle.load] of that file by a new process:
    the outcome of the dump, and the loaded object. *)
Definition dumped (m : mem) (x : loc) : file * res unit :=
  let '(f, _, r) := dump_file C0 [] [] x (str "/") m f0 in (f, r).
Definition loaded (f : file) : res view :=
  let '(_, r, _) := load_file C0 false f (str "/") m0 in res_map (fun '(m, v) => see m v) r.
Definition round_trip (m : mem) (x : loc) : res unit * res view :=
  let '(f, r) := dumped m x in (r, loaded f).
