(** * Env: the outside world as a record of oracles

    Everything hickle asks CPython, numpy, pickle and h5py for and that the theorems
    must not depend on.  [env_ok] lists what is assumed; Instance.v has a concrete
    environment meeting it. *)
From Verif Require Import Base Utf8 Dec Num PyObj H5.

Record env := Env {
  (** the order in which [group.items()] yields the members of group [a] *)
  e_order : addr -> list (pystr * addr) -> list (pystr * addr);
  (** [repr(x)] and [float(s)], [complex(s)] *)
  e_frepr : dy -> pystr;
  e_fparse : pystr -> option dy;
  e_crepr : dy -> dy -> pystr;
  e_cparse : pystr -> option (dy * dy);
  (** [np.ndim(x)] of a list or tuple raises ValueError (numpy >= 1.24, ragged) *)
  e_ragged : heap -> loc -> bool;
  (** [pickle.dumps] works on instances of the class, resp. on the class itself *)
  e_pickles : cls -> N -> bool;
  e_pickles_cls : cls -> bool;
  (** [pickle.loads] finds the class when loading *)
  e_imports : cls -> bool
}.

(** [repr] of a number that is a dict key. *)
Definition num_repr (E : env) (n : num) : pystr :=
  match n with
  | NB true => str "True"
  | NB false => str "False"
  | NZ z => Z_dec z
  | NF f => e_frepr E f
  | NC a b => e_crepr E a b
  end.

(** Characters the reprs of numbers never contain: slash, backslash, NUL. *)
Definition plain_char (c : N) : bool :=
  negb (c =? 47) && negb (c =? 92) && negb (c =? 0) && is_scalar c.
(** First characters used by the names of other kinds of keys: the quote, b, d, T, F, N. *)
Definition reserved_first (s : pystr) : bool :=
  match s with
  | [] => true
  | c :: _ => existsb (N.eqb c) [34; 98; 100; 84; 70; 78]
  end.

(** The builtin classes with loaders; pickle can store each of them by name. *)
Definition pickled_builtins : list cls :=
  [CNoneType; CBool; CInt; CFloat; CComplex; CStr; CBytes; CList; CTuple; CSet; CDict].

(** The list [z] has the shape of the [dims] of an array of the elements [ls]. *)
Fixpoint nested (h : heap) (dims : list N) (ls : list loc) (z : loc) : Prop :=
  match dims with
  | [] => ls = [z]
  | n :: rest => exists xs lss, h !! z = Some (Obj CList (VSeq xs)) /\ N.of_nat (length xs) = n /\
                   ls = concat lss /\ Forall2 (nested h rest) lss xs
  end.
Definition no_sequence (h : heap) (l : loc) : Prop :=
  match h !! l with Some (Obj _ (VNone | VNum _ | VStr _ | VBytes _)) => True | _ => False end.

Record env_ok (E : env) : Prop := {
  ok_order : forall a l, Permutation (e_order E a l) l;
  ok_fparse : forall f, fits F8 f = true -> e_fparse E (e_frepr E f) = Some f;
  ok_cparse : forall a b, fits F8 a = true -> fits F8 b = true ->
                e_cparse E (e_crepr E a b) = Some (a, b);
  ok_frepr_plain : forall f, forallb plain_char (e_frepr E f) = true;
  ok_crepr_plain : forall a b, forallb plain_char (e_crepr E a b) = true;
  ok_frepr_first : forall f, reserved_first (e_frepr E f) = false;
  ok_crepr_first : forall a b, reserved_first (e_crepr E a b) = false;
  ok_frepr_int : forall f z, e_frepr E f <> Z_dec z;
  ok_crepr_int : forall a b z, e_crepr E a b <> Z_dec z;
  ok_frepr_crepr : forall f a b, e_frepr E f <> e_crepr E a b;
  ok_imports : forall c, cls_module c = str "builtins" -> e_imports E c = true;
  ok_pickles : forall c, c ∈ pickled_builtins -> e_pickles_cls E c = true;
  (** numpy, which has up to 32 dimensions, finds no fault with lists shaped like an array *)
  ok_nested : forall h dims ls z, nested h dims ls z -> (length dims <= 32)%nat ->
                (forall l, l ∈ ls -> no_sequence h l) -> e_ragged E h z = false
}.
