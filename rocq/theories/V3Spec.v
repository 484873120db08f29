(** * V3Spec: what a hickle 3 file should load to

    The vocabulary of the theorems about LegacyV3.v (PropsV3.v): when a loaded value equals
    a dumped one, and which values hickle 3 files keep. *)
From Verif Require Import Base Utf8 Num PyObj Env LegacyV3.

(** ** Equality of values

    As [==] of Python sees it, and more: the class of every object is the same, except that
    the numbers of a list, tuple or set of numbers come back as numpy scalars of equal
    value. *)
Inductive same3 : val3 -> val3 -> Prop :=
| same_id v : same3 v v
| same_number n : same3 (PNum n) (PNp (dtype3 n) n)
| same_seq k l l' : Forall2 same3 l l' -> same3 (PSeq k l) (PSeq k l')
| same_set l l' l'' : Forall2 same3 l l' -> Permutation l' l'' -> same3 (PSeq SSet l) (PSeq SSet l'')
| same_dict l l' l'' :
    Forall2 (fun p q => fst p = fst q /\ same3 (snd p) (snd q)) l l' -> Permutation l' l'' ->
    same3 (PDict l) (PDict l'')
| same_nomask a : same3 (PMasked a None) (PMasked a (Some (map (fun _ => NB false) (snd a)))).

(** ** Values hickle 3 files keep *)

(** Pairwise different, as set and dict see it; NaN differs from everything. *)
Definition distinct3 (l : list val3) : Prop :=
  exists hs, Forall2 (fun v h => hv3 v = Ok h) l hs /\ NoDup (List.filter (fun h => negb (hv_nan h)) hs).

Definition no_final_nul (b : list N) : Prop := forall r, b <> r ++ [0].
Definition is_masked (v : val3) : Prop := exists a m, v = PMasked a m.
Definition all_text (l : list val3) : Prop := exists ss, ss <> [] /\ l = map PStr ss.
Definition all_bytes (l : list val3) : Prop := exists bs, bs <> [] /\ l = map PBytes bs.
Definition builtin_seq (k : seq3) : Prop := k = SList \/ k = STuple \/ k = SSet.

(** A name without slashes, in ASCII. *)
Definition plain_name (s : pystr) : Prop := Forall (fun c => c < 128 /\ c <> 47) s.

(** Dict keys: text without slashes whose characters beyond ASCII are not printable (and so
    are escaped), True, int, float, complex, and tuples Python can read back. *)
Inductive fine_key (L : env3) : val3 -> Prop :=
| key_str s : wf_str s -> Forall (fun c => c <> 47 /\ (c < 128 \/ l_printable L c = false)) s -> fine_key L (PStr s)
| key_true : fine_key L (PNum (NB true))
| key_int z : fine_key L (PNum (NZ z))
| key_float f : fits F8 f = true -> fine_key L (PNum (NF f))
| key_complex a b : fits F8 a = true -> fits F8 b = true -> fine_key L (PNum (NC a b))
| key_tuple l r : l_trepr L l = 40 :: r -> plain_name r -> l_teval L (40 :: r) = Some l ->
    fine_key L (PSeq STuple l).

Inductive fine (L : env3) : val3 -> Prop :=
| fine_none : fine L PNone
| fine_num n : fine L (PNum n)
| fine_np d n : fine L (PNp d n)
| fine_array a : fine L (PArr a)
| fine_masked a m : match m with None => True | Some ns => Forall (fun n => exists b, n = NB b) ns end ->
    fine L (PMasked a m)
| fine_sparse k a b c d : fine L (PSparse k a b c d)
| fine_other c n : fine L (POther c n)
| fine_str s : l_text L = true -> fine L (PStr s)
| fine_bytes b : no_final_nul b -> fine L (PBytes b)
| fine_texts k ss : builtin_seq k -> ss <> [] -> Forall no_final_nul ss -> (k = SSet -> NoDup ss) ->
    fine L (PSeq k (map PStr ss))
| fine_bytestrings k bs : builtin_seq k -> bs <> [] -> Forall no_final_nul bs ->
    Forall (fun b => exists s, wf_str s /\ utf8_encode s = Ok b) bs -> (k = SSet -> NoDup bs) ->
    fine L (PSeq k (map PBytes bs))
| fine_items k l : builtin_seq k -> ~ all_text l -> ~ all_bytes l ->
    Forall (fun x => fine L x /\ ~ is_masked x) l -> (k = SSet -> distinct3 l) ->
    fine L (PSeq k l)
| fine_pickled c l v : In v l ->
    (exists n, v = PNum n) \/ (exists s, v = PStr s) \/ (exists b, v = PBytes b) -> Forall (fun x => class3 x = class3 v) l ->
    fine L (PSeq (SOther c) l)
| fine_dict l : Forall (fun e => fine_key L (fst e) /\ fine L (snd e)) l -> distinct3 (map fst l) ->
    fine L (PDict l).

(** ** What is assumed of Python *)
Record env3_ok (L : env3) : Prop := {
  ok3_env : env_ok (l_env L);
  ok3_frepr : forall f, Forall (fun c => c < 128) (e_frepr (l_env L) f);
  ok3_crepr : forall a b, Forall (fun c => c < 128) (e_crepr (l_env L) a b);
  ok3_fdot : forall f, e_frepr (l_env L) f <> str ".";
  ok3_cdot : forall a b, e_crepr (l_env L) a b <> str "."
}.
