(** * PropsDistinct: the file tells the objects apart (C64)

    [written E h x p f]: some dump of [x], in the memory [h], to the path [p] succeeded and
    left the file [f] (Distinct.v; the conditions are those of the round trip, C01).
    [reach h x P a]: following the positions [P] from [x] (items of lists and tuples, values
    of dictionaries) one finds the object [a].  [alike]: numbers of equal value, or objects
    of one class with equally many parts and, if they have no parts, with equal contents. *)
From Verif Require Import Base Utf8 Dec Num PyObj H5 Env Create Dump LoadFns LoadModel Registry RegistryStd Spec RoundTrip
  Api DumpClosed ApiProofs DumpEnv Reach ApiTop Distinct Instance Samples SampleProofs.
From Coq Require Import Lia ZifyBool ZifyN.
Local Open Scope N_scope.
Local Open Scope list_scope.

(** Two objects, be they of two processes, of which dumps left the same file have a common
    copy: what load makes of the file. *)
Theorem C64_common_copy E h1 x1 h2 x2 p f : written E h1 x1 p f -> written E h2 x2 p f ->
  exists h v, isomorphic h1 x1 h v /\ isomorphic h2 x2 h v.
Proof. exact (written_common E h1 x1 h2 x2 p f). Qed.
Print Assumptions C64_common_copy.

(** So they have the same positions, with the same things there. *)
Theorem C64_positions E h1 x1 h2 x2 p f : written E h1 x1 p f -> written E h2 x2 p f ->
  forall P a, reach h1 x1 P a -> exists b, reach h2 x2 P b /\ alike h1 a h2 b.
Proof. intros A B. destruct (written_common _ _ _ _ _ _ _ A B) as (h & v & I1 & I2). exact (common_positions _ _ _ _ _ _ I1 I2). Qed.
Print Assumptions C64_positions.

(** One object is found at two positions in both or in neither. *)
Theorem C64_sharing E h1 x1 h2 x2 p f : written E h1 x1 p f -> written E h2 x2 p f ->
  forall P Q a a' b b', reach h1 x1 P a -> reach h1 x1 Q a' -> reach h2 x2 P b -> reach h2 x2 Q b' ->
  ~ scalar_at h1 a -> ~ scalar_at h1 a' -> (a = a' <-> b = b').
Proof. intros A B. destruct (written_common _ _ _ _ _ _ _ A B) as (h & v & I1 & I2). exact (common_sharing _ _ _ _ _ _ I1 I2). Qed.
Print Assumptions C64_sharing.

(** Their dictionaries have the same keys in the same order. *)
Theorem C64_keys E h1 x1 h2 x2 p f : written E h1 x1 p f -> written E h2 x2 p f ->
  forall P a b c kvs, reach h1 x1 P a -> reach h2 x2 P b -> h1 !! a = Some (Obj c (VDict kvs)) ->
  exists kvs', h2 !! b = Some (Obj c (VDict kvs')) /\ Forall2 (fun k k' => alike h1 (fst k) h2 (fst k')) kvs kvs'.
Proof. intros A B. destruct (written_common _ _ _ _ _ _ _ A B) as (h & v & I1 & I2). exact (common_keys _ _ _ _ _ _ I1 I2). Qed.
Print Assumptions C64_keys.

(** Their sets have the same elements. *)
Theorem C64_elements E h1 x1 h2 x2 p f : written E h1 x1 p f -> written E h2 x2 p f ->
  forall P a b c xs, reach h1 x1 P a -> reach h2 x2 P b -> isinst c CSet = true -> h1 !! a = Some (Obj c (VSeq xs)) ->
  exists ys ys', h2 !! b = Some (Obj c (VSeq ys)) /\ Permutation ys ys' /\ Forall2 (fun k k' => alike h1 k h2 k') xs ys'.
Proof. intros A B. destruct (written_common _ _ _ _ _ _ _ A B) as (h & v & I1 & I2). exact (common_elements _ _ _ _ _ _ I1 I2). Qed.
Print Assumptions C64_elements.

(** [5, 7] of Python ints and of numpy int64. *)
Definition m_ints : mem := mem_of [o_list [2; 3]; o_int 5; o_int 7].
Definition m_int64s : mem := mem_of [Obj (CNp (DInt W8)) (VNum (NZ 7)); Obj (CNp (DInt W8)) (VNum (NZ 5)); o_list [2; 1]].
Lemma m_ints_ok : graph_ok ienv (m_heap m_ints) 1.
Proof.
  set (h := m_heap m_ints).
  assert (graph_ok ienv h 2) as G2 by ok_leaf ltac:(by apply st_num).
  assert (graph_ok ienv h 3) as G3 by ok_leaf ltac:(by apply st_num).
  ok_leaf ltac:(apply st_seq; [by left|]). intros _. left. intros z c n Hz Hn.
  repeat (apply elem_of_cons in Hz as [-> |Hz]; [vm_compute in Hn; inversion Hn; lia|]). by apply elem_of_nil in Hz.
Qed.
Lemma m_int64s_ok : graph_ok ienv (m_heap m_int64s) 3.
Proof.
  set (h := m_heap m_int64s).
  assert (graph_ok ienv h 1) as G2 by ok_leaf ltac:(by apply st_num).
  assert (graph_ok ienv h 2) as G3 by ok_leaf ltac:(by apply st_num).
  ok_leaf ltac:(apply st_seq; [by left|]). intros _. left. intros z c n Hz Hn.
  repeat (apply elem_of_cons in Hz as [-> |Hz]; [vm_compute in Hn; inversion Hn; lia|]). by apply elem_of_nil in Hz.
Qed.
Definition f_ints : file := fst (fst (dump_file C0 [] [] 1 (str "/a") m_ints f0)).

(** The classes of numbers are the exception: the two lists leave the same file. *)
Example C64_applies : written ienv (m_heap m_ints) 1 (str "/a") f_ints /\ written ienv (m_heap m_int64s) 3 (str "/a") f_ints.
Proof.
  assert (forall x m, free_above m -> graph_ok ienv (m_heap m) x -> fst (fst (dump_file C0 [] [] x (str "/a") m f0)) = f_ints ->
    snd (dump_file C0 [] [] x (str "/a") m f0) = Ok tt -> written ienv (m_heap m) x (str "/a") f_ints) as H.
  { intros x m Hm Hg Hf Hr. destruct (dump_file C0 [] [] x (str "/a") m f0) as [[f m'] r] eqn:E. cbn [fst snd] in *. subst f r.
    exists C0, [], [], m, f0, m', (e_order ienv), (e_fparse ienv), (e_cparse ienv), (e_imports ienv).
    split; [done|]. split; [reflexivity|]. split; [exact ienv_ok|]. split; [done|]. split; [done|]. split; [exact f0_tree|]. split; [look|].
    split; [intros ? ? Hn; vm_compute in Hn; done|]. split; [done|]. split; [done|]. by split. }
  split; apply H; [apply mem_of_free|exact m_ints_ok|reflexivity|look|apply mem_of_free|exact m_int64s_ok| |look]. vm_cast_no_check (eq_refl f_ints).
Qed.
