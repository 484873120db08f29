(** * DumpSamples: the samples meet the hypotheses of the theorems on dump *)
From Verif Require Import Base Utf8 Dec Num PyObj H5 Env Create Dump LoadFns LoadModel Registry RegistryStd Spec RoundTrip
  Api DumpClosed ApiProofs DumpEnv Instance Samples SampleProofs Cyclic ApiEnds Accept ApiAccept DumpKw Cases Count DumpTerm Table Layout.
From Coq Require Import Lia ZifyBool ZifyN.
Local Open Scope N_scope.
Local Open Scope list_scope.

Definition p_ab : pystr := str "/a/b".

Ltac each Hk := repeat (apply elem_of_cons in Hk as [-> |Hk]); try (by apply elem_of_nil in Hk).
Ltac inU := apply (bool_decide_unpack _); vm_compute; exact I.

Lemma free0 : free_path f0 p_ab.
Proof. unfold free_path. change (components p_ab) with [str "a"; str "b"]. eexists. split; [look|]. split; [done|]. simpl. repeat constructor. Qed.

Lemma setting0 l : (34 * size (m_heap (mem_of l)) < 900)%nat -> setting C0 ienv [] p_ab (mem_of l) f0.
Proof.
  intros Hs. split.
  - exists (e_order ienv), (e_fparse ienv), (e_cparse ienv), (e_imports ienv). reflexivity.
  - exact ienv_ok.
  - reflexivity.
  - done.
  - exact f0_tree.
  - look.
  - exact free0.
  - intros ? ? Hn. vm_compute in Hn. done.
  - constructor.
  - apply mem_of_free.
  - exact Hs.
Qed.

Ltac outside := let Hk := fresh in intros ? Hk; repeat (apply elem_of_cons in Hk as [-> |Hk]; [done|]); by apply elem_of_nil in Hk.
Ltac fine_leaf := split; [outside|]; split; [done|]; try done.
Lemma m_ex_acceptable_at kw x : x ∈ [1; 2; 3; 4; 5] -> acceptable_graph ienv kw (m_heap m_ex) x.
Proof.
  intros Hx.
  assert (~ all_numbers (m_heap m_ex) [2; 3]) as NA.
  { intros Ha. destruct (Ha 3 ltac:(right; left)) as (c & n & d & Hl & _). vm_compute in Hl. done. }
  exists {[1; 2; 3; 4; 5]}. split; [each Hx; inU|]. intros y Hy.
  assert (y ∈ [1; 2; 3; 4; 5]) as Hy' by set_solver. clear Hy. rename Hy' into Hy. each Hy.
  - eexists. split; [look|]. split.
    + split; [outside|]. split; [done|]. split; [by left|]. split.
      * intros z Hz. each Hz; intros o Ho; vm_compute in Ho; inversion Ho; done.
      * intros Ha. destruct (Ha 3 ltac:(right; left)) as (c & n & d & Hl & _). vm_compute in Hl. done.
    + intros z Hz. simpl in Hz. each Hz; inU.
  - eexists. split; [look|]. split; [by fine_leaf|]. intros z Hz. simpl in Hz. each Hz.
  - eexists. split; [look|]. split; [|intros z Hz; simpl in Hz; each Hz].
    split; [outside|]. split; [done|]. split; [by left|]. split; [look|]. unfold ascii_name. inU.
  - eexists. split; [look|]. split.
    + split; [outside|]. split; [done|]. split; [by left|]. split.
      * simpl. exists [HStr (str "abc"); HNum (FFin false 5 0) (FZero false)]. split; [|inU].
        repeat constructor; exists 1%nat; look.
      * apply Forall_cons; [|apply Forall_cons; [|apply Forall_nil]]; eexists; (split; [look|]).
        -- look.
        -- left. inU.
    + intros z Hz. simpl in Hz. each Hz; inU.
  - eexists. split; [look|]. split.
    + split; [outside|]. split; [done|]. split; [by right; right; left|]. split.
      * intros z Hz. each Hz; intros o Ho; vm_compute in Ho; inversion Ho; done.
      * intros Ha. by destruct (NA Ha).
    + intros z Hz. simpl in Hz. each Hz; inU.
Qed.

Lemma cyclic_acceptable kw : acceptable_graph ienv kw (m_heap m_cyclic) 1.
Proof.
  exists {[1]}. split; [inU|]. intros y Hy. apply elem_of_singleton in Hy as ->. eexists. split; [look|]. split.
  - split; [outside|]. split; [done|]. split; [by left|]. split.
    + intros z Hz. each Hz. intros o Ho. vm_compute in Ho. inversion Ho; subst o. cbn [oval]. intros h' Hh.
      change (e_ragged ienv h' 1) with (match np_shape 40 h' 1 with Some _ => false | None => true end).
      assert (h' !! 1 = Some (o_list [1])) as H1 by (eapply lookup_weaken; [|exact Hh]; look).
      enough (forall k, exists s, np_shape k h' 1 = Some s) as H by (by destruct (H 40%nat) as [s ->]).
      induction k as [|k [s IH]]; [by exists []|]. cbn [np_shape]. rewrite H1. simpl. rewrite IH. by eexists.
    + intros Ha. destruct (Ha 1 ltac:(left)) as (c & n & d & Hl & _). vm_compute in Hl. done.
  - intros z Hz. simpl in Hz. each Hz. inU.
Qed.

(** A list holding a masked array, a csr matrix and twice the same object of class m.A. *)
Definition o_arr (d : dtype) (shape : list N) (vs : list num) : obj := Obj CNdarray (VArr d shape vs).
Definition m_np : mem :=
  mem_of [o_list [2; 5; 10; 10]; Obj CMasked (VMasked 3 4); o_arr (DInt W8) [2] [NZ 7; NZ (-1)]; o_arr DBool [2] [NB true; NB false];
          Obj (CSparse SCsr) (VSparse 6 7 8 9); o_arr (DFloat F8) [1] [NF half]; o_arr (DInt W4) [1] [NZ 1]; o_arr (DInt W4) [2] [NZ 0; NZ 1];
          o_tuple [11; 12]; Obj (COpaque (str "m") (str "A")) (VOpaque OById 4); o_int 1; o_int 2].
Ltac nums_fit := repeat (apply Forall_cons; [look|]); apply Forall_nil.
Ltac arr_fine := eexists; split; [look|]; split; [split; [outside|]; split; [done|]; split; [by left|done]|intros ? Hz; simpl in Hz; each Hz].
Lemma m_np_acceptable_at kw x : x ∈ [1; 2; 5] -> acceptable_graph ienv kw (m_heap m_np) x.
Proof.
  intros Hx.
  exists {[1; 2; 3; 4; 5; 6; 7; 8; 9; 10; 11; 12]}. split; [each Hx; inU|]. intros y Hy.
  assert (y ∈ [1; 2; 3; 4; 5; 6; 7; 8; 9; 10; 11; 12]) as Hy' by (revert Hy; clear; set_solver). clear Hy. rename Hy' into Hy. each Hy.
  - eexists. split; [look|]. split.
    + split; [outside|]. split; [done|]. split; [by left|]. split.
      * intros z Hz. each Hz; intros o Ho; vm_compute in Ho; inversion Ho; done.
      * intros Ha. destruct (Ha 2 ltac:(left)) as (c & n & d & Hl & _). vm_compute in Hl. done.
    + intros z Hz. simpl in Hz. each Hz; inU.
  - eexists. split; [look|]. split; [|intros z Hz; simpl in Hz; each Hz; inU].
    split; [outside|]. split; [done|]. split; [done|]. repeat eexists; look.
  - arr_fine.
  - arr_fine.
  - eexists. split; [look|]. split; [|intros z Hz; simpl in Hz; each Hz; inU].
    split; [outside|]. split; [done|]. by exists SCsr.
  - arr_fine.
  - arr_fine.
  - arr_fine.
  - eexists. split; [look|]. split; [|intros z Hz; simpl in Hz; each Hz; inU].
    split; [outside|]. split; [done|]. split; [by right; left|]. split.
    + intros z Hz. each Hz; intros o Ho; vm_compute in Ho; inversion Ho; done.
    + intros _ z n Hz Hn. each Hz; vm_compute in Hn; inversion Hn; lia.
  - eexists. split; [look|]. split; [|intros z Hz; simpl in Hz; each Hz].
    split; [outside|]. split; [done|]. done.
  - eexists. split; [look|]. split; [by fine_leaf|]. intros z Hz. simpl in Hz. each Hz.
  - eexists. split; [look|]. split; [by fine_leaf|]. intros z Hz. simpl in Hz. each Hz.
Qed.
Ltac np_leaf k :=
  eapply graph_ok_intro; [look|k|outside|look|done|
    let Hk := fresh in intros ? Hk; simpl in Hk; repeat (apply elem_of_cons in Hk as [-> |Hk]; [try assumption|]); by apply elem_of_nil in Hk].
Lemma m_np_ok : graph_ok ienv (m_heap m_np) 1.
Proof.
  set (h := m_heap m_np).
  assert (graph_ok ienv h 3) as G3 by np_leaf ltac:(apply st_arr; [by left|done|nums_fit]).
  assert (graph_ok ienv h 4) as G4 by np_leaf ltac:(apply st_arr; [by left|done|nums_fit]).
  assert (graph_ok ienv h 6) as G6 by np_leaf ltac:(apply st_arr; [by left|done|nums_fit]).
  assert (graph_ok ienv h 7) as G7 by np_leaf ltac:(apply st_arr; [by left|done|nums_fit]).
  assert (graph_ok ienv h 8) as G8 by np_leaf ltac:(apply st_arr; [by left|done|nums_fit]).
  assert (graph_ok ienv h 10) as G10 by np_leaf ltac:(by apply st_opaque).
  assert (graph_ok ienv h 11) as G11 by np_leaf ltac:(by apply st_num).
  assert (graph_ok ienv h 12) as G12 by np_leaf ltac:(by apply st_num).
  assert (graph_ok ienv h 2) as G2 by np_leaf ltac:(by apply st_masked).
  assert (graph_ok ienv h 9) as G9.
  { np_leaf ltac:(apply st_seq; [by right|]). intros _. left. intros z c n Hz Hn. each Hz; vm_compute in Hn; inversion Hn; lia. }
  assert (graph_ok ienv h 5) as G5 by np_leaf ltac:(by eapply st_sparse).
  np_leaf ltac:(apply st_seq; [by left|]). intros Ha. destruct (Ha 2 ltac:(left)) as (c & n & d & Hl & _). vm_compute in Hl. done.
Qed.

Lemma m_ex_acceptable kw : acceptable_graph ienv kw (m_heap m_ex) 1.
Proof. apply m_ex_acceptable_at. left. Qed.
Lemma m_np_acceptable kw : acceptable_graph ienv kw (m_heap m_np) 1.
Proof. apply m_np_acceptable_at. left. Qed.
Lemma graph_ok_ref E h x o y : graph_ok E h x -> h !! x = Some o -> y ∈ refs o -> graph_ok E h y.
Proof. intros H Ho Hy. destruct H as [x o' Ho' _ _ _ _ Hr]. apply Hr. congruence. Qed.

Lemma m_ex_size : (34 * size (m_heap m_ex) < 900)%nat. Proof. vm_compute. lia. Qed.
Lemma m_np_size : (34 * size (m_heap m_np) < 900)%nat. Proof. vm_compute. lia. Qed.

Lemma mem_of_elem l y o : m_heap (mem_of l) !! y = Some o -> o ∈ empty_tuple :: l.
Proof. intros H. apply elem_of_list_to_map_2 in H. by apply elem_of_zip_r in H. Qed.

Lemma cyclic_closed :
  tree f0 /\ world_ok (c_world C0) /\ free_above m_cyclic /\ heap_closed (m_heap m_cyclic) /\ is_Some (m_heap m_cyclic !! 1) /\
  (forall y o, m_heap m_cyclic !! y = Some o -> (dims o <= 0)%nat) /\ ((0 + 2) * size (m_heap m_cyclic) < c_fuel C0)%nat /\ more_fuel C0 C0.
Proof.
  split; [exact f0_tree|]. split; [exact std_world_ok|]. split; [apply mem_of_free|].
  split. { intros x o Ho y Hy. apply mem_of_elem in Ho. each Ho; simpl in Hy; each Hy. eexists. look. }
  split; [eexists; look|]. split. { intros y o Ho. apply mem_of_elem in Ho. each Ho; vm_compute; lia. }
  split; [vm_compute; lia|]. split; [done|]. split; [done|]. split; [done|]. lia.
Qed.
Lemma numbers_sample :
  let m := mem_of [o_int (2 ^ 63); o_int (- 2 ^ 200); o_float half; o_bool false; o_none] in
  setting C0 ienv [] p_ab m f0 /\ (exists o, m_heap m !! 1 = Some o /\ builtin_number o) /\
  (exists o, m_heap m !! 2 = Some o /\ builtin_number o) /\ (exists o, m_heap m !! 3 = Some o /\ builtin_number o).
Proof.
  split; [apply setting0; vm_compute; lia|]. split; [|split]; eexists; (split; [look|]); constructor. look.
Qed.
Lemma strings_sample :
  let m := mem_of [Obj CStr (VStr [0; 228; 128512]); Obj CStr (VStr []); Obj CBytes (VBytes [0; 255]); Obj CStr (VStr [55296])] in
  setting C0 ienv [] p_ab m f0 /\ m_heap m !! 1 = Some (Obj CStr (VStr [0; 228; 128512])) /\ encodable [0; 228; 128512] = true /\
  m_heap m !! 3 = Some (Obj CBytes (VBytes [0; 255])) /\ m_heap m !! 4 = Some (Obj CStr (VStr [55296])) /\ encodable [55296] = false.
Proof. split; [apply setting0; vm_compute; lia|]. repeat split; look. Qed.
Lemma dict_sample :
  m_heap m_ex !! 4 = Some (Obj CDict (VDict [(3, 2); (2, 5)])) /\ graph_ok ienv (m_heap m_ex) 4 /\ acceptable_graph ienv [] (m_heap m_ex) 4.
Proof.
  split; [look|]. split; [eapply (graph_ok_ref _ _ 1); [exact m_ex_ok|look|inU]|]. apply m_ex_acceptable_at. inU.
Qed.
Definition m_true : mem := mem_of [o_dict [(2, 3); (3, 2)]; o_bool true; o_str "a"].
Lemma true_sample :
  setting C0 ienv [] p_ab m_true f0 /\ m_heap m_true !! 1 = Some (Obj CDict (VDict [(2, 3); (3, 2)])) /\
  m_heap m_true !! 2 = Some (Obj CBool (VNum (NB true))) /\
  graph_ok ienv (m_heap m_true) 1 /\ acceptable_graph ienv [] (m_heap m_true) 1.
Proof.
  split; [apply setting0; vm_compute; lia|]. split; [look|]. split; [look|]. split.
  - set (h := m_heap m_true).
    assert (graph_ok ienv h 2) as G2 by np_leaf ltac:(by apply st_num).
    assert (graph_ok ienv h 3) as G3 by np_leaf ltac:(by apply st_str).
    np_leaf ltac:(idtac). apply st_dict; [by left| | |].
    + simpl. exists [HNum (FFin false 1 0) (FZero false); HStr (str "a")]. split; [|apply (bool_decide_unpack _); look].
      repeat constructor; exists 1%nat; look.
    + apply Forall_cons; [|apply Forall_cons; [|apply Forall_nil]]; eexists; (split; [look|]); (split; [done|]); (split; [done|]).
      * intros _. apply (bool_decide_unpack _). look.
      * intros Hk. exfalso. revert Hk. apply (bool_decide_unpack _). look.
    + apply Forall_cons; [|apply Forall_cons; [|apply Forall_nil]]; simpl; intros Ha; exfalso.
      * destruct (Ha 3 ltac:(right; left)) as (c & n & d & Hl & _). vm_compute in Hl. done.
      * destruct (Ha 3 ltac:(left)) as (c & n & d & Hl & _). vm_compute in Hl. done.
  - exists {[1; 2; 3]}. split; [inU|]. intros y Hy. assert (y ∈ [1; 2; 3]) as Hy' by set_solver. clear Hy. rename Hy' into Hy. each Hy.
    + eexists. split; [look|]. split; [|intros z Hz; simpl in Hz; each Hz; inU].
      split; [outside|]. split; [done|]. split; [by left|]. split.
      * simpl. exists [HNum (FFin false 1 0) (FZero false); HStr (str "a")]. split; [|inU].
        repeat constructor; exists 1%nat; look.
      * apply Forall_cons; [|apply Forall_cons; [|apply Forall_nil]]; eexists; (split; [look|]).
        -- left. inU.
        -- look.
    + eexists. split; [look|]. split; [by fine_leaf|]. intros z Hz. simpl in Hz. each Hz.
    + eexists. split; [look|]. split; [|intros z Hz; simpl in Hz; each Hz].
      split; [outside|]. split; [done|]. split; [by left|]. split; [look|]. unfold ascii_name. inU.
Qed.
Lemma set_sample :
  m_heap m_ex !! 5 = Some (Obj CSet (VSeq [2; 3])) /\ graph_ok ienv (m_heap m_ex) 5 /\ acceptable_graph ienv [] (m_heap m_ex) 5.
Proof.
  split; [look|]. split; [eapply (graph_ok_ref _ _ 4); [apply dict_sample|look|inU]|]. apply m_ex_acceptable_at. inU.
Qed.
Lemma slashes_sample :
  let m := mem_of [o_dict [(2, 7); (3, 7); (4, 7); (5, 7); (6, 7)]; o_str "/"; o_str "\"; o_bytes "/"; o_str """/"""; o_int 1; o_str "v"] in
  outside_hickle CDict /\ dict_class CDict /\ m_heap m !! 1 = Some (Obj CDict (VDict [(2, 7); (3, 7); (4, 7); (5, 7); (6, 7)])) /\
  snd (dump_file C0 [] [] 1 p_ab m f0) = Ok tt.
Proof. split; [outside|]. split; [by left|]. split; look. Qed.
Lemma m_ex_not_numbers : ~ all_numbers (m_heap m_ex) [2; 3; 3; 4].
Proof. intros Ha. destruct (Ha 3 ltac:(right; left)) as (c & n & d & Hl & _). vm_compute in Hl. done. Qed.
Lemma nodes_sample :
  tree f0 /\ c_world C0 = std_world /\ free_above m_np /\ snd (dump_file C0 [str "compression"] [] 1 p_ab m_np f0) = Ok tt.
Proof. split; [exact f0_tree|]. split; [done|]. split; [apply mem_of_free|look]. Qed.

Lemma mem_dims l x : Forall (fun o => ~ zero_dim o) (empty_tuple :: l) -> heap_closed (m_heap (mem_of l)) ->
  is_Some (m_heap (mem_of l) !! x) -> no_zero_dim (m_heap (mem_of l)) x.
Proof.
  intros Hf Hc Hx. exists (dom (m_heap (mem_of l))). split; [by apply elem_of_dom|]. intros y Hy. apply elem_of_dom in Hy as [o Ho].
  exists o. split; [done|]. split.
  - rewrite list.Forall_forall in Hf. apply Hf. by eapply mem_of_elem.
  - intros z Hz. apply elem_of_dom. by eapply Hc.
Qed.
Ltac no_dims := repeat (apply Forall_cons; [intros (? & ? & H); inversion H|]); apply Forall_nil.
Lemma m_ex_dims : no_zero_dim (m_heap m_ex) 1.
Proof.
  apply mem_dims; [no_dims| |eexists; look].
  intros x o Ho y Hy. apply mem_of_elem in Ho. each Ho; simpl in Hy; each Hy; eexists; look.
Qed.
Lemma m_np_dims : no_zero_dim (m_heap m_np) 1.
Proof.
  apply mem_dims; [no_dims| |eexists; look].
  intros x o Ho y Hy. apply mem_of_elem in Ho. each Ho; simpl in Hy; each Hy; eexists; look.
Qed.
Lemma array_sample :
  m_heap m_np !! 3 = Some (Obj CNdarray (VArr (DInt W8) [2] [NZ 7; NZ (-1)])) /\ outside_hickle CNdarray /\
  Forall (fun v => num_of_dtype (DInt W8) v = true) [NZ 7; NZ (-1)].
Proof. split; [look|]. split; [outside|nums_fit]. Qed.
Lemma masked_sample :
  m_heap m_np !! 2 = Some (Obj CMasked (VMasked 3 4)) /\ graph_ok ienv (m_heap m_np) 2 /\ acceptable_graph ienv [] (m_heap m_np) 2 /\
  m_heap m_np !! 5 = Some (Obj (CSparse SCsr) (VSparse 6 7 8 9)) /\ graph_ok ienv (m_heap m_np) 5 /\ acceptable_graph ienv [] (m_heap m_np) 5.
Proof.
  split; [look|]. split; [eapply (graph_ok_ref _ _ 1); [exact m_np_ok|look|inU]|]. split; [apply m_np_acceptable_at; inU|].
  split; [look|]. split; [eapply (graph_ok_ref _ _ 1); [exact m_np_ok|look|inU]|]. apply m_np_acceptable_at. inU.
Qed.
Lemma pickled_sample :
  let c := COpaque (str "m") (str "A") in
  m_heap m_np !! 10 = Some (Obj c (VOpaque OById 4)) /\ outside_hickle c /\ without_loader c /\
  e_pickles ienv c 4 = true /\ e_imports ienv c = true.
Proof. split; [look|]. split; [outside|]. split; [done|]. split; look. Qed.

(** A list holding an array of strings, an array of objects with two dimensions and one
    whose elements include a list. *)
Definition m_arr : mem :=
  mem_of [o_list [2; 3; 7];
          Obj CNdarray (VStrArr 3 [2; 2] [str "ab"; []; str "xyz"; str "c"]);
          Obj CNdarray (VObjArr [2; 2] [4; 5; 6; 4]); o_str "ab"; Obj CNoneType VNone; o_int 7;
          Obj CNdarray (VObjArr [2] [4; 8]); o_list [4; 5]].
Lemma plain_rows E h shape xs : env_ok E -> (length shape <= 32)%nat -> (forall x, x ∈ xs -> no_sequence h x) -> rows_not_ragged E h shape xs.
Proof.
  intros HE Hl Hx h' dims ys z Hh Hd Hlt Hys Hn. eapply (ok_nested E HE); [exact Hn|lia|].
  intros l Hin. specialize (Hx l (Hys l Hin)). unfold no_sequence in *. destruct (h !! l) as [o|] eqn:Ho; [|done].
  by rewrite (lookup_weaken _ _ _ _ Ho Hh).
Qed.
Lemma row_cases {T} (P : list T -> Prop) (w k : nat) (xs : list T) :
  P [] -> (length xs <= k * w)%nat -> (forall i, (i < k)%nat -> P (take w (drop (i * w) xs))) -> forall i, P (take w (drop (i * w) xs)).
Proof.
  intros H0 Hl Hk i. destruct (decide (i < k)%nat) as [Hi|Hi]; [by apply Hk|].
  rewrite drop_ge by nia. by rewrite take_nil.
Qed.
Lemma list8_fine : item_fine ienv (m_heap m_arr) 8.
Proof.
  intros o Ho. vm_compute in Ho. inversion Ho; subst o. cbn [oval]. intros h' Hh.
  assert (forall l o, m_heap m_arr !! l = Some o -> h' !! l = Some o) as W by (intros; by eapply lookup_weaken).
  eapply (ok_nested ienv ienv_ok h' [2] [4; 5] 8).
  - exists [4; 5], [[4]; [5]]. split; [apply W; look|]. split; [done|]. split; [done|]. repeat constructor.
  - simpl. lia.
  - assert (h' !! 4 = Some (o_str "ab")) as H4 by (apply W; look).
    assert (h' !! 5 = Some (Obj CNoneType VNone)) as H5 by (apply W; look). clear W Ho Hh.
    intros l Hl. apply elem_of_cons in Hl as [-> |Hl]; [unfold no_sequence; rewrite H4; exact I|].
    apply elem_of_cons in Hl as [-> |Hl]; [unfold no_sequence; rewrite H5; exact I|]. inversion Hl.
Qed.
Lemma not_num l : m_heap m_arr !! l = Some (o_str "ab") \/ m_heap m_arr !! l = Some (Obj CNoneType VNone) -> forall xs, l ∈ xs -> ~ all_numbers (m_heap m_arr) xs.
Proof. intros Hl xs Hin Ha. destruct (Ha l Hin) as (c & n & d & Hn & _). destruct Hl as [Hl|Hl]; rewrite Hl in Hn; inversion Hn. Qed.
Lemma m_arr_acceptable_at kw x : x ∈ [1; 2; 3; 7] -> acceptable_graph ienv kw (m_heap m_arr) x.
Proof.
  intros Hx.
  exists {[1; 2; 3; 4; 5; 6; 7; 8]}. split; [each Hx; inU|]. intros y Hy.
  assert (y ∈ [1; 2; 3; 4; 5; 6; 7; 8]) as Hy' by (revert Hy; clear; set_solver). clear Hy. rename Hy' into Hy.
  assert (m_heap m_arr !! 4 = Some (o_str "ab")) as H4 by look.
  assert (m_heap m_arr !! 5 = Some (Obj CNoneType VNone)) as H5 by look.
  each Hy.
  - eexists. split; [look|]. split.
    + split; [outside|]. split; [done|]. split; [by left|]. split.
      * intros z Hz. each Hz; intros o Ho; vm_compute in Ho; inversion Ho; done.
      * intros Ha. destruct (Ha 2 ltac:(left)) as (c & n & d & Hl & _). vm_compute in Hl. done.
    + intros z Hz. simpl in Hz. each Hz; inU.
  - eexists. split; [look|]. split; [|intros z Hz; simpl in Hz; each Hz].
    split; [outside|]. split; [done|]. split; [done|]. split; [simpl; lia|]. split; [done|]. repeat constructor.
  - eexists. split; [look|]. split; [|intros z Hz; simpl in Hz; each Hz; inU].
    split; [outside|]. split; [done|]. split; [done|]. split; [simpl; lia|]. split; [done|]. split.
    + apply plain_rows; [exact ienv_ok|simpl; lia|]. intros z Hz.
      repeat (apply elem_of_cons in Hz as [-> |Hz]; [vm_compute; exact I|]). inversion Hz.
    + apply (row_cases (items_fine ienv (m_heap m_arr)) 2 2 [4; 5; 6; 4]); [|simpl; lia|].
      * split; [intros z Hz; each Hz|]. intros _ z n Hz. each Hz.
      * intros i Hi. assert (i = 0 \/ i = 1)%nat as [-> | ->] by lia; simpl; (split; [intros z Hz; each Hz; intros o Ho; vm_compute in Ho; inversion Ho; done|]).
        -- intros Ha. exfalso. eapply (not_num 4); [by left|left|exact Ha].
        -- intros Ha. exfalso. eapply (not_num 4); [by left|right; left|exact Ha].
  - eexists. split; [look|]. split; [|intros z Hz; simpl in Hz; each Hz].
    split; [outside|]. split; [done|]. split; [by left|]. split; [look|]. unfold ascii_name. inU.
  - eexists. split; [look|]. split; [by fine_leaf|]. intros z Hz. simpl in Hz. each Hz.
  - eexists. split; [look|]. split; [by fine_leaf|]. intros z Hz. simpl in Hz. each Hz.
  - eexists. split; [look|]. split; [|intros z Hz; simpl in Hz; each Hz; inU].
    split; [outside|]. split; [done|]. split; [done|]. split; [simpl; lia|]. split; [done|]. split.
    + intros h' dims ys z _ Hd Hlt. destruct dims; [done|]. simpl in Hlt. lia.
    + apply (row_cases (items_fine ienv (m_heap m_arr)) 2 1 [4; 8]); [|simpl; lia|].
      * split; [intros z Hz; each Hz|]. intros _ z n Hz. each Hz.
      * intros i Hi. assert (i = 0)%nat as -> by lia. simpl. split.
        -- intros z Hz. each Hz; [intros o Ho; vm_compute in Ho; by inversion Ho|exact list8_fine].
        -- intros Ha. exfalso. eapply (not_num 4); [by left|left|exact Ha].
  - eexists. split; [look|]. split; [|intros z Hz; simpl in Hz; each Hz; inU].
    split; [outside|]. split; [done|]. split; [by left|]. split.
    + intros z Hz. each Hz; intros o Ho; vm_compute in Ho; by inversion Ho.
    + intros Ha. exfalso. eapply (not_num 4); [by left|left|exact Ha].
Qed.
Lemma m_arr_ok : graph_ok ienv (m_heap m_arr) 1.
Proof.
  set (h := m_heap m_arr).
  assert (graph_ok ienv h 2) as G2.
  { np_leaf ltac:(apply st_strarr; [|done|lia|]).
    - split; [simpl; lia|]. split; [|done]. simpl. repeat constructor. lia.
    - repeat (apply Forall_cons; [by split; vm_compute|]). apply Forall_nil. }
  assert (graph_ok ienv h 4) as G4 by np_leaf ltac:(by apply st_str).
  assert (graph_ok ienv h 5) as G5 by np_leaf ltac:(by apply st_none).
  assert (graph_ok ienv h 6) as G6 by np_leaf ltac:(by apply st_num).
  assert (graph_ok ienv h 8) as G8.
  { np_leaf ltac:(apply st_seq; [by left|]). intros Ha. exfalso. eapply (not_num 4); [left; look|left|exact Ha]. }
  assert (graph_ok ienv h 3) as G3.
  { np_leaf ltac:(apply st_objarr; [|done| | |]).
    - split; [simpl; lia|]. split; [|done]. simpl. repeat constructor. lia.
    - repeat (apply Forall_cons; [exact I|]). apply Forall_nil.
    - right. exists 4, 4. split; [left|]. split; [left|]. left. look.
    - apply (row_cases (fun r => all_numbers h r -> lossless h r) 2 2 [4; 5; 6; 4]); [intros _; left; intros z c n Hz; each Hz|simpl; lia|].
      intros i Hi Ha. exfalso. assert (i = 0 \/ i = 1)%nat as [-> | ->] by lia; simpl in Ha.
      + eapply (not_num 4); [left; look|left|exact Ha].
      + eapply (not_num 4); [left; look|right; left|exact Ha]. }
  assert (graph_ok ienv h 7) as G7.
  { np_leaf ltac:(apply st_objarr; [|done| | |]).
    - split; [simpl; lia|]. split; [|done]. simpl. constructor.
    - repeat (apply Forall_cons; [exact I|]). apply Forall_nil.
    - right. exists 4, 4. split; [left|]. split; [left|]. left. look.
    - apply (row_cases (fun r => all_numbers h r -> lossless h r) 2 1 [4; 8]); [intros _; left; intros z c n Hz; each Hz|simpl; lia|].
      intros i Hi Ha. exfalso. assert (i = 0)%nat as -> by lia; simpl in Ha.
      eapply (not_num 4); [left; look|left|exact Ha]. }
  np_leaf ltac:(apply st_seq; [by left|]). intros Ha. destruct (Ha 2 ltac:(left)) as (c & n & d & Hl & _). vm_compute in Hl. done.
Qed.
Lemma strarr_sample :
  let vs := [str "ab"; []; str "xyz"; str "c"] in
  m_heap m_arr !! 2 = Some (Obj CNdarray (VStrArr 3 [2; 2] vs)) /\ setting C0 ienv [] p_ab m_arr f0 /\
  shape_ok [2; 2] /\ N.of_nat (length vs) = size_of [2; 2] /\ Forall (fits_width 3) vs /\ Forall (fun s => encodable s = true) vs.
Proof.
  split; [look|]. split; [apply setting0; vm_compute; lia|]. split; [split; [simpl; lia|]; split; [simpl; repeat constructor; lia|done]|]. split; [done|].
  split; [|repeat constructor]. repeat (apply Forall_cons; [by split; vm_compute|]). apply Forall_nil.
Qed.
Lemma objarr_sample :
  m_heap m_arr !! 3 = Some (Obj CNdarray (VObjArr [2; 2] [4; 5; 6; 4])) /\ graph_ok ienv (m_heap m_arr) 3 /\
  acceptable_graph ienv [] (m_heap m_arr) 3 /\
  m_heap m_arr !! 7 = Some (Obj CNdarray (VObjArr [2] [4; 8])) /\ graph_ok ienv (m_heap m_arr) 7 /\
  acceptable_graph ienv [] (m_heap m_arr) 7.
Proof.
  split; [look|]. split; [eapply (graph_ok_ref _ _ 1); [exact m_arr_ok|look|inU]|]. split; [apply m_arr_acceptable_at; inU|].
  split; [look|]. split; [eapply (graph_ok_ref _ _ 1); [exact m_arr_ok|look|inU]|]. apply m_arr_acceptable_at. inU.
Qed.
