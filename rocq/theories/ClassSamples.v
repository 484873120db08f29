(** * ClassSamples: a list of ints and an array of bools meet the hypotheses of C14 and C37 *)
From Verif Require Import Base Utf8 Dec Num PyObj H5 Env Create Dump LoadFns LoadModel Registry RegistryStd Spec RoundTrip
  Api DumpClosed ApiProofs DumpEnv Instance Samples SampleProofs Cyclic ApiEnds Accept ApiAccept DumpKw Cases Count DumpTerm Table Layout DumpSamples.
From Coq Require Import Lia ZifyBool ZifyN.
Local Open Scope N_scope.
Local Open Scope list_scope.

Definition m_num : mem :=
  mem_of [o_list [2; 3]; o_int 1; o_int 2; Obj CNdarray (VObjArr [2] [5; 6]); Obj CBool (VNum (NB true)); Obj CBool (VNum (NB false))].
Lemma m_num_ok : graph_ok ienv (m_heap m_num) 1 /\ graph_ok ienv (m_heap m_num) 4.
Proof.
  set (h := m_heap m_num).
  assert (graph_ok ienv h 2) as G2 by np_leaf ltac:(by apply st_num).
  assert (graph_ok ienv h 3) as G3 by np_leaf ltac:(by apply st_num).
  assert (graph_ok ienv h 5) as G5 by np_leaf ltac:(by apply st_num).
  assert (graph_ok ienv h 6) as G6 by np_leaf ltac:(by apply st_num).
  split.
  - np_leaf ltac:(apply st_seq; [by left|]). intros _. right. right. exists (DInt W8). intros z c n Hz Hn.
    each Hz; vm_compute in Hn; by inversion Hn.
  - np_leaf ltac:(apply st_objarr; [|done| | |]).
    + split; [simpl; lia|]. split; [|done]. simpl. constructor.
    + repeat (apply Forall_cons; [exact I|]). apply Forall_nil.
    + right. exists 5, 5. split; [left|]. split; [left|]. left. look.
    + apply (row_cases (fun r => all_numbers h r -> lossless h r) 2 1 [5; 6]); [intros _; left; intros z c n Hz; each Hz|simpl; lia|].
      intros i Hi _. assert (i = 0)%nat as -> by lia. simpl. right. right. exists DBool. intros z c n Hz Hn.
      each Hz; vm_compute in Hn; by inversion Hn.
Qed.
Lemma m_num_acceptable kw x : x ∈ [1; 4] -> acceptable_graph ienv kw (m_heap m_num) x.
Proof.
  intros Hx.
  exists {[1; 2; 3; 4; 5; 6]}. split; [each Hx; inU|]. intros y Hy.
  assert (y ∈ [1; 2; 3; 4; 5; 6]) as Hy' by (revert Hy; clear; set_solver). clear Hy. rename Hy' into Hy.
  each Hy.
  - eexists. split; [look|]. split; [|intros z Hz; simpl in Hz; each Hz; inU].
    split; [outside|]. split; [done|]. split; [by left|]. split.
    + intros z Hz. each Hz; intros o Ho; vm_compute in Ho; inversion Ho; done.
    + intros _ z n Hz Hn. each Hz; vm_compute in Hn; inversion Hn; lia.
  - eexists. split; [look|]. split; [by fine_leaf|]. intros z Hz. simpl in Hz. each Hz.
  - eexists. split; [look|]. split; [by fine_leaf|]. intros z Hz. simpl in Hz. each Hz.
  - eexists. split; [look|]. split; [|intros z Hz; simpl in Hz; each Hz; inU].
    split; [outside|]. split; [done|]. split; [done|]. split; [simpl; lia|]. split; [done|]. split.
    + intros h' dims ys z _ Hd Hlt. destruct dims; [done|]. simpl in Hlt. lia.
    + apply (row_cases (items_fine ienv (m_heap m_num)) 2 1 [5; 6]); [|simpl; lia|].
      * split; [intros z Hz; each Hz|]. intros _ z n Hz. each Hz.
      * intros i Hi. assert (i = 0)%nat as -> by lia. simpl. split.
        -- intros z Hz. each Hz; intros o Ho; vm_compute in Ho; by inversion Ho.
        -- intros _ z n Hz Hn. each Hz; vm_compute in Hn; inversion Hn.
  - eexists. split; [look|]. split; [by fine_leaf|]. intros z Hz. simpl in Hz. each Hz.
  - eexists. split; [look|]. split; [by fine_leaf|]. intros z Hz. simpl in Hz. each Hz.
Qed.
Lemma m_num_classes : of_dtype (m_heap m_num) (DInt W8) [2; 3] /\ python_of (m_heap m_num) CBool [5; 6].
Proof.
  split; [|split; [left|]]; intros z Hz; each Hz; eexists; try eexists; try (split; [look|done]); look.
Qed.
