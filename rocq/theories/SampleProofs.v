(** * SampleProofs: the samples meet the hypotheses of the theorems *)
From Verif Require Import Base Utf8 Dec Num PyObj H5 Env Create Dump LoadFns LoadModel Registry RegistryStd Spec RoundTrip
  Api DumpClosed ApiProofs DumpEnv Instance Samples.
From Coq Require Import Lia ZifyBool ZifyN.
Local Open Scope N_scope.
Local Open Scope list_scope.

(** A list holding a string twice, an int, a dict with the keys 'abc' and 5, and a set. *)
Definition m_ex : mem :=
  mem_of [o_list [2; 3; 3; 4]; o_int 5; o_str "abc"; o_dict [(3, 2); (2, 5)]; o_set [2; 3]].

Ltac look := vm_compute; reflexivity.
Ltac ok_leaf k :=
  eapply graph_ok_intro; [look|k| intros ? Hk; repeat (apply elem_of_cons in Hk as [-> |Hk]; [done|]); by apply elem_of_nil in Hk
    |look|done|intros ? Hk; repeat (apply elem_of_cons in Hk as [-> |Hk]; [try assumption|]); by apply elem_of_nil in Hk].

Lemma m_ex_ok : graph_ok ienv (m_heap m_ex) 1.
Proof.
  set (h := m_heap m_ex).
  assert (graph_ok ienv h 2) as G2 by ok_leaf ltac:(by apply st_num).
  assert (graph_ok ienv h 3) as G3 by ok_leaf ltac:(apply st_str).
  assert (distinct_keys h [2; 3]) as D.
  { exists [HNum (FFin false 5 0) (FZero false); HStr (str "abc")]. split; [|apply (bool_decide_unpack _); look].
    repeat constructor; exists 1%nat; look. }
  assert (~ all_numbers h [2; 3]) as NA.
  { intros Ha. destruct (Ha 3 ltac:(right; left)) as (c & n & d & Hl & _). vm_compute in Hl. done. }
  assert (graph_ok ienv h 5) as G5 by ok_leaf ltac:(apply st_set; [done|done|intros Hn; by destruct (NA Hn)]).
  assert (graph_ok ienv h 4) as G4.
  { ok_leaf ltac:(idtac). apply st_dict; [by left| | |].
    - simpl. exists [HStr (str "abc"); HNum (FFin false 5 0) (FZero false)]. split; [|apply (bool_decide_unpack _); look].
      repeat constructor; exists 1%nat; look.
    - apply Forall_cons; [|apply Forall_cons; [|apply Forall_nil]]; eexists; (split; [look|]); (split; [done|]); (split; [done|]).
      + intros Hk. exfalso. revert Hk. apply (bool_decide_unpack _). look.
      + intros _. apply (bool_decide_unpack _). look.
    - apply Forall_cons; [|apply Forall_cons; [|apply Forall_nil]]; simpl; intros Ha; exfalso.
      + destruct (Ha 3 ltac:(left)) as (c & n & d & Hl & _). vm_compute in Hl. done.
      + destruct (Ha 5 ltac:(right; left)) as (c & n & d & Hl & _). vm_compute in Hl. done. }
  ok_leaf ltac:(apply st_seq; [by left|]). intros Ha.
  destruct (Ha 3 ltac:(right; left)) as (c & n & d & Hl & _). vm_compute in Hl. done.
Qed.

Lemma f0_tree : tree f0.
Proof.
  assert (forall a n, get_node f0 a = Some n -> a = root_addr /\ n = Node (str "/") ∅ (BGroup [])) as H.
  { intros a n. unfold get_node, f0. simpl. rewrite lookup_singleton_Some. by intros [<- <-]. }
  split.
  - intros a n Hn. apply H in Hn as [-> _]. done.
  - by eexists.
  - intros a n nm c Hn Hin. apply H in Hn as [_ ->]. inversion Hin.
  - intros a n Hn. apply H in Hn as [_ ->]. constructor.
  - intros a n nm a' n' nm' c Hn _ Hin. apply H in Hn as [_ ->]. inversion Hin.
Qed.
Lemma mem_of_free l : free_above (mem_of l).
Proof.
  intros x Hx. unfold mem_of in *. cbn [m_heap m_next] in *. remember (empty_tuple :: l) as l' eqn:El. clear El l.
  apply not_elem_of_list_to_map_1. intros Hin. apply elem_of_list_fmap in Hin as ([k o] & -> & Hin). simpl in Hx.
  apply elem_of_zip_l in Hin. apply elem_of_list_fmap in Hin as (i & -> & Hi). apply elem_of_seq in Hi. lia.
Qed.
