(** * DamageApi: what load does with damaged groups *)
From Verif Require Import Base Utf8 Dec Num PyObj H5 Env Create Dump LoadFns LoadModel Registry RegistryStd Spec RoundTrip
  Api DumpClosed ApiProofs DumpEnv Reach Instance Samples SampleProofs Cyclic FileProofs Damage.
From Coq Require Import Lia ZifyBool ZifyN.
Local Open Scope N_scope.
Local Open Scope list_scope.

(** The node 'data' of the group at [p] is a group with the property [P] or contains one.
    [legacy]: a file of hickle 4; it contains no sparse matrices, whose members are loaded
    with other types than they have. *)
Definition damaged_at (P : env -> loader -> file -> addr -> Prop) (C : config) (f : file) (p : pystr) : Prop :=
  exists root ra a chain legacy,
    get_path f p = Some root /\ node_attrs f root = ra /\
    detect (node_attrs f root_addr) ra = Ok (if legacy : bool then V4 else V5) /\
    options_of f root legacy = Ok chain /\
    child f root n_data = Some a /\
    (legacy = true -> forall b n pt t c, get_node f b = Some n ->
       loads_as (c_env C) (loader_of (c_world C) chain legacy) f n pt t c -> pt <> return_first) /\
    let LD := loader_of (c_world C) chain legacy in inside (c_env C) LD f (P (c_env C) LD f) a.

Lemma load_damaged (P : env -> loader -> file -> addr -> Prop) C writable f p m f' r o :
  (forall E LD f a, P E LD f a -> place_twice E LD f a \/ dict_twice E LD f a \/ dict_gap E LD f a) ->
  (forall a l, Permutation (e_order (c_env C) a l) l) -> 0 < m_next m ->
  writable = false \/ has_table f p -> damaged_at P C f p ->
  load_file C writable f p m = (f', r, o) -> exists e, r = Err e.
Proof.
  intros HP HO Hm Hw (root & ra & a & chain & legacy & Hp & Hra & Hdet & Hopt & Hc & HM & Hd) H.
  assert (w' : writable = false \/ exists t, child f root n_table = Some t).
  { destruct Hw as [?|(root' & t & H1 & H2)]; [by left|]. rewrite Hp in H1. injection H1 as <-. right. eauto. }
  unfold load_file in H. rewrite Hp in H.
  destruct (get_node f root) as [n|] eqn:En; [|injection H as _ <- _; by eexists].
  assert (nd_attrs n = ra) as Ea by (unfold node_attrs in Hra; by rewrite En in Hra).
  destruct (is_group n); [|injection H as _ <- _; by eexists].
  rewrite Ea, Hdet in H.
  assert (load_root C writable f root m = (f', r, o)) as H' by (by destruct legacy).
  clear H. unfold load_root in H'. rewrite Hra, Hdet in H'.
  assert (match options_of f root legacy with
      | Err e => (f, Err e, false)
      | Ok chain =>
          match load_table f root writable with
          | (f', Err e) => (f', Err e, false)
          | (f', Ok overlay) => (f', load_data C chain legacy f' root m, overlay)
          end
      end = (f', r, o)) as H by (by destruct legacy).
  clear H'. rewrite Hopt in H. destruct (load_table f root writable) as [f1 [ov|e]] eqn:Et; [|injection H as _ <- _; by eexists].
  assert (f1 = f) as ->. { by eapply load_table_same. }
  injection H as _ <- _. unfold load_data. rewrite Hc.
  destruct (load_ _ _ _ _ _ _) as [[s1 v]|e] eqn:El; [|by eexists]. exfalso.
  apply (inside_damage _ _ _ _ (HP _ _ _)) in Hd.
  refine (proj1 (proj2 (load_ok (c_env C) HO (loader_of (c_world C) chain legacy) f HM (c_fuel C) a (Lst m ∅) s1 v _ El)) Hd).
  split; simpl; [done| |]; intros; by rewrite lookup_empty in *.
Qed.

Lemma load_twice C writable f p m f' r o :
  (forall a l, Permutation (e_order (c_env C) a l) l) -> 0 < m_next m -> writable = false \/ has_table f p ->
  damaged_at place_twice C f p -> load_file C writable f p m = (f', r, o) -> exists e, r = Err e.
Proof. apply load_damaged. auto. Qed.
Lemma load_dict_twice C writable f p m f' r o :
  (forall a l, Permutation (e_order (c_env C) a l) l) -> 0 < m_next m -> writable = false \/ has_table f p ->
  damaged_at dict_twice C f p -> load_file C writable f p m = (f', r, o) -> exists e, r = Err e.
Proof. apply load_damaged. auto. Qed.
Lemma load_dict_gap C writable f p m f' r o :
  (forall a l, Permutation (e_order (c_env C) a l) l) -> 0 < m_next m -> writable = false \/ has_table f p ->
  damaged_at dict_gap C f p -> load_file C writable f p m = (f', r, o) -> exists e, r = Err e.
Proof. apply load_damaged. auto. Qed.

(** ** Damaging a file *)

(** A link is taken out of a group. *)
Definition unlink (a : addr) (nm : pystr) (f : file) : file :=
  update_node f a (fun n => match nd_body n with
    | BGroup l => Node (nd_name n) (nd_attrs n) (BGroup (List.filter (fun k => negb (bool_decide (fst k = nm))) l))
    | BData _ => n
    end).
(** An attribute of a node is changed. *)
Definition write_attr (a : addr) (k : pystr) (v : attrv) (f : file) : file := update_node f a (set_attr k v).
(** The node at a path. *)
Definition at_path (f : file) (p : string) : addr := default 0 (get_path f (str p)).

(** ** Samples *)
Definition m_two : mem :=
  mem_of [o_list [2; 3]; o_str "ab"; o_str "cd"; o_tuple []; o_dict [(2, 3); (3, 2)]; o_list [2; 4]].
(** ["ab", "cd"], {"ab": "cd", "cd": "ab"} and ["ab", ()] *)
Definition f_list : file := fst (dumped m_two 1).
Definition f_dict : file := fst (dumped m_two 5).
Definition f_empty : file := fst (dumped m_two 6).

(** Two members with index 0; two members with index 0; the first member taken away. *)
Definition f_list2 : file := write_attr (at_path f_list "/data/data1") a_item_index (AInt 0) f_list.
Definition f_dict2 : file := write_attr (at_path f_dict "/data/""cd""") a_key_idx (AInt 0) f_dict.
Definition f_dict1 : file := unlink (at_path f_dict "/data") (str """ab""") f_dict.

Lemma node_here (f : file) a (Q : node -> Prop) :
  match get_node f a with Some n => Q n | None => False end -> exists n, get_node f a = Some n /\ Q n.
Proof. destruct (get_node f a) as [n|]; [|done]. intros H. by exists n. Qed.

Definition LD0 : loader := loader_of std_world [None] false.

Lemma loads_as_intro f n c b cont memo :
  resolve_type ienv false f n = Ok (Resolved c b b cont) -> ld_load LD0 c b = Ok (c, memo) ->
  loads_as ienv LD0 f n c b cont.
Proof. intros H1 H2. exists (Resolved c b b cont), memo. auto. Qed.
Lemma str_no_empty f n : resolve_type ienv false f n = Ok (Resolved CStr (str "str") (str "str") false) ->
  no_empty_tuple ienv LD0 f n.
Proof.
  intros Hr. exists CStr, (str "str"), false. split; [|split].
  - eapply loads_as_intro; [exact Hr|look].
  - clear. done.
  - vm_compute. clear. discriminate.
Qed.

Lemma sample_damaged (P : env -> loader -> file -> addr -> Prop) (f : file) (p : string) root a :
  get_path f (str p) = Some root -> detect (node_attrs f root_addr) (node_attrs f root) = Ok V5 ->
  options_of f root false = Ok [None] -> child f root n_data = Some a ->
  P ienv LD0 f a -> damaged_at P C0 f (str p).
Proof.
  intros H1 H2 H3 H4 H5. exists root, (node_attrs f root), a, [None], false.
  do 5 (split; [done|]). split; [by intros [=]|]. apply inside_self. exact H5.
Qed.


Lemma f_list2_damaged : damaged_at place_twice C0 f_list2 (str "/").
Proof.
  apply (sample_damaged _ f_list2 "/" 0 2); [look|look|look|look|].
  destruct (node_here f_list2 2 (fun n => resolve_type ienv false f_list2 n = Ok (Resolved CList (str "list") (str "list") true) /\
    links n = [(str "data0", 5); (str "data1", 8)])) as (n & Hn & Hr & Hl); [vm_compute; split; reflexivity|].
  destruct (node_here f_list2 5 (fun n => resolve_type ienv false f_list2 n = Ok (Resolved CStr (str "str") (str "str") false) /\
    seq_place (str "data0") n = Some 0%nat)) as (n1 & Hn1 & Hr1 & Hp1); [vm_compute; split; reflexivity|].
  destruct (node_here f_list2 8 (fun n => resolve_type ienv false f_list2 n = Ok (Resolved CStr (str "str") (str "str") false) /\
    seq_place (str "data1") n = Some 0%nat)) as (n2 & Hn2 & Hr2 & Hp2); [vm_compute; split; reflexivity|].
  exists n, CList, (str "list"), (str "data0"), 5, n1, (str "data1"), 8, n2, 0%nat.
  split; [exact Hn|]. split; [eapply loads_as_intro; [exact Hr|look]|].
  split; [look|]. rewrite Hl. split; [left|]. split; [exact Hn1|]. split; [right; left|]. split; [exact Hn2|].
  split; [apply (bool_decide_unpack _); look|]. split; [exact Hp1|]. split; [exact Hp2|].
  split; by apply str_no_empty.
Qed.
Lemma f_dict2_damaged : damaged_at dict_twice C0 f_dict2 (str "/").
Proof.
  apply (sample_damaged _ f_dict2 "/" 0 2); [look|look|look|look|].
  destruct (node_here f_dict2 2 (fun n => resolve_type ienv false f_dict2 n = Ok (Resolved CDict (str "dict") (str "dict") true) /\
    links n = [(str """ab""", 5); (str """cd""", 8)])) as (n & Hn & Hr & Hl); [vm_compute; split; reflexivity|].
  destruct (node_here f_dict2 5 (fun n => resolve_type ienv false f_dict2 n = Ok (Resolved CStr (str "str") (str "str") false) /\
    dict_place n = Some 0%nat)) as (n1 & Hn1 & Hr1 & Hp1); [vm_compute; split; reflexivity|].
  destruct (node_here f_dict2 8 (fun n => resolve_type ienv false f_dict2 n = Ok (Resolved CStr (str "str") (str "str") false) /\
    dict_place n = Some 0%nat)) as (n2 & Hn2 & Hr2 & Hp2); [vm_compute; split; reflexivity|].
  exists n, CDict, (str "dict"), (str """ab"""), 5, n1, (str """cd"""), 8, n2, 0%nat.
  split; [exact Hn|]. split; [eapply loads_as_intro; [exact Hr|look]|].
  split; [look|]. rewrite Hl. split; [left|]. split; [exact Hn1|]. split; [right; left|]. split; [exact Hn2|].
  split; [apply (bool_decide_unpack _); look|]. split; [exact Hp1|]. split; [exact Hp2|].
  split; by apply str_no_empty.
Qed.
Lemma f_dict1_damaged : damaged_at dict_gap C0 f_dict1 (str "/").
Proof.
  apply (sample_damaged _ f_dict1 "/" 0 2); [look|look|look|look|].
  destruct (node_here f_dict1 2 (fun n => resolve_type ienv false f_dict1 n = Ok (Resolved CDict (str "dict") (str "dict") true) /\
    links n = [(str """cd""", 8)])) as (n & Hn & Hr & Hl); [vm_compute; split; reflexivity|].
  destruct (node_here f_dict1 8 (fun n => dict_place n = Some 1%nat /\ True)) as (n2 & Hn2 & Hp2 & _); [vm_compute; split; reflexivity|].
  exists n, CDict, (str "dict"), (str """cd"""), 8, n2, 0%nat, 1%nat.
  split; [exact Hn|]. split; [eapply loads_as_intro; [exact Hr|look]|].
  split; [look|]. split; [by left|]. rewrite Hl. split; [left|]. split; [exact Hn2|]. split; [exact Hp2|]. split; [lia|].
  intros nm3 a3 n3 Hi Hn3. apply elem_of_list_singleton in Hi. injection Hi as -> ->. rewrite Hn2 in Hn3. injection Hn3 as <-.
  rewrite Hp2. clear. discriminate.
Qed.
Lemma f_list_in_place :
  exists n s l, get_node f_list 2 = Some n /\ loads_as ienv LD0 f_list n CList (str "list") true /\
    ld_conts LD0 (str "list") = Some KList /\ load_ 10 ienv LD0 f_list 2 (Lst m0 ∅) = Ok (s, l) /\ map fst (links n) = [str "data0"; str "data1"].
Proof.
  destruct (node_here f_list 2 (fun n => resolve_type ienv false f_list n = Ok (Resolved CList (str "list") (str "list") true) /\
    map fst (links n) = [str "data0"; str "data1"])) as (n & Hn & Hr & Hl); [vm_compute; split; reflexivity|].
  assert (match load_ 10 ienv LD0 f_list 2 (Lst m0 ∅) with Ok _ => true | Err _ => false end = true) as Ho by look.
  destruct (load_ 10 ienv LD0 f_list 2 (Lst m0 ∅)) as [[s l]|]; [|clear -Ho; discriminate Ho].
  exists n, s, l. split; [exact Hn|]. split; [eapply loads_as_intro; [exact Hr|look]|]. split; [look|]. split; [reflexivity|exact Hl].
Qed.
