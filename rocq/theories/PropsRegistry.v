(** * PropsRegistry: the tables of loaders (C27, C28, C49) *)
From Verif Require Import Base Utf8 Dec Num PyObj H5 Env Create Dump LoadFns LoadModel Registry RegistryStd RegistryProofs.
From Coq Require Import Lia ZifyBool ZifyN.
Local Open Scope N_scope.
Local Open Scope list_scope.

(** ** C27: core loaders cannot be redefined

    [es]: any sequence of calls of register_class, refused ones included; [o]: any option. *)
Theorem C27_core_not_redefinable es b o :
  b ∈ [str "pickle"; str "!node-reference!"; str "!recover!"] ->
  loader_at (register_many core_registry es) o b = loader_at core_registry o b.
Proof.
  intros Hb. apply register_many_protected;
    (rewrite !elem_of_cons, elem_of_nil in Hb; destruct Hb as [-> |[-> |[-> |[]]]]; vm_compute; done).
Qed.
Print Assumptions C27_core_not_redefinable.
(** The same of every name enclosed in exclamation marks, once registered. *)
Theorem C27_quoted_not_redefinable g es b o :
  bang_name b = true -> loader_at g None b <> (None, None) ->
  loader_at (register_many g es) o b = loader_at g o b.
Proof. intros Hb. apply register_many_protected. unfold protected. by rewrite Hb. Qed.
Print Assumptions C27_quoted_not_redefinable.

(** User code registering a loader for its class under names of the core. *)
Definition user : pystr := str "user.module".
Definition by_user (b : string) (o : opt) : reg_entry :=
  Entry (COpaque user (str "Thing")) (str b) (Some (FNothing, user)) (Some (LNothing, user)) None true o.
Example C27_applies :
  snd (register_class core_registry (by_user "pickle" None)) = Err ValueError /\
  snd (register_class core_registry (by_user "!recover!" (Some (str "custom")))) = Err ValueError /\
  snd (register_class core_registry (by_user "mine" None)) = Ok tt /\
  loader_at core_registry None (str "pickle") = (Some LPickled, None) /\
  loader_at core_registry None (str "!recover!") = (Some LRecover, Some KRecover) /\
  loader_at core_registry None (str "!node-reference!") = (Some LNothing, Some KExpand).
Proof. repeat split; vm_compute; reflexivity. Qed.

(** The docstring of register_class lists dict_item among the names that cannot be
    modified; it can. *)
Theorem C27_dict_item_refuted :
  loader_at core_registry opt_4x (str "dict_item") = (Some LNothing, Some KFirst) /\
  let e := Entry (COpaque user (str "Thing")) (str "dict_item") (Some (FNothing, user)) (Some (LPickled, user)) None true opt_4x in
  snd (register_class core_registry e) = Ok tt /\
  loader_at (fst (register_class core_registry e)) opt_4x (str "dict_item") = (Some LPickled, Some KFirst).
Proof. repeat split; vm_compute; reflexivity. Qed.
Print Assumptions C27_dict_item_refuted.

(** ** C49: how classes of the core are dumped cannot be changed from outside

    [elsewhere] (RegistryProofs.v): the function is defined in a module outside hickle or in
    a loader module.  For [object], for [type] and its subclasses, and for the class that
    stands for dict items. *)
Theorem C49_core_classes g es o c :
  c = CObject \/ isinst c CType = true \/ isinst c CDictItem = true ->
  Forall dump_from_elsewhere es ->
  alist_get (o, c) (g_py (register_many g es)) = alist_get (o, c) (g_py g).
Proof. intros Hc. apply register_many_core. unfold core_only. destruct Hc as [-> |[-> | ->]]; [done|by rewrite orb_true_r|by rewrite !orb_true_r]. Qed.
Print Assumptions C49_core_classes.
(** The attempt is refused and changes nothing at all. *)
Theorem C49_refused g e m :
  re_cls e = CObject \/ isinst (re_cls e) CType = true \/ isinst (re_cls e) CDictItem = true ->
  (exists fn, re_dump e = Some (fn, m)) \/ (exists fn, re_load e = Some (fn, m)) \/ (exists k, re_cont e = Some (k, m)) ->
  elsewhere m -> register_class g e = (g, Err TypeError).
Proof.
  intros Hc. apply register_class_core_refused. unfold core_only.
  destruct Hc as [-> |[-> | ->]]; [done|by rewrite orb_true_r|by rewrite !orb_true_r].
Qed.
Print Assumptions C49_refused.
Definition for_class (c : cls) (m : string) : reg_entry :=
  Entry c (str "mine") (Some (FNothing, str m)) (Some (LNothing, str m)) None true None.
Example C49_applies :
  Forall dump_from_elsewhere [for_class CObject "user.module"; for_class (CSub user (str "Meta") CType) "hickle.loaders.load_user"] /\
  elsewhere (str "hickle.loaders.load_user") /\ isinst (CSub user (str "Meta") CType) CType = true /\
  ~ elsewhere (str "hickle.lookup").
Proof.
  split; [|split; [|split]].
  - repeat constructor.
    + exists (str "user"), [str "module"]. split; [vm_compute; reflexivity|]. split; vm_compute; discriminate.
    + exists (str "hickle"), [str "loaders"; str "load_user"]. split; [vm_compute; reflexivity|]. split; [vm_compute; discriminate|done].
  - exists (str "hickle"), [str "loaders"; str "load_user"]. split; [vm_compute; reflexivity|]. split; [vm_compute; discriminate|done].
  - reflexivity.
  - intros (a & r & H & _ & Hl). vm_compute in H. inversion H; subst. specialize (Hl eq_refl). vm_compute in Hl. discriminate.
Qed.
(** Functions are meant to be protected too, but the test asks whether the class that is
    registered is itself a function; the class of functions is not. *)
Theorem C49_functions_refuted :
  snd (register_class core_registry (for_class CFunction "user.module")) = Ok tt /\
  alist_get (None, CFunction) (g_py (fst (register_class core_registry (for_class CFunction "user.module"))))
    = Some (FNothing, str "mine", true) /\
  alist_get (None, CFunction) (g_py core_registry) = None.
Proof. repeat split; vm_compute; reflexivity. Qed.
Print Assumptions C49_functions_refuted.

(** ** C28: core loaders cannot be excluded: false for names in exclamation marks *)
Theorem C28_core_not_excludable_refuted :
  snd (register_class_exclude core_registry (str "!node-reference!") None) = Ok tt /\
  loader_at (fst (register_class_exclude core_registry (str "!node-reference!") None)) None (str "!node-reference!")
    = (Some LNothing, Some KNo) /\
  snd (register_class_exclude core_registry (str "!recover!") None) = Ok tt.
Proof. repeat split; vm_compute; reflexivity. Qed.
Print Assumptions C28_core_not_excludable_refuted.
(** What holds: dict_item and pickle are refused, whatever the option. *)
Theorem C28_listed_not_excludable_partial g b o :
  b = str "dict_item" \/ b = str "pickle" -> register_class_exclude g b o = (g, Err ValueError).
Proof. intros [-> | ->]; done. Qed.
Print Assumptions C28_listed_not_excludable_partial.
(** An exclusion changes nothing but the name given, under the option given. *)
Theorem C28_exclude_frame g b o b' o' :
  (b', o') <> (b, o) -> loader_at (fst (register_class_exclude g b o)) o' b' = loader_at g o' b'.
Proof.
  intros Hne. unfold register_class_exclude. destruct b as [|c b]; [done|].
  destruct (bool_decide _); [done|]. destruct (negb _); [done|]. unfold loader_at.
  destruct (forallb _ _); simpl; rewrite !alist_get_set; by rewrite !decide_False by congruence.
Qed.
Print Assumptions C28_exclude_frame.
