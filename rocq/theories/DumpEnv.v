(** * DumpEnv: what dump asks the outside world for

    Writing a file does not depend on the order in which HDF5 yields the members of a
    group, on how numbers are parsed, nor on which classes can be imported: these are the
    loading process's. *)
From Verif Require Import Base Utf8 Dec Num PyObj H5 Env Create Dump LoadFns LoadModel Registry Api.

(** [E] as seen by another process which iterates, parses and imports in its own way. *)
Definition other_loader (E : env) (o : addr -> list (pystr * addr) -> list (pystr * addr))
    (fp : pystr -> option dy) (cp : pystr -> option (dy * dy)) (im : cls -> bool) : env :=
  Env o (e_frepr E) fp (e_crepr E) cp (e_ragged E) (e_pickles E) (e_pickles_cls E) im.

Section Other.
Context (E : env) (o : addr -> list (pystr * addr) -> list (pystr * addr))
    (fp : pystr -> option dy) (cp : pystr -> option (dy * dy)) (im : cls -> bool).
Local Notation E' := (other_loader E o fp cp im).

Lemma check_rest_other h l : forall d, check_rest E' h d l = check_rest E h d l.
Proof.
  induction l as [|x l IH]; intros d; simpl; [done|]. destruct (h !! x) as [ob|]; [|done].
  change (has_dims E' h x ob) with (has_dims E h x ob). destruct (has_dims E h x ob) as [[]|]; simpl; try done.
  destruct (result_type _ _); try done.
  destruct (oval ob); try done; destruct (1 <? length_hint ob); done.
Qed.
Lemma list_items_other h l : create_list_items E' h l = create_list_items E h l.
Proof.
  unfold create_list_items. destruct l as [|x l]; [done|]. unfold check_iterable_item_type.
  destruct (h !! x) as [ob|]; [|done].
  match goal with |- context[if ?b then _ else _] => destruct b end; [done|].
  change (has_dims E' h x ob) with (has_dims E h x ob).
  destruct (has_dims E h x ob) as [[]|]; simpl; try done.
  repeat (case_match; try done); by rewrite ?check_rest_other.
Qed.
Lemma dict_subs_other h l : forall nx i, dict_subs E' h nx i l = dict_subs E h nx i l.
Proof.
  induction l as [|[k v] l IH]; intros nx i; simpl; [done|]. destruct (h !! k) as [ob|]; [|done].
  change (key_name E' ob) with (key_name E ob). destruct (key_name E ob) as [[nm|]|]; simpl; [|by rewrite IH|done].
  destruct (utf8_encode _); simpl; [by rewrite IH|done].
Qed.
Lemma listlike_other h ob : create_listlike E' h ob = create_listlike E h ob.
Proof. unfold create_listlike. destruct (_ || _); [done|]. destruct (oval ob); try done. apply list_items_other. Qed.
Lemma create_other fn h nx ob : create E' fn h nx ob = create E fn h nx ob.
Proof.
  destruct fn; try done; simpl.
  - apply listlike_other.
  - unfold create_setlike. destruct (oval ob); try done. apply list_items_other.
  - unfold create_dictlike. destruct (oval ob); try done. by rewrite dict_subs_other.
  - unfold create_np_array. destruct (oval ob) eqn:Eo; try done;
      repeat match goal with |- context[match ?l with nil => _ | cons _ _ => _ end] => is_var l; destruct l; try done end;
      try (destruct (tolist _ _ _); by rewrite list_items_other).
    destruct (h !! _) as [io|]; [|done]. destruct (isinst _ _); [|done]. by rewrite listlike_other.
Qed.
Lemma dump_node_other L kw tbl ob p nm at_ s : dump_node E' L kw tbl ob p nm at_ s = dump_node E L kw tbl ob p nm at_ s.
Proof.
  unfold dump_node. destruct (L _) as [[pt [[fn base] memo]]|]; [|done]. by rewrite create_other.
Qed.
Lemma dump_subs_ext r1 r2 l : (forall x nm at_ s, r1 x nm at_ s = r2 x nm at_ s) -> forall s, dump_subs r1 l s = dump_subs r2 l s.
Proof.
  intros Hr. induction l as [|[[nm x] at_] l IH]; intros s; simpl; [done|]. rewrite Hr.
  destruct (r2 x nm at_ s) as [s1 [?|?]]; [apply IH|done].
Qed.
Lemma dump_other L kw tbl fuel : forall x p nm at_ s, dump_ fuel E' L kw tbl x p nm at_ s = dump_ fuel E L kw tbl x p nm at_ s.
Proof.
  induction fuel as [|fuel IH]; intros x p nm at_ s; [done|]. cbn [dump_].
  destruct (d_memo s !! x); [done|]. destruct (d_heap s !! x); [|done].
  rewrite dump_node_other. destruct (dump_node _ _ _ _ _ _ _ _ _) as [s1 [[[a b] subs]|]]; [|done].
  apply dump_subs_ext. auto.
Qed.
End Other.

(** The same process with another environment. *)
Definition with_env (C : config) (E : env) : config := Config E (c_world C) (c_pyver C) (c_v3 C) (c_fuel C).

Lemma dump_file_other C o fp cp im kw opts x p m f :
  dump_file (with_env C (other_loader (c_env C) o fp cp im)) kw opts x p m f = dump_file C kw opts x p m f.
Proof.
  unfold dump_file. destruct (root_for_dump f p) as [f1 [root|]]; [|done]. unfold dump_root.
  change (stamp (with_env C (other_loader (c_env C) o fp cp im)) f1 root) with (stamp C f1 root).
  destruct (with_options _ _ _) as [f2 [chain|]]; [|done]. unfold dump_into.
  destruct (create_node _ _ _ _) as [[f3 t]|]; [|done]. simpl. by rewrite dump_other.
Qed.
