(** * PropsModes: the mode decides what happens to an existing file (C63)

    [h_disk H !! k]: what the file system has under the name (or in the file-like object)
    [k]: nothing, an HDF5 file, something else.  [key_of H f]: the file the argument [f]
    means.  [first mode]: the first letter of the mode, 'b' apart; 119 is 'w'. *)
From Verif Require Import Base Utf8 Dec Num PyObj H5 Env Create Dump LoadFns LoadModel Registry RegistryStd Api DumpClosed ApiProofs Instance Samples
  SampleProofs ApiTop FileIO FileIOProofs FileProofs PropsFile PropsCalls Modes.
Local Open Scope N_scope.
Local Open Scope list_scope.

(** No other file changes: any argument, mode and outcome. *)
Theorem C63_other_files C H x f mode path fn opts kw k :
  key_of H f <> Some k ->
  h_disk (fst (dump C H x f mode path fn opts kw)) !! k = h_disk H !! k /\
  h_disk (fst (load C H f path fn)) !! k = h_disk H !! k.
Proof.
  intros Hk. split.
  - destruct (dump C H x f mode path fn opts kw) as [H' r] eqn:E. exact (dump_other _ _ _ _ _ _ _ _ _ _ _ _ E Hk).
  - destruct (load C H f path fn) as [H' r] eqn:E. exact (load_other _ _ _ _ _ _ _ _ E Hk).
Qed.
Print Assumptions C63_other_files.

(** Unless the mode begins with 'w', everything an existing HDF5 file holds outside the
    target stays, whatever the outcome. *)
Theorem C63_keeps_content C H x f mode path fn opts kw H' r k g :
  host_ok H -> c_world C = std_world -> free_above (h_mem H) -> is_group_arg f = false -> key_of H f = Some k -> first mode <> Some 119 ->
  h_disk H !! k = Some (Some g) -> tree g -> dump C H x f mode path fn opts kw = (H', r) ->
  exists g', h_disk H' !! k = Some (Some g') /\ tree g' /\ forall cs at_ b, content g cs = Some (at_, b) ->
    (~ cs `prefix_of` components path -> content g' cs = Some (at_, b)) /\
    (cs <> components path ->
       content g' cs = Some (at_, b) \/
       exists l ls, b = BGroup l /\ content g' cs = Some (at_, BGroup (l ++ ls)) /\ Forall (fun k => f_next g <= snd k) ls).
Proof. intros Hok HW. exact (dump_keeps C H x f mode path fn opts kw H' r k g Hok ltac:(rewrite HW; exact std_world_ok)). Qed.
Print Assumptions C63_keeps_content.

(** Mode w: the outcome, all files included, is the same whatever the file held. *)
Theorem C63_replaces C H x k mode path fn opts kw c :
  no_b mode = str "w" -> is_open H k = false ->
  dump C (with_file H k c) x (FPath k) mode path fn opts kw = dump C H x (FPath k) mode path fn opts kw.
Proof. exact (dump_replaces C H x k mode path fn opts kw c). Qed.
Print Assumptions C63_replaces.

(** Modes x and w-: an existing file, HDF5 or not, is refused and nothing changes. *)
Theorem C63_exclusive C H x k mode path fn opts kw c :
  no_b mode = str "x" \/ no_b mode = str "w-" -> h_disk H !! k = Some c ->
  exists e, dump C H x (FPath k) mode path fn opts kw = (H, Err e) /\ (is_open H k = false -> e = OSError).
Proof. exact (dump_exclusive C H x k mode path fn opts kw c). Qed.
Print Assumptions C63_exclusive.

(** Mode r: dump fails and writes nothing. *)
Theorem C63_reading C H x f mode path fn opts kw H' r :
  is_group_arg f = false -> no_b mode = str "r" ->
  dump C H x f mode path fn opts kw = (H', r) -> h_disk H' = h_disk H /\ r <> Ok tt.
Proof. exact (dump_reading C H x f mode path fn opts kw H' r). Qed.
Print Assumptions C63_reading.

(** "new" is made with x and holds something at '/a'; appending to '/b' keeps it, writing
    does not; x and r are refused. *)
Definition H_new : host := fst (dump C0 H0 1 (FPath (str "new")) (str "x") (str "/a") NameNone [] []).
Definition members_of (H : host) (k : pystr) : option (list pystr) :=
  match h_disk H !! k with Some (Some g) => members_at g [] | _ => None end.
Lemma H_new_ok : host_ok H_new.
Proof. destruct (dump C0 H0 1 (FPath (str "new")) (str "x") (str "/a") NameNone [] []) as [H' r] eqn:E.
  unfold H_new. rewrite E. exact (proj1 (dump_call _ _ _ _ _ _ _ _ _ _ _ H0_ok E)). Qed.
Example C63_applies :
  host_ok H_new /\ key_of H_new (FPath (str "new")) = Some (str "new") /\ first (str "ab") = Some 97 /\ is_open H_new (str "new") = false /\
  members_of H_new (str "new") = Some [str "a"] /\
  map (fun mode => let '(H', r) := dump C0 H_new 1 (FPath (str "new")) (str mode) (str "/b") NameNone [] [] in (members_of H' (str "new"), r))
    ["a"; "r+"; "wb"; "x"; "r"; "a+"]%string =
  [(Some [str "a"; str "b"], Ok tt); (Some [str "a"; str "b"], Ok tt); (Some [str "b"], Ok tt);
   (Some [str "a"], Err OSError); (Some [str "a"], Err ValueError); (Some [str "a"], Err ValueError)].
Proof. split; [exact H_new_ok|]. repeat split; look. Qed.
