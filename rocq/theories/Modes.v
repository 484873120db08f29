(** * Modes: what a dump by file name does to the files of the system *)
From Verif Require Import Base Utf8 Dec Num PyObj H5 Env Create Dump LoadFns LoadModel Registry RegistryStd Api DumpClosed ApiProofs ApiTop
  FileIO FileIOProofs.
From Coq Require Import Lia ZifyBool ZifyN.
Local Open Scope N_scope.
Local Open Scope list_scope.

(** The file an argument means. *)
Definition like_key (f : fobj) : option (list N) := match f with FLike k _ _ _ _ => Some k | _ => None end.
Definition key_of (H : host) (f : fobj) : option (list N) :=
  match f with
  | FPath k => Some k
  | FGroup i _ => hd_key <$> h_open H !! i
  | FLike k _ _ _ _ => Some k
  | FPair g _ => like_key g
  | FDict (Some g) _ => like_key g
  | _ => None
  end.
(** The first letter of a mode, 'b' apart. *)
Definition first (mode : pystr) : option N := head (no_b mode).

Lemma open_like_key H f path mode H1 i p c : open_like H f path mode = (H1, Ok (i, p, c)) ->
  exists k w md, like_key f = Some k /\ opened H H1 i k w /\ c = true /\ p = path /\ h5_open H true k md = (H1, Ok i) /\ head md = first mode.
Proof.
  intros Ho. pose proof (open_like_spec _ _ _ _ _ _ Ho) as (-> & -> & k0 & w0 & O0 & _). unfold open_like in Ho.
  destruct f as [| |k closed reads seeks writes| | |]; try discriminate Ho.
  destruct closed; [discriminate Ho|]. destruct (reads && seeks); [|discriminate Ho].
  destruct mode as [|c m]; [discriminate Ho|].
  destruct (_ && _); [discriminate Ho|]. destruct (negb _ && _) eqn:Ec; [discriminate Ho|].
  destruct (h5_open _ _ _ _) as [H2 [j|e]] eqn:Eo; [|discriminate Ho]. injection Ho as <- <-.
  pose proof (h5_open_spec _ _ _ _ _ _ Eo) as (w & O & _).
  exists k, w. eexists. split; [done|]. split; [done|]. split; [done|]. split; [done|]. split; [exact Eo|].
  unfold first, no_b. destruct (N.eqb_spec c 114) as [-> |Hc]; [done|]. cbn [head List.filter].
  destruct (N.eqb_spec c 98) as [-> |]; [|done]. exfalso. revert Ec. rewrite andb_false_r. done.
Qed.
Lemma opener_key H f path mode fn H1 i p c : file_opener H f path mode fn = (H1, Ok (i, p, c)) -> is_group_arg f = false ->
  exists k w like md, key_of H f = Some k /\ opened H H1 i k w /\ c = true /\ components p = components path /\ h5_open H like k md = (H1, Ok i) /\
    head md = first mode.
Proof.
  intros Ho Hg. unfold file_opener in Ho.
  assert (forall g, open_like H g (with_slash path) mode = (H1, Ok (i, p, c)) -> like_key g = key_of H f ->
    exists k w like md, key_of H f = Some k /\ opened H H1 i k w /\ c = true /\ components p = components path /\ h5_open H like k md = (H1, Ok i) /\
      head md = first mode) as Hlike.
  { intros g Hgo Hk. destruct (open_like_key _ _ _ _ _ _ _ _ Hgo) as (k & w & md & A1 & A2 & A3 & -> & A5 & A6). exists k, w, true, md.
    rewrite <- Hk. rewrite components_with_slash. done. }
  destruct f as [k|j base|k ? ? ? ?|g s|g n|]; [|discriminate Hg|..].
  - destruct (h5_open _ _ _ _) as [H2 [j|e]] eqn:Eo; [|discriminate Ho]. injection Ho as <- <- <- <-.
    pose proof (h5_open_spec _ _ _ _ _ _ Eo) as (w & O & _). exists k, w, false. eexists. split; [done|]. split; [done|]. split; [done|].
    split; [apply components_with_slash|]. split; [exact Eo|done].
  - destruct fn; try discriminate Ho; by eapply Hlike.
  - destruct fn; try discriminate Ho. by eapply Hlike.
  - destruct fn; try discriminate Ho. destruct g as [g|], n as [n|]; try discriminate Ho. by eapply Hlike.
  - destruct fn; discriminate Ho.
Qed.

(** Only the mode w (or a file that does not exist) makes a new file. *)
Lemma h5_open_keeps H like k md H1 i c : h5_open H like k md = (H1, Ok i) -> head md <> Some 119 -> h_disk H !! k = Some c -> h_disk H1 = h_disk H.
Proof.
  unfold h5_open. intros Ho Hm Hk. destruct (is_open H k); [discriminate Ho|]. rewrite Hk in Ho.
  repeat case_bool_decide; subst; cbn [orb] in Ho; try discriminate Ho; try (by destruct Hm); destruct c; try discriminate Ho; by injection Ho as <- _.
Qed.

(** ** No other file is changed *)
Lemma opened_other H H1 i k w k' : opened H H1 i k w -> k <> k' -> h_disk H1 !! k' = h_disk H !! k'.
Proof. intros O Hk. destruct (op_disk _ _ _ _ _ O) as [(f & _ & ->)|(_ & ->)]; [done|by rewrite lookup_insert_ne]. Qed.
Lemma opener_other H f path mode fn H1 i p c k : file_opener H f path mode fn = (H1, Ok (i, p, c)) -> key_of H f <> Some k ->
  h_disk H1 !! k = h_disk H !! k /\ (forall h, h_open H1 !! i = Some h -> hd_key h <> k).
Proof.
  intros Ho Hk. destruct (is_group_arg f) eqn:Hg.
  - destruct f as [|j base| | | |]; try discriminate Hg. apply file_opener_spec in Ho as [(_ & Hx & _)|(_ & -> & base' & h & E & Hh & _)]; [discriminate Hx|].
    injection E as <- <-. split; [done|]. intros h' Hh'. cbn [key_of] in Hk. rewrite Hh' in Hk. cbn in Hk. congruence.
  - destruct (opener_key _ _ _ _ _ _ _ _ _ Ho Hg) as (k' & w & like & md & A1 & A2 & _). rewrite A1 in Hk.
    assert (k' <> k) as Hne by congruence. split; [by eapply opened_other|]. intros h. rewrite (op_open _ _ _ _ _ A2), (op_i _ _ _ _ _ A2), lookup_insert.
    by intros [= <-].
Qed.
Lemma content_handle H i h g : content_of H i = Some (h, g) -> h_open H !! i = Some h /\ h_disk H !! hd_key h = Some (Some g).
Proof. unfold content_of. destruct (h_open H !! i) as [h'|]; [|done]. destruct (h_disk H !! hd_key h') as [[g'|]|] eqn:E; try done. intros [= <- <-]. done. Qed.
Lemma finish_disk H i c : h_disk (finish H i c) = h_disk H.
Proof. by destruct c. Qed.

Lemma dump_other C H x f mode path fn opts kw H' r k : dump C H x f mode path fn opts kw = (H', r) -> key_of H f <> Some k ->
  h_disk H' !! k = h_disk H !! k.
Proof.
  intros Hd Hk. unfold dump in Hd. destruct (file_opener H f path mode fn) as [H1 [[[i p] c]|e]] eqn:Ho.
  2: { injection Hd as <- _. apply file_opener_spec in Ho. by subst. }
  destruct (opener_other _ _ _ _ _ _ _ _ _ _ Ho Hk) as [E Hh].
  destruct (content_of H1 i) as [[h g]|] eqn:Ec; [|injection Hd as <- _; by rewrite finish_disk].
  apply content_handle in Ec as [Eo _]. destruct (hd_write h); [|injection Hd as <- _; by rewrite finish_disk].
  destruct (dump_body _ _ _ _ _ _ _ _ _) as [[[g' m'] r'] t]. injection Hd as <- _. rewrite finish_disk. cbn [h_disk].
  rewrite lookup_insert_ne; [done|]. by apply Hh.
Qed.
Lemma load_other C H f path fn H' r k : load C H f path fn = (H', r) -> key_of H f <> Some k -> h_disk H' !! k = h_disk H !! k.
Proof.
  intros Hd Hk. unfold load in Hd. destruct (file_opener H f path (str "r") fn) as [H1 [[[i p] c]|e]] eqn:Ho.
  2: { injection Hd as <- _. apply file_opener_spec in Ho. by subst. }
  destruct (opener_other _ _ _ _ _ _ _ _ _ _ Ho Hk) as [E Hh].
  destruct (content_of H1 i) as [[h g]|] eqn:Ec; [|injection Hd as <- _; by rewrite finish_disk].
  apply content_handle in Ec as [Eo _].
  destruct (load_try _ _ _ _ _ _ _ _) as [[g' r'] t]. injection Hd as <- _. rewrite finish_disk. cbn [h_disk].
  rewrite lookup_insert_ne; [done|]. by apply Hh.
Qed.

(** ** Existing files *)
Lemma dump_keeps C H x f mode path fn opts kw H' r k g :
  host_ok H -> world_ok (c_world C) -> free_above (h_mem H) -> is_group_arg f = false -> key_of H f = Some k -> first mode <> Some 119 ->
  h_disk H !! k = Some (Some g) -> tree g -> dump C H x f mode path fn opts kw = (H', r) ->
  exists g', h_disk H' !! k = Some (Some g') /\ tree g' /\ forall cs at_ b, content g cs = Some (at_, b) ->
    (~ cs `prefix_of` components path -> content g' cs = Some (at_, b)) /\
    (cs <> components path ->
       content g' cs = Some (at_, b) \/
       exists l ls, b = BGroup l /\ content g' cs = Some (at_, BGroup (l ++ ls)) /\ Forall (fun k => f_next g <= snd k) ls).
Proof.
  intros Hok HW Hfree Hg Hk Hm Hdk Ht Hd.
  assert (h_disk H' !! k = h_disk H !! k -> exists g', h_disk H' !! k = Some (Some g') /\ tree g' /\ forall cs at_ b, content g cs = Some (at_, b) ->
    (~ cs `prefix_of` components path -> content g' cs = Some (at_, b)) /\
    (cs <> components path ->
       content g' cs = Some (at_, b) \/
       exists l ls, b = BGroup l /\ content g' cs = Some (at_, BGroup (l ++ ls)) /\ Forall (fun k => f_next g <= snd k) ls)) as Hsame.
  { intros ->. exists g. split; [done|]. split; [done|]. intros cs at_ b Hc. split; [done|by left]. }
  pose proof Hd as Hd0. unfold dump in Hd. destruct (file_opener H f path mode fn) as [H1 [[[i p] c]|e]] eqn:Ho.
  2: { injection Hd as <- _. apply file_opener_spec in Ho. subst. by apply Hsame. }
  destruct (opener_key _ _ _ _ _ _ _ _ _ Ho Hg) as (k' & w & like & md & A1 & A2 & -> & A4 & A5 & A6).
  rewrite Hk in A1. injection A1 as <-. pose proof (h5_open_keeps _ _ _ _ _ _ _ A5 ltac:(by rewrite A6) Hdk) as Ed.
  destruct (content_of H1 i) as [[h g1]|] eqn:Ec; [|injection Hd as <- _; apply Hsame; by rewrite finish_disk, Ed].
  destruct (content_handle _ _ _ _ Ec) as [Eo Eg]. rewrite (op_open _ _ _ _ _ A2), (op_i _ _ _ _ _ A2), lookup_insert in Eo. injection Eo as <-.
  cbn [hd_key hd_write] in *. rewrite Ed, Hdk in Eg. injection Eg as <-.
  destruct w; [|injection Hd as <- _; apply Hsame; by rewrite finish_disk, Ed].
  assert (i ∉ h_lmgr H) as Hl. { rewrite (op_i _ _ _ _ _ A2). intros Hin%(ho_l _ Hok). lia. }
  assert (i ∉ h_rmgr H) as Hr. { rewrite (op_i _ _ _ _ _ A2). intros Hin%(ho_r _ Hok). lia. }
  destruct (dump_call_file _ _ _ _ _ _ _ _ _ _ _ _ _ _ _ _ _ Hok Ho Ec eq_refl Hl Hr Hd0) as (g' & Ed' & Ef).
  exists g'. cbn [hd_key] in Ed'. rewrite Ed', lookup_insert. split; [done|]. clear Hsame.
  destruct (dump_file_frame _ _ _ _ _ _ _ _ _ _ Ht HW Hfree Ef) as (T & S & _ & _ & _ & Q). split; [done|].
  intros cs at_ b Hc. rewrite <- A4. by apply (changed_content p g).
Qed.

(** Mode w: what the file held does not matter. *)
Definition with_file (H : host) (k : list N) (c : option (option file)) : host :=
  Host (partial_alter (fun _ => c) k (h_disk H)) (h_open H) (h_next H) (h_lmgr H) (h_rmgr H) (h_gc H) (h_mem H).
Lemma dump_replaces C H x k mode path fn opts kw c : no_b mode = str "w" -> is_open H k = false ->
  dump C (with_file H k c) x (FPath k) mode path fn opts kw = dump C H x (FPath k) mode path fn opts kw.
Proof.
  intros Hm Ho. unfold dump, file_opener. fold (no_b mode). rewrite Hm.
  assert (h5_open (with_file H k c) false k (str "w") = h5_open H false k (str "w")) as ->; [|done].
  unfold h5_open. assert (is_open (with_file H k c) k = is_open H k) as -> by done. rewrite Ho.
  do 2 (rewrite bool_decide_false by (vm_compute; discriminate)). rewrite bool_decide_true by done.
  unfold create_file, open_handle, set_disk, with_file. cbn [h_disk h_open h_next h_lmgr h_rmgr h_gc h_mem].
  assert (<[k:=Some new_file]> (partial_alter (fun _ => c) k (h_disk H)) = <[k:=Some new_file]> (h_disk H)) as ->; [|done].
  apply map_eq. intros j. destruct (decide (j = k)) as [-> |]; [by rewrite !lookup_insert|]. rewrite !lookup_insert_ne by done. by apply lookup_partial_alter_ne.
Qed.
(** Modes x and w-: an existing file is refused. *)
Lemma dump_exclusive C H x k mode path fn opts kw c : no_b mode = str "x" \/ no_b mode = str "w-" -> h_disk H !! k = Some c ->
  exists e, dump C H x (FPath k) mode path fn opts kw = (H, Err e) /\ (is_open H k = false -> e = OSError).
Proof.
  intros Hm Hk. unfold dump, file_opener. fold (no_b mode). unfold h5_open. destruct (is_open H k) eqn:Ho; [by eexists|].
  rewrite Hk. destruct Hm as [-> | ->]; eexists; split; reflexivity.
Qed.
(** Mode r: nothing is written. *)
Lemma dump_reading C H x f mode path fn opts kw H' r : is_group_arg f = false -> no_b mode = str "r" ->
  dump C H x f mode path fn opts kw = (H', r) -> h_disk H' = h_disk H /\ r <> Ok tt.
Proof.
  intros Hg Hm. unfold dump. destruct (file_opener H f path mode fn) as [H1 [[[i p] c]|e]] eqn:Ho; apply file_opener_spec in Ho.
  2: { subst. by intros [= <- <-]. }
  destruct Ho as [(-> & _ & _ & k & w & O & Hw)|(_ & _ & base & h & -> & _)]; [|done].
  assert (w = false) as -> by (by apply Hw).
  assert (h_disk H1 = h_disk H) as Ed. { destruct (op_disk _ _ _ _ _ O) as [(? & _ & ?)|([=] & _)]. done. }
  destruct (content_of H1 i) as [[h g]|] eqn:Ec; [|intros [= <- <-]; by rewrite finish_disk, Ed].
  destruct (content_handle _ _ _ _ Ec) as [Eo _]. rewrite (op_open _ _ _ _ _ O), lookup_insert in Eo. injection Eo as <-. cbn [hd_write].
  intros [= <- <-]. rewrite finish_disk. split; [done|].
  unfold dump_body_ro. destruct (get_path g p) as [a|]; [|done]. destruct (get_node g a) as [n|]; [|done].
  by destruct (nd_body n) as [[]|].
Qed.
