(** * DumpOk: acceptable graphs are dumped without error *)
From Verif Require Import Base Utf8 Utf8Proofs Dec DecProofs Num NumProofs PyObj H5 Env Create Dump LoadFns LoadModel
  Registry DumpProofs DumpStored RegistryStd Spec Accept RoundTrip LoadBase ArrayProofs LoadLeaf LoadCont LoadDict DumpTerm.
From Coq Require Import Lia ZifyBool ZifyN.
Local Open Scope N_scope.
Local Open Scope list_scope.
Local Opaque std_loader std_dump dump_loader_of loader_of.

(** ** Names h5py accepts *)
Lemma has_char_app c a b : has_char c (a ++ b) = has_char c a || has_char c b.
Proof. unfold has_char. apply existsb_app. Qed.
Lemma encodable_app a b : encodable (a ++ b) = encodable a && encodable b.
Proof. unfold encodable. apply forallb_app. Qed.
Lemma name_ok_intro s : s <> [] -> has_char 47 s = false -> has_char 0 s = false -> encodable s = true -> name_ok s = Ok tt.
Proof.
  intros H1 H2 H3 H4. unfold name_ok. rewrite H2, H3. apply utf8_encode_ok in H4 as [b ->]. by destruct s.
Qed.
(** Visible ASCII characters other than the slash. *)
Definition vis (c : N) : bool := (0 <? c) && (c <? 128) && negb (c =? 47).
Lemma vis_name s : s <> [] -> forallb vis s = true -> name_ok s = Ok tt.
Proof.
  intros H0 H. assert (has_char 47 s = false /\ has_char 0 s = false /\ encodable s = true) as (A & B & C).
  { clear H0. induction s as [|c s IH]; [done|]. cbn [forallb] in H. apply andb_true_iff in H as [H1 H2].
    destruct (IH H2) as (A & B & C). unfold vis in H1.
    unfold has_char in *. cbn [existsb]. rewrite A, B. unfold encodable in *. cbn [forallb]. rewrite C.
    unfold is_scalar, is_surrogate. split_and!; lia. }
  by apply name_ok_intro.
Qed.
Lemma N_dec_vis n : forallb vis (N_dec n) = true.
Proof.
  pose proof (N_dec_digit n) as H. induction H as [|c l Hc _ IH]; [done|]. cbn [forallb]. rewrite IH. unfold is_digit in Hc. unfold vis. lia.
Qed.
Lemma N_dec_name n : name_ok (N_dec n) = Ok tt.
Proof. apply vis_name; [apply N_dec_nonempty|apply N_dec_vis]. Qed.
Lemma data_name_ok i : name_ok (data_name i) = Ok tt.
Proof.
  apply vis_name; [done|]. unfold data_name. rewrite forallb_app, N_dec_vis. done.
Qed.
Lemma data_name_inj i j : data_name i = data_name j -> i = j.
Proof. unfold data_name. intros H. apply app_inv_head in H. by apply N_dec_inj. Qed.

Lemma create_node_total f p nm b pn :
  get_node f p = Some pn -> is_group pn = true -> alist_get nm (links pn) = None -> name_ok nm = Ok tt ->
  exists f' a, create_node f p nm b = Ok (f', a).
Proof. intros H1 H2 H3 H4. unfold create_node. rewrite H1, H2, H4. simpl. rewrite H3. by eexists _, _. Qed.
Lemma no_compression_clean kw : existsb is_filter (no_compression kw) = false.
Proof.
  unfold no_compression. induction kw as [|k kw IH]; [done|]. simpl. destruct (is_filter k) eqn:E; simpl; [done|]. by rewrite E.
Qed.

(** Decoding neither adds nor removes ASCII characters. *)
Lemma decode_char b s c : c < 128 -> utf8_decode b = Ok s -> has_char c b = false -> has_char c s = false.
Proof.
  intros Hc Hd Hb. apply utf8_encode_decode in Hd. revert b Hd Hb. induction s as [|a s IH]; intros b; [done|].
  cbn [utf8_encode]. destruct (utf8_char a) as [ba|] eqn:Ea; [|done].
  destruct (utf8_encode s) as [bs|] eqn:Es; [|done]. simpl. intros [= <-]. rewrite has_char_app. intros [H1 H2]%orb_false_iff.
  unfold has_char in *. cbn [existsb]. rewrite (IH _ eq_refl H2), orb_false_r.
  unfold utf8_char in Ea. destruct (a <? 128) eqn:Ea1.
  - inversion Ea; subst ba. cbn [existsb] in H1. by rewrite orb_false_r in H1.
  - lia.
Qed.

(** ** Casting to the common dtype *)
Lemma f64_of_Z_total z : (- 2 ^ 64 < z < 2 ^ 64)%Z -> exists f, f64_of_Z z = Some f.
Proof.
  assert (forall neg p, (Npos p < 2 ^ 64)%N -> exists f, round_pos neg p = Some f) as H.
  { intros neg p Hp. unfold round_pos. apply size_le_pow in Hp. set (n := N.pos (Pos.size p)) in *.
    destruct (n <=? 53) eqn:E1; [by eexists|].
    set (s := n - 53). set (q := N.shiftr (N.pos p) s).
    assert (1 <= q) as Hq.
    { unfold q. rewrite N.shiftr_div_pow2. apply N.div_le_lower_bound; [apply N.pow_nonzero; lia|].
      rewrite N.mul_1_r.
      assert (2 ^ (n - 1) <= N.pos p) as Hlow.
      { unfold n. pose proof (N.log2_spec (N.pos p) ltac:(lia)) as [A _].
        replace (N.log2 (N.pos p)) with (n - 1) in A; [exact A|].
        unfold n. destruct p as [p|p|]; cbn [N.log2 Pos.size]; lia. }
      etrans; [|exact Hlow]. apply N.pow_le_mono_r; lia. }
    match goal with |- context [if ?b then q + 1 else q] => set (q' := if b then q + 1 else q) end.
    assert (1 <= q') as Hq'. { unfold q'. destruct (_ || _); lia. }
    assert ((1024 <? (if q' =? 2 ^ 53 then n + 1 else n)) = false) as ->. { destruct (q' =? 2 ^ 53); lia. }
    destruct q' as [|q'']; [lia|]. destruct (strip q''). by eexists. }
  intros Hz. destruct z as [|p|p]; simpl; [by eexists|..]; apply H; lia.
Qed.

Lemma cast_total a d n : num_of_dtype a n = true -> dle a d -> exists m, cast d n = Ok m.
Proof.
  unfold dle. intros W D. destruct d as [|w|w|w|w]; cbn [cast].
  - by eexists.
  - destruct a as [|v|v|v|v]; destruct n as [b|z|f|f1 f2]; cbn [num_of_dtype] in W; try discriminate W;
      try (destruct v; discriminate D); cbn [Z_of_num].
    + destruct b, w; by eexists.
    + assert (int_range w z = true) as ->; [|by eexists]. unfold int_range in *. destruct v, w; cbn in D |- *; try discriminate; cbn in W; lia.
    + assert (int_range w z = true) as ->; [|by eexists]. unfold int_range, uint_range in *. destruct v, w; cbn in D |- *; try discriminate; cbn in W; lia.
  - destruct a as [|v|v|v|v]; destruct n as [b|z|f|f1 f2]; cbn [num_of_dtype] in W; try discriminate W;
      try (destruct v, w; discriminate D); try (destruct v; discriminate D); cbn [Z_of_num].
    + destruct b, w; by eexists.
    + assert (uint_range w z = true) as ->; [|by eexists]. unfold uint_range in *. destruct v, w; cbn in D |- *; try discriminate; cbn in W; lia.
  - assert (exists f, float_of_num n = Ok f) as [f ->]; [|by eexists].
    destruct a as [|v|v|v|v]; destruct n as [b|z|f|f1 f2]; cbn [num_of_dtype] in W; try discriminate W;
      try (destruct v, w; discriminate D); cbn [float_of_num]; try (by eexists).
    + destruct (f64_of_Z_total z) as [f ->]; [|by eexists]. unfold int_range in W. destruct v; cbn in W; lia.
    + destruct (f64_of_Z_total z) as [f ->]; [|by eexists]. unfold uint_range in W. destruct v; cbn in W; lia.
  - destruct n as [b|z|f|f1 f2]; try (by eexists); cbn [float_of_num].
    + destruct (f64_of_Z_total z) as [f ->]; [|by eexists].
      destruct a as [|v|v|v|v]; cbn [num_of_dtype] in W; try discriminate W; unfold int_range, uint_range in W; destruct v; cbn in W; lia.
Qed.

(** ** Names of dict entries *)
Inductive key_form (E : env) : val -> pystr -> Prop :=
| kf_str s : key_form E (VStr s) ([34] ++ s ++ [34])
| kf_bytes b s : utf8_decode b = Ok s -> key_form E (VBytes b) ([98; 34] ++ s ++ [34])
| kf_none : key_form E VNone (str "None")
| kf_num c n : c ∈ builtin_scalars -> number_ok c n -> key_form E (VNum n) (num_repr E n).

Lemma key_name_form E kw h o nm :
  acceptable E kw h o ->
  (cls_name (ocls o) ∈ map cls_name builtin_scalars -> isinst (ocls o) CStr || isinst (ocls o) CBytes = false -> ocls o ∈ builtin_scalars) ->
  key_name E o = Ok (Some nm) -> key_form E (oval o) nm.
Proof.
  intros (_ & _ & Hc) Hb. unfold key_name. destruct o as [c v]; simpl in *.
  destruct (isinst c CStr) eqn:E1.
  { destruct v; try done. destruct (str_slashes s); [done|]. intros [= <-]. constructor. }
  destruct (isinst c CBytes) eqn:E2.
  { destruct v; try done. destruct (byte_slashes b); [done|]. destruct (utf8_decode b) eqn:Ed; [|done]. intros [= <-]. by constructor. }
  case_bool_decide as Hin; [|done]. specialize (Hb Hin eq_refl).
  destruct v; simpl; try done.
  - intros [= <-]. constructor.
  - destruct (str_slashes _); [done|]. intros [= <-]. by econstructor.
Qed.

Definition val_hv (l : loc) (v : val) : hv :=
  match v with VNone => HNone | VNum n => num_hv l n | VStr s => HStr s | VBytes b => HBytes b | _ => HNil end.
Lemma key_form_hv E h l o nm k : h !! l = Some o -> key_form E (oval o) nm -> hashes h l k -> k = val_hv l (oval o).
Proof.
  intros Ho Hf [fuel Hk]. destruct fuel; [done|]. simpl in Hk. rewrite Ho in Hk. destruct o as [c v]; simpl in *.
  destruct Hf; by inversion Hk.
Qed.

Lemma digit_or_minus z : exists c r, Z_dec z = c :: r /\ (c = 45 \/ 48 <= c <= 57).
Proof. destruct (Z_dec_first z) as (c & r & -> & H). exists c, r. split; [done|]. unfold is_digit in H. lia. Qed.
Lemma first_reserved E n nm : env_ok E -> num_repr E n = nm ->
  exists c r, nm = c :: r /\
  match n with
  | NB true => c = 84 | NB false => c = 70 | NZ _ => c = 45 \/ 48 <= c <= 57
  | _ => existsb (N.eqb c) [34; 98; 100; 84; 70; 78] = false
  end.
Proof.
  intros HE <-. destruct n as [[]|z|f|a b]; cbn [num_repr].
  - by eexists _, _.
  - by eexists _, _.
  - apply digit_or_minus.
  - pose proof (ok_frepr_first E HE f) as H. destruct (e_frepr E f) as [|c r]; [done|]. by exists c, r.
  - pose proof (ok_crepr_first E HE a b) as H. destruct (e_crepr E a b) as [|c r]; [done|]. by exists c, r.
Qed.

(** Keys stored under the same name are equal, except that NaN is taken as equal to NaN. *)
Lemma key_form_inj E v w nm l l' :
  env_ok E -> key_form E v nm -> key_form E w nm -> coarse (val_hv l v) = coarse (val_hv l' w).
Proof.
  intros HE Hv Hw.
  assert (forall n n', (exists c, c ∈ builtin_scalars /\ number_ok c n) -> (exists c, c ∈ builtin_scalars /\ number_ok c n') ->
    num_repr E n = num_repr E n' -> n = n') as Hnn.
  { intros n n' (c & Hc & Hn) (c' & Hc' & Hn') He.
    assert (match n with NF f => fits F8 f = true | NC a b => fits F8 a = true /\ fits F8 b = true | _ => True end) as F1.
    { unfold builtin_scalars in Hc. repeat (apply elem_of_cons in Hc as [-> |Hc]); try (by inversion Hc); unfold number_ok in Hn; simpl in Hn; destruct n; done. }
    assert (match n' with NF f => fits F8 f = true | NC a b => fits F8 a = true /\ fits F8 b = true | _ => True end) as F2.
    { unfold builtin_scalars in Hc'. repeat (apply elem_of_cons in Hc' as [-> |Hc']); try (by inversion Hc'); unfold number_ok in Hn'; simpl in Hn'; destruct n'; done. }
    clear Hn Hn' Hc Hc'.
    destruct (first_reserved E n _ HE eq_refl) as (c1 & r1 & E1 & H1), (first_reserved E n' _ HE eq_refl) as (c2 & r2 & E2 & H2).
    assert (c1 = c2) as <- by congruence. simpl in H1, H2.
    destruct n as [[]|z|f|a b], n' as [[]|z'|f'|a' b']; try done; try lia; cbn [num_repr] in He.
    - apply Z_dec_inj in He. by subst.
    - by destruct (ok_frepr_int E HE f' z).
    - by destruct (ok_crepr_int E HE a' b' z).
    - by destruct (ok_frepr_int E HE f z').
    - pose proof (ok_fparse E HE f F1) as P1. pose proof (ok_fparse E HE f' F2) as P2. rewrite He in P1. congruence.
    - by destruct (ok_frepr_crepr E HE f a' b').
    - by destruct (ok_crepr_int E HE a b z').
    - by destruct (ok_frepr_crepr E HE f' a b).
    - pose proof (ok_cparse E HE a b (proj1 F1) (proj2 F1)) as P1. pose proof (ok_cparse E HE a' b' (proj1 F2) (proj2 F2)) as P2.
      rewrite He in P1. congruence. }
  assert (forall n c r, num_repr E n = c :: r -> c <> 34 /\ c <> 98 /\ c <> 78) as Hres.
  { intros n c r He. destruct (first_reserved E n _ HE He) as (c1 & r1 & E1 & H1). inversion E1; subst. simpl in H1.
    destruct n as [[]|z|f|a b]; lia. }
  assert (exists nm', nm' = nm /\ key_form E w nm') as (nm' & Es & Hw') by (by exists nm). clear Hw. symmetry in Es.
  destruct Hv as [s|b s Hd| |c n Hc Hn], Hw' as [s'|b' s' Hd'| |c' n' Hc' Hn']; simpl in Es; try done.
  - inversion Es as [Es']. apply app_inj_tail in Es' as [-> _]. done.
  - symmetry in Es. destruct (Hres n' _ _ Es) as (? & ? & ?). done.
  - inversion Es as [Es']. apply app_inj_tail in Es' as [-> _]. simpl. f_equal. by eapply utf8_decode_inj.
  - symmetry in Es. destruct (Hres n' _ _ Es) as (? & ? & ?). done.
  - symmetry in Es. destruct (Hres n' _ _ Es) as (? & ? & ?). done.
  - destruct (Hres n _ _ Es) as (? & ? & ?). done.
  - destruct (Hres n _ _ Es) as (? & ? & ?). done.
  - destruct (Hres n _ _ Es) as (? & ? & ?). done.
  - assert (n = n') as ->. { apply Hnn; eauto. } simpl. unfold num_hv. destruct (num_val n'). destruct (_ || _); done.
Qed.
Lemma key_form_data E v nm i : env_ok E -> key_form E v nm -> nm <> data_name i.
Proof.
  intros HE Hv He. inversion Hv as [s|b s Hd| |c n Hc Hn]; subst; try done.
  destruct (first_reserved E n _ HE eq_refl) as (c1 & r1 & E1 & H1). rewrite H0 in E1. unfold data_name in E1. simpl in E1. inversion E1; subst.
  simpl in H1. destruct n as [[]|z|f|a b]; lia.
Qed.

(** ** Containers of items *)
Section Mono.
Context (E : env) (kw : kwargs) (h h' : heap) (Hh : h ⊆ h').
Lemma item_fine_mono x : is_Some (h !! x) -> item_fine E h x -> item_fine E h' x.
Proof.
  intros [o Ho] Hf o' Ho'. rewrite (lookup_weaken _ _ _ _ Ho Hh) in Ho'. inversion Ho'; subst o'. specialize (Hf o Ho).
  destruct (oval o); try done. intros h2 Hh2. apply Hf. by etrans.
Qed.
Lemma items_fine_mono xs : (forall x, x ∈ xs -> is_Some (h !! x)) -> items_fine E h xs -> items_fine E h' xs.
Proof.
  intros Hk [H1 H2]. split.
  - intros x Hx. apply item_fine_mono; auto.
  - intros Ha. assert (all_numbers h xs) as Ha0.
    { intros x Hx. destruct (Ha x Hx) as (c & n & d & A1 & A2). destruct (Hk x Hx) as [o Ho].
      pose proof (lookup_weaken _ _ _ _ Ho Hh) as Ho'. rewrite A1 in Ho'. inversion Ho'; subst o. by exists c, n, d. }
    intros x z Hx Ho. destruct (Hk x Hx) as [o Ho0]. pose proof (lookup_weaken _ _ _ _ Ho0 Hh) as Ho'. rewrite Ho in Ho'.
    inversion Ho'; subst o. by eapply (H2 Ha0).
Qed.
Lemma entry_fine_mono k v : is_Some (h !! k) -> is_Some (h !! v) -> entry_fine E h k v -> entry_fine E h' k v.
Proof.
  intros Hk Hv (o & Ho & He). exists o. split; [by eapply lookup_weaken|].
  assert (items_fine E h [k; v] -> items_fine E h' [k; v]) as Hi.
  { apply items_fine_mono. intros x Hx. repeat (apply elem_of_cons in Hx as [-> |Hx]; [done|]). by apply elem_of_nil in Hx. }
  destruct (oval o); try naive_solver.
  - destruct (_ || _); auto.
  - destruct (has_char 47 b); auto. destruct (utf8_decode b); auto.
Qed.
Lemma contents_fine_mono o : (forall z, z ∈ refs o -> is_Some (h !! z)) -> contents_fine E kw h (ocls o) (oval o) -> contents_fine E kw h' (ocls o) (oval o).
Proof.
  intros Hk. destruct o as [c v]; cbn [ocls oval]. unfold refs in Hk. cbn [oval] in Hk. destruct v; cbn [contents_fine]; try done.
  - intros [H1 H2]. split; [done|]. by apply items_fine_mono.
  - intros (H1 & H2 & H3). split; [done|]. split.
    + by eapply distinct_keys_mono.
    + rewrite list.Forall_forall in H3 |- *. intros [k v] Hkv. apply entry_fine_mono.
      * apply Hk, elem_of_app. left. apply elem_of_list_fmap. by exists (k, v).
      * apply Hk, elem_of_app. right. apply elem_of_list_fmap. by exists (k, v).
      * by apply H3.
  - intros (H1 & H2 & H3 & H4 & H5). split_and!; auto.
    + intros h2 ds ys z Hh2. apply H4. by etrans.
    + intros i. apply items_fine_mono; [|done]. intros x Hx. apply Hk. by eapply elem_of_row.
  - intros (H1 & c' & dt & sh & vs & Hd). split; [done|]. exists c', dt, sh, vs. by eapply lookup_weaken.
Qed.
End Mono.

(** Objects of the graph, and those made while it is being dumped: key/value pairs and
    the lists and strings made of arrays. *)
Inductive good (E : env) (U : gset N) (h : heap) : loc -> Prop :=
| good_in x : x ∈ U -> good E U h x
| good_list x c xs : c = CTuple \/ c = CList -> h !! x = Some (Obj c (VSeq xs)) -> (forall y, y ∈ xs -> good E U h y) -> items_fine E h xs -> good E U h x
| good_str x t : h !! x = Some (Obj CStr (VStr t)) -> encodable t = true -> good E U h x.

Section Accepted.
Context (E : env) (HE : env_ok E) (kw : kwargs) (h0 : heap) (U : gset N).
Context (HU : forall y, y ∈ U -> exists o, h0 !! y = Some o /\ acceptable E kw h0 o /\ forall z, z ∈ refs o -> z ∈ U).

Lemma good_known h x : h0 ⊆ h -> good E U h x -> is_Some (h !! x).
Proof. intros Hh [y Hy|y c xs _ Hy _ _|y t Hy _]; [|by eexists..]. destruct (HU y Hy) as (o & Ho & _). exists o. by eapply lookup_weaken. Qed.
Lemma good_mono h h' x : h0 ⊆ h -> h ⊆ h' -> good E U h x -> good E U h' x.
Proof.
  intros H0 Hh. induction 1 as [x Hx|x c xs Hc Hx Hin IH Hf|x t Hx Ht].
  - by apply good_in.
  - apply (good_list E U h' x c xs Hc); [by eapply lookup_weaken|done|].
    eapply items_fine_mono; [exact Hh| |done]. intros y Hy. by eapply good_known, Hin.
  - apply (good_str E U h' x t); [by eapply lookup_weaken|done].
Qed.
Lemma simple_outside c : c = CTuple \/ c = CList \/ c = CStr -> outside_hickle c.
Proof. intros Hc k Hk. destruct Hc as [-> |[-> | ->]]; repeat (apply elem_of_cons in Hk as [-> |Hk]; [by vm_compute|]); inversion Hk. Qed.
Lemma simple_pickles c : c = CTuple \/ c = CList \/ c = CStr -> e_pickles_cls E c = true.
Proof. intros Hc. apply (ok_pickles E HE). destruct Hc as [-> |[-> | ->]]; apply (bool_decide_unpack _); vm_compute; exact I. Qed.

Lemma good_acceptable h x : h0 ⊆ h -> good E U h x ->
  exists o, h !! x = Some o /\ acceptable E kw h o /\ forall z, z ∈ refs o -> good E U h z.
Proof.
  intros Hh [y Hy|y c xs Hc Hy Hin Hf|y t Hy Ht].
  - destruct (HU y Hy) as (o & Ho & (A1 & A2 & A3) & Hr). exists o. split; [by eapply lookup_weaken|]. split.
    + split; [done|]. split; [done|]. eapply contents_fine_mono; [exact Hh| |done]. intros z Hz. destruct (HU z (Hr z Hz)) as (oz & Hoz & _). by exists oz.
    + intros z Hz. apply good_in. by apply Hr.
  - eexists. split; [exact Hy|]. split; [|done]. split; [apply simple_outside; naive_solver|].
    split; [intros _; apply simple_pickles; naive_solver|]. cbn [contents_fine oval ocls]. split; [|done].
    destruct Hc as [-> | ->]; [right; by left|by left].
  - eexists. split; [exact Hy|]. split; [|intros z Hz; by apply elem_of_nil in Hz]. split; [apply simple_outside; naive_solver|].
    split; [intros _; apply simple_pickles; naive_solver|]. cbn [contents_fine oval ocls]. split; [by left|]. split; [done|].
    unfold ascii_name. apply (bool_decide_unpack _). vm_compute. exact I.
Qed.

Context (h : heap) (Hh : h0 ⊆ h).
Local Notation G := (good E U h).
Lemma HG y : G y -> exists o, h !! y = Some o /\ acceptable E kw h o /\ forall z, z ∈ refs o -> G z.
Proof. by apply good_acceptable. Qed.

Lemma number_item o d : acceptable E kw h o -> np_dtype_of_cls (ocls o) = PNum d ->
  exists n, oval o = VNum n /\ number_ok (ocls o) n.
Proof.
  intros (_ & _ & Hc) Hd. destruct o as [c v]; simpl in *.
  assert (c = CBool \/ c = CInt \/ c = CFloat \/ c = CComplex \/ exists d', base_cls c = CNp d') as Hcl.
  { destruct c; simpl in Hd; try discriminate; eauto 6.
    rewrite np_generic_base in Hd. pose proof (base_cls_idem c) as Hidem. simpl. destruct (base_cls c); simpl in Hd; try discriminate; eauto 6.
    by destruct (Hidem m0 n0 c0). }
  destruct v; simpl in Hc; try done.
  - subst. by destruct Hcl as [?|[?|[?|[?|[? ?]]]]].
  - by exists n.
  - destruct Hcl as [-> |[-> |[-> |[-> |[d' Hb]]]]]; simpl in Hc; try rewrite Hb in Hc; naive_solver.
  - destruct Hcl as [-> |[-> |[-> |[-> |[d' Hb]]]]]; simpl in Hc; try rewrite Hb in Hc; naive_solver.
  - destruct Hcl as [-> |[-> |[-> |[-> |[d' Hb]]]]]; simpl in Hc; try rewrite Hb in Hc; naive_solver.
  - destruct Hcl as [-> |[-> |[-> |[-> |[d' Hb]]]]]; simpl in Hc; try rewrite Hb in Hc; naive_solver.
  - destruct Hcl as [-> |[-> |[-> |[-> |[d' Hb]]]]]; simpl in Hc; try rewrite Hb in Hc; naive_solver.
  - destruct Hc as [Hc _]. destruct Hcl as [-> |[-> |[-> |[-> |[d' Hb]]]]]; [done..|congruence].
  - destruct Hc as [Hc _]. destruct Hcl as [-> |[-> |[-> |[-> |[d' Hb]]]]]; [done..|congruence].
  - subst. by destruct Hcl as [?|[?|[?|[?|[? ?]]]]].
  - destruct Hcl as [-> |[-> |[-> |[-> |[d' Hb]]]]]; simpl in Hc; try rewrite Hb in Hc; naive_solver.
  - destruct Hcl as [-> |[-> |[-> |[-> |[d' Hb]]]]]; simpl in Hc; try rewrite Hb in Hc; naive_solver.
  - destruct Hcl as [-> |[-> |[-> |[-> |[d' Hb]]]]]; simpl in Hc; try rewrite Hb in Hc; naive_solver.
Qed.
Lemma bytes_item o : acceptable E kw h o -> np_dtype_of_cls (ocls o) = PBytes -> exists b, oval o = VBytes b.
Proof.
  intros (_ & _ & Hc) Hd. destruct o as [c v]; simpl in *.
  assert (base_cls c = CBytes \/ base_cls c = CNpBytes) as Hcl.
  { destruct c; simpl in Hd; try discriminate; eauto.
    rewrite np_generic_base in Hd. pose proof (base_cls_idem c) as Hidem. simpl. destruct (base_cls c); simpl in Hd; try discriminate; eauto.
    by destruct (Hidem m0 n0 c0). }
  destruct v; simpl in Hc; try done; try (by eexists);
    try (subst c; simpl in Hcl; naive_solver);
    try (destruct Hc as [Hc _]; destruct Hcl; congruence);
    try (unfold number_ok in Hc); destruct Hcl as [Hb|Hb]; try rewrite Hb in Hc; naive_solver.
Qed.

Lemma has_dims_ok x : G x -> item_fine E h x -> exists o b, h !! x = Some o /\ acceptable E kw h o /\
  has_dims E h x o = Ok b.
Proof.
  intros Hx Hi. destruct (HG x Hx) as (o & Ho & Ha & _). exists o.
  specialize (Hi o Ho). unfold has_dims. destruct (oval o); try (by eexists).
  destruct (isinst (ocls o) CList || isinst (ocls o) CTuple); [|by eexists]. rewrite (Hi h ltac:(done)). by eexists.
Qed.

Lemma check_rest_ok items : (forall x, x ∈ items -> G x /\ item_fine E h x) -> forall d,
  (exists n, d = PNum n) ->
  exists od, check_rest E h d items = Ok od /\ (od = None \/ exists n, od = Some (PNum n)).
Proof.
  induction items as [|x items IH]; intros Hi d [n ->].
  { exists (Some (PNum n)). split; [done|]. right. by exists n. }
  cbn [check_rest]. destruct (Hi x) as [Hx Hf]; [by left|]. destruct (has_dims_ok x Hx Hf) as (o & b & Ho & Ha & Hd). rewrite Ho, Hd. cbn [res_bind].
  destruct b; [exists None; by split; [|left]|].
  destruct (np_dtype_of_cls (ocls o)) as [d'| | |] eqn:Ed; cbn [result_type].
  - apply IH; [|by eexists]. intros y Hy. apply Hi. by right.
  - exists None; by split; [|left].
  - destruct (bytes_item _ Ha Ed) as [bs Hb]. specialize (Hf o Ho). rewrite Hb in Hf. rewrite Hb. unfold length_hint. rewrite Hb.
    assert ((1 <? N.of_nat (length bs)) = true) as -> by lia. exists None; by split; [|left].
  - exists None; by split; [|left].
Qed.

Lemma check_iterable_ok x0 items : (forall x, x ∈ x0 :: items -> G x /\ item_fine E h x) ->
  exists od, check_iterable_item_type E h x0 items = Ok od /\ (od = None \/ exists n, od = Some (PNum n)).
Proof.
  intros Hi. unfold check_iterable_item_type. destruct (Hi x0) as [Hx Hf]; [by left|].
  destruct (has_dims_ok x0 Hx Hf) as (o & b & Ho & Ha & Hd). rewrite Ho.
  destruct (_ || _) eqn:El; [exists None; by split; [|left]|]. rewrite Hd. cbn [res_bind].
  destruct b; [exists None; by split; [|left]|].
  destruct (np_dtype_of_cls (ocls o)) as [d'| | |] eqn:Ed; try (exists None; by split; [|left]).
  - apply check_rest_ok; [|by eexists]. intros y Hy. apply Hi. by right.
  - exfalso. destruct (bytes_item _ Ha Ed) as [bs Hb]. specialize (Hf o Ho). rewrite Hb in Hf.
    unfold length_hint in El. rewrite Hb in El. lia.
Qed.

Lemma write_items_ok d items :
  (forall x, x ∈ items -> exists c n, h !! x = Some (Obj c (VNum n)) /\ exists m, cast d n = Ok m) ->
  exists vs, write_items h d items = (vs, None).
Proof.
  induction items as [|x items IH]; intros Hi; simpl; [by eexists|].
  destruct (Hi x) as (c & n & -> & m & ->); [by left|].
  destruct IH as [vs ->]; [intros y Hy; apply Hi; by right|]. by eexists.
Qed.

(** A container of fine items is turned into an array or into a group of its items. *)
Lemma list_items_ok xs : (forall x, x ∈ xs -> G x) -> items_fine E h xs ->
  exists pl, create_list_items E h xs = Ok pl /\ p_fail pl = None /\ p_temps pl = [] /\
    (p_nocomp pl = false -> match p_data pl with Some d => is_scalar_or_null d = false | None => True end) /\
    (p_subs pl = [] \/ p_subs pl = list_subs xs /\ p_data pl = None).
Proof.
  intros Hx [Hi Hz]. destruct xs as [|x0 xs].
  { eexists. split; [done|]. simpl. split_and!; auto. }
  unfold create_list_items.
  destruct (check_iterable_ok x0 xs) as (od & Hod & Hcase). { intros x Hxin. split; [by apply Hx|by apply Hi]. }
  rewrite Hod. cbn [res_bind]. destruct Hcase as [-> |[d ->]].
  { eexists. split; [done|]. simpl. split_and!; auto. }
  apply check_iterable_spec in Hod as [Hel _].
  assert (forall x, x ∈ x0 :: xs -> exists c n d', h !! x = Some (Obj c (VNum n)) /\ h !! x = Some (Obj c (VNum n)) /\
    np_dtype_of_cls c = PNum d' /\ dle d' d /\ number_ok c n) as Hnum.
  { intros x Hxin. destruct (Hel x Hxin) as (o & d' & Ho & Hd' & Hle). destruct (HG x (Hx x Hxin)) as (o' & Ho' & Ha & _).
    assert (h !! x = Some o') as Ho2 by (by eapply lookup_weaken). rewrite Ho in Ho2. inversion Ho2; subst o'.
    destruct (number_item _ _ Ha Hd') as (n & Hv & Hn). destruct o as [c v]; simpl in *; subst v. by exists c, n, d'. }
  assert (int64_items h (x0 :: xs)) as H64.
  { apply Hz. intros x Hxin. destruct (Hnum x Hxin) as (c & n & d' & _ & Ho & Hd & _). by exists c, n, d'. }
  destruct (write_items_ok d (x0 :: xs)) as [vs Hvs].
  { intros x Hxin. destruct (Hnum x Hxin) as (c & n & d' & Ho & Ho0 & Hd & Hle & Hn). exists c, n. split; [done|].
    eapply cast_total; [|exact Hle]. eapply number_dtype; eauto. intros z -> ->. by eapply H64. }
  rewrite Hvs. eexists. split; [done|]. simpl. split_and!; auto.
Qed.

Lemma str_class c v : contents_fine E kw h c v -> isinst c CStr = true -> exists s, v = VStr s /\ encodable s = true /\ ascii_name c.
Proof.
  intros Hc Hi. rewrite isinst_base in Hi by done.
  destruct v; simpl in Hc; try done; try (subst c; done); try (unfold number_ok in Hc).
  - destruct (base_cls c) as [| | | | | | | | | | | | | | | | | |d1| | | | | | | | | | | | | | | |]; try done. by destruct d1 as [| | |[]|[]].
  - exists s. naive_solver.
  - destruct Hc as [[Hb|Hb] _]; rewrite Hb in Hi; done.
  - destruct Hc as [[Hb|[Hb|[Hb|(? & ? & ? & Hb)]]] _]; rewrite Hb in Hi; done.
  - destruct Hc as [[Hb|[Hb|[Hb|Hb]]] _]; rewrite Hb in Hi; done.
  - destruct Hc as [[Hb|Hb] _]; rewrite Hb in Hi; done.
  - destruct Hc as [Hb _]; rewrite Hb in Hi; done.
  - destruct Hc as [Hb _]; rewrite Hb in Hi; done.
  - destruct Hc as [Hb _]; rewrite Hb in Hi; done.
  - destruct Hc as [k Hb]; rewrite Hb in Hi; done.
  - destruct Hc as [Hb _]. destruct (base_cls c); done.
Qed.
Lemma bytes_class c v : contents_fine E kw h c v -> isinst c CStr = false -> isinst c CBytes = true -> exists b, v = VBytes b /\ ascii_name c.
Proof.
  intros Hc Hn Hi. rewrite isinst_base in Hi by done. rewrite isinst_base in Hn by done.
  destruct v; simpl in Hc; try done; try (subst c; done); try (unfold number_ok in Hc).
  - destruct (base_cls c) as [| | | | | | | | | | | | | | | | | |d1| | | | | | | | | | | | | | | |]; try done. by destruct d1 as [| | |[]|[]].
  - destruct Hc as [[Hb|Hb] _]; rewrite Hb in Hi; done.
  - exists b. naive_solver.
  - destruct Hc as [[Hb|[Hb|[Hb|(? & ? & ? & Hb)]]] _]; rewrite Hb in Hi; done.
  - destruct Hc as [[Hb|[Hb|[Hb|Hb]]] _]; rewrite Hb in Hi; done.
  - destruct Hc as [[Hb|Hb] _]; rewrite Hb in Hi; done.
  - destruct Hc as [Hb _]; rewrite Hb in Hi; done.
  - destruct Hc as [Hb _]; rewrite Hb in Hi; done.
  - destruct Hc as [Hb _]; rewrite Hb in Hi; done.
  - destruct Hc as [k Hb]; rewrite Hb in Hi; done.
  - destruct Hc as [Hb _]. destruct (base_cls c); done.
Qed.
Lemma list_class c v : contents_fine E kw h c v -> isinst c CList = true ->
  exists xs, v = VSeq xs /\ items_fine E h xs /\ isinst c CStr || isinst c CBytes = false.
Proof.
  intros Hc Hi. rewrite isinst_base in Hi by done. rewrite (isinst_base c CStr), (isinst_base c CBytes) by done.
  destruct v; simpl in Hc; try done; try (subst c; done); try (unfold number_ok in Hc).
  - destruct (base_cls c) as [| | | | | | | | | | | | | | | | | |d1| | | | | | | | | | | | | | | |]; try done. by destruct d1 as [| | |[]|[]].
  - destruct Hc as [[Hb|Hb] _]; rewrite Hb in Hi; done.
  - destruct Hc as [[Hb|Hb] _]; rewrite Hb in Hi; done.
  - exists xs. split; [done|]. destruct Hc as [[Hb|[Hb|[Hb|(? & ? & ? & Hb)]]] Hf]; rewrite Hb in *; done.
  - destruct Hc as [[Hb|[Hb|[Hb|Hb]]] _]; rewrite Hb in Hi; done.
  - destruct Hc as [[Hb|Hb] _]; rewrite Hb in Hi; done.
  - destruct Hc as [Hb _]; rewrite Hb in Hi; done.
  - destruct Hc as [Hb _]; rewrite Hb in Hi; done.
  - destruct Hc as [Hb _]; rewrite Hb in Hi; done.
  - destruct Hc as [k Hb]; rewrite Hb in Hi; done.
  - destruct Hc as [Hb _]. destruct (base_cls c); done.
Qed.
Lemma ascii_encodable s : Forall (fun c => c < 128) s -> exists b, utf8_encode s = Ok b.
Proof.
  intros H. apply utf8_encode_ok. unfold encodable. apply forallb_forall. intros c Hc. apply elem_of_list_In in Hc.
  rewrite list.Forall_forall in H. specialize (H c Hc). simpl in H. unfold is_scalar, is_surrogate. lia.
Qed.
Lemma plain_name s : forallb plain_char s = true -> str_slashes s = false /\ (s <> [] -> name_ok s = Ok tt).
Proof.
  intros H. assert (has_char 47 s = false /\ has_char 92 s = false /\ has_char 0 s = false /\ encodable s = true) as (A & B & C & D).
  { induction s as [|c s IH]; [done|]. cbn [forallb] in H. apply andb_true_iff in H as [H1 H2].
    destruct (IH H2) as (A & B & C & D). unfold has_char, encodable, plain_char in *. cbn [existsb forallb]. rewrite A, B, C, D.
    split_and!; lia. }
  unfold str_slashes. rewrite A, B. split; [done|]. intros. by apply name_ok_intro.
Qed.
Lemma num_repr_plain n : forallb plain_char (num_repr E n) = true /\ num_repr E n <> [].
Proof.
  split.
  - destruct n as [[]|z|f|a b]; cbn [num_repr]; [done|done| |apply (ok_frepr_plain E HE)|apply (ok_crepr_plain E HE)].
    pose proof (Z_dec_chars z) as H. induction H as [|c l Hc _ IH]; [done|]. cbn [forallb]. rewrite IH. unfold is_digit in Hc. unfold plain_char, is_scalar, is_surrogate. lia.
  - destruct (first_reserved E n _ HE eq_refl) as (c & r & -> & _). done.
Qed.

(** The name of an entry, or the pair. *)
Lemma entry_ok_name k v : G k -> entry_fine E h k v ->
  exists ko onm, h !! k = Some ko /\ h !! k = Some ko /\ key_name E ko = Ok onm /\
    match onm with
    | Some nm => key_form E (oval ko) nm /\ name_ok nm = Ok tt /\ exists kb, utf8_encode (cls_name (ocls ko)) = Ok kb
    | None => items_fine E h [k; v]
    end.
Proof.
  intros Hk (ko & Hko & Hen). destruct (HG k Hk) as (ko' & Hko' & Ha & _). rewrite Hko in Hko'. inversion Hko'; subst ko'. clear Hko'.
  exists ko. assert (h !! k = Some ko) as Hk1 by (by eapply lookup_weaken).
  assert (exists onm, key_name E ko = Ok onm /\ match onm with
    | Some nm => name_ok nm = Ok tt /\ exists kb, utf8_encode (cls_name (ocls ko)) = Ok kb
    | None => items_fine E h [k; v] end) as (onm & Hn & Hr).
  { destruct Ha as (_ & _ & Hc). destruct ko as [c w]; unfold key_name; simpl in *.
    destruct (isinst c CStr) eqn:E1.
    - destruct (str_class c w Hc E1) as (s & -> & He & Hasc). unfold str_slashes.
      destruct (has_char 47 s || has_char 92 s) eqn:Esl; [by exists None|]. eexists; split; [done|]. cbv match beta.
      split; [|by apply ascii_encodable]. apply orb_false_iff in Esl as [S1 S2].
      change (34 :: s ++ [34]) with ([34] ++ s ++ [34]). apply name_ok_intro; [done|..];
        rewrite ?has_char_app, ?encodable_app, ?S1, ?Hen, ?He; done.
    - destruct (isinst c CBytes) eqn:E2.
      + destruct (bytes_class c w Hc E1 E2) as (b & -> & Hasc). unfold byte_slashes.
        destruct (has_char 47 b) eqn:Esl; [by exists None|]. destruct (utf8_decode b) as [s|] eqn:Ed; [|by exists None].
        eexists; split; [done|]. cbv match beta. split; [|by apply ascii_encodable].
        assert (has_char 47 s = false) as S1. { eapply decode_char; [|done..]; lia. }
        change (98 :: 34 :: s ++ [34]) with ([98; 34] ++ s ++ [34]).
        apply name_ok_intro; [done|..]; rewrite ?has_char_app, ?encodable_app, ?S1, ?Hen, ?(utf8_decode_encodable _ _ Ed); done.
      + assert (c ∈ builtin_scalars \/ (cls_name c ∉ map cls_name builtin_scalars /\ items_fine E h [k; v])) as [Hb|[Hb Hit]].
        { destruct w; try done.
          - simpl in Hc. destruct Hc as [[Hb|Hb] _]; rewrite isinst_base in E1 by done; rewrite Hb in E1; done.
          - simpl in Hc. destruct Hc as [[Hb|Hb] _]; rewrite (isinst_base c CBytes) in E2 by done; rewrite Hb in E2; done. }
        * assert (bool_decide (cls_name c ∈ key_type_names) = true) as ->.
          { apply bool_decide_eq_true_2. unfold builtin_scalars in Hb.
            repeat (apply elem_of_cons in Hb as [-> |Hb]; [apply (bool_decide_unpack _); vm_compute; exact I|]). inversion Hb. }
          assert (exists kb, utf8_encode (cls_name c) = Ok kb) as Hkb.
          { unfold builtin_scalars in Hb. repeat (apply elem_of_cons in Hb as [-> |Hb]; [by eexists|]). inversion Hb. }
          assert (w = VNone \/ exists n, w = VNum n) as [-> |[n ->]].
          { unfold builtin_scalars in Hb. destruct w; simpl in Hc; eauto; try done;
              repeat (apply elem_of_cons in Hb as [-> |Hb]; [simpl in Hc; naive_solver|]); inversion Hb. }
          -- eexists. split; [done|]. done.
          -- simpl. destruct (num_repr_plain n) as [P1 P2]. destruct (plain_name _ P1) as [-> P3].
             eexists. split; [done|]. simpl. split; [by apply P3|done].
        * rewrite bool_decide_eq_false_2 by done. by exists None. }
  exists onm. split_and!; auto. destruct onm as [nm|]; [|done]. split; [|done].
  eapply key_name_form; [exact Ha| |exact Hn]. intros Hin Hns.
  apply orb_false_iff in Hns as [N1 N2]. destruct Ha as (_ & _ & Hc). destruct ko as [c w]; simpl in *.
  destruct w; try (destruct Hen as [Hen|[Hen _]]; [done|by destruct Hen]).
  - simpl in Hc. destruct Hc as [[Hb|Hb] _]; rewrite isinst_base in N1 by done; rewrite Hb in N1; done.
  - simpl in Hc. destruct Hc as [[Hb|Hb] _]; rewrite (isinst_base c CBytes) in N2 by done; rewrite Hb in N2; done.
Qed.

Lemma dict_subs_ok kvs : (forall k v, (k, v) ∈ kvs -> G k /\ entry_fine E h k v) -> forall nx idx,
  exists ts ss, dict_subs E h nx idx kvs = Ok (ts, ss).
Proof.
  induction kvs as [|[k v] kvs IH]; intros Hkv nx idx; [by eexists _, _|]. cbn [dict_subs].
  destruct (Hkv k v) as [Hk He]; [by left|]. destruct (entry_ok_name k v Hk He) as (ko & onm & -> & _ & -> & Hm). cbn [res_bind].
  assert (forall k v, (k, v) ∈ kvs -> G k /\ entry_fine E h k v) as Hkv' by (intros; apply Hkv; by right).
  destruct onm as [nm|].
  - destruct Hm as (_ & _ & kb & ->). cbn [res_bind]. destruct (IH Hkv' nx (idx + 1)) as (ts & ss & ->). by eexists _, _.
  - destruct (IH Hkv' (nx + 1) (idx + 1)) as (ts & ss & ->). by eexists _, _.
Qed.

Lemma dict_names kvs nx ts ss :
  (forall k v, (k, v) ∈ kvs -> G k /\ entry_fine E h k v) -> distinct_keys h (map fst kvs) ->
  dict_subs E h nx 0 kvs = Ok (ts, ss) ->
  NoDup (map (fun sb => fst (fst sb)) ss) /\ Forall (fun sb => name_ok (fst (fst sb)) = Ok tt) ss /\
  forall sb, sb ∈ ss ->
    (exists k, (k, snd (fst sb)) ∈ kvs) \/
    exists j k v, ts !! j = Some (Obj CTuple (VSeq [k; v])) /\ snd (fst sb) = nx + N.of_nat j /\ (k, v) ∈ kvs /\ items_fine E h [k; v].
Proof.
  intros Hkv (ks & Hks & Hnd) Hd. apply dict_subs_spec in Hd as (es & -> & Hidx & Hes & Hsp).
  assert (forall e, e ∈ es -> (de_key e, de_val e) ∈ kvs) as Hin.
  { intros e He. rewrite <- Hes. by apply (elem_of_list_fmap_1 (fun e => (de_key e, de_val e))). }
  assert (forall e, e ∈ es -> match de_name e with
    | Some (nm, _) => exists ko, h !! de_key e = Some ko /\ key_form E (oval ko) nm /\ name_ok nm = Ok tt /\ de_obj e = de_val e
    | None => items_fine E h [de_key e; de_val e] /\
       exists j, ts !! j = Some (Obj CTuple (VSeq [de_key e; de_val e])) /\ de_obj e = nx + N.of_nat j
    end) as Hent.
  { intros e He. destruct (Hkv _ _ (Hin e He)) as [Hk Hf]. destruct (entry_ok_name _ _ Hk Hf) as (ko & onm & K1 & K2 & K3 & K4).
    specialize (Hsp e He). destruct (de_name e) as [[nm kb]|].
    - destruct Hsp as (S1 & ko' & S2 & S3 & S4). rewrite K1 in S2. inversion S2; subst ko'. rewrite K3 in S3. inversion S3; subst onm.
      destruct K4 as (F1 & F2 & _). by exists ko.
    - destruct Hsp as [(j & Hj) (ko' & S1 & S2)]. rewrite K1 in S1. inversion S1; subst ko'. rewrite K3 in S2. inversion S2; subst onm.
      split; [done|]. by exists j. }
  split_and!.
  - assert (forall i j e e', es !! i = Some e -> es !! j = Some e' -> fst (fst (dict_sub e)) = fst (fst (dict_sub e')) -> i = j) as Hinj.
    { intros i j e e' Hi Hj Heq.
      pose proof (Hent e (elem_of_list_lookup_2 _ _ _ Hi)) as He. pose proof (Hent e' (elem_of_list_lookup_2 _ _ _ Hj)) as He'.
      unfold dict_sub in Heq. simpl in Heq.
      assert (forall i e, es !! i = Some e -> exists k, ks !! i = Some k /\ hashes h (de_key e) k) as Hhash.
      { intros i0 e0 H0. assert (map fst kvs !! i0 = Some (de_key e0)) as Hl.
        { rewrite <- Hes, map_map. change (map ?f es) with (f <$> es). rewrite list_lookup_fmap, H0. done. }
        destruct (Forall2_lookup_l _ _ _ _ _ Hks Hl) as (k & Hk & Hh'). by exists k. }
      assert (forall i e, es !! i = Some e -> de_idx e = N.of_nat i) as Hix.
      { intros i0 e0 H0. assert (map de_idx es !! i0 = Some (de_idx e0)) as Hl.
        { change (map ?f es) with (f <$> es). by rewrite list_lookup_fmap, H0. }
        rewrite Hidx in Hl. change (map ?f ?l) with (f <$> l) in Hl.
        rewrite list_lookup_fmap, enum_from_lookup in Hl. destruct (kvs !! i0); simpl in Hl; [|done]. inversion Hl. lia. }
      destruct (de_name e) as [[nm kb]|], (de_name e') as [[nm' kb']|].
      - subst nm'. destruct He as (ko & A1 & A2 & _), He' as (ko' & B1 & B2 & _).
        destruct (Hhash _ _ Hi) as (k & Hk & Hkh), (Hhash _ _ Hj) as (k' & Hk' & Hkh').
        rewrite (key_form_hv _ _ _ _ _ _ A1 A2 Hkh) in Hk. rewrite (key_form_hv _ _ _ _ _ _ B1 B2 Hkh') in Hk'.
        eapply (NoDup_lookup _ i j _ Hnd).
        + change (map coarse ks) with (coarse <$> ks). rewrite list_lookup_fmap, Hk. simpl. reflexivity.
        + change (map coarse ks) with (coarse <$> ks). rewrite list_lookup_fmap, Hk'. simpl. f_equal. by eapply key_form_inj.
      - destruct He as (ko & A1 & A2 & _). by eapply key_form_data in A2.
      - destruct He' as (ko & A1 & A2 & _). symmetry in Heq. by eapply key_form_data in A2.
      - apply data_name_inj in Heq. rewrite (Hix _ _ Hi), (Hix _ _ Hj) in Heq. lia. }
    rewrite map_map. apply NoDup_alt. intros i j x. change (map ?f es) with (f <$> es). rewrite !list_lookup_fmap.
    intros (e & He1 & He2)%fmap_Some (e' & He1' & He2')%fmap_Some. eapply Hinj; eauto. by rewrite <- He2, <- He2'.
  - apply list.Forall_forall. intros sb Hsb. apply elem_of_list_fmap in Hsb as (e & -> & He). specialize (Hent e He). unfold dict_sub. simpl.
    destruct (de_name e) as [[nm kb]|]; [naive_solver|]. apply data_name_ok.
  - intros sb Hsb. apply elem_of_list_fmap in Hsb as (e & -> & He). specialize (Hent e He). unfold dict_sub. simpl.
    destruct (de_name e) as [[nm kb]|].
    + left. exists (de_key e). destruct Hent as (ko & _ & _ & _ & ->). by apply Hin.
    + right. destruct Hent as (Hf & j & Hj & ->). exists j, (de_key e), (de_val e). split_and!; auto.
Qed.

Definition base_name (b : bytes) : Prop := exists c r, b = c :: r /\ forallb vis b = true /\ is_digit c = false.
Lemma std_item_name c i : std_item c = Some i -> base_name (snd (fst i)).
Proof.
  intros H. unfold base_name. destruct c; simpl in H; try discriminate; try (destruct k; try discriminate); inversion H; subst;
    eexists _, _; (split; [reflexivity|split; vm_compute; reflexivity]).
Qed.
Lemma first_item_name cs i : first_item cs = Some i -> base_name (snd (fst i)).
Proof. induction cs as [|c cs IH]; [done|]. simpl. destruct (std_item c) eqn:Ec; [|done]. intros [= <-]. by eapply std_item_name. Qed.

(** What a create function promises for an acceptable object. *)
Definition data_fine (pl : plan) : Prop :=
  match p_data pl with
  | Some d => p_nocomp pl = true \/ is_scalar_or_null d = false \/ existsb is_filter kw = false
  | None => True
  end.
Record plan_good (nx : loc) (pl : plan) : Prop := {
  pg_fail : p_fail pl = None;
  pg_data : data_fine pl;
  pg_group : p_subs pl = [] \/ p_data pl = None;
  pg_nodup : NoDup (map (fun sb => fst (fst sb)) (p_subs pl));
  pg_names : Forall (fun sb => name_ok (fst (fst sb)) = Ok tt) (p_subs pl);
  pg_targets : forall sb, sb ∈ p_subs pl -> forall H, h ⊆ H -> placed_at H nx (p_temps pl) -> good E U H (snd (fst sb))
}.

Lemma list_plan_good nx xs pl : (forall x, x ∈ xs -> G x) -> items_fine E h xs ->
  create_list_items E h xs = Ok pl -> plan_good nx pl.
Proof.
  intros Hx Hf Hc. destruct (list_items_ok xs Hx Hf) as (pl' & Hc' & H1 & H2 & H3 & H4). rewrite Hc in Hc'. inversion Hc'; subst pl'.
  assert (p_subs pl = [] \/ map (fun sb => fst (fst sb)) (p_subs pl) = map (fun p => data_name (fst p)) (enum_from 0 xs) /\
    map (fun sb => snd (fst sb)) (p_subs pl) = xs) as H5.
  { destruct H4 as [-> |[-> _]]; [by left|right]. unfold list_subs. rewrite enumerate_from, !map_map. split.
    - apply map_ext. by intros [? ?].
    - rewrite <- (enum_from_snd xs 0) at 2. apply map_ext. by intros [? ?]. }
  split; auto.
  - unfold data_fine. destruct (p_data pl); [|done]. destruct (p_nocomp pl); auto.
  - naive_solver.
  - destruct H5 as [-> |[-> _]]; [constructor|]. rewrite <- map_map. change (map data_name ?l) with (data_name <$> l).
    apply NoDup_fmap_2_strong; [|apply enum_from_fst]. intros i j _ _. apply data_name_inj.
  - destruct H5 as [-> |[H5 _]]; [constructor|]. apply list.Forall_forall. intros sb Hsb.
    assert (fst (fst sb) ∈ map (fun sb => fst (fst sb)) (p_subs pl)) as Hn.
    { by apply (elem_of_list_fmap_1 (fun sb : sub => fst (fst sb))). }
    rewrite H5 in Hn. apply elem_of_list_fmap in Hn as (p & -> & _). apply data_name_ok.
  - intros sb Hsb H HhH _. apply (good_mono h); [done..|]. destruct H5 as [H5|[_ H5]]; [rewrite H5 in Hsb; inversion Hsb|]. apply Hx. rewrite <- H5.
    by apply (elem_of_list_fmap_1 (fun sb : sub => snd (fst sb))).
Qed.
Lemma leaf_plan_good nx pl : p_fail pl = None -> data_fine pl -> p_subs pl = [] -> plan_good nx pl.
Proof. intros H1 H2 H3. split; auto; rewrite H3; [constructor|constructor|]. intros sb Hsb. inversion Hsb. Qed.

End Accepted.

Lemma items_fine_nil E h : items_fine E h [].
Proof. split; [|intros _]; intros x; [|intros z]; intros Hx; by apply elem_of_nil in Hx. Qed.
(** The lists made of an array. *)
Lemma tolist_good E U H shape : forall ls nx ts els,
  shape <> [] -> N.of_nat (length ls) = prodN shape -> tolist shape ls nx = (ts, els) -> placed_at H nx ts ->
  (forall x, x ∈ ls -> good E U H x) -> (forall i, items_fine E H (row shape ls i)) -> rows_not_ragged E H shape ls ->
  (forall x, x ∈ els -> good E U H x) /\ items_fine E H els /\
  exists lss, ls = concat lss /\ N.of_nat (length els) = hd 0 shape /\ Forall2 (nested H (tail shape)) lss els.
Proof.
  induction shape as [|n rest IH]; intros ls nx ts els Hne Hlen Ht Hp Hb Hrow Hnr; [done|].
  destruct rest as [|m rest].
  - simpl in Ht. inversion Ht; subst. split; [done|]. split.
    + specialize (Hrow 0%nat). unfold row in Hrow. cbn [last] in Hrow. change (0 * N.to_nat n)%nat with 0%nat in Hrow. rewrite drop_0, take_ge in Hrow; [done|].
      cbn in Hlen. lia.
    + exists (map (fun x => [x]) els). cbn [hd tail nested]. split_and!.
      * clear. induction els as [|x els IH]; simpl; [done|]. by rewrite <- IH.
      * cbn in Hlen. lia.
      * clear. induction els as [|x els IH]; simpl; constructor; auto.
  - clear Hne. cbn [hd tail].
    assert (length ls = (N.to_nat n * N.to_nat (prodN (m :: rest)))%nat) as Hlen'.
    { change (prodN (n :: m :: rest)) with (n * prodN (m :: rest)) in Hlen. lia. }
    pose proof (chunks_concat _ _ _ Hlen') as Hcc. pose proof (chunks_each _ _ _ Hlen') as Hce.
    pose proof (chunks_length (N.to_nat n) (N.to_nat (prodN (m :: rest))) ls) as Hcl.
    assert (forall c, c ∈ chunks (N.to_nat n) (N.to_nat (prodN (m :: rest))) ls ->
      (forall x, x ∈ c -> x ∈ ls) /\ forall i, items_fine E H (row (m :: rest) c i)) as Hc.
    { intros c Hin. split.
      - intros x Hx. by eapply ArrayProofs.chunks_sub.
      - apply elem_of_list_lookup in Hin as [i Hi]. intros j.
        destruct (row_chunk n (m :: rest) ls i c ltac:(done) Hi j) as [-> |[k ->]]; [apply items_fine_nil|apply Hrow]. }
    assert (forall cs nx ts els,
      (fix go (cs : list (list loc)) (nx : loc) : list obj * list loc :=
         match cs with
         | [] => ([], [])
         | c :: cs' =>
             let '(ts, els) := tolist (m :: rest) c nx in
             let me := nx + N.of_nat (length ts) in
             let '(ts', ls) := go cs' (me + 1) in
             (ts ++ Obj CList (VSeq els) :: ts', me :: ls)
         end) cs nx = (ts, els) -> placed_at H nx ts -> Forall (fun c => length c = N.to_nat (prodN (m :: rest))) cs ->
      (forall c, c ∈ cs -> (forall x, x ∈ c -> x ∈ ls) /\ forall i, items_fine E H (row (m :: rest) c i)) ->
      Forall2 (nested H (m :: rest)) cs els /\ forall x, x ∈ els -> good E U H x) as Hgo.
    { clear -IH Hb Hnr. induction cs as [|c cs IHc]; intros nx ts els Hg Hp Hl Hc.
      - inversion Hg; subst. split; [constructor|]. intros x Hx; inversion Hx.
      - destruct (tolist (m :: rest) c nx) as [ts1 els1] eqn:E1.
        cbv zeta in Hg. match type of Hg with (let '(_, _) := ?g in _) = _ => destruct g as [ts2 ls2] eqn:E2 end.
        inversion Hg; subst ts els. clear Hg.
        apply placed_at_app in Hp as [Hp1 Hp2]. apply placed_at_cons in Hp2 as [Hp2 Hp3].
        inversion Hl as [|? ? Hl1 Hl2]; subst. destruct (Hc c ltac:(left)) as [Hc1 Hc2].
        destruct (IH c nx ts1 els1) as (L1 & L2 & lss & L3 & L4 & L5); auto.
        { rewrite Hl1. lia. }
        { intros h' ds ys z A1 A2 A3 A4 A5. apply (Hnr h' ds ys z A1 A2); [cbn [length] in *; lia| |done]. auto. }
        destruct (IHc _ _ _ E2 Hp3 Hl2) as (M1 & M2). { intros c' Hc'. apply Hc. by right. }
        split.
        + constructor; [|done]. cbn [hd tail] in L4, L5. exists els1, lss. split_and!; auto.
        + intros x [-> |Hx]%elem_of_cons; [|by apply M2]. eapply (good_list E U H _ CList els1); auto. }
    change (tolist (n :: m :: rest) ls nx) with
      ((fix go (cs : list (list loc)) (nx : loc) : list obj * list loc :=
         match cs with
         | [] => ([], [])
         | c :: cs' =>
             let '(ts, els) := tolist (m :: rest) c nx in
             let me := nx + N.of_nat (length ts) in
             let '(ts', ls) := go cs' (me + 1) in
             (ts ++ Obj CList (VSeq els) :: ts', me :: ls)
         end) (chunks (N.to_nat n) (N.to_nat (prodN (m :: rest))) ls) nx) in Ht.
    destruct (Hgo _ _ _ _ Ht Hp Hce Hc) as (G1 & G2). split; [done|].
    assert (forall x, x ∈ els -> exists c xs, (forall y, y ∈ c -> y ∈ ls) /\ nested H (m :: rest) c x /\ H !! x = Some (Obj CList (VSeq xs))) as Hx.
    { intros x Hx. apply elem_of_list_lookup in Hx as [i Hi]. destruct (Forall2_lookup_r _ _ _ _ _ G1 Hi) as (c & Hci & Hn).
      exists c. pose proof Hn as (xs & lss & Hxs & _). exists xs. split; [|done]. apply (Hc c). by eapply elem_of_list_lookup_2. }
    split.
    + split.
      * intros x Hin o Ho. destruct (Hx x Hin) as (c & xs & H1 & H2 & H3). rewrite H3 in Ho. inversion Ho; subst o. cbn [oval].
        intros h' Hh'. apply (Hnr h' (m :: rest) c x Hh'); [done|cbn [length]; lia|done|]. by eapply arr_at_mono.
      * intros Ha x z Hin. destruct (Hx x Hin) as (c & xs & _ & _ & H3). rewrite H3. discriminate.
    + eexists. split; [symmetry; exact Hcc|]. split; [|exact G1]. apply Forall2_length in G1. lia.
Qed.

Section Create.
Context (E : env) (HE : env_ok E) (kw : kwargs) (h0 : heap) (U : gset N).
Context (HU : forall y, y ∈ U -> exists o, h0 !! y = Some o /\ acceptable E kw h0 o /\ forall z, z ∈ refs o -> z ∈ U).
Context (h : heap) (Hh : h0 ⊆ h).
Local Notation G := (good E U h).
Local Notation plan_good := (plan_good E kw U h).

Context (nx : loc) (Hfr : forall l, nx <= l -> h !! l = None).
(** The plan for the lists of an array. *)
Lemma temps_placed ts : h ⊆ temps_heap h nx ts /\ placed_at (temps_heap h nx ts) nx ts.
Proof.
  split.
  - apply map_subseteq_spec. intros l o Ho. rewrite temps_heap_lookup. destruct (decide _) as [Hd|]; [|done]. rewrite Hfr in Ho; [done|lia].
  - intros i t Ht. rewrite temps_heap_lookup. rewrite decide_True.
    + by replace (N.to_nat (nx + N.of_nat i - nx)) with i by lia.
    + apply lookup_lt_Some in Ht. lia.
Qed.
Lemma array_plan_good ts els a :
  (forall x, x ∈ els -> good E U (temps_heap h nx ts) x) -> items_fine E (temps_heap h nx ts) els ->
  exists pl, res_map (with_temps ts a) (create_list_items E (temps_heap h nx ts) els) = Ok pl /\ plan_good nx pl.
Proof.
  intros Hg Hf. destruct (temps_placed ts) as [H1 H2]. set (H := temps_heap h nx ts) in *. assert (h0 ⊆ H) as H0 by (by etrans).
  destruct (list_items_ok E HE kw h0 U HU H H0 els Hg Hf) as (pl & Hpl & _ & Htm & _).
  pose proof (list_plan_good E HE kw h0 U HU H H0 nx els pl Hg Hf Hpl) as [P1 P2 P3 P4 P5 P6].
  rewrite Hpl. cbn [res_map]. eexists. split; [reflexivity|]. unfold with_temps. rewrite Htm, app_nil_r.
  split; cbn [p_fail p_subs p_data p_temps]; auto.
  intros sb Hsb H' Hh' Hp. apply P6; [done| |rewrite Htm; intros i t Ht; discriminate Ht].
  by apply temps_heap_sub.
Qed.

Lemma strarr_good w n shape vs : (length (n :: shape) <= 32)%nat -> N.of_nat (length vs) = size_of (n :: shape) ->
  Forall (fun s => encodable s = true) vs -> exists pl, create_np_array E h nx (Obj CNdarray (VStrArr w (n :: shape) vs)) = Ok pl /\ plan_good nx pl.
Proof.
  intros Hd Hl He. unfold create_np_array. cbn [oval].
  set (ls := map (fun '(i, _) => nx + i) (enumerate vs)).
  destruct (tolist (n :: shape) ls (nx + N.of_nat (length vs))) as [ts els] eqn:Et.
  set (ss := map (fun s => Obj CStr (VStr s)) vs).
  destruct (temps_placed (ss ++ ts)) as [H1 H2]. set (H := temps_heap h nx (ss ++ ts)) in *.
  apply placed_at_app in H2 as [H2 H3]. assert (length ss = length vs) as Hss by (unfold ss; apply map_length).
  assert (length ls = length vs) as Hls.
  { unfold ls. rewrite map_length, enumerate_from. apply enum_from_length. }
  assert (forall x, x ∈ ls -> exists t, H !! x = Some (Obj CStr (VStr t)) /\ encodable t = true) as Hstr.
  { intros x Hx. unfold ls in Hx. rewrite enumerate_from in Hx. apply elem_of_list_fmap in Hx as ([i t] & -> & Hin).
    apply elem_of_list_lookup in Hin as [j Hj]. rewrite enum_from_lookup in Hj. destruct (vs !! j) as [t'|] eqn:Ej; [|discriminate Hj].
    inversion Hj; subst i t'. exists t. split.
    - replace (nx + (0 + N.of_nat j)) with (nx + N.of_nat j) by lia. apply H2. unfold ss. change (map ?f ?l) with (f <$> l). by rewrite list_lookup_fmap, Ej.
    - rewrite list.Forall_forall in He. apply He. by eapply elem_of_list_lookup_2. }
  assert (forall x, x ∈ els -> good E U H x) as G1; [|assert (items_fine E H els) as G2].
  all: destruct (tolist_good E U H (n :: shape) ls (nx + N.of_nat (length vs)) ts els) as (T1 & T2 & _); auto; try done;
    try (rewrite Hls; exact Hl); try (by rewrite <- Hss).
  all: try (intros x Hx; destruct (Hstr x Hx) as (t & K1 & K2); by eapply good_str).
  all: try (intros i; split; [intros x Hx o Ho; apply elem_of_row in Hx; destruct (Hstr x Hx) as (t & K1 & _); rewrite K1 in Ho; inversion Ho; done
    |intros _ x z Hx; apply elem_of_row in Hx; destruct (Hstr x Hx) as (t & K1 & _); rewrite K1; discriminate]).
  all: try (intros h' ds ys z A1 A2 A3 A4 A5; apply (ok_nested E HE h' ds ys z A5); [lia|]; intros l Hl'; destruct (Hstr l (A4 l Hl')) as (t & K1 & _);
    unfold no_sequence; by rewrite (lookup_weaken _ _ _ _ K1 A1)).
  by apply array_plan_good.
Qed.

Lemma objarr_good c n shape xs : (length (n :: shape) <= 32)%nat -> N.of_nat (length xs) = size_of (n :: shape) ->
  (forall x, x ∈ xs -> G x) -> rows_not_ragged E h (n :: shape) xs -> (forall i, items_fine E h (row (n :: shape) xs i)) ->
  exists pl, create_np_array E h nx (Obj c (VObjArr (n :: shape) xs)) = Ok pl /\ plan_good nx pl.
Proof.
  intros Hd Hl Hg Hnr Hrow. unfold create_np_array. cbn [oval].
  destruct (tolist (n :: shape) xs nx) as [ts els] eqn:Et.
  destruct (temps_placed ts) as [H1 H2]. set (H := temps_heap h nx ts) in *.
  destruct (tolist_good E U H (n :: shape) xs nx ts els) as (T1 & T2 & _); auto; try done.
  - intros x Hx. apply (good_mono E kw h0 U HU h); auto.
  - intros i. eapply items_fine_mono; [exact H1| |by apply Hrow]. intros x Hx. apply elem_of_row in Hx. by eapply (good_known E kw h0 U HU), Hg.
  - intros h' ds ys z A1. apply Hnr. by etrans.
  - by apply array_plan_good.
Qed.

(** The loader found for a class and what its create function does. *)
Lemma create_accepted o :
  outside_hickle (ocls o) -> contents_fine E kw h (ocls o) (oval o) -> (forall z, z ∈ refs o -> G z) ->
  exists pt fn base memo pl,
    std_dump (ocls o) = Ok (pt, (fn, base, memo)) /\ create E fn h nx o = Ok pl /\ plan_good nx pl /\
    (pt = CObject \/ pt = ocls o /\ is_opaque (oval o) = false /\ base_name base).
Proof.
  intros Hout Hc Hr. pose proof (std_dump_base (ocls o) _ Hout eq_refl) as Hans.
  assert (forall fn base memo pl, first_item (mro (base_cls (ocls o))) = Some (fn, base, memo) -> create E fn h nx o = Ok pl ->
    plan_good nx pl -> is_opaque (oval o) = false ->
    exists pt fn base memo pl, std_dump (ocls o) = Ok (pt, (fn, base, memo)) /\ create E fn h nx o = Ok pl /\ plan_good nx pl /\
    (pt = CObject \/ pt = ocls o /\ is_opaque (oval o) = false /\ base_name base)) as Hfin.
  { intros fn base memo pl Hi Hcr Hg Ho. rewrite Hi in Hans. exists (ocls o), fn, base, memo, pl. split_and!; auto.
    right. split_and!; auto. by apply first_item_name in Hi. }
  assert (forall k, k = CStr \/ k = CBytes -> isinst (ocls o) k = isinst (base_cls (ocls o)) k) as Hinst.
  { intros k Hk. apply isinst_base. by destruct Hk as [-> | ->]. }
  destruct o as [c v]; cbn [ocls oval] in *. destruct v; cbn [contents_fine] in Hc; try done.
  - subst c. eapply Hfin; [reflexivity|reflexivity| |done]. apply leaf_plan_good; [done| |done]. by left.
  - unfold number_ok in Hc.
    assert (forall base : bytes, (exists pl, create_scalar (Obj c (VNum n)) = Ok pl /\ plan_good nx pl)) as Hsc.
    { intros _. unfold create_scalar. cbn [oval ocls]. destruct n; try (eexists; split; [reflexivity|]; apply leaf_plan_good; [done| |done]; by left).
      destruct (isinst c CInt && needs_str z); eexists; (split; [reflexivity|]); apply leaf_plan_good; try done; [right; by left|by left]. }
    destruct (base_cls c) as [| | | | | | | | | | | | | | | | | |d1| | | | | | | | | | | | | | | |] eqn:Eb; try done;
      try (destruct (Hsc []) as (pl & Hpl & Hg); eapply Hfin; [reflexivity|exact Hpl|exact Hg|done]).
    destruct Hc as [-> _]. eapply Hfin; [apply np_scalar_item|reflexivity| |done]. apply leaf_plan_good; [done| |done]. by left.
  - destruct Hc as (Hb & He & Ha). apply utf8_encode_ok in He as [b Hb'].
    assert (ascii_encode (cls_name c) = Ok (cls_name c)) as Hae.
    { unfold ascii_encode. assert (forallb (fun c => c <? 128) (cls_name c) = true) as ->; [|done].
      apply forallb_forall. intros x Hx%elem_of_list_In. unfold ascii_name in Ha. rewrite list.Forall_forall in Ha. specialize (Ha x Hx). simpl in Ha. lia. }
    destruct Hb as [Hb|Hb].
    + eapply Hfin; [by rewrite Hb| | |done].
      * unfold create, create_listlike. cbn [ocls]. rewrite !Hinst, Hb by auto. cbn. unfold create_text. cbn [oval ocls]. rewrite Hb'. cbn [res_map]. rewrite Hae. reflexivity.
      * apply leaf_plan_good; [done| |done]. right; by left.
    + eapply Hfin; [by rewrite Hb| | |done].
      * unfold create, create_listlike. cbn [ocls]. rewrite !Hinst, Hb by auto. cbn. unfold create_text. cbn [oval ocls]. rewrite Hb'. cbn [res_map]. rewrite Hae. reflexivity.
      * apply leaf_plan_good; [done| |done]. right; by left.
  - destruct Hc as (Hb & Ha).
    assert (ascii_encode (cls_name c) = Ok (cls_name c)) as Hae.
    { unfold ascii_encode. assert (forallb (fun c => c <? 128) (cls_name c) = true) as ->; [|done].
      apply forallb_forall. intros x Hx%elem_of_list_In. unfold ascii_name in Ha. rewrite list.Forall_forall in Ha. specialize (Ha x Hx). simpl in Ha. lia. }
    destruct Hb as [Hb|Hb].
    + eapply Hfin; [by rewrite Hb| | |done].
      * unfold create, create_listlike. cbn [ocls]. rewrite !Hinst, Hb by auto. cbn. unfold create_text. cbn [oval ocls]. cbn [res_map]. rewrite Hae. reflexivity.
      * apply leaf_plan_good; [done| |done]. right; by left.
    + eapply Hfin; [by rewrite Hb| | |done].
      * unfold create, create_listlike. cbn [ocls]. rewrite !Hinst, Hb by auto. cbn. unfold create_text. cbn [oval ocls]. cbn [res_map]. rewrite Hae. reflexivity.
      * apply leaf_plan_good; [done| |done]. right; by left.
  - destruct Hc as (Hb & Hf). destruct (list_items_ok E HE kw h0 U HU h Hh xs Hr Hf) as (pl & Hpl & _).
    pose proof (list_plan_good E HE kw h0 U HU h Hh nx xs pl Hr Hf Hpl) as Hg.
    assert (isinst (base_cls c) CStr = false -> isinst (base_cls c) CBytes = false -> create_listlike E h (Obj c (VSeq xs)) = Ok pl) as Hll.
    { intros I1 I2. unfold create_listlike. cbn [ocls oval]. by rewrite !Hinst, I1, I2 by auto. }
    destruct Hb as [Hb|[Hb|[Hb|(m & nn & kk & Hb)]]].
    + eapply Hfin; [by rewrite Hb| |exact Hg|done]. apply Hll; by rewrite Hb.
    + eapply Hfin; [by rewrite Hb| |exact Hg|done]. apply Hll; by rewrite Hb.
    + eapply Hfin; [by rewrite Hb| |exact Hg|done]. exact Hpl.
    + eapply Hfin; [by rewrite Hb| |exact Hg|done]. apply Hll; by rewrite Hb.
  - destruct Hc as (Hb & Hd & He). rewrite list.Forall_forall in He.
    assert (forall k v, (k, v) ∈ kvs -> G k /\ G v) as Hkv.
    { intros k v Hin. split; apply Hr; unfold refs; cbn [oval]; apply elem_of_app.
      - left. apply elem_of_list_fmap. by exists (k, v).
      - right. apply elem_of_list_fmap. by exists (k, v). }
    assert (forall k v, (k, v) ∈ kvs -> G k /\ entry_fine E h k v) as Hkv2.
    { intros k v Hin. split; [apply (Hkv k v Hin)|]. by apply (He (k, v)). }
    destruct (dict_subs_ok E HE kw h0 U HU h Hh kvs Hkv2 nx 0) as (ts & ss & Hs). destruct (dict_names E HE kw h0 U HU h Hh kvs nx ts ss Hkv2 Hd Hs) as (N1 & N2 & N3).
    assert (create_dictlike E h nx (Obj c (VDict kvs)) = Ok (Plan ts false None [] None ss)) as Hcr.
    { unfold create_dictlike. cbn [oval]. by rewrite Hs. }
    assert (plan_good nx (Plan ts false None [] None ss)) as Hg.
    { split; auto; [done|]. intros sb Hsb H HhH Hp. destruct (N3 sb Hsb) as [[k Hk]|(j & k & v & J1 & J2 & J3 & J4)].
      - apply (good_mono E kw h0 U HU h); auto. apply (Hkv _ _ Hk).
      - rewrite J2. destruct (Hkv _ _ J3) as [K1 K2].
        assert (forall y, y ∈ [k; v] -> G y) as Hy. { intros y Hy. repeat (apply elem_of_cons in Hy as [-> |Hy]; [done|]). by apply elem_of_nil in Hy. }
        apply (good_list E U H _ CTuple [k; v]); [by left|by apply Hp| |].
        + intros y Hin. apply (good_mono E kw h0 U HU h); auto.
        + eapply items_fine_mono; [exact HhH| |done]. intros y Hin. by eapply (good_known E kw h0 U HU), Hy. }
    destruct Hb as [Hb|[Hb|[Hb|Hb]]]; (eapply Hfin; [by rewrite Hb|exact Hcr|exact Hg|done]).
  - destruct Hc as (Hb & Hs).
    assert (exists pl, create_np_array E h nx (Obj c (VArr d shape vs)) = Ok pl /\ plan_good nx pl) as (pl & Hpl & Hg).
    { unfold create_np_array. cbn [oval]. destruct shape as [|n0 shape].
      - destruct (Hs eq_refl) as [Hl Hk]. destruct vs as [|v [|]]; try done. eexists. split; [reflexivity|]. apply leaf_plan_good; [done| |done].
        right. right. clear -Hk. induction Hk as [|k ks Hk _ IH]; [done|]. simpl. rewrite IH, orb_false_r. unfold is_filter. by apply bool_decide_eq_false_2.
      - eexists. split; [reflexivity|]. apply leaf_plan_good; [done| |done]. right; by left. }
    destruct Hb as [Hb|Hb]; (eapply Hfin; [by rewrite Hb|exact Hpl|exact Hg|done]).
  - destruct Hc as (Hb & Hd & Hl & He).
    assert (exists pl, create_np_array E h nx (Obj c (VStrArr width shape vs)) = Ok pl /\ plan_good nx pl) as (pl & Hpl & Hg).
    { destruct shape as [|n0 shape].
      - destruct vs as [|t [|]]; [discriminate Hl| |cbn in Hl; lia]. inversion He as [|? ? He1 _]; subst. apply utf8_encode_ok in He1 as [b Hb'].
        unfold create_np_array. cbn [oval]. rewrite Hb'. eexists. split; [reflexivity|]. apply leaf_plan_good; [done| |done]. right; by left.
      - by apply strarr_good. }
    eapply Hfin; [by rewrite Hb|exact Hpl|exact Hg|done].
  - destruct Hc as (Hb & Hd & Hl & Hnr & Hrow).
    assert (exists pl, create_np_array E h nx (Obj c (VObjArr shape vs)) = Ok pl /\ plan_good nx pl) as (pl & Hpl & Hg).
    { destruct shape as [|n0 shape].
      - destruct vs as [|l [|]]; [discriminate Hl| |cbn in Hl; lia]. unfold create_np_array. cbn [oval].
        assert (G l) as Hgl by (apply Hr; by left).
        destruct (good_acceptable E HE kw h0 U HU h l Hh Hgl) as (io & Hio & (_ & _ & Hci) & Hri). rewrite Hio.
        destruct (isinst (ocls io) CList) eqn:Ei.
        + destruct (list_class E kw h _ _ Hci Ei) as (ys & Hys & Hfy & Hns). unfold create_listlike. rewrite Hns, Hys.
          unfold refs in Hri. rewrite Hys in Hri.
          destruct (list_items_ok E HE kw h0 U HU h Hh ys Hri Hfy) as (pl & Hpl & _).
          destruct (list_plan_good E HE kw h0 U HU h Hh nx ys pl Hri Hfy Hpl) as [P1 P2 P3 P4 P5 P6].
          rewrite Hpl. cbn [res_map]. eexists. split; [reflexivity|]. by split.
        + eexists. split; [reflexivity|]. split; cbn [p_fail p_subs p_data plan_group]; try done.
          * by right.
          * apply (bool_decide_unpack _). vm_compute. exact I.
          * repeat constructor.
          * intros sb Hsb H HhH _. apply elem_of_list_singleton in Hsb as ->. by apply (good_mono E kw h0 U HU h).
      - by apply objarr_good. }
    eapply Hfin; [by rewrite Hb|exact Hpl|exact Hg|done].
  - subst c. eapply Hfin; [reflexivity|reflexivity| |done]. apply leaf_plan_good; [done| |done]. right; by left.
  - destruct Hc as (Hb & c' & dt & shape & vs & Hd).
    eapply Hfin; [by rewrite Hb| | |done].
    + unfold create, create_np_masked. cbn [oval]. assert (h !! data = Some (Obj c' (VArr dt shape vs))) as -> by done. reflexivity.
    + split; cbn [p_fail p_subs p_data plan_group]; try done.
      * by right.
      * apply (bool_decide_unpack _). vm_compute. exact I.
      * repeat constructor.
      * intros sb Hsb H HhH _. apply (good_mono E kw h0 U HU h); auto. apply Hr. unfold refs. cbn [oval]. clear -Hsb. set_solver.
  - destruct Hc as (k & Hb).
    assert (exists base memo, first_item (mro (base_cls c)) = Some (FSparse, base, memo)) as (base & memo & Hi).
    { rewrite Hb. destruct k; eexists _, _; reflexivity. }
    eapply (Hfin FSparse base memo); [exact Hi|reflexivity| |done].
    + split; cbn [p_fail p_subs p_data plan_group]; try done.
      * by right.
      * apply (bool_decide_unpack _). vm_compute. exact I.
      * repeat constructor.
      * intros sb Hsb H HhH _. apply (good_mono E kw h0 U HU h); auto. apply Hr. unfold refs. cbn [oval]. clear -Hsb. set_solver.
  - destruct Hc as (Hb & Hp). exists CObject, FPickle, b_pickle, true, (plan_data false (DPickle c k state) []).
    split_and!; [| | |by left].
    + rewrite Hans. assert (first_item (mro (base_cls c)) = None) as ->; [|done]. destruct (base_cls c); done.
    + unfold create, create_pickled. cbn [oval ocls]. by rewrite Hp.
    + apply leaf_plan_good; [done| |done]. right; by left.
Qed.

End Create.
