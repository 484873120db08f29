(** * LoadCycle: load only returns when the nodes it has to visit form no cycle *)
From stdpp Require Import relations.
From Verif Require Import Base Utf8 Dec Num PyObj H5 Env Create Dump LoadFns LoadModel Registry RegistryStd Spec
  DumpProofs DumpStored LoadBase LoadLeaf Api FileProofs.
From Coq Require Import Lia ZifyBool ZifyN.
Local Open Scope N_scope.
Local Open Scope list_scope.
Local Opaque std_loader std_dump dump_loader_of loader_of.

(** ** Specification *)

(** The class of the node is [return_first], the mark of the groups hickle 4 wrote for
    sparse matrices, of whose members load passes over those it does not know. *)
Definition old_matrix (f : file) (n : node) : Prop :=
  nd_attrs n !! a_type = Some (APickle return_first) \/
  exists e en, nd_attrs n !! a_type = Some (ARef e) /\ get_node f e = Some en /\ nd_body en = BData (DPickleCls return_first).

(** To build the object of node [a] that of node [b] is needed: [b] is a member of the
    group [a], or [a] is a dataset without type holding a reference to [b].
    [old]: the file is one of hickle 4. *)
Inductive leads (old : bool) (f : file) : addr -> addr -> Prop :=
| leads_member a n nm b :
    get_node f a = Some n -> (nm, b) ∈ links n -> (old = true -> ~ old_matrix f n) -> leads old f a b
| leads_target a n b :
    get_node f a = Some n -> nd_attrs n !! a_type = None -> nd_body n = BData (DRefTo b) -> leads old f a b.

(** No infinite sequence of needed nodes starts at [a]. *)
Definition grounded (old : bool) (f : file) (a : addr) : Prop := Acc (fun b c => leads old f c b) a.

(** ** Proof *)
Section Grounded.
Context (E : env) (W : world) (chain : list opt) (old : bool) (f : file).
Let LD : loader := loader_of W chain old.
Context (HE : forall a l, Permutation (e_order E a l) l).

Definition memo_grounded (s : lst) : Prop := forall b l, l_memo s !! b = Some l -> grounded old f b.

Lemma members_grounded fu rec k ms : forall cs s s' cs',
  (forall a s s' l, rec a s = Ok (s', l) -> memo_grounded s -> grounded old f a /\ memo_grounded s') ->
  load_members E fu f rec k ms cs s = Ok (s', cs') -> memo_grounded s ->
  (forall nm b, (nm, b) ∈ ms -> grounded old f b) /\ memo_grounded s'.
Proof.
  induction ms as [|[nm a] ms IH]; intros cs s s' cs' Hrec; cbn [load_members].
  { intros [= <- _] Hm. split; [|done]. intros ? ? Hin. by apply elem_of_nil in Hin. }
  destruct (get_node f a) as [n|]; [|done].
  destruct (rec a s) as [[s1 l]|e] eqn:Er; cbn [res_bind]; [|done].
  destruct (cont_append _ _ _ _ _ _ _ _) as [[m cs1]|e]; cbn [res_bind]; [|done].
  intros Hl Hm. destruct (Hrec _ _ _ _ Er Hm) as [Ha Hm1].
  destruct (IH _ _ _ _ Hrec Hl Hm1) as [H1 H2]. split; [|done].
  intros nm' b [Heq|Hin]%elem_of_cons; [by inversion Heq|by eapply H1].
Qed.

Lemma member_in k a n ms nm b : members E f k a n = Ok ms -> (nm, b) ∈ links n -> (nm, b) ∈ ms.
Proof.
  unfold members, links. destruct (nd_body n) as [ls|d]; [|by intros _ ?%elem_of_nil].
  intros Hm Hin. destruct k; inversion Hm; subst; by rewrite (HE a ls).
Qed.
Lemma target_in k a n ms b : members E f k a n = Ok ms -> nd_body n = BData (DRefTo b) -> exists nm, (nm, b) ∈ ms.
Proof.
  unfold members. intros Hm Hb. rewrite Hb in Hm. destruct k; try discriminate Hm.
  destruct (get_node f b) as [tn|]; inversion Hm; subst. exists (nd_name tn). by left.
Qed.

(** The class an object is made with is that of its type, except when that has no loader. *)
Lemma loader_class c b pt m : ld_load LD c b = Ok (pt, m) -> pt = c \/ pt = CObject.
Proof.
  unfold LD. Local Transparent loader_of. unfold loader_of. cbn [ld_load]. Local Opaque loader_of. unfold load_loader.
  destruct (load_loader_mro _ _ _ _ _) as [g' [[[[fn base] memo]|]|e]]; cbn; intros H; inversion H; auto.
Qed.
Lemma redirected_old k n r pt m : resolve_type E old f n = Ok r -> ld_load LD (r_cls r) (r_base r) = Ok (pt, m) ->
  redirected k pt = true -> old_matrix f n.
Proof.
  intros Hr Hl Hd. unfold redirected in Hd. apply andb_true_iff in Hd as [_ Hd%bool_decide_eq_true]. subst pt.
  apply loader_class in Hl as [Hl|Hl]; [|done]. unfold resolve_type in Hr.
  destruct (nd_attrs n !! a_type) as [t|] eqn:Et.
  - destruct t as [| | | |e|c]; try done.
    + destruct (get_node f e) as [en|] eqn:Een; [|done]. destruct (entry_base f en) as [b|]; [|done]. cbn [res_bind] in Hr.
      destruct (nd_body en) as [|[]] eqn:Eb; try done. injection Hr as <-.
      destruct (e_imports E c); cbn [r_cls] in Hl; [|done]. subst c. right. by exists e, en.
    + case_bool_decide.
      { destruct old; [|done]. injection Hr as <-. done. }
      destruct (e_imports E c); injection Hr as <-; cbn [r_cls] in Hl; [|done]. subst c. by left.
  - destruct (nd_body n) as [|[]]; try (destruct old); try done; by injection Hr as <-.
Qed.

Lemma redirected_grounded fu a n d at_ s s' l : get_node f a = Some n -> nd_body n = BData d -> (forall t, d <> DRefTo t) ->
  load_redirected E fu LD f a n d at_ s = Ok (s', l) -> memo_grounded s -> memo_grounded s'.
Proof.
  intros Hn Hb Hd H Hm. unfold load_redirected in H. destruct (l_memo s !! a); [by injection H as <- <-|].
  destruct (resolve_type _ _ _ _) as [r|]; cbn [res_bind] in H; [|done].
  destruct (ld_load _ _ _) as [[pt memoise]|]; cbn [res_bind] in H; [|done].
  destruct (load_dataset _ _ _ _ _ _ _ _ _ _) as [[m l1]|]; cbn [res_map] in H; [|done].
  injection H as <- <-. destruct memoise; [|done]. intros b l2. cbn [memo_put set_mem l_memo].
  destruct (decide (b = a)) as [-> |Hne]; [|rewrite lookup_insert_ne by done; apply Hm]. intros _.
  constructor. intros c Hc. exfalso. inversion Hc as [a0 n0 nm b0 H1 H2|a0 n0 b0 H1 H2 H3]; subst; rewrite Hn in H1; injection H1 as <-.
  - unfold links in H2. rewrite Hb in H2. by apply elem_of_nil in H2.
  - rewrite Hb in H3. injection H3 as H3. by eapply Hd.
Qed.
Lemma redirects_grounded fu ms : forall pt cs s s' cs' pt',
  redirect_members E fu LD f ms pt cs s = Ok (s', cs', pt') -> memo_grounded s -> memo_grounded s'.
Proof.
  induction ms as [|[nm a] ms IH]; intros pt cs s s' cs' pt'; cbn [redirect_members].
  { by intros [= <- _ _]. }
  destruct (get_node f a) as [n|] eqn:En; [|done]. destruct (Proxy.redirect _ _ _) as [[p|]|]; cbn [res_bind]; [| |done]; [|by apply IH].
  destruct (nd_body n) as [|d] eqn:Eb; [discriminate|].
  assert ((forall t, d <> DRefTo t) -> res_bind (if bool_decide (nm = str "data") then matrix_class E (nd_attrs n) else Ok pt) (fun pt' =>
       res_bind (load_redirected E fu LD f a n d (Proxy.px_own p ∪ Proxy.px_node p) s) (fun '(s1, l) =>
         res_bind (cont_append E fu KSparse nm l (Proxy.px_own p ∪ Proxy.px_node p) cs (l_mem s1)) (fun '(m, cs') =>
           redirect_members E fu LD f ms pt' cs' (set_mem m s1)))) = Ok (s', cs', pt') -> memo_grounded s -> memo_grounded s') as X.
  { intros Hd. destruct (if bool_decide (nm = str "data") then _ else _) as [c1|]; cbn [res_bind]; [|discriminate].
    destruct (load_redirected _ _ _ _ _ _ _ _ _) as [[s1 l]|] eqn:El; cbn [res_bind]; [|discriminate].
    destruct (cont_append _ _ _ _ _ _ _ _) as [[m cs1]|]; cbn [res_bind]; [|discriminate].
    intros H Hm. eapply IH; [exact H|]. intros b l1 Hl1. cbn [set_mem l_memo] in Hl1.
    eapply (redirected_grounded _ _ _ _ _ _ _ _ En Eb Hd); [exact El|exact Hm|exact Hl1]. }
  destruct d; first [discriminate|apply X; discriminate].
Qed.

Lemma load_grounded fu : forall a s s' l,
  load_ fu E LD f a s = Ok (s', l) -> memo_grounded s -> grounded old f a /\ memo_grounded s'.
Proof.
  induction fu as [|fu IH]; intros a s s' l; [done|]. unfold load_; fold load_.
  destruct (l_memo s !! a) as [l0|] eqn:Em.
  { intros [= <- _] Hm. split; [by eapply Hm|done]. }
  destruct (get_node f a) as [n|] eqn:En; [|done].
  destruct (resolve_type E (ld_legacy LD) f n) as [r|e] eqn:Er; cbn [res_bind]; [|done].
  destruct (ld_load LD (r_cls r) (r_base r)) as [[pt memoise]|e] eqn:Eld; cbn [res_bind]; [|done].
  intros Hl Hm.
  assert (forall s1, grounded old f a -> memo_grounded s1 -> memo_grounded (if memoise then memo_put a l s1 else s1)) as Hput.
  { intros s1 Ha H1. destruct memoise; [|done]. intros b l1. cbn [memo_put l_memo].
    destruct (decide (b = a)) as [-> |Hne]; [done|]. rewrite lookup_insert_ne by done. apply H1. }
  destruct (r_cont r) eqn:Ec.
  - destruct (members E f (default KRecover (ld_conts LD (r_base r))) a n) as [ms|e] eqn:Ems; cbn [res_bind] in Hl; [|done].
    destruct (redirected _ pt) eqn:Erd.
    { assert (old_matrix f n) as Hom by exact (redirected_old _ _ _ _ _ Er Eld Erd).
      assert (ld_legacy LD = true) as Ho by (by destruct (ld_legacy LD)). rewrite Ho in Hl.
      destruct (redirect_members _ _ _ _ _ _ _ _) as [[[s1 cs] pt']|e] eqn:Elm; cbn [res_bind] in Hl; [|done].
      destruct (cont_convert _ _ _ _ _ _ _) as [[m l1]|e]; cbn [res_map] in Hl; [|done].
      assert (grounded old f a) as Ha.
      { constructor. intros b Hb. exfalso. inversion Hb as [a0 n0 nm b0 H1 H2 H3|a0 n0 b0 H1 H2 H3]; subst; rewrite En in H1; injection H1 as <-.
        - by apply (H3 Ho).
        - destruct Hom as [Hom|(e & en & Hom & _)]; by rewrite H2 in Hom. }
      inversion Hl; subst. split; [done|]. apply Hput; [done|]. intros b l1. cbn [set_mem l_memo]. apply (redirects_grounded _ _ _ _ _ _ _ _ Elm Hm). }
    destruct (load_members _ _ _ _ _ _ _ _) as [[s1 cs]|e] eqn:Elm; cbn [res_bind] in Hl; [|done].
    destruct (cont_convert _ _ _ _ _ _ _) as [[m l1]|e]; cbn [res_map] in Hl; [|done].
    destruct (members_grounded _ _ _ _ _ _ _ _ IH Elm Hm) as [Hin Hm1].
    assert (grounded old f a) as Ha.
    { constructor. intros b Hb. inversion Hb as [a0 n0 nm b0 H1 H2|a0 n0 b0 H1 H2 H3]; subst.
      - rewrite En in H1. inversion H1; subst n0. apply (Hin nm b). eapply member_in; [exact Ems|exact H2].
      - rewrite En in H1. inversion H1; subst n0. destruct (target_in _ _ _ _ _ Ems H3) as [nm Hnm]. by apply (Hin nm). }
    inversion Hl; subst. split; [done|]. apply Hput; [done|]. intros b l1. cbn [set_mem l_memo]. apply Hm1.
  - assert (grounded old f a) as Ha.
    { constructor. intros b Hb. exfalso. inversion Hb as [a0 n0 nm b0 H1 H2|a0 n0 b0 H1 H2 H3]; subst.
      - rewrite En in H1. inversion H1; subst n0. unfold links in H2. destruct (nd_body n); [done|by apply elem_of_nil in H2].
      - rewrite En in H1. inversion H1; subst n0. unfold resolve_type in Er. rewrite H2, H3 in Er. inversion Er; subst r. done. }
    destruct (nd_body n) as [|d]; [done|].
    destruct (load_dataset _ _ _ _ _ _ _ _ _ _) as [[m l1]|e]; cbn [res_map] in Hl; [|done].
    inversion Hl; subst. split; [done|]. apply Hput; [done|]. intros b l1. cbn [set_mem l_memo]. apply Hm.
Qed.
End Grounded.

Lemma grounded_no_cycle old f a b : grounded old f a -> rtc (leads old f) a b -> tc (leads old f) b b -> False.
Proof.
  intros Ha. revert b. induction Ha as [a _ IH]; intros b Hr Hc.
  inversion Hr as [|? a' ? Hs Hr']; subst.
  - inversion Hc as [? ? Hs|? a' ? Hs Ht]; subst.
    + by apply (IH b Hs b).
    + apply (IH a' Hs a').
      * apply rtc_refl.
      * eapply tc_r; [exact Ht|exact Hs].
  - by apply (IH a' Hs b).
Qed.

Lemma leads_table old f root f' b : wf_file f -> create_node f root n_table (BGroup []) = Ok (f', b) ->
  forall a c, leads old f a c -> leads old f' a c.
Proof.
  intros Hwf Hc a c Hl. destruct (create_node_spec _ _ _ _ _ _ Hwf Hc) as (pn & H1 & H2 & -> & H4 & H5 & H6 & H7 & H8).
  assert (forall n n' : node, nd_attrs n' = nd_attrs n -> old_matrix f' n' -> old_matrix f n) as Hold.
  { intros n n' Ha [Ho|(e & en & E1 & E2 & E3)]; rewrite Ha in *; [by left|]. right. exists e, en. split; [done|]. split; [|done].
    destruct (decide (e = root)) as [-> |Hne].
    { rewrite H6 in E2. inversion E2; subst en. unfold extend in E3. cbn in E3. unfold is_group in H2. by destruct (nd_body pn). }
    destruct (decide (e = f_next f)) as [-> |Hne']; [|by rewrite <- H8]. rewrite H5 in E2. inversion E2; subst en. done. }
  inversion Hl as [a0 n nm b0 K1 K2 K3|a0 n b0 K1 K2 K3]; subst; pose proof (Hwf _ _ K1) as Hlt.
  - destruct (decide (a = root)) as [-> |Hne].
    + rewrite H1 in K1. inversion K1; subst pn. eapply leads_member; [exact H6| |].
      { rewrite extend_links by done. apply elem_of_app. by left. }
      intros Ho Hm. apply (K3 Ho). revert Hm. by apply Hold.
    + eapply leads_member; [|exact K2|]; [rewrite H8; [done|done|lia]|]. intros Ho Hm. apply (K3 Ho). revert Hm. by apply Hold.
  - destruct (decide (a = root)) as [-> |Hne].
    + rewrite H1 in K1. inversion K1; subst pn. unfold is_group in H2. by rewrite K3 in H2.
    + eapply leads_target; [|exact K2|exact K3]. rewrite H8; [done|done|lia].
Qed.

Lemma child_keeps f root f' nm b x c : wf_file f -> create_node f root nm (BGroup []) = Ok (f', b) ->
  child f x n_data = Some c -> child f' x n_data = Some c.
Proof.
  intros Hwf Hc. destruct (create_node_spec _ _ _ _ _ _ Hwf Hc) as (pn & H1 & H2 & -> & H4 & H5 & H6 & H7 & H8).
  unfold child. destruct (decide (x = root)) as [-> |Hne].
  - rewrite H1, H6. rewrite extend_links by done. clear. induction (links pn) as [|[k v] l IH]; cbn; [done|]. by case_decide.
  - destruct (get_node f x) as [n|] eqn:En; [|done]. pose proof (Hwf _ _ En). rewrite H8 by (done || lia). by rewrite En.
Qed.

Lemma load_table_leads old f root w f1 r : wf_file f -> load_table f root w = (f1, Ok r) ->
  (forall a b, leads old f a b -> leads old f1 a b) /\ forall c, child f root n_data = Some c -> child f1 root n_data = Some c.
Proof.
  intros Hwf. unfold load_table. destruct (child f root n_table) as [t|].
  - destruct (get_node f t) as [tn|]; [|discriminate]. destruct (nd_body tn); [|discriminate]. intros H. by inversion H; subst.
  - destruct w; [|intros H; by inversion H; subst].
    destruct (create_node f root n_table (BGroup [])) as [[f2 b]|e] eqn:Ecn; [|discriminate].
    intros H. inversion H; subst. split; [by eapply leads_table|]. intros c. by eapply child_keeps.
Qed.

(** The file is read as one of hickle 4. *)
Definition v4_file (f : file) (root : addr) : bool :=
  match detect (node_attrs f root_addr) (node_attrs f root) with Ok V4 => true | _ => false end.

Lemma load_root_grounded C w f root m f' m' v ov c :
  (forall a l, Permutation (e_order (c_env C) a l) l) -> wf_file f -> child f root n_data = Some c ->
  load_root C w f root m = (f', Ok (m', v), ov) -> grounded (v4_file f root) f c.
Proof.
  intros HE Hwf Hc. unfold load_root, v4_file.
  destruct (detect (node_attrs f root_addr) (node_attrs f root)) as [ver|e]; [|discriminate].
  destruct (load_table f root w) as [f1 [ov1|e]] eqn:Et.
  2: { destruct ver; [discriminate| |]; (destruct (options_of _ _ _); discriminate). }
  pose proof (fun old => proj1 (load_table_leads old _ _ _ _ _ Hwf Et)) as Hle. pose proof (proj2 (load_table_leads false _ _ _ _ _ Hwf Et)) as Hch.
  assert (forall legacy chain, load_data C chain legacy f1 root m = Ok (m', v) -> grounded legacy f c) as Hfin.
  { intros legacy chain. unfold load_data. rewrite (Hch _ Hc).
    destruct (load_ _ _ _ f1 c (Lst m ∅)) as [[s' l]|e] eqn:El; [|discriminate]. intros _.
    apply (load_grounded _ _ _ _ _ HE) in El as [Hg _]; [|intros ? ? Hx; cbn in Hx; by rewrite lookup_empty in Hx].
    clear -Hg Hle. unfold grounded in *. induction Hg as [c _ IH]. constructor. intros b Hb. apply IH. by apply Hle. }
  destruct ver; [discriminate| |]; (destruct (options_of _ _ _) as [chain|e]; [|discriminate]);
    intros H; injection H; intros _ Hl _; exact (Hfin _ _ Hl).
Qed.

Lemma load_file_grounded C w f p m f' m' v ov root c :
  (forall a l, Permutation (e_order (c_env C) a l) l) -> wf_file f ->
  detect (node_attrs f root_addr) (node_attrs f root) <> Ok V3 ->
  get_path f p = Some root -> child f root n_data = Some c ->
  load_file C w f p m = (f', Ok (m', v), ov) -> grounded (v4_file f root) f c.
Proof.
  intros HE Hwf Hv3 Hp Hc. unfold load_file. rewrite Hp. destruct (get_node f root) as [n|] eqn:En; [|discriminate].
  destruct (is_group n) eqn:Eg; [|discriminate].
  assert (nd_attrs n = node_attrs f root) as -> by (unfold node_attrs; by rewrite En).
  destruct (detect (node_attrs f root_addr) (node_attrs f root)) as [ver|e].
  - destruct ver; [congruence| |]; by apply load_root_grounded.
  - by apply load_root_grounded.
Qed.
