(** * V3Samples: a concrete Python for the hickle 3 model, and values to load *)
From Verif Require Import Base Utf8 Dec DecProofs Num PyObj Env Instance Repr Legacy LegacyV3 V3Spec V3Proofs.
From Coq Require Import Lia ZifyBool ZifyN.
Local Open Scope N_scope.
Local Open Scope list_scope.

(** ** A Python: [repr] of tuples of ints only *)
Definition ints_repr (l : list val3) : pystr :=
  str "(" ++ concat (map (fun v => match v with PNum (NZ z) => Z_dec z ++ str ", " | _ => str "?" end) l) ++ str ")".
Definition ints_eval (s : pystr) : option (list val3) :=
  match s with
  | 40 :: r =>
      let parts := split_char 44 r in
      match res_mapM (fun p => res_map (fun z => PNum (NZ z)) (Z_parse (List.filter (fun c => negb (c =? 32)) p)))
              (firstn (pred (length parts)) parts) with
      | Ok l => Some l
      | Err _ => None
      end
  | _ => None
  end.
(** [text]: h5py before 3.0; [track]: members are listed in the order of creation. *)
Definition env_v3 (text track : bool) : env3 :=
  Env3 ienv (fun c => negb (c =? 160)) ints_repr ints_eval (fun c _ => str "<" ++ c ++ str ">") text track.

Lemma frepr_ascii f : Forall (fun c => c < 128) (i_frepr f).
Proof.
  apply frepr_chars; intros c Hc.
  - vm_compute in Hc. intuition (subst c; vm_compute; reflexivity).
  - apply digit_range in Hc. lia.
Qed.
Lemma env_v3_ok text track : env3_ok (env_v3 text track).
Proof.
  split; cbn -[i_frepr i_crepr].
  - exact ienv_ok.
  - apply frepr_ascii.
  - intros a b. unfold i_crepr. rewrite !Forall_app. repeat split; try apply frepr_ascii; repeat constructor.
  - intros f E. destruct (frepr_first f) as (c & r & Ef & H). rewrite Ef in E. injection E as -> _.
    destruct H as [H|H]; [vm_compute in H; intuition discriminate|vm_compute in H; discriminate].
  - intros a b. discriminate.
Qed.

(** ** A value with most of what hickle 3 files can hold *)
Definition n_half : num := NF (FFin false 1 (-1)).
Definition v_sample : val3 :=
  PDict [(PStr (str "it's"), PSeq SList [PNum (NZ 1); PStr (str "two"); PSeq STuple []; PNone]);
         (PStr [97; 160; 10], PMasked (DInt W8, [2], [NZ 1; NZ 2]) None);
         (PNum (NZ (-5)), PSeq SSet [PNum (NZ 1); PNum n_half; PStr (str "a")]);
         (PNum n_half, PSeq STuple [PNum (NZ 10); PNum (NZ 11); PNum (NZ 12)]);
         (PNum (NB true), PSeq SList (map PStr [str "x"; [233; 8364]]));
         (PSeq STuple [PNum (NZ 1); PNum (NZ 20)], PDict []);
         (PNum (NC (FFin false 1 0) (FFin true 3 0)), PSeq SList (map PBytes [str "b"; str "cd"]));
         (PStr [], PSeq SList (map (fun z => PNp (DInt W4) (NZ z)) [0; 1; 2; 3; 4; 5; 6; 7; 8; 9; 10; 11]%Z));
         (PStr (str "sparse"), PSparse SCsr (DFloat F8, [1], [n_half]) (DInt W4, [1], [NZ 0]) (DInt W4, [2], [NZ 0; NZ 1]) (DInt W8, [2], [NZ 1; NZ 1]));
         (PStr (str "c"), PSeq (SOther (str "collections.deque")) [PNum (NZ 1)]);
         (PStr (str "arr"), PArr (DFloat F4, [2; 1], [n_half; n_half]))].

Ltac fine_text := repeat (constructor; [split; [vm_compute; congruence|first [left; vm_compute; reflexivity|right; vm_compute; reflexivity]]|]); constructor.
Ltac fine_wf := repeat (constructor; [vm_compute; reflexivity|]); constructor.
Ltac no_nul := intros r E; apply (f_equal (@rev N)) in E; rewrite rev_app_distr in E; vm_compute in E; discriminate E.
Ltac distinct := eexists; split; [repeat (constructor; [vm_compute; reflexivity|]); constructor|];
  apply (bool_decide_unpack _); vm_compute; exact I.
Ltac fine_k :=
  first [apply key_true | apply key_int | apply key_float; vm_compute; reflexivity
        | apply key_complex; vm_compute; reflexivity
        | apply key_str; [fine_wf|fine_text]
        | eapply key_tuple; [vm_compute; reflexivity|repeat constructor; vm_compute; congruence|vm_compute; reflexivity]].
Ltac fine_v :=
  lazymatch goal with
  | |- fine _ (PSeq ?k (map PStr _)) => apply fine_texts; [unfold builtin_seq; auto|discriminate|repeat (constructor; [no_nul|]); constructor|discriminate]
  | |- fine _ (PSeq ?k (map PBytes _)) =>
      apply fine_bytestrings; [unfold builtin_seq; auto|discriminate|repeat (constructor; [no_nul|]); constructor| |discriminate];
      repeat (constructor; [lazymatch goal with |- exists s, _ /\ _ = Ok ?b => exists b end; split; [fine_wf|vm_compute; reflexivity]|]); constructor
  | |- fine _ (PSeq (SOther _) _) => eapply fine_pickled; [left; reflexivity|left; eexists; reflexivity|repeat (constructor; [reflexivity|]); constructor]
  | |- fine _ (PSeq _ _) =>
      apply fine_items; [unfold builtin_seq; auto|intros ([|? [|? ?]] & H1 & H2); solve [discriminate|by destruct H1]|intros ([|? [|? ?]] & H1 & H2); solve [discriminate|by destruct H1]
        |repeat (constructor; [split; [fine_v|intros (? & ? & H); discriminate H]|]); constructor
        |first [discriminate | intros _; distinct]]
  | |- fine _ (PStr _) => apply fine_str; reflexivity
  | |- fine _ (PBytes _) => apply fine_bytes; no_nul
  | |- fine _ (PDict _) => apply fine_dict; [repeat (constructor; [split; [cbn [fst]; fine_k|cbn [snd]; fine_v]|]); constructor|distinct]
  | |- _ => constructor; try exact I
  end.
Lemma sample_fine track : fine (env_v3 true track) v_sample.
Proof.
  unfold v_sample.
  apply fine_dict; [|distinct].
  constructor. split; [cbn [fst]; fine_k|cbn [snd]; fine_v].
  constructor. split; [cbn [fst]; fine_k|cbn [snd]; fine_v].
  constructor. split; [cbn [fst]; fine_k|cbn [snd]; fine_v].
  constructor. split; [cbn [fst]; fine_k|cbn [snd]; fine_v].
  constructor. split; [cbn [fst]; fine_k|cbn [snd]; fine_v].
  constructor. split; [cbn [fst]; fine_k|cbn [snd]; fine_v].
  constructor. split; [cbn [fst]; fine_k|cbn [snd]; fine_v].
  constructor. split; [cbn [fst]; fine_k|cbn [snd]; fine_v].
  constructor. split; [cbn [fst]; fine_k|cbn [snd]; fine_v].
  constructor. split; [cbn [fst]; fine_k|cbn [snd]; fine_v].
  constructor. split; [cbn [fst]; fine_k|cbn [snd]; fine_v]. constructor.
Qed.
Lemma sample_dumps track : exists t, dump_v3 (env_v3 true track) v_sample = Ok t.
Proof. eexists. vm_compute. reflexivity. Qed.
