(** * PropsV3: files written by hickle 3 (C46, C47)

    [env_v3 text track] is a concrete Python: [text] says that h5py is older than 3.0,
    [track] that HDF5 lists the members of a group in the order of creation. *)
From Verif Require Import Base Utf8 Dec Num PyObj Env Instance Repr Legacy LegacyV3 V3Spec V3Proofs V3Samples V3Damage.
Local Open Scope N_scope.
Local Open Scope list_scope.

(** ** C46: what hickle 3 dumped is loaded

    For the values described by [fine] (V3Spec.v). *)
Theorem C46_v3_partial L v t : env3_ok L -> fine L v -> dump_v3 L v = Ok t ->
  exists w, load_v3 L t = Ok w /\ same3 v w.
Proof. exact (v3_round_trip L v t). Qed.
Print Assumptions C46_v3_partial.

(** The hypotheses hold for [v_sample], a dict with eleven entries of as many kinds. *)
Example C46_example track : exists t w,
  dump_v3 (env_v3 true track) v_sample = Ok t /\ load_v3 (env_v3 true track) t = Ok w /\ same3 v_sample w.
Proof.
  destruct (sample_dumps track) as (t & Ht).
  destruct (C46_v3_partial _ _ _ (env_v3_ok true track) (sample_fine track) Ht) as (w & H1 & H2). by exists t, w.
Qed.

(** What [v] is loaded as. *)
Definition through (L : env3) (v : val3) : res val3 := res_bind (dump_v3 L v) (load_v3 L).

(** With h5py 3 text comes back as the repr of its encoding: 'a' as "b'a'". *)
Theorem C46_str_refuted : through (env_v3 false false) (PStr (str "a")) = Ok (PStr (str "b'a'")).
Proof. vm_compute. reflexivity. Qed.
Print Assumptions C46_str_refuted.

(** b'a\0' comes back as b'a', and [b'\xff'] not at all. *)
Theorem C46_bytes_refuted :
  through (env_v3 true false) (PBytes [97; 0]) = Ok (PBytes [97]) /\
  through (env_v3 true false) (PSeq SList [PBytes [255]]) = Err UnicodeError.
Proof. vm_compute. split; reflexivity. Qed.
Print Assumptions C46_bytes_refuted.

(** A masked array in a list is followed by None: [ma, 1] comes back as [ma, None, 1]. *)
Theorem C46_masked_refuted : let ma := PMasked (DInt W8, [1], [NZ 7]) (Some [NB true]) in
  through (env_v3 true false) (PSeq SList [ma; PNum (NZ 1)]) = Ok (PSeq SList [ma; PNone; PNum (NZ 1)]).
Proof. vm_compute. reflexivity. Qed.
Print Assumptions C46_masked_refuted.

(** frozenset((1, 'a')) comes back as an object of the loader's own class. *)
Theorem C46_frozenset_refuted : exists c n k l,
  through (env_v3 true false) (PSeq (SOther (str "frozenset")) [PNum (NZ 1); PStr (str "a")]) = Ok (PContainer c n k l).
Proof. eexists _, _, _, _. vm_compute. reflexivity. Qed.
Print Assumptions C46_frozenset_refuted.

(** {False: 1} comes back as {True: 1}, {None: 1} as {'None': 1} and {b'a': 1} as {"b'a'": 1}. *)
Theorem C46_keys_refuted : let d k := PDict [(k, PNum (NZ 1))] in
  through (env_v3 true false) (d (PNum (NB false))) = Ok (d (PNum (NB true))) /\
  through (env_v3 true false) (d PNone) = Ok (d (PStr (str "None"))) /\
  through (env_v3 true false) (d (PBytes (str "a"))) = Ok (d (PStr (str "b'a'"))).
Proof. vm_compute. repeat split. Qed.
Print Assumptions C46_keys_refuted.

(** Dicts with the keys 'a/b' and 'ä' (228) can be dumped and not loaded. *)
Theorem C46_names_refuted : let d k := PDict [(PStr k, PNum (NZ 1))] in
  through (env_v3 true false) (d (str "a/b")) = Err KeyError /\ (exists t, dump_v3 (env_v3 true false) (d (str "a/b")) = Ok t) /\
  through (env_v3 true false) (d [228]) = Err UnicodeError /\ (exists t, dump_v3 (env_v3 true false) (d [228]) = Ok t).
Proof. repeat split; try (vm_compute; reflexivity); eexists; vm_compute; reflexivity. Qed.
Print Assumptions C46_names_refuted.

(** After a dump of 2 to the path '/' a dump of 3 to the path '/a' makes load of '/' return
    3: the group 'a' is taken for a part of what was dumped, and has no digits in its
    name. *)
Theorem C46_paths_refuted :
  match dump_v3 (env_v3 true false) (PNum (NZ 2)), dump_v3 (env_v3 true false) (PNum (NZ 3)) with
  | Ok (TGroup a kids), Ok t =>
      exists c n k, load_v3 (env_v3 true false) (TGroup a kids) = Ok (PNum (NZ 2)) /\
        load_v3 (env_v3 true false) (TGroup a (kids ++ [(str "a", t)])) = Ok (PContainer c n k [PNum (NZ 3)])
  | _, _ => False
  end.
Proof. cbv zeta. vm_compute. eexists _, _, _. split; reflexivity. Qed.
Print Assumptions C46_paths_refuted.

(** ** C47: nodes that cannot be interpreted are not skipped

    A node without type and a dataset of unknown type, anywhere in the file, make load
    fail. *)
Theorem C47_not_skipped_partial L t u : names_ok t -> inside t u -> uninterpretable u -> exists e, load_v3 L t = Err e.
Proof. exact (uninterpretable_inside L t u). Qed.
Print Assumptions C47_not_skipped_partial.

(** Without the unknown dataset in the inner list the file would load. *)
Definition t_unknown (ty : bytes) : tree :=
  TGroup [(a3_type, str "hickle")]
    [(name3 0, TGroup [(a3_type, type_text (str "list"))]
       [(name3 0, TData [(a3_type, str "none")] (XArr (DInt W8, [1], [NZ 0])));
        (name3 1, TData [(a3_type, ty)] (XArr (DInt W8, [1], [NZ 0])))])].
Example C47_example : exists u, names_ok (t_unknown (str "quaternion")) /\ inside (t_unknown (str "quaternion")) u /\ uninterpretable u /\
  load_v3 (env_v3 true false) (t_unknown (str "none")) = Ok (PSeq SList [PNone; PNone]).
Proof.
  exists (TData [(a3_type, str "quaternion")] (XArr (DInt W8, [1], [NZ 0]))). split; [|split; [|split]].
  - repeat constructor; apply (bool_decide_unpack _); vm_compute; exact I.
  - eapply inside_below; [left; reflexivity|]. eapply inside_below; [right; left; reflexivity|]. constructor.
  - vm_compute. intuition discriminate.
  - vm_compute. reflexivity.
Qed.

(** A group of unknown type is returned as an object of the loader's own class. *)
Theorem C47_group_refuted : exists n k,
  load_v3 (env_v3 true false)
    (TGroup [(a3_type, str "hickle")]
       [(name3 0, TGroup [(a3_type, str "quaternion")] [(name3 0, TData [(a3_type, str "none")] (XArr (DInt W8, [1], [NZ 0])))])])
  = Ok (PContainer (str "quaternion") n k [PNone]).
Proof. eexists _, _. vm_compute. reflexivity. Qed.
Print Assumptions C47_group_refuted.
