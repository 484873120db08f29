(** * Legacy: [sort_keys] of the hickle 3 loader

    hickle/legacy_v3/helpers.py:19-47. *)
From Verif Require Import Base Utf8 Dec.

(** [re.search(br'\d+', key)]: the first run of digits. *)
Fixpoint digits_prefix (k : bytes) : bytes :=
  match k with c :: r => if is_digit c then c :: digits_prefix r else [] | [] => [] end.
Fixpoint first_digits (k : bytes) : bytes :=
  match k with
  | [] => []
  | c :: r => if is_digit c then digits_prefix k else first_digits r
  end.
(** [int(re.search(br'\d+', x).group(0))]; [None]: there is no digit. *)
Definition key_number (k : bytes) : option N := N_parse (first_digits k).

(** [a < b] for bytes objects. *)
Fixpoint bytes_lt (a b : bytes) : bool :=
  match a, b with
  | _, [] => false
  | [], _ :: _ => true
  | x :: a', y :: b' => (x <? y) || ((x =? y) && bytes_lt a' b')
  end.

(** [sorted(l, key=...)], as an insertion sort: the new element, which comes before those
    already sorted, goes in front of the first one that is not smaller.
    Simplification: CPython uses another algorithm; a stable sort has one result only
    (LegacyProofs.v). *)
Fixpoint insert_sorted {A} (lt : A -> A -> bool) (x : A) (l : list A) : list A :=
  match l with
  | [] => [x]
  | y :: r => if lt y x then y :: insert_sorted lt x r else x :: l
  end.
Definition sorted_by {A} (lt : A -> A -> bool) (l : list A) : list A := foldr (insert_sorted lt) [] l.

(** [bytes(key, 'ascii')] for each key, :31-37. *)
Definition key_to_bytes (k : pystr) : res bytes :=
  if forallb (fun c => c <? 128) k then Ok k else Err UnicodeError.

(** :19-47.  The keys h5py yields are str. *)
Definition sort_keys (ks : list pystr) : res (list bytes) :=
  res_map (fun bs =>
    if negb (bool_decide (bs = [])) && forallb (fun k => match key_number k with Some _ => true | None => false end) bs
    then sorted_by (fun a b => match key_number a, key_number b with
                               | Some m, Some n => m <? n
                               | _, _ => false
                               end) bs
    else sorted_by bytes_lt bs) (res_mapM key_to_bytes ks).
