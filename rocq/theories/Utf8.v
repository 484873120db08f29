(** * Utf8: the strict UTF-8 codec of CPython

    Used by hickle for str values (load_builtins.py:172 [bytearray(py_obj,"utf8")],
    :391 [bytes(content).decode("utf8")]), for bytes keys (:295 [key.decode("utf8")],
    :493 [name.encode("utf8")]) and by h5py for link names. *)
From Verif Require Import Base.

Definition is_surrogate (c : N) : bool := (0xD800 <=? c) && (c <=? 0xDFFF).

(** Code points that have a UTF-8 encoding ("Unicode scalar values"). *)
Definition is_scalar (c : N) : bool := (c <? 0x110000) && negb (is_surrogate c).

(** Python str objects hold code points below 0x110000, lone surrogates included. *)
Definition wf_str (s : pystr) : Prop := Forall (fun c => c < 0x110000) s.
(** Strings that can be encoded. *)
Definition encodable (s : pystr) : bool := forallb is_scalar s.

Definition utf8_char (c : N) : option bytes :=
  if c <? 0x80 then Some [c]
  else if c <? 0x800 then Some [0xC0 + c / 64; 0x80 + c mod 64]
  else if is_surrogate c then None
  else if c <? 0x10000 then
    Some [0xE0 + c / 4096; 0x80 + (c / 64) mod 64; 0x80 + c mod 64]
  else if c <? 0x110000 then
    Some [0xF0 + c / 262144; 0x80 + (c / 4096) mod 64; 0x80 + (c / 64) mod 64; 0x80 + c mod 64]
  else None.

(** [s.encode("utf8")]: UnicodeEncodeError on lone surrogates. *)
Fixpoint utf8_encode (s : pystr) : res bytes :=
  match s with
  | [] => Ok []
  | c :: r =>
      match utf8_char c with
      | None => Err UnicodeError
      | Some b => res_map (app b) (utf8_encode r)
      end
  end.

Definition is_cont (b : N) : bool := (0x80 <=? b) && (b <? 0xC0).

(** [b.decode("utf8")]: overlong forms, surrogates, values above 0x10FFFF,
    stray or missing continuation bytes raise UnicodeDecodeError. *)
Fixpoint utf8_decode (b : bytes) : res pystr :=
  match b with
  | [] => Ok []
  | b0 :: r0 =>
      if b0 <? 0x80 then res_map (cons b0) (utf8_decode r0)
      else if b0 <? 0xC2 then Err UnicodeError
      else if b0 <? 0xE0 then
        match r0 with
        | b1 :: r1 =>
            if is_cont b1
            then res_map (cons ((b0 - 0xC0) * 64 + (b1 - 0x80))) (utf8_decode r1)
            else Err UnicodeError
        | _ => Err UnicodeError
        end
      else if b0 <? 0xF0 then
        match r0 with
        | b1 :: b2 :: r2 =>
            let c := (b0 - 0xE0) * 4096 + (b1 - 0x80) * 64 + (b2 - 0x80) in
            if is_cont b1 && is_cont b2 && (0x800 <=? c) && negb (is_surrogate c)
            then res_map (cons c) (utf8_decode r2)
            else Err UnicodeError
        | _ => Err UnicodeError
        end
      else if b0 <? 0xF5 then
        match r0 with
        | b1 :: b2 :: b3 :: r3 =>
            let c := (b0 - 0xF0) * 262144 + (b1 - 0x80) * 4096 + (b2 - 0x80) * 64 + (b3 - 0x80) in
            if is_cont b1 && is_cont b2 && is_cont b3 && (0x10000 <=? c) && (c <? 0x110000)
            then res_map (cons c) (utf8_decode r3)
            else Err UnicodeError
        | _ => Err UnicodeError
        end
      else Err UnicodeError
  end.
