(** * Repr: the text of strings

    [repr] of str and bytes objects and [ast.literal_eval] of string literals, as CPython
    defines them (Objects/unicodeobject.c, bytesobject.c).  The hickle 3 loader rests on
    them: it names the group of a dict entry by the [repr] of the key and reads the key
    back with [literal_eval] (legacy_v3/hickle.py:383, legacy_v3/lookup.py:97-110). *)
From Verif Require Import Base.

Definition hex_digit (d : N) : N := if d <? 10 then 48 + d else 87 + d.
(** ["%0{k}x" % c]. *)
Fixpoint hex (k : nat) (c : N) : pystr :=
  match k with O => [] | S k' => hex k' (c / 16) ++ [hex_digit (c mod 16)] end.
Definition escape (c : N) : pystr :=
  if c <? 256 then 92 :: 120 :: hex 2 c              (* \xNN *)
  else if c <? 65536 then 92 :: 117 :: hex 4 c       (* \uNNNN *)
  else 92 :: 85 :: hex 8 c.                          (* \UNNNNNNNN *)

(** One character.  [printable]: [str.isprintable] beyond ASCII; [q]: the quote in use. *)
Definition repr_char (printable : N -> bool) (q c : N) : pystr :=
  if (c =? q) || (c =? 92) then [92; c]
  else if c =? 9 then [92; 116]
  else if c =? 10 then [92; 110]
  else if c =? 13 then [92; 114]
  else if (c <? 32) || (c =? 127) then escape c
  else if c <? 127 then [c]
  else if printable c then [c] else escape c.

(** A double quote is used only when the text has single quotes and no double quotes. *)
Definition quote_for (s : pystr) : N := if has_char 39 s && negb (has_char 34 s) then 34 else 39.
Definition repr_str (printable : N -> bool) (s : pystr) : pystr :=
  quote_for s :: flat_map (repr_char printable (quote_for s)) s ++ [quote_for s].
(** [repr(b)]; no byte beyond ASCII is printable. *)
Definition repr_bytes (b : bytes) : pystr := 98 :: repr_str (fun _ => false) b.

(** ** [ast.literal_eval] of one string literal *)
Definition unhex_digit (c : N) : option N :=
  if (48 <=? c) && (c <=? 57) then Some (c - 48)
  else if (97 <=? c) && (c <=? 102) then Some (c - 87)
  else if (65 <=? c) && (c <=? 70) then Some (c - 55)
  else None.
(** Where the tokenizer is: in plain text, after a backslash, or [k + 1] hexadecimal digits
    before the end of an escape whose digits so far make [acc]. *)
Inductive lit_state := LPlain | LEscape | LHex (k : nat) (acc : N).

(** What follows the opening quote [q].  [None]: not a literal.
    Simplification: escapes [repr] never writes (octal, \a, \b, \f, \v, \N{...}, escaped
    line breaks) are not understood. *)
Fixpoint lit_body (q : N) (st : lit_state) (s : pystr) : option pystr :=
  match s with
  | [] => None
  | c :: r =>
      match st with
      | LPlain =>
          if c =? q then match r with [] => Some [] | _ => None end
          else if c =? 92 then lit_body q LEscape r
          else if (c =? 10) || (c =? 13) || (c =? 0) then None
          else option_map (cons c) (lit_body q LPlain r)
      | LEscape =>
          if (c =? 92) || (c =? 39) || (c =? 34) then option_map (cons c) (lit_body q LPlain r)
          else if c =? 116 then option_map (cons 9) (lit_body q LPlain r)
          else if c =? 110 then option_map (cons 10) (lit_body q LPlain r)
          else if c =? 114 then option_map (cons 13) (lit_body q LPlain r)
          else if c =? 120 then lit_body q (LHex 1 0) r
          else if c =? 117 then lit_body q (LHex 3 0) r
          else if c =? 85 then lit_body q (LHex 7 0) r
          else None
      | LHex k acc =>
          match unhex_digit c with
          | None => None
          | Some d =>
              let n := acc * 16 + d in
              match k with
              | S k' => lit_body q (LHex k' n) r
              | O => if n <? 0x110000 then option_map (cons n) (lit_body q LPlain r) else None
              end
          end
      end
  end.
Definition eval_str (s : pystr) : option pystr :=
  match s with
  | q :: r => if (q =? 39) || (q =? 34) then lit_body q LPlain r else None
  | [] => None
  end.
