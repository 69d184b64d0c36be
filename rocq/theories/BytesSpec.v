(** Vocabulary for files as bytes: UTF-8 as in RFC 3629, by the numbers of the characters. *)
From Coq Require Import String List NArith ZArith Bool.
From Verif Require Import Str.
Import ListNotations.
Local Open Scope list_scope.
Local Open Scope N_scope.

(** A Unicode scalar value: no surrogate. *)
Definition scalar (c : N) : Prop := c < 0xD800 \/ 0xDFFF < c <= 0x10FFFF.
(** The bytes 10xxxxxx. *)
Definition follows (b : N) : Prop := 0x80 <= b < 0xC0.
(** The bytes of one character: one to four, by its number, the shortest form only. *)
Inductive utf8_char : N -> list N -> Prop :=
| utf8_one : forall c, c < 0x80 -> utf8_char c [c]
| utf8_two : forall c x y, 0x80 <= c < 0x800 -> 0xC0 <= x < 0xE0 -> follows y ->
    c = (x - 0xC0) * 64 + (y - 0x80) -> utf8_char c [x; y]
| utf8_three : forall c x y z, 0x800 <= c < 0x10000 -> scalar c -> 0xE0 <= x < 0xF0 -> follows y -> follows z ->
    c = (x - 0xE0) * 4096 + (y - 0x80) * 64 + (z - 0x80) -> utf8_char c [x; y; z]
| utf8_four : forall c x y z w, 0x10000 <= c <= 0x10FFFF -> 0xF0 <= x < 0xF8 -> follows y -> follows z -> follows w ->
    c = (x - 0xF0) * 262144 + (y - 0x80) * 4096 + (z - 0x80) * 64 + (w - 0x80) -> utf8_char c [x; y; z; w].
(** The bytes of a text. *)
Inductive utf8 : str -> list N -> Prop :=
| utf8_nil : utf8 [] []
| utf8_cons : forall c s b bs, utf8_char c b -> utf8 s bs -> utf8 (c :: s) (b ++ bs).
(** Bytes that are the UTF-8 of no text. *)
Definition not_utf8 (b : list N) : Prop := forall s, ~ utf8 s b.

(** What is needed of Python's tables: no surrogate is a letter, digit, mark or white space for [re] and
    [str.strip]. *)
Definition unicode_tables (E : env) : Prop :=
  forall c, (e_word E c = true \/ e_space E c = true) -> scalar c.
