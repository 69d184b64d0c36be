(** What is assumed of Python's Unicode tables: only their values on ASCII characters. *)
From Coq Require Import List NArith.
From Verif Require Import Str.
Import ListNotations.

Definition is_letter (c : N) : Prop := (65 <= c <= 90)%N \/ (97 <= c <= 122)%N.
Definition is_digit (c : N) : Prop := (48 <= c <= 57)%N.

(** [\w] on ASCII: letters, digits and underscore. *)
Definition word_ascii (E : env) : Prop :=
  forall c, (c < 128)%N -> (e_word E c = true <-> is_letter c \/ is_digit c \/ c = 95%N).

(** [\d] and [str.isspace] on ASCII. *)
Definition digit_ascii (E : env) : Prop :=
  forall c, (c < 128)%N -> (e_digit E c = true <-> is_digit c).
Definition space_ascii (E : env) : Prop :=
  forall c, (c < 128)%N -> (e_space E c = true <-> (9 <= c <= 13)%N \/ (28 <= c <= 32)%N).

(** [str.lower]: every character becomes a non-empty string.  ASCII capitals become small, other
    ASCII characters stay.  Other characters become letters or characters outside ASCII; U+0100 is
    a capital, so it is never in the result, and no new decimal digit appears. *)
Definition lowered (E : env) (c : N) (w : list N) : Prop :=
  ((65 <= c <= 90)%N -> w = [(c + 32)%N]) /\
  ((c < 128)%N -> ~ (65 <= c <= 90)%N -> w = [c]) /\
  ((128 <= c)%N -> w <> [] /\ Forall (fun d => (is_letter d \/ (128 <= d)%N) /\ d <> 256%N /\ (e_digit E d = true -> d = c)) w).
Definition lower_chars (E : env) : Prop :=
  forall s, exists ws, Forall2 (lowered E) s ws /\ e_lower E s = concat ws.
