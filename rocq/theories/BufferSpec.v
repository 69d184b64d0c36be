(** What C67 assumes about the texts that are read. *)
From Coq Require Import List NArith ZArith.
From Verif Require Import Str.

(** An entity name stands for a text of at most 8 bytes, counting the final zero, and a text has at
    most as many characters as bytes.  (In Python's html.entities.html5 the longest has 7.) *)
Definition few_bytes (E : env) : Prop :=
  Forall (fun e => length (fst (snd e)) <= snd (snd e) /\ snd (snd e) <= 8) (e_entities E).
(** A text of less than 2^27 (about 134 million) characters. *)
Definition fits (s : str) : Prop := (Z.of_nat (length s) < 2 ^ 27)%Z.
(** A code span around [n] letters a. *)
Definition code_span (n : nat) : str := 96%N :: repeat 97%N n ++ 96%N :: nil.
