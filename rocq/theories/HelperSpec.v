(** Vocabulary for the properties of the helper functions. *)
From Coq Require Import List ZArith NArith.
From Verif Require Import Str.
Import ListNotations.

(** [kept P n l r]: [r] is what is left of [l] when exactly the elements whose index satisfies
    [P] are kept; the indices start at [n]. *)
Inductive kept {A} (P : Z -> Prop) : Z -> list A -> list A -> Prop :=
| kept_nil : forall n, kept P n [] []
| kept_in : forall n x l r, P n -> kept P (n + 1) l r -> kept P n (x :: l) (x :: r)
| kept_out : forall n x l r, ~ P n -> kept P (n + 1) l r -> kept P n (x :: l) r.

(** [deletes P s t]: [t] is [s] without some of the characters that satisfy [P]. *)
Inductive deletes (P : N -> Prop) : str -> str -> Prop :=
| del_nil : deletes P [] []
| del_keep : forall c s t, deletes P s t -> deletes P (c :: s) (c :: t)
| del_drop : forall c s t, P c -> deletes P s t -> deletes P (c :: s) t.

(** Order of two texts of which at most [n] characters are compared: the shorter one comes first,
    texts of the same length are in lexicographic order. *)
Inductive lex_lt : str -> str -> Prop :=
| lex_here : forall x y s t, (x < y)%N -> lex_lt (x :: s) (y :: t)
| lex_next : forall x s t, lex_lt s t -> lex_lt (x :: s) (x :: t).
Definition short_lex_lt (s t : str) : Prop :=
  length s < length t \/ (length s = length t /\ lex_lt s t).
