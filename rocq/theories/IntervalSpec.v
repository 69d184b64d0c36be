(** Vocabulary for the deletion of lines. *)
From Coq Require Import List ZArith.
From Verif Require Import Str.
Import ListNotations.

(** [removed ivs lines r]: the intervals are taken out one after the other; the numbers of each one are those of the
    lines that the ones before it have left.  One that is no interval of positive numbers is a ValueError; one that
    goes past the end is an error of fpyutils. *)
Inductive removed : list (list Z) -> list str -> res (list str) -> Prop :=
| rm_none : forall lines, removed [] lines (Ok lines)
| rm_lines : forall a b ivs before gone after r,
    (a = Z.of_nat (length before) + 1)%Z -> (b = Z.of_nat (length before) + Z.of_nat (length gone))%Z -> gone <> [] ->
    removed ivs (before ++ after) r -> removed ([a; b] :: ivs) (before ++ gone ++ after) r
| rm_wrong : forall iv ivs lines, (forall a b, iv = [a; b] -> ~ (1 <= a <= b)%Z) -> removed (iv :: ivs) lines (Err ValueError)
| rm_past : forall a b ivs lines, (1 <= a <= b)%Z -> (Z.of_nat (length lines) < b)%Z ->
    removed ([a; b] :: ivs) lines (Err LineOutOfFileBoundsError).
