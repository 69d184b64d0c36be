(** What a regular expression matches, without any search order: [M r prev s prev' s'] says
    that [r] can match the part of [s] before its suffix [s'].  [prev] and [prev'] are the
    characters before the two positions. *)
From Coq Require Import List NArith Bool Arith.
From Verif Require Import Str Regex.
Import ListNotations.

Inductive star (R : option N -> str -> option N -> str -> Prop) : option N -> str -> option N -> str -> Prop :=
| star_done : forall pv s, star R pv s pv s
| star_more : forall pv s pv1 s1 pv2 s2, R pv s pv1 s1 -> star R pv1 s1 pv2 s2 -> star R pv s pv2 s2.

Fixpoint M (r : re) : option N -> str -> option N -> str -> Prop :=
  match r with
  | RSet p => fun _ s pv' s' => exists x, s = x :: s' /\ p x = true /\ pv' = Some x
  | REps => fun pv s pv' s' => pv' = pv /\ s' = s
  | RSeq a b => fun pv s pv' s' => exists pv1 s1, M a pv s pv1 s1 /\ M b pv1 s1 pv' s'
  | RAlt a b => fun pv s pv' s' => M a pv s pv' s' \/ M b pv s pv' s'
  | RStar a => star (M a)
  | RNot a => fun pv s pv' s' => pv' = pv /\ s' = s /\ forall pv1 s1, ~ M a pv s pv1 s1
  | RWordB w => fun pv s pv' s' => pv' = pv /\ s' = s /\ at_boundary w pv s = true
  end.
