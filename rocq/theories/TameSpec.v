(** Texts with links on which emphasis removal cannot fail. *)
From Coq Require Import List NArith.
From Verif Require Import Str EmphSpec.
Import ListNotations.
Local Open Scope list_scope.

(** White space: what is trimmed at the end of a text. *)
Definition blank (E : env) (c : N) : Prop := e_zs E c = true \/ In c [9; 10; 12; 13]%N.
(** What may follow the parenthesis of a link: no backslash, no entity, and the last character that
    is not white space is no quote (and no vertical tab). *)
Definition tame_tail (E : env) (b : str) : Prop :=
  ~ In 92%N b /\ (~ In 38%N b \/ ~ In 59%N b) /\
  forall b1 c b2, b = b1 ++ c :: b2 -> ~ blank E c -> Forall (blank E) b2 -> ~ In c [34; 39; 11]%N.
(** Text with links: an unescaped "][" goes on with another bracket, and an unescaped "](" with a
    tame tail. *)
Definition tame (E : env) (s : str) : Prop :=
  ~ In 13%N s /\ ~ In 256%N s /\ plain_digits E s /\
  (forall a b, s = a ++ 93%N :: 91%N :: b -> escapes a \/ hd 0%N b = 91%N \/ hd 0%N b = 93%N) /\
  (forall a b, s = a ++ 93%N :: 40%N :: b -> escapes a \/ tame_tail E b).
