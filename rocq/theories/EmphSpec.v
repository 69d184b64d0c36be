(** Vocabulary for the properties of remove_emphasis.  Characters are numbers: 42 is the star,
    95 the underscore, 92 the backslash, 96 the backtick, 10 the line feed. *)
From Coq Require Import String List NArith Arith.
From Verif Require Import Str HelperSpec.
Import ListNotations.
Local Open Scope list_scope.

Definition delimiter (c : N) : Prop := c = 42%N \/ c = 95%N.

(** Characters with which no inline construct can begin. *)
Definition inert (c : N) : Prop :=
  ~ In c (lit "`\&<[]*_") /\ c <> 0%N /\ c <> 10%N /\ c <> 13%N /\ c <> 256%N.

(** White space and punctuation.  U+0080 to U+00BF are excluded from what follows: the program
    takes them for the tail of a UTF-8 sequence when it looks backwards. *)
Definition space_char (E : env) (c : N) : Prop := e_zs E c = true \/ In c [9; 10; 12; 13]%N.
Definition punct_char (E : env) (c : N) : Prop := e_punct E c = true \/
  (33 <= c <= 47)%N \/ (58 <= c <= 64)%N \/ (91 <= c <= 96)%N \/ (123 <= c <= 126)%N.
Definition tail_like (c : N) : Prop := (128 <= c <= 191)%N.
(** The character the program looks at in place of the last one of the text [a] before a run: it
    passes over U+0080 to U+00BF, but not over the first character of the text. *)
Fixpoint back_from (r : str) : N :=
  match r with
  | [] => 10%N
  | [c] => c
  | c :: r' => if (128 <=? c)%N then if (c <=? 191)%N then back_from r' else c else c
  end.
Definition looked_at (a : str) : N := back_from (rev a).
Definition wordlike (E : env) (c : N) : Prop := ~ space_char E c /\ ~ punct_char E c /\ ~ tail_like c.
Definition blank (E : env) (c : N) : Prop := space_char E c /\ ~ tail_like c.
(** Not inside a word: white space or punctuation, but not a delimiter. *)
Definition edge (E : env) (c : N) : Prop := (space_char E c \/ punct_char E c) /\ ~ tail_like c /\ ~ delimiter c.

(** The character category "space separator" on ASCII. *)
Definition zs_ascii (E : env) : Prop := forall c, (c < 128)%N -> (e_zs E c = true <-> c = 32%N).

(** A run of [c] between the characters [x] and [y] that has no meaning: underscores inside a word,
    or any run surrounded by white space. *)
Definition idle (E : env) (c x y : N) : Prop :=
  (c = 95%N /\ wordlike E x /\ wordlike E y) \/ (blank E x /\ blank E y).
(** All runs of delimiters in [s] are idle; the ends of the text count as white space. *)
Definition all_idle (E : env) (s : str) : Prop :=
  forall a c n b, s = a ++ repeat c (S n) ++ b -> delimiter c -> last a 10%N <> c -> hd 10%N b <> c ->
    idle E c (last a 10%N) (hd 10%N b).

(** [emphasised E s t]: [s] is inert text with properly nested emphasis of any strength, around
    texts that begin and end like words, and [t] is the same text without the emphasis. *)
Inductive emphasised (E : env) : str -> str -> Prop :=
| emph_text : forall w, Forall inert w -> emphasised E w w
| emph_span : forall c k pre body body' post post',
    delimiter c -> 1 <= k ->
    Forall inert pre -> edge E (last pre 10%N) ->
    wordlike E (hd 10%N body) -> wordlike E (last body 10%N) ->
    edge E (hd 10%N post) ->
    emphasised E body body' -> emphasised E post post' ->
    emphasised E (pre ++ repeat c k ++ body ++ repeat c k ++ post) (pre ++ body' ++ post').

(** The text before a character ends in an odd number of backslashes. *)
Definition escapes (a : str) : Prop :=
  exists a' n, a = a' ++ repeat 92%N (S (2 * n)) /\ last a' 0%N <> 92%N.

(** [w] is not cut by a run of exactly [n] backticks. *)
Definition no_ticks_of (n : nat) (w : str) : Prop :=
  forall a b, w = a ++ repeat 96%N n ++ b -> last a 0%N = 96%N \/ hd 0%N b = 96%N.

(** Every ']' that is followed by '(' or '[' is escaped. *)
Definition no_link (s : str) : Prop := forall a b c, s = a ++ 93%N :: c :: b -> c = 40%N \/ c = 91%N -> escapes a.
(** The only decimal digits are those of ASCII. *)
Definition plain_digits (E : env) (s : str) : Prop := forall c, In c s -> e_digit E c = true -> (48 <= c <= 57)%N.
(** Text on which emphasis removal cannot fail. *)
Definition harmless (E : env) (s : str) : Prop :=
  ~ In 13%N s /\ ~ In 256%N s /\ plain_digits E s /\ no_link s.
