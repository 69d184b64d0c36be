(** All the command lines that ask for the help or the version.  The options are those of LineSpec.v and
    two more that show something and end the program at once. *)
From Coq Require Import String List NArith ZArith Bool.
From Verif Require Import Str Anchor Toc Cli CallSpec ArgvSpec LineSpec.
Import ListNotations.
Local Open Scope list_scope.

(** 104 is h, 118 is v. *)
Definition global_helps : list choice := [Choice (lit "--help") 104 Nothing; Choice (lit "--version") 118 Nothing].
Definition local_helps : list choice := [Choice (lit "--help") 104 Nothing].

Section Words.
  Context (o : options) (digit : N -> bool).
  (** One option with its value, or something that looks like an option and is none: the line will be
      refused for it, but only at its end. *)
  Inductive opened (cs : list choice) : list str -> list (choice * option str) -> bool -> Prop :=
  | o_group : forall ws a b, group o cs digit ws a b -> opened cs ws a b
  | o_letter : forall ss x t, flags cs ss -> ss <> [] -> ~ In x (o_letters o) -> x <> 45%N -> x <> 61%N ->
      opened cs [45%N :: map ch_letter ss ++ x :: t] (set ss) false
  | o_unknown : forall w, unknown o w -> ~ argument o digit w -> opened cs [w] [] false.
  (** Words that are read without an end of the program, and what they set.  [names]: file names can stand
      between the options. *)
  Inductive passed (names : bool) (cs : list choice) : list str -> list (choice * option str) -> Prop :=
  | p_none : passed names cs [] []
  | p_option : forall ws a b ws' a', opened cs ws a b -> passed names cs ws' a' ->
      (b = true -> forall w t, ws' = w :: t -> ~ argument o digit w) -> passed names cs (ws ++ ws') (a ++ a')
  | p_name : forall w ws' a', names = true -> argument o digit w -> passed names cs ws' a' -> passed names cs (w :: ws') a'.
  (** The words with the request, the words behind them, and what is set before the request. *)
  Definition request (helps cs : list choice) (ws rest : list str) (a : list (choice * option str)) : Prop :=
    exists c a' b, In c helps /\ opened (helps ++ cs) ws (a ++ (c, None) :: a') b
      /\ (b = true -> forall w t, rest = w :: t -> ~ argument o digit w).
End Words.

(** A word that could mean two of the options. *)
Definition two_options (names : list str) (w : str) : Prop :=
  exists n x y r1 r2, named_part w n /\ firstn 2 n = lit "--" /\ In x names /\ In y names /\ x <> y /\ x = n ++ r1 /\ y = n ++ r2.
(** No such word before two dashes. *)
Definition clear_words (names : list str) (ws : list str) : Prop :=
  forall u w v, ws = u ++ w :: v -> ~ In (lit "--") (u ++ [w]) -> ~ two_options names w.

Section Lines.
  Context (num : str -> option Z) (digit : N -> bool).
  (** Before the name of the parser. *)
  Definition asks_main (ws : list str) : Prop :=
    exists w1 a1 wh ah rest gs, ws = w1 ++ wh ++ rest
      /\ passed global_options digit false global_choices w1 a1 /\ request global_options digit global_helps global_choices wh rest ah
      /\ Forall2 (means_global num) (a1 ++ ah) gs /\ ~ clash gs [].
  (** After it. *)
  Definition asks_sub (ws : list str) : Prop :=
    exists w1 a1 gs p w2 a2 wh ah rest ls, p <> OtherParser /\ ws = w1 ++ parser_name p :: w2 ++ wh ++ rest
      /\ passed global_options digit false global_choices w1 a1 /\ Forall2 (means_global num) a1 gs
      /\ passed local_options digit true local_choices w2 a2 /\ request local_options digit local_helps local_choices wh rest ah
      /\ Forall2 (means_local num p) (a2 ++ ah) ls /\ ~ clash gs ls
      /\ clear_words local_names (w2 ++ wh ++ rest).
  Definition help_line (ws : list str) : Prop := clear_words global_names ws /\ (asks_main ws \/ asks_sub ws).
End Lines.
