(** All the command lines that are accepted, and what they ask for.  45 is the dash, 61 the equals sign,
    46 the dot, 32 the space. *)
From Coq Require Import String List NArith ZArith Bool.
From Verif Require Import Str Anchor Toc Cli CallSpec ArgvSpec.
Import ListNotations.
Local Open Scope list_scope.

(** ** The options *)
Inductive takes := Nothing | Value | MaybeValue.
Record choice := Choice { ch_name : str; ch_letter : N; ch_takes : takes }.
Definition global_choices : list choice :=
  [Choice (lit "--no-list-coherence") 99 Nothing; Choice (lit "--no-indentation") 105 Nothing; Choice (lit "--diff") 100 Nothing;
   Choice (lit "--no-links") 108 Nothing; Choice (lit "--in-place") 112 Nothing;
   Choice (lit "--toc-marker") 109 Value; Choice (lit "--newline-string") 110 Value; Choice (lit "--skip-lines") 115 Value].
Definition local_choices : list choice :=
  [Choice (lit "--constant-ordered-list") 99 Nothing;
   Choice (lit "--unordered-list-marker") 117 MaybeValue; Choice (lit "--ordered-list-marker") 111 MaybeValue; Choice (lit "--header-levels") 108 MaybeValue].

(** ** Words that are no options *)
(** The part before the first equals sign. *)
Definition named_part (w n : str) : Prop := ~ In 61%N n /\ (w = n \/ exists v, w = n ++ 61%N :: v).
(** A word with a dash that cannot be meant as one of the options. *)
Definition unknown (o : options) (w : str) : Prop :=
  (exists c t, w = 45%N :: c :: t /\ c <> 45%N /\ ~ In c (o_letters o))
  \/ (firstn 2 w = lit "--" /\ exists n, named_part w n /\ forall x r, In x (o_names o) -> x <> n ++ r).
(** -5, -0.5, -.5; a line feed may follow. *)
Definition negative_number (digit : N -> bool) (w : str) : Prop :=
  exists a, (w = 45%N :: a \/ w = 45%N :: a ++ [10%N]) /\
    ((a <> [] /\ Forall (fun c => digit c = true) a)
     \/ exists b d, a = b ++ 46%N :: d /\ Forall (fun c => digit c = true) b /\ d <> [] /\ Forall (fun c => digit c = true) d).
(** A file name or the value of an option: no dash at the beginning, or a dash alone, or something with a
    dash that is not meant as an option and is a number or has a space in it. *)
Definition argument (o : options) (digit : N -> bool) (w : str) : Prop :=
  plain_word w \/ (unknown o w /\ (negative_number digit w \/ In 32%N w)).

(** ** Options as one writes them *)
Section Options.
  Context (o : options) (cs : list choice) (digit : N -> bool).
  Definition flags (ss : list choice) : Prop := Forall (fun s => In s cs /\ ch_takes s = Nothing) ss.
  Definition with_value (c : choice) : Prop := In c cs /\ ch_takes c <> Nothing.
  Definition set (ss : list choice) : list (choice * option str) := map (fun s => (s, None)) ss.
  (** The words of one dash with letters, or of one name; what they set; whether the value of the last
      option could follow but does not. *)
  Inductive group : list str -> list (choice * option str) -> bool -> Prop :=
  | g_letters : forall ss, flags ss -> ss <> [] -> group [45%N :: map ch_letter ss] (set ss) false
  | g_joined : forall ss c v, flags ss -> with_value c -> v <> [] -> hd 0%N v <> 61%N ->
      group [45%N :: map ch_letter ss ++ ch_letter c :: v] (set ss ++ [(c, Some v)]) false
  | g_equals : forall ss c v, flags ss -> with_value c ->
      group [45%N :: map ch_letter ss ++ ch_letter c :: 61%N :: v] (set ss ++ [(c, Some v)]) false
  | g_next : forall ss c v, flags ss -> with_value c -> argument o digit v ->
      group [45%N :: map ch_letter ss ++ [ch_letter c]; v] (set ss ++ [(c, Some v)]) false
  | g_bare : forall ss c, flags ss -> In c cs -> ch_takes c = MaybeValue ->
      group [45%N :: map ch_letter ss ++ [ch_letter c]] (set ss ++ [(c, None)]) true
  | g_name : forall c w, In c cs -> ch_takes c = Nothing -> short_for (o_names o) (ch_name c) w -> group [w] [(c, None)] false
  | g_name_equals : forall c w v, with_value c -> short_for (o_names o) (ch_name c) w -> group [w ++ 61%N :: v] [(c, Some v)] false
  | g_name_next : forall c w v, with_value c -> short_for (o_names o) (ch_name c) w -> argument o digit v -> group [w; v] [(c, Some v)] false
  | g_name_bare : forall c w, In c cs -> ch_takes c = MaybeValue -> short_for (o_names o) (ch_name c) w -> group [w] [(c, None)] true.
  Inductive groups : list str -> list (choice * option str) -> bool -> Prop :=
  | gs_none : groups [] [] false
  | gs_more : forall ws a b ws' a' b', group ws a b -> groups ws' a' b' ->
      groups (ws ++ ws') (a ++ a') (match ws' with [] => b | _ => b' end).
End Options.

(** ** What is set *)
Section Numbers.
  Context (num : str -> option Z).
  Inductive means_global : choice * option str -> global -> Prop :=
  | mg_switch : forall c s, ch_name c = switch_name s -> means_global (c, None) (Turn s)
  | mg_marker : forall c m, ch_name c = lit "--toc-marker" -> means_global (c, Some m) (TocMarker m)
  | mg_newline : forall c n, ch_name c = lit "--newline-string" -> In n [lit "\n"; lit "\r"; lit "\r\n"] -> means_global (c, Some n) (Newline n)
  | mg_skip : forall c v n, ch_name c = lit "--skip-lines" -> num v = Some n -> means_global (c, Some v) (SkipLines n).
  Inductive means_local (p : parser) : choice * option str -> local -> Prop :=
  | ml_unordered : forall c m, ch_name c = lit "--unordered-list-marker" -> In m [lit "-"; lit "+"; lit "*"] -> means_local p (c, Some m) (Unordered m)
  | ml_unordered_bare : forall c, ch_name c = lit "--unordered-list-marker" -> means_local p (c, None) (Unordered (lit "-"))
  | ml_ordered : forall c m, ch_name c = lit "--ordered-list-marker" -> right_marker p true m -> means_local p (c, Some m) (Ordered m)
  | ml_ordered_bare : forall c, ch_name c = lit "--ordered-list-marker" -> means_local p (c, None) (Ordered (lit "."))
  | ml_constant : forall c, ch_name c = lit "--constant-ordered-list" -> means_local p (c, None) Constant
  | ml_levels : forall c v n, ch_name c = lit "--header-levels" -> num v = Some n -> (1 <= n <= 6)%Z -> means_local p (c, Some v) (Levels n)
  | ml_levels_bare : forall c, ch_name c = lit "--header-levels" -> means_local p (c, None) (Levels 6).

  (** ** Whole lines *)
  (** File names in one group; after two dashes they can have any form. *)
  Inductive file_words (digit : N -> bool) : list str -> list str -> Prop :=
  | fw_plain : forall names, Forall (argument local_options digit) names -> file_words digit names names
  | fw_dashes : forall names more, Forall (argument local_options digit) names -> file_words digit (names ++ lit "--" :: more) (names ++ more).
  (** After the name of the parser: options, file names, options. *)
  Definition after_name (digit : N -> bool) (p : parser) (ws : list str) (ls : list local) (names : list str) : Prop :=
    exists w1 a1 b1 wn w2 a2 b2, ws = w1 ++ wn ++ w2
      /\ groups local_options local_choices digit w1 a1 b1 /\ groups local_options local_choices digit w2 a2 b2
      /\ file_words digit wn names
      /\ (In (lit "--") wn -> w2 = [])
      /\ (b1 = true -> wn = [] \/ hd [] wn = lit "--")
      /\ Forall2 (means_local p) (a1 ++ a2) ls.
  (** A word that could mean two of the options that go before the name of the parser. *)
  Definition doubtful (w : str) : Prop :=
    exists n x y r1 r2, named_part w n /\ firstn 2 n = lit "--" /\ In x global_names /\ In y global_names /\ x <> y /\ x = n ++ r1 /\ y = n ++ r2.
  Definition accepted_line (digit : N -> bool) (ws : list str) (gs : list global) (p : parser) (ls : list local) (names : list str) : Prop :=
    p <> OtherParser /\ exists w1 a1 w2, ws = w1 ++ parser_name p :: w2
      /\ groups global_options global_choices digit w1 a1 false /\ Forall2 means_global a1 gs
      /\ after_name digit p w2 ls names
      /\ (forall u w v, w2 = u ++ w :: v -> ~ In (lit "--") (u ++ [w]) -> ~ doubtful w).
End Numbers.
