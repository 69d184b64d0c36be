(** Command lines as one writes them, and what they ask for.  45 is the dash, 61 the equals sign. *)
From Coq Require Import String List NArith ZArith Bool.
From Verif Require Import Str Anchor Toc Cli CallSpec.
Import ListNotations.
Local Open Scope list_scope.

(** ** What can be asked for *)
(** Options before the name of the parser. *)
Inductive switch := NoCoherence | NoIndentation | Diff | NoLinks | InPlace.
Inductive global := Turn (s : switch) | TocMarker (m : str) | Newline (n : str) | SkipLines (n : Z).
(** Options after it. *)
Inductive local := Unordered (m : str) | Ordered (m : str) | Constant | Levels (n : Z).

Definition letter (s : switch) : N :=
  match s with NoCoherence => 99%N | NoIndentation => 105%N | Diff => 100%N | NoLinks => 108%N | InPlace => 112%N end.
Definition switch_name (s : switch) : str :=
  match s with
  | NoCoherence => lit "--no-list-coherence" | NoIndentation => lit "--no-indentation" | Diff => lit "--diff"
  | NoLinks => lit "--no-links" | InPlace => lit "--in-place"
  end.
Definition global_names : list str :=
  [lit "--help"; lit "--version"; lit "--no-list-coherence"; lit "--no-indentation"; lit "--diff"; lit "--no-links";
   lit "--in-place"; lit "--toc-marker"; lit "--newline-string"; lit "--skip-lines"].
Definition local_names : list str :=
  [lit "--help"; lit "--unordered-list-marker"; lit "--ordered-list-marker"; lit "--constant-ordered-list"; lit "--header-levels"].
(** A long name can be cut as long as no other name begins like it. *)
Definition short_for (all : list str) (name w : str) : Prop :=
  (exists rest, name = w ++ rest) /\ 3 <= length w /\ forall x rest, In x all -> x = w ++ rest -> x = name.
(** A word that is not taken for an option. *)
Definition plain_word (w : str) : Prop := w = lit "-" \/ hd 0%N w <> 45%N.

(** An option with a value: behind the letter in the next or the same word, behind the name in the next
    word or after an equals sign. *)
Inductive valued (all : list str) (c : N) (name v : str) : list str -> Prop :=
| letter_next : plain_word v -> valued all c name v [[45%N; c]; v]
| letter_joined : v <> [] -> hd 0%N v <> 61%N -> valued all c name v [[45%N; c] ++ v]
| name_next : forall w, short_for all name w -> plain_word v -> valued all c name v [w; v]
| name_joined : forall w, short_for all name w -> valued all c name v [w ++ [61%N] ++ v].

Section Numbers.
  (** How whole numbers are read. *)
  Context (num : str -> option Z).
  Inductive global_words : list str -> list global -> Prop :=
  | gw_letters : forall ss, ss <> [] -> global_words [45%N :: map letter ss] (map Turn ss)
  | gw_switch : forall s w, short_for global_names (switch_name s) w -> global_words [w] [Turn s]
  | gw_marker : forall m ws, valued global_names 109 (lit "--toc-marker") m ws -> global_words ws [TocMarker m]
  | gw_newline : forall n ws, In n [lit "\n"; lit "\r"; lit "\r\n"] ->
      valued global_names 110 (lit "--newline-string") n ws -> global_words ws [Newline n]
  | gw_skip : forall n v ws, num v = Some n -> valued global_names 115 (lit "--skip-lines") v ws -> global_words ws [SkipLines n].
  Inductive globals : list str -> list global -> Prop :=
  | g_none : globals [] []
  | g_more : forall ws gs ws' gs', global_words ws gs -> globals ws' gs' -> globals (ws ++ ws') (gs ++ gs').

  (** An option without its value at the end of the words ([true]) must not be followed by a file name. *)
  Inductive local_words (p : parser) : list str -> local -> bool -> Prop :=
  | lw_unordered : forall m ws, In m [lit "-"; lit "+"; lit "*"] ->
      valued local_names 117 (lit "--unordered-list-marker") m ws -> local_words p ws (Unordered m) false
  | lw_unordered_bare : forall w, w = lit "-u" \/ short_for local_names (lit "--unordered-list-marker") w ->
      local_words p [w] (Unordered (lit "-")) true
  | lw_ordered : forall m ws, right_marker p true m ->
      valued local_names 111 (lit "--ordered-list-marker") m ws -> local_words p ws (Ordered m) false
  | lw_ordered_bare : forall w, w = lit "-o" \/ short_for local_names (lit "--ordered-list-marker") w ->
      local_words p [w] (Ordered (lit ".")) true
  | lw_constant : forall w, w = lit "-c" \/ short_for local_names (lit "--constant-ordered-list") w ->
      local_words p [w] Constant false
  | lw_levels : forall n v ws, num v = Some n -> (1 <= n <= 6)%Z ->
      valued local_names 108 (lit "--header-levels") v ws -> local_words p ws (Levels n) false
  | lw_levels_bare : forall w, w = lit "-l" \/ short_for local_names (lit "--header-levels") w ->
      local_words p [w] (Levels 6) true.
  Inductive locals (p : parser) : list str -> list local -> bool -> Prop :=
  | l_none : locals p [] [] false
  | l_last : forall ws l b, local_words p ws l b -> locals p ws [l] b
  | l_more : forall ws l b ws' l' b', local_words p ws l b -> ws' <> [] -> locals p ws' l' b' -> locals p (ws ++ ws') (l :: l') b'.

  (** After the name of the parser: options, file names, options; or options and file names after two
      dashes. *)
  Inductive rest_of_line (p : parser) : list str -> list local -> list str -> Prop :=
  | rest_plain : forall w1 l1 b1 names w2 l2 b2, locals p w1 l1 b1 -> (names = [] \/ b1 = false) -> Forall plain_word names ->
      locals p w2 l2 b2 -> rest_of_line p (w1 ++ names ++ w2) (l1 ++ l2) names
  | rest_dashes : forall w1 l1 b1 names, locals p w1 l1 b1 -> rest_of_line p (w1 ++ lit "--" :: names) l1 names.

  Definition parser_name (p : parser) : str :=
    match p with
    | Github => lit "github" | Commonmarker => lit "commonmarker" | Gitlab => lit "gitlab" | Cmark => lit "cmark"
    | Goldmark => lit "goldmark" | Redcarpet => lit "redcarpet" | OtherParser => []
    end.
  (** A whole command line. *)
  Definition command_line (ws : list str) (gs : list global) (p : parser) (ls : list local) (names : list str) : Prop :=
    p <> OtherParser /\ exists w1 w2, ws = w1 ++ parser_name p :: w2 /\ globals w1 gs /\ rest_of_line p w2 ls names.
End Numbers.

(** ** What is asked for *)
(** The last value given, or the default. *)
Definition last_of {A B} (f : A -> option B) (d : B) (l : list A) : B :=
  fold_left (fun d x => match f x with Some v => v | None => d end) l d.
Definition turned (s : switch) (gs : list global) : bool :=
  existsb (fun g => match g with
                    | Turn s' => match s, s' with
                                 | NoCoherence, NoCoherence | NoIndentation, NoIndentation | Diff, Diff | NoLinks, NoLinks | InPlace, InPlace => true
                                 | _, _ => false
                                 end
                    | _ => false
                    end) gs.
Definition asks (gs : list global) (p : parser) (ls : list local) (names : list str) : cli_args :=
  mkArgs names
    (last_of (fun l => match l with Ordered m => Some (Some m) | _ => None end) None ls)
    (last_of (fun l => match l with Unordered m => Some m | _ => None end) (lit "-") ls)
    (turned NoLinks gs) (turned NoIndentation gs) (turned NoCoherence gs)
    (last_of (fun l => match l with Levels n => Some n | _ => None end) 6%Z ls)
    p
    (last_of (fun g => match g with SkipLines n => Some n | _ => None end) 0%Z gs)
    (existsb (fun l => match l with Constant => true | _ => false end) ls)
    (turned InPlace gs) (turned Diff gs)
    (last_of (fun g => match g with TocMarker m => Some m | _ => None end) (lit "<!--TOC-->") gs)
    (last_of (fun g => match g with Newline n => Some n | _ => None end) [10%N] gs).
(** Options that exclude each other: --no-list-coherence and --no-indentation; a numbered list and a
    bullet other than the default. *)
Definition clash (gs : list global) (ls : list local) : Prop :=
  (In (Turn NoCoherence) gs /\ In (Turn NoIndentation) gs)
  \/ ((exists m, In (Ordered m) ls) /\ exists m, In (Unordered m) ls /\ m <> lit "-").

(** ** Lines that are refused *)
(** A file name right after -u, -o or -l that cannot be its value. *)
Definition swallows (num : str -> option Z) (p : parser) (w f : str) : Prop :=
  ((w = lit "-u" \/ short_for local_names (lit "--unordered-list-marker") w) /\ ~ right_marker p false f)
  \/ ((w = lit "-o" \/ short_for local_names (lit "--ordered-list-marker") w) /\ ~ right_marker p true f)
  \/ ((w = lit "-l" \/ short_for local_names (lit "--header-levels") w) /\ forall n, num f = Some n -> ~ (1 <= n <= 6)%Z).
(** The options of the first group that the second does not have. *)
Definition misplaced (w : str) : Prop :=
  In w [lit "-i"; lit "-d"; lit "-m"; lit "-n"; lit "-p"; lit "-s"; lit "-v"]
  \/ exists name, In name global_names /\ name <> lit "--help" /\ short_for global_names name w.
(** Values that an option does not take, however they are written. *)
Inductive wrong_global (num : str -> option Z) : list str -> Prop :=
| wg_newline : forall n ws, ~ In n [lit "\n"; lit "\r"; lit "\r\n"] -> valued global_names 110 (lit "--newline-string") n ws -> wrong_global num ws
| wg_skip : forall v ws, num v = None -> valued global_names 115 (lit "--skip-lines") v ws -> wrong_global num ws.
Inductive wrong_local (num : str -> option Z) (p : parser) : list str -> Prop :=
| wl_unordered : forall m ws, ~ right_marker p false m -> valued local_names 117 (lit "--unordered-list-marker") m ws -> wrong_local num p ws
| wl_ordered : forall m ws, ~ right_marker p true m -> valued local_names 111 (lit "--ordered-list-marker") m ws -> wrong_local num p ws
| wl_levels : forall v ws, (forall n, num v = Some n -> ~ (1 <= n <= 6)%Z) -> valued local_names 108 (lit "--header-levels") v ws -> wrong_local num p ws.
(** An abbreviation of more than one name. *)
Definition ambiguous (all : list str) (w : str) : Prop :=
  3 <= length w /\ ~ In w all /\ exists x y r1 r2, In x all /\ In y all /\ x <> y /\ x = w ++ r1 /\ y = w ++ r2.
(** Options that do not exist: an unknown letter, alone or behind letters that take no value; a name that
    no option begins with, with or without a value; a value for an option that takes none. *)
Record options := Options { o_names : list str; o_letters : list N; o_bare_names : list str; o_bare_letters : list N }.
Definition letters_of (s : string) : list N := lit s.
Definition global_options : options :=
  Options global_names (letters_of "hcidlmnpsv")
    [lit "--help"; lit "--version"; lit "--no-list-coherence"; lit "--no-indentation"; lit "--diff"; lit "--no-links"; lit "--in-place"]
    (letters_of "hcidlpv").
Definition local_options : options :=
  Options local_names (letters_of "huocl") [lit "--help"; lit "--constant-ordered-list"] (letters_of "hc").
Inductive no_such_option (o : options) : str -> Prop :=
| ns_letter : forall ss c rest, Forall (fun s => In s (o_bare_letters o)) ss -> ~ In c (o_letters o) -> (ss = [] -> c <> 45%N) ->
    no_such_option o (45%N :: ss ++ c :: rest)
| ns_name : forall w v, firstn 2 w = lit "--" -> ~ In 61%N w -> (forall x r, In x (o_names o) -> x <> w ++ r) -> (v = [] \/ hd 0%N v = 61%N) ->
    no_such_option o (w ++ v)
| ns_value : forall name w v, In name (o_bare_names o) -> short_for (o_names o) name w -> no_such_option o (w ++ 61%N :: v).
(** After the name of the parser a word like -5 or -.5, or one with a space in it, is a file name even if
    it begins with a dash. *)
Definition reads_as_name (digit : N -> bool) (w : str) : Prop :=
  In 32%N w \/ exists c t, w = 45%N :: c :: t /\ (digit c = true \/ c = 46%N).
