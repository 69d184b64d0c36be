(** Whole documents and the whole tables one expects for them: lines of any kind, every list style and
    every option.  9 is the tab, 10 the line feed, 32 the space, 35 the hash, 42 and 95 the emphasis
    delimiters, 60 the less-than sign, 92 the backslash, 93 the closing bracket. *)
From Coq Require Import String List NArith ZArith Bool Arith.
From Verif Require Import Str Atx Anchor Toc Spec AnchorSpec TocSpec TableSpec EmphSpec DelimSpec LinkSpec SafeSpec HeadSpec PlainSpec.
From Verif Require HtmlSpec.
Import ListNotations.
Local Open Scope list_scope.

(** ** Lines *)

(** A line that is a title of this level, and the text shown for it in the table.  With links the
    brackets of the text are escaped, a blank protects a final backslash, and the text is neither blank
    nor longer than 999 characters. *)
Inductive title (p : parser) (links : bool) (line : str) (level : nat) : str -> Prop :=
| title_linked : forall rest text whole label, commonmark_parser p -> links = true ->
    atx_line p line level rest -> heading_content p rest text -> (exists c, In c text /\ c <> 35%N) ->
    ~ blank_label text -> protected text whole -> length whole <= 999 -> Spec.escapes false whole label ->
    title p links line level label
| title_bare : forall rest text, commonmark_parser p -> links = false ->
    atx_line p line level rest -> heading_content p rest text -> (text = [] \/ exists c, In c text /\ c <> 35%N) ->
    title p links line level text
| title_redcarpet : forall text, p = Redcarpet -> redcarpet_line line level text ->
    title p links line level (if links && N.eqb (last line 0%N) 92 then text ++ [32%N] else text).
Definition no_title (p : parser) (line : str) : Prop :=
  (commonmark_parser p -> forall level rest, ~ atx_line p line level rest)
  /\ (p = Redcarpet -> forall level text, ~ redcarpet_line line level text).

(** The hexadecimal numeral of a number, with the standard library's hexadecimal numbers. *)
Fixpoint hex_digits (u : Hexadecimal.uint) : str :=
  match u with
  | Hexadecimal.Nil => []
  | Hexadecimal.D0 u => 48%N :: hex_digits u | Hexadecimal.D1 u => 49%N :: hex_digits u
  | Hexadecimal.D2 u => 50%N :: hex_digits u | Hexadecimal.D3 u => 51%N :: hex_digits u
  | Hexadecimal.D4 u => 52%N :: hex_digits u | Hexadecimal.D5 u => 53%N :: hex_digits u
  | Hexadecimal.D6 u => 54%N :: hex_digits u | Hexadecimal.D7 u => 55%N :: hex_digits u
  | Hexadecimal.D8 u => 56%N :: hex_digits u | Hexadecimal.D9 u => 57%N :: hex_digits u
  | Hexadecimal.Da u => 97%N :: hex_digits u | Hexadecimal.Db u => 98%N :: hex_digits u
  | Hexadecimal.Dc u => 99%N :: hex_digits u | Hexadecimal.Dd u => 100%N :: hex_digits u
  | Hexadecimal.De u => 101%N :: hex_digits u | Hexadecimal.Df u => 102%N :: hex_digits u
  end.
Definition hex_numeral (n : N) : str := hex_digits (N.to_hex_uint n).

(** ** Names: the anchor of a text, without a number. *)
Inductive named (E : env) (p : parser) (text : str) : str -> Prop :=
| named_plain : commonmark_parser p -> safe_line E text ->      (* neither emphasis nor tags *)
    (forall c, In c text -> ~ In c (lit "*_<")) ->
    (~ In 93%N text \/ exists t, Spec.escapes false t text) ->
    named E p text (plain_slug E p text)
| named_marked : forall pieces ts out, commonmark_parser p ->   (* tags are dropped, then emphasis *)
    e_lower E text = HtmlSpec.html pieces -> Forall HtmlSpec.proper pieces -> Forall HtmlSpec.allowed pieces ->
    HtmlSpec.texts pieces = text_of ts -> ~ In 0%N (text_of ts) ->
    scans E (calm E) [] [] ts out ->
    (forall r, In r out -> r_char r = 95%N -> r_closed r = 0 \/ r_opened r = 0) ->
    named E p text (hyphenate E p (without r_left out 0 ts))
| named_redcarpet : forall words lowered, p = Redcarpet -> words <> [] ->
    runs redcarpet_keeps (filter (fun c => negb (N.eqb c 60 || N.eqb c 38)) text) words ->
    Forall2 (Forall2 ascii_lowered) words lowered ->
    named E p text (separated [45%N] lowered)
| named_hash : p = Redcarpet -> text <> [] ->                   (* nothing is left: a hash of the text *)
    (forall c, In c text -> ~ redcarpet_keeps c \/ c = 60%N \/ c = 38%N) ->
    named E p text (lit "part-" ++ hex_numeral (djb2 5381 text)).

(** ** Documents *)
Record heading := Heading { b_level : nat; b_label : str; b_name : str }.
Definition ended (line l : str) : Prop := single_line line /\ (l = line ++ [10%N] \/ (l = line /\ line <> [])).
(** [document E p links b lines hs]: [lines], read when the code block [b] is open, have the titles [hs];
    all code blocks are closed. *)
Inductive document (E : env) (p : parser) (links : bool) : block -> list str -> list heading -> Prop :=
| doc_end : document E p links None [] []
| doc_title : forall line l level label name ls hs, ended line l ->
    title p links line level label -> named E p label name ->
    document E p links None ls hs -> document E p links None (l :: ls) (Heading level label name :: hs)
| doc_text : forall line l ls hs, ended line l -> no_title p line -> (forall c n, ~ opens p l c n) ->
    document E p links None ls hs -> document E p links None (l :: ls) hs
| doc_open : forall line l c n ls hs, ended line l -> opens p l c n ->
    document E p links (Some (c, n)) ls hs -> document E p links None (l :: ls) hs
| doc_code : forall line l c n ls hs, ended line l -> ~ closing_fence_line p l c n ->
    document E p links (Some (c, n)) ls hs -> document E p links (Some (c, n)) (l :: ls) hs
| doc_close : forall line l c n ls hs, ended line l -> closing_fence_line p l c n ->
    document E p links None ls hs -> document E p links (Some (c, n)) (l :: ls) hs.

(** ** Tables *)

(** The numbers of the open entries, outermost first, after an entry [depth] levels below the first. *)
Definition advance (path : list nat) (depth : nat) : list nat := firstn depth path ++ [S (nth depth path 0)].
(** An entry starts where the text of the entry around it starts; redcarpet indents by four per level. *)
Definition start_column (o : opts) (level : nat) (around : list nat) : nat :=
  if o_no_indentation o then 0
  else match o_parser o with
       | Redcarpet => 4 * (level - 1)
       | _ => list_sum (map (fun n => length (marker_text o n) + 1) around)
       end.
Definition shown_row (o : opts) (path : list nat) (h : heading) (anchor : str) : str :=
  let numbers := if o_constant o then map (fun _ => 1) path else path in
  repeat 32%N (start_column o (b_level h) (removelast numbers)) ++ marker_text o (last numbers 0) ++ [32%N] ++
  (if o_no_links o then b_label h else [91%N] ++ b_label h ++ lit "](#" ++ anchor ++ lit ")") ++ o_newline o.
(** The rows: [first] is the level of the first row, [path] are the numbers of the open entries, [seen] the
    names of the titles so far.  A title that is not listed counts for the numbers of anchors. *)
Fixpoint book_rows (o : opts) (first : nat) (path : list nat) (seen : list str) (hs : list heading) : list str :=
  match hs with
  | [] => []
  | h :: hs' =>
      if listed (o_parser o) (o_keep o) (b_level h) then
        let path' := advance path (b_level h - first) in
        shown_row o path' h (match o_parser o with Redcarpet => b_name h | _ => label_number (b_name h) (occurrences (b_name h) seen) end)
        :: book_rows o first path' (seen ++ [b_name h]) hs'
      else book_rows o first path (seen ++ [b_name h]) hs'
  end.
Definition row_levels (o : opts) (hs : list heading) : list nat := filter (listed (o_parser o) (o_keep o)) (map b_level hs).

(** [titled E o lines hs]: the lines after the skipped ones have the titles [hs], no two different names
    have the same SHA-1 digest, and there are not more titles than the largest number of a list. *)
Definition titled (E : env) (o : opts) (lines : list str) (hs : list heading) : Prop :=
  document E (o_parser o) (negb (o_no_links o)) None (skipn (Z.to_nat (o_skip o)) lines) hs
  /\ (o_parser o <> Redcarpet -> no_collision E (map b_name hs)) /\ (Z.of_nat (length hs) <= 999999999)%Z.
Definition expected_table (o : opts) (hs : list heading) : str := concat (book_rows o (hd 0 (row_levels o hs)) [] [] hs).
(** A table that cannot be rendered, while the checks are on. *)
Definition unrenderable (o : opts) (hs : list heading) : Prop :=
  ~ coherent (row_levels o hs) /\ o_no_indentation o = false /\ o_no_list_coherence o = false.

(** The table when a check is off and the levels are not those of a list.  Numbers go on from the last entry
    of the level unless the row before is less deep, and a row starts below the text of the row before it if
    that is less deep, else where the last row of its level started (TocSpec). *)
Fixpoint loose_rows (o : opts) (hist : list (nat * nat)) (seen : list str) (hs : list heading) : list str :=
  match hs with
  | [] => []
  | h :: hs' =>
      if listed (o_parser o) (o_keep o) (b_level h) then
        let marker := entry_marker o (used_ordered o) (used_marker o) hist (b_level h) in
        let anchor := match o_parser o with Redcarpet => b_name h | _ => label_number (b_name h) (occurrences (b_name h) seen) end in
        (repeat 32%N (if o_no_indentation o then 0 else column (o_parser o) hist (b_level h)) ++ marker ++ [32%N] ++
         (if o_no_links o then b_label h else [91%N] ++ b_label h ++ lit "](#" ++ anchor ++ lit ")") ++ o_newline o)
        :: loose_rows o ((b_level h, length marker) :: hist) (seen ++ [b_name h]) hs'
      else loose_rows o hist (seen ++ [b_name h]) hs'
  end.
Definition loose_table (o : opts) (hs : list heading) : str := concat (loose_rows o [] [] hs).
(** The table of these titles, if they have one. *)
Definition table_of_titles (o : opts) (hs : list heading) (t : str) : Prop :=
  (coherent (row_levels o hs) /\ t = expected_table o hs)
  \/ ((o_no_indentation o = true \/ o_no_list_coherence o = true) /\ t = loose_table o hs).
