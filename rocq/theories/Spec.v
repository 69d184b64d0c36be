(** Specification vocabulary: what fence lines and heading lines are, in terms of lists of
    characters only.  Nothing here refers to the functions of the model. *)
From Coq Require Import List NArith.
From Verif Require Import Str.
Import ListNotations.

(** The parsers that follow CommonMark. *)
Definition commonmark_parser (p : parser) : Prop :=
  In p [Github; Cmark; Gitlab; Commonmarker; Goldmark].

(** A blank next to the markers of a line: a space, and for the parsers that implement
    CommonMark 0.30 also a tab. *)
Definition blank (p : parser) (c : N) : Prop :=
  c = 32%N \/ (c = 9%N /\ p <> Github /\ p <> Commonmarker).

(** A line that opens a fenced code block with [n] characters [c]: at most three spaces, a
    maximal run of at least three backticks or tildes, and an info string, which must not
    contain a backtick if the run is made of backticks. *)
Definition opening_fence_line (line : str) (c : N) (n : nat) : Prop :=
  exists ind info,
    line = repeat 32%N ind ++ repeat c n ++ info
    /\ ind <= 3 /\ 3 <= n
    /\ ((c = 96%N /\ ~ In 96%N info) \/ (c = 126%N /\ hd_error info <> Some 126%N)).

(** A line that closes a block opened with [n] characters [c]. *)
Definition closing_fence_line (p : parser) (line : str) (c : N) (n : nat) : Prop :=
  exists ind m tail,
    line = repeat 32%N ind ++ repeat c m ++ tail
    /\ ind <= 3 /\ n <= m
    /\ Forall (fun x => blank p x \/ x = 10%N) tail.

(** Nothing in the text is a line terminator. *)
Definition single_line (s : str) : Prop := ~ In 10%N s /\ ~ In 13%N s.

(** An ATX heading line of level [level]; [rest] is what follows the opening hashes. *)
Definition atx_line (p : parser) (line : str) (level : nat) (rest : str) : Prop :=
  exists ind,
    line = repeat 32%N ind ++ repeat 35%N level ++ rest
    /\ ind <= 3 /\ 1 <= level <= 6
    /\ (rest = [] \/ exists b r, rest = b :: r /\ blank p b).

(** The content of a heading as CommonMark defines it: without surrounding blanks and without
    a closing sequence of hashes, which must be preceded by a blank. *)
Definition trimmed_text (p : parser) (t : str) : Prop :=
  (forall c r, t = c :: r -> ~ blank p c) /\ (forall c r, t = r ++ [c] -> ~ blank p c).
Definition blanks (p : parser) (s : str) : Prop := Forall (blank p) s.

(** [heading_content p rest text]: the opening sequence is followed by [rest] and the content
    is [text]. *)
Inductive heading_content (p : parser) : str -> str -> Prop :=
| content_none : heading_content p [] []
| content_closed : forall b1 text b2 n b3,     (* with a closing sequence *)
    blanks p b1 -> b1 <> [] -> trimmed_text p text -> blanks p b2 ->
    (text = [] \/ b2 <> []) -> 1 <= n -> blanks p b3 ->
    heading_content p (b1 ++ text ++ b2 ++ repeat 35%N n ++ b3) text
| content_plain : forall b1 text b2,           (* without one *)
    blanks p b1 -> b1 <> [] -> trimmed_text p text -> blanks p b2 ->
    (forall n, text <> repeat 35%N (S n)) ->
    (forall t b n, blank p b -> text <> t ++ [b] ++ repeat 35%N (S n)) ->
    heading_content p (b1 ++ text ++ b2) text.

(** A link label that counts as empty: blanks of the kinds below, nested in this order. *)
Definition blank_label (t : str) : Prop :=
  exists a b c d e f g,
    t = repeat 32%N a ++ repeat 9%N b ++ repeat 11%N c ++ repeat 12%N d
        ++ repeat 11%N e ++ repeat 9%N f ++ repeat 32%N g.

(** The text that becomes the label: a blank protects a final backslash. *)
Definition protected (t t' : str) : Prop :=
  (exists r, t = r ++ [92%N] /\ t' = t ++ [32%N]) \/ ((forall r, t <> r ++ [92%N]) /\ t' = t).

(** [escapes b s t]: [t] is [s] with a backslash put before every square bracket that is not
    already escaped, i.e. preceded by an odd number of backslashes; [b] tells whether an odd
    number of backslashes comes right before [s]. *)
Definition bracket_char (c : N) : Prop := c = 91%N \/ c = 93%N.
Inductive escapes : bool -> str -> str -> Prop :=
| esc_nil : forall b, escapes b [] []
| esc_insert : forall c s t, bracket_char c -> escapes false s t -> escapes false (c :: s) (92%N :: c :: t)
| esc_keep : forall c s t, bracket_char c -> escapes false s t -> escapes true (c :: s) (c :: t)
| esc_backslash : forall b s t, escapes (negb b) s t -> escapes b (92%N :: s) (92%N :: t)
| esc_other : forall b c s t, ~ bracket_char c -> c <> 92%N -> escapes false s t -> escapes b (c :: s) (c :: t).

(** A prefix that ends with an odd number of backslashes. *)
Definition odd_backslashes (pre : str) : Prop :=
  exists q n, pre = q ++ repeat 92%N (2 * n + 1) /\ (forall r, q <> r ++ [92%N]).

(** Reading a Markdown link label from just after its '[': the text after the first ']' that
    is not escaped by a backslash.  None if a '[' comes first or there is no such ']'. *)
Fixpoint label_end (escaped : bool) (s : str) : option str :=
  match s with
  | [] => None
  | c :: s' =>
      if escaped then label_end false s'
      else if N.eqb c 92 then label_end true s'
      else if N.eqb c 93 then Some s'
      else if N.eqb c 91 then None
      else label_end false s'
  end.

(** Newline normalisation: CR LF and lone CR become LF. *)
Inductive normalized : str -> str -> Prop :=
| norm_nil : normalized [] []
| norm_crlf : forall s t, normalized s t -> normalized (13%N :: 10%N :: s) (10%N :: t)
| norm_cr : forall s t, hd_error s <> Some 10%N -> normalized s t -> normalized (13%N :: s) (10%N :: t)
| norm_other : forall c s t, c <> 13%N -> normalized s t -> normalized (c :: s) (c :: t).


(** Decimal numbers as printed: digits, the right value, no superfluous leading zero. *)
Definition decimal_digit (c : N) : Prop := (48 <= c <= 57)%N.
Fixpoint decimal_value (acc : N) (s : str) : N :=
  match s with [] => acc | c :: s' => decimal_value (acc * 10 + (c - 48)) s' end.
Definition decimal (n : N) (s : str) : Prop :=
  Forall decimal_digit s /\ decimal_value 0 s = n
  /\ (s = [48%N] \/ exists c r, s = c :: r /\ c <> 48%N).

(** Text without the characters at its start, at its end, at both ends that satisfy [P]. *)
Fixpoint trim_start (P : N -> bool) (s : str) : str :=
  match s with
  | c :: s' => if P c then trim_start P s' else s
  | [] => []
  end.
Definition trim_end (P : N -> bool) (s : str) : str := rev (trim_start P (rev s)).
Definition trim (P : N -> bool) (s : str) : str := trim_end P (trim_start P s).

(** The decimal numeral of a number: digits for the standard library's decimal numbers. *)
Fixpoint digits (u : Decimal.uint) : str :=
  match u with
  | Decimal.Nil => []
  | Decimal.D0 u => 48%N :: digits u
  | Decimal.D1 u => 49%N :: digits u
  | Decimal.D2 u => 50%N :: digits u
  | Decimal.D3 u => 51%N :: digits u
  | Decimal.D4 u => 52%N :: digits u
  | Decimal.D5 u => 53%N :: digits u
  | Decimal.D6 u => 54%N :: digits u
  | Decimal.D7 u => 55%N :: digits u
  | Decimal.D8 u => 56%N :: digits u
  | Decimal.D9 u => 57%N :: digits u
  end.
Definition numeral (n : N) : str := digits (N.to_uint n).

(** Texts one after the other with a separator between them. *)
Fixpoint separated (sep : str) (l : list str) : str :=
  match l with
  | [] => []
  | [a] => a
  | a :: l' => a ++ sep ++ separated sep l'
  end.
