(** How CommonMark reads the emphasis of a text, for the properties of remove_emphasis.  A text is
    cut into pieces; its runs of stars and underscores are paired from left to right, each closing
    run with the nearest earlier run that fits it.  Characters are numbers: 42 is the star, 95 the
    underscore, 92 the backslash, 96 the backtick, 13 the carriage return, 10 the line feed. *)
From Coq Require Import List NArith Arith Bool.
From Verif Require Import Str EmphSpec.
Import ListNotations.
Local Open Scope list_scope.

(** ** Pieces of text *)
Inductive piece :=
| Words (w : str)             (* ordinary text *)
| Escape (c : N)              (* a backslash and the character it protects *)
| Code (n : nat) (w : str)    (* a code span between runs of [n] backticks *)
| Marks (c : N) (n : nat).    (* a run of [n] delimiters [c] *)
Definition spell1 (p : piece) : str :=
  match p with
  | Words w => w
  | Escape c => [92%N; c]
  | Code n w => repeat 96%N n ++ w ++ repeat 96%N n
  | Marks c n => repeat c n
  end.
Definition spell (ps : list piece) : str := flat_map spell1 ps.

(** ** Which runs can open and close emphasis.  [x] and [y] are the characters before and after the
    run; the ends of the text count as line feeds. *)
Definition left_flanking (E : env) (x y : N) : Prop :=
  ~ space_char E y /\ (~ punct_char E y \/ space_char E x \/ punct_char E x).
Definition right_flanking (E : env) (x y : N) : Prop :=
  ~ space_char E x /\ (~ punct_char E x \/ space_char E y \/ punct_char E y).
Definition may_open (E : env) (c x y : N) : Prop :=
  left_flanking E x y /\ (c = 95%N -> ~ right_flanking E x y \/ punct_char E x).
Definition may_close (E : env) (c x y : N) : Prop :=
  right_flanking E x y /\ (c = 95%N -> ~ left_flanking E x y \/ punct_char E y).

(** A run: where it begins, its character and length, whether it can open and close, and how many
    of its delimiters have been used to close and to open emphasis. *)
Record run := mkRun { r_start : nat; r_char : N; r_size : nat; r_opens : bool; r_closes : bool;
                      r_closed : nat; r_opened : nat }.
Definition r_left (r : run) : nat := r_size r - r_closed r - r_opened r.

(** The program does not always look at the character just before the run.  That this makes no
    difference for the run of [c] between the text [a] and the character [y]: *)
Definition unmistaken (E : env) (c : N) (a : str) (y : N) : Prop :=
  (may_open E c (looked_at a) y <-> may_open E c (last a 10%N) y) /\
  (may_close E c (looked_at a) y <-> may_close E c (last a 10%N) y).

Definition not_words (ps : list piece) : Prop := match ps with Words _ :: _ => False | _ => True end.
(** [reads E a ps rs]: [ps] is a cutting into pieces of what follows the text [a], and [rs] are
    its runs, in order. *)
Inductive reads (E : env) : str -> list piece -> list run -> Prop :=
| reads_end : forall a, reads E a [] []
| reads_words : forall a w ps rs, w <> [] -> Forall inert w -> not_words ps ->
    reads E (a ++ w) ps rs -> reads E a (Words w :: ps) rs
| reads_escape : forall a c ps rs,
    (33 <= c <= 47)%N \/ (58 <= c <= 64)%N \/ (91 <= c <= 96)%N \/ (123 <= c <= 126)%N ->
    reads E (a ++ spell1 (Escape c)) ps rs -> reads E a (Escape c :: ps) rs
| reads_code : forall a n w ps rs, 1 <= n <= 1000 -> hd 96%N w <> 96%N -> last w 96%N <> 96%N ->
    last w 0%N <> 13%N -> no_ticks_of n w -> hd 0%N (spell ps) <> 96%N ->
    reads E (a ++ spell1 (Code n w)) ps rs -> reads E a (Code n w :: ps) rs
| reads_marks : forall a c n o cl ps rs, delimiter c -> 1 <= n -> hd 10%N (spell ps) <> c ->
    unmistaken E c a (hd 10%N (spell ps)) ->
    (o = true <-> may_open E c (last a 10%N) (hd 10%N (spell ps))) ->
    (cl = true <-> may_close E c (last a 10%N) (hd 10%N (spell ps))) ->
    reads E (a ++ repeat c n) ps rs ->
    reads E a (Marks c n :: ps) (mkRun (length a) c n o cl 0 0 :: rs).

(** ** Pairing the runs *)
(** CommonMark, emphasis and strong emphasis, rules 9 and 10: an opening and a closing run of the same
    character; if one of them can both open and close, the sum of their lengths must not be a
    multiple of three unless both lengths are. *)
Definition fits (o c : run) : Prop :=
  r_opens o = true /\ r_closes c = true /\ r_char o = r_char c /\ 0 < r_left o /\ 0 < r_left c /\
  (r_closes o = true \/ r_opens c = true -> (r_size o + r_size c) mod 3 = 0 ->
   r_size o mod 3 = 0 /\ r_size c mod 3 = 0).
(** The rule about multiples of three keeps no underscore run from opening for another.  So it is if
    no underscore run can both open and close, or if all underscore runs have one character. *)
Definition underscores_agree (rs : list run) : Prop :=
  forall o c, In o rs -> In c rs -> r_char o = 95%N -> r_char c = 95%N -> r_opens o = true -> r_closes c = true ->
  r_closes o = true \/ r_opens c = true -> (r_size o + r_size c) mod 3 = 0 -> r_size o mod 3 = 0 /\ r_size c mod 3 = 0.
(** Strong emphasis takes two delimiters of each run, emphasis one. *)
Definition strength (o c : run) : nat := if (2 <=? r_left o) && (2 <=? r_left c) then 2 else 1.
Definition open_with (u : nat) (r : run) : run :=
  mkRun (r_start r) (r_char r) (r_size r) (r_opens r) (r_closes r) (r_closed r) (r_opened r + u).
Definition close_with (u : nat) (r : run) : run :=
  mkRun (r_start r) (r_char r) (r_size r) (r_opens r) (r_closes r) (r_closed r + u) (r_opened r).
(** A run between the two ends of an emphasis cannot be used any more. *)
Definition shut (r : run) : run :=
  mkRun (r_start r) (r_char r) (r_size r) false false (r_closed r) (r_opened r).
(** [paired past next out]: with [past] the runs already seen, the nearest first, and [next] those
    still to be looked at, [out] are all the runs in order after the pairing. *)
Inductive paired : list run -> list run -> list run -> Prop :=
| paired_end : forall past, paired past [] (rev past)
| paired_pass : forall past c next out, (forall o, In o past -> ~ fits o c) ->
    paired (c :: past) next out -> paired past (c :: next) out
| paired_pair : forall mid o below c next out, fits o c -> (forall x, In x mid -> ~ fits x c) ->
    paired (map shut mid ++ open_with (strength o c) o :: below)
           (close_with (strength o c) c :: next) out ->
    paired (mid ++ o :: below) (c :: next) out.

(** ** The text without its emphasis: every run keeps the delimiters that were not used. *)
Fixpoint respell (keep : run -> nat) (ps : list piece) (rs : list run) : str :=
  match ps, rs with
  | [], _ => []
  | Marks c n :: ps', r :: rs' => repeat c (keep r) ++ respell keep ps' rs'
  | Marks c n :: ps', [] => []
  | p :: ps', _ => spell1 p ++ respell keep ps' rs
  end.
(** What the program keeps of a run.  The delimiters used to close are taken from the left; those
    used to open are taken from the right, but to the left of as many delimiters as were used to
    close. *)
Definition leaves (r : run) : nat :=
  length (filter (fun k => negb ((k <? r_closed r) ||
     ((r_size r - r_closed r - r_opened r <=? k) && (k <? r_size r - r_closed r)))) (seq 0 (r_size r))).
