(** Vocabulary for the properties about files: what part of a file is replaced by a table. *)
From Coq Require Import String List NArith ZArith Bool Arith.
From Verif Require Import Str Spec Write.
Import ListNotations.
Local Open Scope list_scope.

(** The lines of a text file, as read with universal newlines: every line but perhaps the last
    one ends with LF; there is no other LF and no CR. *)
Inductive text_lines : list str -> Prop :=
| tl_nil : text_lines []
| tl_last : forall s, single_line s -> s <> [] -> text_lines [s]
| tl_line : forall s ls, single_line s -> text_lines ls -> text_lines ((s ++ [10%N]) :: ls).

(** A line without its LF. *)
Definition chomp (l : str) : str := filter (fun c => negb (N.eqb c 10)) l.
(** The text of some lines, run together. *)
Definition joined (ls : list str) : str := concat (map chomp ls).

(** Marker lines: equal to the marker up to surrounding white space. *)
Definition is_marker (E : env) (marker line : str) : Prop := trim (e_space E) line = trim (e_space E) marker.
Definition no_marker (E : env) (marker : str) (ls : list str) : Prop :=
  forall l, In l ls -> ~ is_marker E marker l.

(** A text that starts like a list item: at most three spaces, a bullet or digits and '.' or
    ')', a space that is not followed by more blank space. *)
Definition list_item (E : env) (s : str) : Prop :=
  exists ind mk rest, s = repeat 32%N ind ++ mk ++ 32%N :: rest /\ ind <= 3
    /\ (In mk [lit "-"; lit "+"; lit "*"]
        \/ exists ds c, mk = ds ++ [c] /\ ds <> [] /\ Forall (fun d => e_digit E d = true) ds /\ In c (lit ".)"))
    /\ (forall c, hd_error rest = Some c -> ~ In c [32%N; 9%N; 11%N])
    /\ ~ In 10%N rest.

(** Lines between two markers that md-toc takes for a table of its own: leaving out the first and
    the last line the text starts like a list item, or the whole text is blank. *)
Definition inner (ls : list str) : list str := removelast (tl ls).
Definition table_region (E : env) (mid : list str) : Prop :=
  list_item E (joined (inner mid)) \/ Forall (fun c => In c [32%N; 9%N; 11%N]) (joined mid).

(** No two consecutive marker lines enclose a table. *)
Definition no_table (E : env) (marker : str) (ls : list str) : Prop :=
  forall x a mid b y, ls = x ++ a :: mid ++ b :: y ->
    is_marker E marker a -> is_marker E marker b -> no_marker E marker mid -> ~ table_region E mid.

(** [target E marker lines pre old post toc]: a write replaces the lines [old], found between [pre]
    and [post]; [toc] is the table that is considered to be there now. *)
Inductive target (E : env) (marker : str) : list str -> list str -> list str -> list str -> str -> Prop :=
| tg_single : forall pre m post,             (* the only marker *)
    is_marker E marker m -> no_marker E marker pre -> no_marker E marker post ->
    target E marker (pre ++ [m] ++ post) pre [m] post marker
| tg_table : forall pre m1 mid m2 post,      (* the first table between markers *)
    is_marker E marker m1 -> is_marker E marker m2 -> no_marker E marker mid ->
    table_region E mid -> no_table E marker (pre ++ [m1]) ->
    target E marker (pre ++ (m1 :: mid ++ [m2]) ++ post) pre (m1 :: mid ++ [m2]) post (trim (e_space E) (concat mid))
| tg_no_table : forall pre m1 post,          (* several markers, no table: before the first marker *)
    is_marker E marker m1 -> no_marker E marker pre -> ~ no_marker E marker post ->
    no_table E marker (pre ++ m1 :: post) ->
    target E marker (pre ++ m1 :: post) pre [] (m1 :: post) [].

(** The line ends LF and CR LF. *)
Definition line_end (nl : str) : Prop := In nl [[10%N]; [13%N; 10%N]].

(** The text that is written: marker, blank line, table, blank line, marker. *)
Definition block_text (E : env) (nl marker toc : str) : str :=
  marker ++ nl ++ nl ++ trim_end (e_space E) toc ++ nl ++ nl ++ marker ++ nl.

(** Lines of a text with LF line ends. *)
Definition lines_text (ls : list str) (text : str) : Prop :=
  concat ls = text /\ forall l, In l ls -> exists s, l = s ++ [10%N] /\ ~ In 10%N s.
