(** Vocabulary for the properties about running the tool again on its own output. *)
From Coq Require Import String List NArith ZArith Bool Arith.
From Verif Require Import Str Atx Anchor Toc Write Spec EnvSpec TocSpec DocSpec TableSpec WriteSpec.
Import ListNotations.
Local Open Scope list_scope.

(** A marker that cannot be taken for a heading, a fence or a list item: after white space its
    first character is none of these (the default marker starts with '<'). *)
Definition neutral_marker (E : env) (marker : str) : Prop :=
  single_line marker /\
  exists c r, trim (e_space E) marker = c :: r /\ ~ In c (lit "#`~-+*") /\ ~ is_digit c.

(** The first row of the table can be recognised: it is not indented by more than three spaces
    (only redcarpet indents the first row) and its label does not start with white space (with
    links it starts with '['). *)
Definition recognisable (E : env) (o : opts) (ks : list str) : Prop :=
  forall hs e es, headings E (o_parser o) (o_no_links o) ks hs ->
    entries (o_parser o) (o_keep o) hs = e :: es ->
    (o_parser o = Redcarpet -> o_no_indentation o = false -> e_level e <= 1)
    /\ (o_no_links o = true -> exists c r, e_text e = c :: r /\ e_space E c = false).

(** A row: white space, then a bullet or a digit, on one line ended by LF. *)
Definition table_line (l : str) : Prop :=
  exists ws c r, l = ws ++ c :: r ++ [10%N] /\ Forall (fun x => x = 32%N) ws
    /\ (In c (lit "-+*") \/ is_digit c) /\ single_line r.
