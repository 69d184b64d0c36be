(** Documents that end inside a code block nobody closed. *)
From Coq Require Import String List NArith ZArith Bool Arith.
From Verif Require Import Str Atx Anchor Toc Spec AnchorSpec TocSpec TableSpec BookSpec.
Import ListNotations.
Local Open Scope list_scope.

(** [late E p links stdin code hs]: the titles [hs] that the lines [code] of a block that is never closed give.
    There are none if the text comes from the standard input.  In a file the last line of the block is read as
    if it stood outside, unless it is indented by more than three spaces. *)
Inductive late (E : env) (p : parser) (links : bool) : bool -> list str -> list heading -> Prop :=
| late_stdin : forall code, late E p links true code []
| late_empty : forall stdin, late E p links stdin [] []
| late_indented : forall stdin body l, ~ small_indent l -> late E p links stdin (body ++ [l]) []
| late_text : forall stdin body line l, ended line l -> no_title p line -> late E p links stdin (body ++ [l]) []
| late_title : forall body line l level label name, ended line l -> title p links line level label -> named E p label name ->
    late E p links false (body ++ [l]) [Heading level label name].
