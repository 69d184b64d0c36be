(** Vocabulary for files as they are stored. *)
From Coq Require Import String List NArith ZArith Bool.
From Verif Require Import Str Spec WriteSpec.
Import ListNotations.
Local Open Scope list_scope.

(** The lines that a stored text reads as: CR LF and CR are line ends like LF. *)
Definition reads_as (text : str) (lines : list str) : Prop := text_lines lines /\ normalized text (concat lines).
(** The stored text after table [t] was put in: untouched if there is no marker, otherwise the lines
    before the target, the block, and the lines after it. *)
Definition stored_after (E : env) (nl marker t text text' : str) : Prop :=
  exists lines, reads_as text lines
    /\ ((no_marker E marker lines /\ text' = text)
        \/ exists pre old post t0, target E marker lines pre old post t0
             /\ text' = concat pre ++ block_text E nl marker t ++ concat post).
(** Every LF in the text is the end of a CR LF. *)
Definition crlf_only (text : str) : Prop := forall a b, text = a ++ 10%N :: b -> exists a', a = a' ++ [13%N].
