(** A run of the command on documents whose tables one knows: what it reads and what it leaves. *)
From Coq Require Import String List NArith ZArith Bool.
From Verif Require Import Str Spec Toc Cli WriteSpec CliSpec BookSpec TableSpec.
Import ListNotations.
Local Open Scope list_scope.

(** The lines that a name stands for: those of standard input for '-', of the file otherwise. *)
Definition supplies (w : world) (n : str) (lines : list str) : Prop :=
  (n = lit "-" /\ w_stdin w = Fresh (mkDoc lines false)) \/ (n <> lit "-" /\ fs_get (w_fs w) n = Some (mkDoc lines false)).
(** The table to expect for a name. *)
Definition to_expect (E : env) (o : opts) (w : world) (n t : str) : Prop :=
  exists lines hs, supplies w n lines /\ titled E o lines hs /\ table_of_titles o hs t.
(** The table in the file, as far as the markers show it: nothing without markers. *)
Definition table_there (E : env) (marker : str) (lines : list str) (t : str) : Prop :=
  (no_marker E marker lines /\ t = []) \/ exists pre old post, target E marker lines pre old post t.
(** The lines of a file after table [t] was put in. *)
Definition updated (E : env) (nl marker t : str) (lines lines' : list str) : Prop :=
  (no_marker E marker lines /\ lines' = lines)
  \/ exists pre old post t0 text new, target E marker lines pre old post t0
       /\ normalized (block_text E nl marker t) text /\ lines_text new text /\ lines' = pre ++ new ++ post.
(** The file of a name does not show the table to expect. *)
Definition outdated (E : env) (o : opts) (w : world) (marker n : str) : Prop :=
  exists lines t t0, fs_get (w_fs w) n = Some (mkDoc lines false) /\ to_expect E o w n t
    /\ table_there E marker lines t0 /\ trim (e_space E) t <> t0.
