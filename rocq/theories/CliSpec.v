(** What the arguments of the command stand for. *)
From Coq Require Import String List NArith ZArith Bool.
From Verif Require Import Str Toc Write Cli.
Import ListNotations.
Local Open Scope list_scope.

(** The line end chosen with --newline-string: the value is spelled with backslashes; the default
    is the line end itself. *)
Inductive newline_choice : str -> str -> Prop :=
| nc_lf : newline_choice (lit "\n") [10%N]
| nc_cr : newline_choice (lit "\r") [13%N]
| nc_crlf : newline_choice (lit "\r\n") [13; 10]%N
| nc_default : newline_choice [10%N] [10%N].

(** The options that the arguments select: an ordered list if and only if its marker is given. *)
Definition selects (a : cli_args) (o : opts) : Prop :=
  (o_ordered o = true <-> a_ordered_marker a <> None)
  /\ (forall m, a_ordered_marker a = Some m -> o_marker o = Some m)
  /\ (a_ordered_marker a = None -> o_marker o = Some (a_unordered_marker a))
  /\ o_no_links o = a_no_links a /\ o_no_indentation o = a_no_indentation a
  /\ o_no_list_coherence o = a_no_list_coherence a /\ o_keep o = a_levels a
  /\ o_parser o = a_parser a /\ o_skip o = a_skip a /\ o_constant o = a_constant a
  /\ newline_choice (a_newline a) (o_newline o).

(** The files of the command; standard input if there is none. *)
Definition inputs (a : cli_args) : list str := match a_names a with [] => [lit "-"] | ns => ns end.
