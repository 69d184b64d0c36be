(** What a run that is killed can leave behind. *)
From Coq Require Import String List NArith ZArith Bool.
From Verif Require Import Str Toc Write Cli.
Import ListNotations.
Local Open Scope list_scope.

(** cli.py:53-105: the successive file systems of a run; they change only in
    write_strings_on_files_between_markers, cli.py:86-92. *)
Definition cli_states (E : env) (a : cli_args) (w : world) : list fs :=
  match build_multiple_tocs E (args_opts a) w (a_names a) with
  | Err _ => [w_fs w]
  | Ok (tocs, _) =>
      let names := effective_names (a_names a) in
      if a_in_place a && (length names =? length tocs)
      then write_states E (cli_newline (a_newline a)) (w_fs w) (combine names tocs) (a_toc_marker a)
      else [w_fs w]
  end.
