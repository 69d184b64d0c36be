(** The whole program, from the words of the command line to the characters of the stored files. *)
From Coq Require Import String List NArith ZArith Bool Arith.
From Verif Require Import Str Anchor Toc Cli Argv Disk.
Import ListNotations.
Local Open Scope list_scope.

(** What a run leaves (__main__.py:28-48): what it printed on standard output, the stored files and the exit
    status.  The texts for help, version and usage and the traceback are left out. *)
Record outcome := Outcome { y_out : str; y_disk : disk; y_status : Z }.
(** __main__.py:28-48 main, as Argv.main, on files as they are stored (Disk.v). *)
Definition program (E : env) (num : str -> option Z) (ws : list str) (k : disk) (input : stdin_state) : outcome :=
  match parse_args E num ws with
  | Usage => Outcome [] k 2
  | Shown => Outcome [] k 0
  | Got a => let e := disk_cli E a k input in Outcome (k_out e) (k_disk e) (exit_status (k_result e))
  end.
(** The successive disks of a run (cli.py:53-105): they change only in write_strings_on_files_between_markers,
    cli.py:86-92.  A run that is killed leaves one of them. *)
Definition program_states (E : env) (num : str -> option Z) (ws : list str) (k : disk) (input : stdin_state) : list disk :=
  match parse_args E num ws with
  | Got a =>
      match build_multiple_tocs E (args_opts a) (mkWorld (seen_disk k) input) (a_names a) with
      | Err _ => [k]
      | Ok (tocs, _) =>
          let names := effective_names (a_names a) in
          if a_in_place a && (length names =? length tocs)
          then disk_states E (cli_newline (a_newline a)) k (combine names tocs) (a_toc_marker a)
          else [k]
      end
  | _ => [k]
  end.
