(** Model of md_toc/cli.py:107-386, the command line interface: which values the parsed arguments
    can have.  How argparse gets there is in Argv.v; this is its contract for the arguments declared
    there.  Not modelled here: the order of arguments, abbreviations, --help, --version and the
    conversion of the numbers; a command line that is not accepted ends with status 2 before
    anything is read. *)
From Coq Require Import String List NArith ZArith Bool.
From Verif Require Import Str Anchor Toc Cli.
Import ListNotations.
Local Open Scope list_scope.

(** cli.py:193-196, 212-213, 230-232, 248-249: the names and aliases of the subparsers *)
Definition cli_parser (p : parser) : bool :=
  match p with Github | Commonmarker | Gitlab | Cmark | Goldmark | Redcarpet => true | OtherParser => false end.
(** cli.py:126-137, 259-271: -u, one of the bullet markers; the default is '-' *)
Definition cli_unordered (p : parser) (m : str) : bool := sin m (bullet_markers p).
(** cli.py:139-150, 272-283: -o, one of the closing markers; no default.  Exclusive with -u
    (cli.py:203, 221, 239, 258), which then has its default. *)
Definition cli_ordered (p : parser) (m : option str) (u : str) : bool :=
  match m with
  | None => true
  | Some m => sin m (closing_markers p) && seqb u (lit "-")
  end.
(** cli.py:160-172, 291-304: -l, at most constants.py max_levels; the default is there too *)
Definition cli_levels (n : Z) : bool := ((1 <=? n) && (n <=? 6))%Z.
(** cli.py:311-324: --no-list-coherence and --no-indentation exclude each other *)
Definition cli_exclusive (no_indentation no_list_coherence : bool) : bool := negb (no_indentation && no_list_coherence).
(** cli.py:350-362: the choices, and the default os.linesep, taken to be LF *)
Definition cli_newlines : list str := [lit "\n"; lit "\r"; lit "\r\n"; [cLF]].
(** cli.py:173-386 create_parser: the arguments that it lets through.  --toc-marker and the file
    names are any strings, --skip-lines is any integer (cli.py:340-349, 369-377). *)
Definition accepted (a : cli_args) : bool :=
  cli_parser (a_parser a)
  && cli_unordered (a_parser a) (a_unordered_marker a)
  && cli_ordered (a_parser a) (a_ordered_marker a) (a_unordered_marker a)
  && cli_levels (a_levels a)
  && cli_exclusive (a_no_indentation a) (a_no_list_coherence a)
  && sin (a_newline a) cli_newlines.
