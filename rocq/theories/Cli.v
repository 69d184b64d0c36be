(** Model of the functions of md_toc/api.py, md_toc/cli.py and md_toc/__main__.py that work on
    several files, over a small file system. *)
From Coq Require Import String List NArith ZArith Bool Arith.
From Verif Require Import Str Regex HtmlRe Fence Atx Entity Inlines Anchor Toc Write.
Import ListNotations.
Local Open Scope list_scope.

(** Files by name. *)
Definition fs := list (str * doc).
(** Contents of a file, if it exists. *)
Fixpoint fs_get (f : fs) (name : str) : option doc :=
  match f with
  | [] => None
  | (n, d) :: f' => if seqb n name then Some d else fs_get f' name
  end.
(** Writing a file. *)
Fixpoint fs_set (f : fs) (name : str) (d : doc) : fs :=
  match f with
  | [] => [(name, d)]
  | (n, e) :: f' => if seqb n name then (n, d) :: f' else (n, e) :: fs_set f' name d
  end.

(** Standard input: not read yet, or closed by build_toc (api.py:434).  After the early
    return for undecodable input it is left open at an unspecified position: not modelled
    any further, reading on is an error. *)
Inductive stdin_state := Fresh (d : doc) | Closed | Broken.

(** What a run can read: the files and standard input. *)
Record world := mkWorld { w_fs : fs; w_stdin : stdin_state }.

(** api.py:243-262 (opening the file) and build_toc *)
Definition read_toc (E : env) (o : opts) (w : world) (name : str) : res (str * world) :=
  if (o_skip o <? 0)%Z then Err ValueError
  else if is_stdin name then
    match w_stdin w with
    | Fresh d => do t <- build_toc E o name d;
                 Ok (t, mkWorld (w_fs w) (if d_bad d then Broken else Closed))
    | Closed => do _ <- fix_marker o; Err ValueError
    | Broken => do _ <- fix_marker o; Err UnicodeDecodeError
    end
  else match fs_get (w_fs w) name with
       | None => Err FileNotFoundError
       | Some d => do t <- build_toc E o name d; Ok (t, w)
       end.

(** api.py:496-510: the loop *)
Fixpoint read_tocs (E : env) (o : opts) (w : world) (names : list str) : res (list str * world) :=
  match names with
  | [] => Ok ([], w)
  | n :: ns =>
      do '(t, w) <- read_toc E o w n;
      do '(ts, w) <- read_tocs E o w ns;
      Ok (t :: ts, w)
  end.

(** api.py:494-495: an empty list of names becomes ['-'] (in place, so the caller sees it) *)
Definition effective_names (names : list str) : list str :=
  match names with [] => [[cDASH]] | _ => names end.

(** api.py:439-510 build_multiple_tocs *)
Definition build_multiple_tocs (E : env) (o : opts) (w : world) (names : list str)
    : res (list str * world) := read_tocs E o w (effective_names names).

(** Outcome of an operation that changes files: the file system afterwards, also when it
    raises. *)
Definition outcome (A : Type) : Type := res A * fs.

(** api.py:69-132 on the file system *)
Definition write_one (E : env) (nl : str) (f : fs) (name toc marker : str) : outcome bool :=
  if is_stdin name then (Err StdinIsNotAFileToBeWritten, f)
  else match fs_get f name with
       | None => (Err FileNotFoundError, f)
       | Some d => match write_toc E nl toc marker d with
                   | Ok (d', equal) => (Ok equal, fs_set f name d')
                   | Err e => (Err e, f)
                   end
       end.

(** api.py:135-169 write_strings_on_files_between_markers *)
Fixpoint write_loop (E : env) (nl : str) (f : fs) (l : list (str * str)) (marker : str) (equal : bool) : outcome bool :=
  match l with
  | [] => (Ok equal, f)
  | (n, t) :: l' =>
      match write_one E nl f n t marker with
      | (Ok b, f') => write_loop E nl f' l' marker (equal && b)
      | (Err e, f') => (Err e, f')
      end
  end.
(** api.py:135-169 write_strings_on_files_between_markers *)
Definition write_strings (E : env) (nl : str) (f : fs) (names tocs : list str) (marker : str) : outcome bool :=
  if length names =? length tocs then write_loop E nl f (combine names tocs) marker true
  else (Err ValueError, f).

(** api.py:114-130, 164-167: the successive file systems of that loop, the first one included; each
    call of fpyutils that rewrites a file is one step.  A run that is killed leaves one of them. *)
Fixpoint write_states (E : env) (nl : str) (f : fs) (l : list (str * str)) (marker : str) : list fs :=
  f :: match l with
       | [] => []
       | (n, t) :: l' =>
           if is_stdin n then []
           else match fs_get f n with
                | None => []
                | Some d =>
                    match write_toc_steps E nl t marker d with
                    | Err _ => []
                    | Ok (steps, _) =>
                        map (fun s => fs_set f n (mkDoc s (d_bad d))) steps
                        ++ write_states E nl (fs_set f n (mkDoc (last steps (d_lines d)) (d_bad d))) l' marker
                    end
                end
       end.

(** ** cli.py *)

(** Command line arguments (cli.py:54-105, after argparse). *)
Record cli_args := mkArgs {
  a_names : list str;
  a_ordered_marker : option str; a_unordered_marker : str;
  a_no_links : bool; a_no_indentation : bool; a_no_list_coherence : bool;
  a_levels : Z; a_parser : parser; a_skip : Z; a_constant : bool;
  a_in_place : bool; a_diff : bool; a_toc_marker : str; a_newline : str }.

(** cli.py:62-68: the newline argument is spelled with backslashes on the command line *)
Definition cli_newline (s : str) : str :=
  let s := if seqb s (lit "\n") then [cLF] else if seqb s (lit "\r") then [cCR] else s in
  if seqb s (lit "\r\n") then [cCR; cLF] else s.

(** cli.py:56-83: the arguments of build_multiple_tocs *)
Definition args_opts (a : cli_args) : opts :=
  mkOpts (match a_ordered_marker a with Some _ => true | None => false end)
    (a_no_links a) (a_no_indentation a) (a_no_list_coherence a) (a_levels a) (a_parser a)
    (Some (match a_ordered_marker a with Some m => m | None => a_unordered_marker a end))
    (a_skip a) (a_constant a) (cli_newline (a_newline a)).

(** Effect of a run: what was printed, the files, and the result of write_toc. *)
Record effect := mkEffect { f_out : str; f_fs : fs; f_result : res bool }.

(** cli.py:94-97: print, and compare if asked to.  [tocs_equal] opens the file by its name,
    so '-' is a file of that name. *)
Fixpoint print_loop (E : env) (a : cli_args) (f : fs) (l : list (str * str)) (equal : bool)
    : str * res bool :=
  match l with
  | [] => ([], Ok equal)
  | (n, t) :: l' =>
      if a_diff a then
        match fs_get f n with
        | None => (t, Err FileNotFoundError)
        | Some d =>
            match tocs_equal E t (a_toc_marker a) d with
            | Err e => (t, Err e)
            | Ok b => let '(out, r) := print_loop E a f l' (equal && b) in (t ++ out, r)
            end
        end
      else let '(out, r) := print_loop E a f l' equal in (t ++ out, r)
  end.

(** cli.py:54-105 CliToApi.write_toc *)
Definition cli_write_toc (E : env) (a : cli_args) (w : world) : effect :=
  match build_multiple_tocs E (args_opts a) w (a_names a) with
  | Err e => mkEffect [] (w_fs w) (Err e)
  | Ok (tocs, _) =>
      let names := effective_names (a_names a) in
      if a_in_place a then
        let '(r, f) := write_strings E (cli_newline (a_newline a)) (w_fs w) names tocs (a_toc_marker a) in
        mkEffect [] f (do equal <- r; Ok (negb equal && a_diff a))
      else
        let '(out, r) := print_loop E a (w_fs w) (combine names tocs) true in
        mkEffect out (w_fs w) (do equal <- r; Ok (negb equal && a_diff a))
  end.

(** __main__.py:29-47 main: the exit status *)
Definition exit_status (r : res bool) : Z :=
  match r with
  | Ok true => 128
  | Ok false => 0
  | Err _ => 1
  end.
