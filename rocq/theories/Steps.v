(** The program as a sequence of single file accesses, so that other runs can come in between.
    Program.v models the same functions as one uninterrupted run. *)
From Coq Require Import String List NArith ZArith Bool Arith.
From Verif Require Import Str Anchor Toc Write Cli Argv Disk Program.
Import ListNotations.
Local Open Scope list_scope.

(** What is still to be done of a call: nothing (it returns), or the next access to a file and what follows.
    One access reads or rewrites a whole file: [open], the reads or writes and the end of the [with] block
    (generic.py:61-67 and the functions of fpyutils) count as one, and so do the [open] of build_toc
    (api.py:262) and its reads until the file is closed (api.py:434). *)
Inductive steps (A : Type) : Type :=
| Done (a : A)
| Reads (n : str) (next : option stored -> steps A)
| Writes (n : str) (s : stored) (next : steps A).
Arguments Done {A}. Arguments Reads {A}. Arguments Writes {A}.

(** One call after the other (the statements of cli.py:54-105 and api.py:69-169). *)
Fixpoint andthen {A B} (m : steps A) (f : A -> steps B) : steps B :=
  match m with
  | Done a => f a
  | Reads n g => Reads n (fun s => andthen (g s) f)
  | Writes n s t => Writes n s (andthen t f)
  end.
(** The same; an exception ends both (api.py:69-169). *)
Definition try {A B} (m : steps (res A)) (f : A -> steps (res B)) : steps (res B) :=
  andthen m (fun r => match r with Ok a => f a | Err e => Done (Err e) end).

(** api.py:243-262, 434 build_toc: the checks, one access to the file (none for standard input), the table *)
Definition toc_steps (E : env) (o : opts) (input : stdin_state) (n : str) : steps (res (str * stdin_state)) :=
  let table s :=
    do '(t, w) <- read_toc E o (mkWorld (match s with Some s => [(n, seen s)] | None => [] end) input) n;
    Ok (t, w_stdin w) in
  if (o_skip o <? 0)%Z || is_stdin n then Done (table None) else Reads n (fun s => Done (table s)).
(** api.py:496-510: the loop of build_multiple_tocs *)
Fixpoint tocs_steps (E : env) (o : opts) (input : stdin_state) (names : list str) : steps (res (list str)) :=
  match names with
  | [] => Done (Ok [])
  | n :: ns =>
      try (toc_steps E o input n) (fun '(t, input') =>
      try (tocs_steps E o input' ns) (fun ts => Done (Ok (t :: ts))))
  end.

(** generic.py:112-149: the loop of _get_existing_toc without the text between the markers: the lines of the
    pair, what remains of marker_line_positions_length, two_or_more_markers *)
Fixpoint pair_loop (E : env) (lines : list str) (pos : list nat) (len : nat) : option (nat * nat) * nat * bool :=
  match pos with
  | a :: ((b :: _) as pos') =>
      let za := Z.of_nat a in
      let zb := Z.of_nat b in
      let text := concat lines in
      if detect_toc_list E (read_line_interval text (za + 2) (zb - 2)) || string_empty (read_line_interval text (za + 1) (zb - 1))
      then (Some (a, b), len - 1, true)
      else let '(r, l, _) := pair_loop E lines pos' (len - 1) in (r, l, true)
  | _ => (None, len, false)
  end.
(** generic.py:88-155 _get_existing_toc: get_line_matches reads the file (91-97); if there is something between
    the markers, _extract_lines reads it again (generic.py:53-69, called from 132-133) *)
Definition existing_steps (E : env) (marker n : str) : steps (res existing) :=
  Reads n (fun f =>
    match f with
    | None => Done (Err FileNotFoundError)
    | Some s =>
        if st_bad s then Done (Err UnicodeDecodeError)
        else
          let lines := d_lines (seen s) in
          let pos := marker_lines E marker 1 lines in
          match pair_loop E lines pos (length pos) with
          | (Some (a, b), len, two) =>
              let found old := Done (Ok (mkExisting old [[Z.of_nat a; Z.of_nat b]] two len pos a)) in
              if (Z.of_nat a + 1 <=? Z.of_nat b - 1)%Z then
                Reads n (fun f =>
                  match f with
                  | None => Done (Err FileNotFoundError)
                  | Some s =>
                      if st_bad s then Done (Err UnicodeDecodeError)
                      else match extract_lines (d_lines (seen s)) (Z.of_nat a + 1) (Z.of_nat b - 1) with
                           | Ok t => found (py_strip E t)
                           | Err e => Done (Err e)
                           end
                  end)
              else found []
          | (None, len, two) =>
              Done (Ok (mkExisting (if negb two && (len =? 1) then marker else []) [] two len pos
                          (match pos with a :: _ => a | [] => 0 end)))
          end
    end).

(** generic.py:72-85 _remove_line_intervals: fpyutils.filelines.remove_line_interval reads the file, then
    rewrites it *)
Fixpoint remove_steps (n : str) (ivs : list (list Z)) : steps (res unit) :=
  match ivs with
  | [] => Done (Ok tt)
  | [a; b] :: ivs' =>
      if (a <? 1)%Z || (b <? 1)%Z || (b <? a)%Z then Done (Err ValueError)
      else Reads n (fun f =>
             match f with
             | None => Done (Err FileNotFoundError)
             | Some s =>
                 if st_bad s then Done (Err UnicodeDecodeError)
                 else match fpy_remove (d_lines (seen s)) (Z.to_nat a) (Z.to_nat b) with
                      | Ok ls => Writes n (Stored (concat ls) false) (remove_steps n ivs')
                      | Err e => Done (Err e)
                      end
             end)
  | _ :: _ => Done (Err ValueError)
  end.
(** api.py:123-130, fpyutils.filelines.insert_string_at_line: reads the file, then rewrites it.  If the file has
    become too short, newline_character fills the missing lines. *)
Definition insert_steps (n s : str) (at_line : nat) (nl : str) : steps (res unit) :=
  Reads n (fun f =>
    match f with
    | None => Done (Err FileNotFoundError)
    | Some d =>
        if st_bad d then Done (Err UnicodeDecodeError)
        else if at_line <? 1 then Done (Err LineOutOfFileBoundsError)
        else
          let lines := d_lines (seen d) in
          Writes n (Stored (concat (firstn (at_line - 1) lines) ++ concat (repeat nl (at_line - 1 - length lines))
                            ++ s ++ concat (skipn (at_line - 1) lines)) false)
                 (Done (Ok tt))
    end).

(** api.py:69-132 write_string_on_file_between_markers *)
Definition write_steps (E : env) (nl toc marker n : str) : steps (res bool) :=
  if is_stdin n then Done (Err StdinIsNotAFileToBeWritten)
  else
    try (existing_steps E marker n) (fun x =>
    let equal := seqb (py_strip E toc) (x_old x) in
    try (remove_steps n (x_delete x)) (fun _ =>
    try (if negb (x_two x) && (x_len x =? 1) then
           match x_positions x with
           | p :: _ => remove_steps n [[Z.of_nat p; Z.of_nat p]]
           | [] => Done (Err KeyError)
           end
         else Done (Ok tt)) (fun _ =>
    if 1 <=? x_len x then try (insert_steps n (final_toc E nl marker toc) (x_first x) nl) (fun _ => Done (Ok equal))
    else Done (Ok equal)))).
(** api.py:163-169: the loop of write_strings_on_files_between_markers *)
Fixpoint writes_steps (E : env) (nl marker : str) (l : list (str * str)) (equal : bool) : steps (res bool) :=
  match l with
  | [] => Done (Ok equal)
  | (n, t) :: l' => try (write_steps E nl t marker n) (fun b => writes_steps E nl marker l' (equal && b))
  end.

(** cli.py:94-97 with api.py:48-66 tocs_equal: print, and compare if asked to *)
Fixpoint print_steps (E : env) (a : cli_args) (l : list (str * str)) (equal : bool) : steps (str * res bool) :=
  match l with
  | [] => Done ([], Ok equal)
  | (n, t) :: l' =>
      let rest b := andthen (print_steps E a l' b) (fun '(out, r) => Done (t ++ out, r)) in
      if a_diff a then
        andthen (existing_steps E (a_toc_marker a) n) (fun r =>
          match r with
          | Err e => Done (t, Err e)
          | Ok x => rest (equal && seqb (py_strip E t) (x_old x))
          end)
      else rest equal
  end.

(** cli.py:54-105 CliToApi.write_toc: what was printed and the result *)
Definition cli_steps (E : env) (a : cli_args) (input : stdin_state) : steps (str * res bool) :=
  let names := effective_names (a_names a) in
  let verdict r := do equal <- r; Ok (negb equal && a_diff a) in
  andthen (tocs_steps E (args_opts a) input names) (fun r =>
    match r with
    | Err e => Done ([], Err e)
    | Ok tocs =>
        if a_in_place a then
          if length names =? length tocs
          then andthen (writes_steps E (cli_newline (a_newline a)) (a_toc_marker a) (combine names tocs) true)
                       (fun r => Done ([], verdict r))
          else Done ([], Err ValueError)
        else andthen (print_steps E a (combine names tocs) true) (fun '(out, r) => Done (out, verdict r))
    end).
(** __main__.py:28-48 main: what was printed and the exit status *)
Definition program_steps (E : env) (num : str -> option Z) (ws : list str) (input : stdin_state) : steps (str * Z) :=
  match parse_args E num ws with
  | Usage => Done ([], 2%Z)
  | Shown => Done ([], 0%Z)
  | Got a => andthen (cli_steps E a input) (fun '(out, r) => Done (out, exit_status r))
  end.
