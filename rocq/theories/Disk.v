(** The functions that write files, on files as they are stored: with the line ends that are on the disk.
    Write.v and Cli.v model the same functions on the lines that reading a file gives. *)
From Coq Require Import String List NArith ZArith Bool Arith.
From Verif Require Import Str Regex HtmlRe Fence Atx Entity Inlines Anchor Toc Write Cli.
Import ListNotations.
Local Open Scope list_scope.

(** A stored file: its characters (CR and LF as they are), and whether they are followed by bytes that
    cannot be decoded.  What api.py:262 and generic.py:61 open. *)
Record stored := Stored { st_text : str; st_bad : bool }.
(** What reading it in text mode gives (api.py:262 [open(filename, newline=None)], generic.py:61
    [open(input_file)]): CR LF and CR are read as LF. *)
Definition seen (s : stored) : doc := mkDoc (lines_of (universal (st_text s))) (st_bad s).

(** generic.py:72-85 _remove_line_intervals: the stored texts after each call of
    fpyutils.filelines.remove_line_interval.  It reads the lines and writes those that remain, in text mode:
    on a system whose os.linesep is LF they end with the LF they were read with. *)
Fixpoint disk_remove (t : str) (ivs : list (list Z)) : res (list str) :=
  match ivs with
  | [] => Ok []
  | [a; b] :: ivs' =>
      if (a <? 1)%Z || (b <? 1)%Z || (b <? a)%Z then Err ValueError
      else do ls <- fpy_remove (lines_of (universal t)) (Z.to_nat a) (Z.to_nat b);
           do ts <- disk_remove (concat ls) ivs';
           Ok (concat ls :: ts)
  | _ :: _ => Err ValueError
  end.

(** api.py:123-130, fpyutils.filelines.insert_string_at_line: the lines are written as read, the string as it
    is.  [newline_character] only fills missing lines if the position is past the end; it never is. *)
Definition disk_insert (t s : str) (n : nat) : res str :=
  let lines := lines_of (universal t) in
  if (n <? 1) || (S (length lines) <? n) then Err LineOutOfFileBoundsError
  else Ok (concat (firstn (n - 1) lines) ++ s ++ concat (skipn (n - 1) lines)).

(** api.py:69-132 write_string_on_file_between_markers: the stored texts after each call that rewrites the
    file, and the returned boolean *)
Definition disk_steps (E : env) (nl toc marker : str) (s : stored) : res (list str * bool) :=
  do x <- get_existing_toc E marker (seen s);
  let equal := seqb (py_strip E toc) (x_old x) in
  do s1 <- disk_remove (st_text s) (x_delete x);
  let t1 := last s1 (st_text s) in
  do s2 <- (if negb (x_two x) && (x_len x =? 1) then
              match x_positions x with
              | p :: _ => disk_remove t1 [[Z.of_nat p; Z.of_nat p]]
              | [] => Err KeyError
              end
            else Ok []);
  if 1 <=? x_len x then
    do t3 <- disk_insert (last s2 t1) (final_toc E nl marker toc) (x_first x);
    Ok (s1 ++ s2 ++ [t3], equal)
  else Ok (s1 ++ s2, equal).
(** The stored file after the call (api.py:69-132). *)
Definition disk_write (E : env) (nl toc marker : str) (s : stored) : res (stored * bool) :=
  do '(steps, equal) <- disk_steps E nl toc marker s;
  Ok (Stored (last steps (st_text s)) (st_bad s), equal).

(** ** Several files *)

(** Stored files by name: the files that api.py:262 and api.py:114-130 open and rewrite. *)
Definition disk := list (str * stored).
(** A stored file, if it exists (api.py:262). *)
Fixpoint disk_get (k : disk) (name : str) : option stored :=
  match k with
  | [] => None
  | (n, s) :: k' => if seqb n name then Some s else disk_get k' name
  end.
(** Writing a file (api.py:114-130). *)
Fixpoint disk_set (k : disk) (name : str) (s : stored) : disk :=
  match k with
  | [] => [(name, s)]
  | (n, r) :: k' => if seqb n name then (n, s) :: k' else (n, r) :: disk_set k' name s
  end.
(** What reading the files gives (api.py:262). *)
Definition seen_disk (k : disk) : fs := map (fun x => (fst x, seen (snd x))) k.

(** api.py:69-132 on the disk *)
Definition disk_one (E : env) (nl : str) (k : disk) (name toc marker : str) : res bool * disk :=
  if is_stdin name then (Err StdinIsNotAFileToBeWritten, k)
  else match disk_get k name with
       | None => (Err FileNotFoundError, k)
       | Some s => match disk_write E nl toc marker s with
                   | Ok (s', equal) => (Ok equal, disk_set k name s')
                   | Err e => (Err e, k)
                   end
       end.
(** api.py:163-169: the loop of write_strings_on_files_between_markers *)
Fixpoint disk_loop (E : env) (nl : str) (k : disk) (l : list (str * str)) (marker : str) (equal : bool) : res bool * disk :=
  match l with
  | [] => (Ok equal, k)
  | (n, t) :: l' =>
      match disk_one E nl k n t marker with
      | (Ok b, k') => disk_loop E nl k' l' marker (equal && b)
      | (Err e, k') => (Err e, k')
      end
  end.
(** api.py:135-169 write_strings_on_files_between_markers *)
Definition disk_strings (E : env) (nl : str) (k : disk) (names tocs : list str) (marker : str) : res bool * disk :=
  if length names =? length tocs then disk_loop E nl k (combine names tocs) marker true
  else (Err ValueError, k).
(** The successive disks of that loop, as write_states (api.py:114-130, 164-167). *)
Fixpoint disk_states (E : env) (nl : str) (k : disk) (l : list (str * str)) (marker : str) : list disk :=
  k :: match l with
       | [] => []
       | (n, t) :: l' =>
           if is_stdin n then []
           else match disk_get k n with
                | None => []
                | Some s =>
                    match disk_steps E nl t marker s with
                    | Err _ => []
                    | Ok (steps, _) =>
                        map (fun u => disk_set k n (Stored u (st_bad s))) steps
                        ++ disk_states E nl (disk_set k n (Stored (last steps (st_text s)) (st_bad s))) l' marker
                    end
                end
       end.

(** Effect of a run (cli.py:54-105): what was printed, the files, and the result of write_toc. *)
Record disk_effect := DiskEffect { k_out : str; k_disk : disk; k_result : res bool }.
(** cli.py:54-105 CliToApi.write_toc *)
Definition disk_cli (E : env) (a : cli_args) (k : disk) (input : stdin_state) : disk_effect :=
  match build_multiple_tocs E (args_opts a) (mkWorld (seen_disk k) input) (a_names a) with
  | Err e => DiskEffect [] k (Err e)
  | Ok (tocs, _) =>
      let names := effective_names (a_names a) in
      if a_in_place a then
        let '(r, k') := disk_strings E (cli_newline (a_newline a)) k names tocs (a_toc_marker a) in
        DiskEffect [] k' (do equal <- r; Ok (negb equal && a_diff a))
      else
        let '(out, r) := print_loop E a (seen_disk k) (combine names tocs) true in
        DiskEffect out k (do equal <- r; Ok (negb equal && a_diff a))
  end.
