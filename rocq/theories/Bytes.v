(** The program on files that are bytes: what open() does in text mode with UTF-8 as the locale's encoding
    (api.py:262, generic.py:61, and fpyutils as called at api.py:114-130).  Disk.v models the same functions on
    decoded text. *)
From Coq Require Import String List NArith ZArith Bool Arith.
From Verif Require Import Str Anchor Toc Write Cli Argv Disk Program.
Import ListNotations.
Local Open Scope list_scope.

(** A byte in a range. *)
Definition byte_in (a b x : N) : bool := (N.leb a x && N.leb x b)%bool.
(** A continuation byte. *)
Definition cont (x : N) : bool := byte_in 0x80 0xBF x.
(** One character in front. *)
Definition push (c : N) (r : str * bool) : str * bool := (c :: fst r, snd r).
(** What reading a file decodes (api.py:262 [open(filename, newline=None)], generic.py:61
    [open(input_file)]): the strict UTF-8 decoder of Python; the characters before the first error, and whether
    there is one. *)
Fixpoint decode (b : list N) : str * bool :=
  match b with
  | [] => ([], false)
  | x :: b1 =>
      if byte_in 0 0x7F x then push x (decode b1)
      else match b1 with
      | [] => ([], true)
      | y :: b2 =>
          if byte_in 0xC2 0xDF x && cont y then push ((x - 0xC0) * 64 + (y - 0x80)) (decode b2)
          else match b2 with
          | [] => ([], true)
          | z :: b3 =>
              if byte_in 0xE0 0xEF x && cont z
                 && byte_in (if N.eqb x 0xE0 then 0xA0 else 0x80) (if N.eqb x 0xED then 0x9F else 0xBF) y
              then push ((x - 0xE0) * 4096 + (y - 0x80) * 64 + (z - 0x80)) (decode b3)
              else match b3 with
              | [] => ([], true)
              | w :: b4 =>
                  if byte_in 0xF0 0xF4 x && cont z && cont w
                     && byte_in (if N.eqb x 0xF0 then 0x90 else 0x80) (if N.eqb x 0xF4 then 0x8F else 0xBF) y
                  then push ((x - 0xF0) * 262144 + (y - 0x80) * 4096 + (z - 0x80) * 64 + (w - 0x80)) (decode b4)
                  else ([], true)
              end
          end
      end
  end%N.
(** The bytes of a character, for writing (api.py:114-130); None is a surrogate (UnicodeEncodeError). *)
Definition encode_char (c : N) : option (list N) :=
  (if N.ltb c 0x80 then Some [c]
  else if N.ltb c 0x800 then Some [0xC0 + c / 64; 0x80 + c mod 64]
  else if byte_in 0xD800 0xDFFF c then None
  else if N.ltb c 0x10000 then Some [0xE0 + c / 4096; 0x80 + (c / 64) mod 64; 0x80 + c mod 64]
  else if N.leb c 0x10FFFF then Some [0xF0 + c / 262144; 0x80 + (c / 4096) mod 64; 0x80 + (c / 64) mod 64; 0x80 + c mod 64]
  else None)%N.
(** The bytes of a text up to the first character that has none, and whether there is such a character
    (api.py:114-130). *)
Fixpoint encode (s : str) : list N * bool :=
  match s with
  | [] => ([], false)
  | c :: s' =>
      match encode_char c with
      | Some x => let r := encode s' in (x ++ fst r, snd r)
      | None => ([], true)
      end
  end.

(** What is left open about the system: how many of the characters before a decoding error are delivered
    (Python decodes chunks of some size, and nothing of the chunk with the error is delivered), and what a write of
    a text that cannot be encoded leaves: nothing new if fpyutils writes to another file first, else some
    beginning of the text. *)
Record system := System { cut : list N -> nat; torn : str -> option (list N) }.
(** A file as it is opened (api.py:262, generic.py:61). *)
Definition opened (sy : system) (b : list N) : stored :=
  let '(s, bad) := decode b in Stored (if bad then firstn (cut sy b) s else s) bad.

(** Files by name. *)
Definition files := list (str * list N).
(** The bytes of a file, if it exists (api.py:262). *)
Fixpoint file_get (k : files) (name : str) : option (list N) :=
  match k with
  | [] => None
  | (n, b) :: k' => if seqb n name then Some b else file_get k' name
  end.
(** Writing a file (api.py:114-130). *)
Fixpoint file_set (k : files) (name : str) (b : list N) : files :=
  match k with
  | [] => [(name, b)]
  | (n, c) :: k' => if seqb n name then (n, b) :: k' else (n, c) :: file_set k' name b
  end.
(** What the files are when they are opened (api.py:262). *)
Definition opened_files (sy : system) (k : files) : disk := map (fun x => (fst x, opened sy (snd x))) k.

(** The successive texts as bytes, up to one that cannot be encoded (api.py:114-130). *)
Fixpoint encode_steps (sy : system) (ts : list str) : list (list N) * bool :=
  match ts with
  | [] => ([], false)
  | t :: ts' =>
      let '(b, bad) := encode t in
      if bad then (match torn sy t with Some b => [b] | None => [] end, true)
      else let r := encode_steps sy ts' in (b :: fst r, snd r)
  end.
(** api.py:69-132 write_string_on_file_between_markers on the bytes of a file: the successive bytes and the
    result.  Between two steps the file is read again, which gives the text that was written. *)
Definition byte_steps (sy : system) (E : env) (nl toc marker : str) (b : list N) : list (list N) * res bool :=
  match disk_steps E nl toc marker (opened sy b) with
  | Err e => ([], Err e)
  | Ok (ts, equal) =>
      let '(bs, bad) := encode_steps sy ts in (bs, if bad then Err UnicodeEncodeError else Ok equal)
  end.
(** api.py:69-132 on the files *)
Definition byte_one (sy : system) (E : env) (nl : str) (k : files) (name toc marker : str) : res bool * files :=
  if is_stdin name then (Err StdinIsNotAFileToBeWritten, k)
  else match file_get k name with
       | None => (Err FileNotFoundError, k)
       | Some b =>
           let '(bs, r) := byte_steps sy E nl toc marker b in (r, file_set k name (last bs b))
       end.
(** api.py:163-169: the loop of write_strings_on_files_between_markers *)
Fixpoint byte_loop (sy : system) (E : env) (nl : str) (k : files) (l : list (str * str)) (marker : str) (equal : bool)
    : res bool * files :=
  match l with
  | [] => (Ok equal, k)
  | (n, t) :: l' =>
      match byte_one sy E nl k n t marker with
      | (Ok b, k') => byte_loop sy E nl k' l' marker (equal && b)
      | (Err e, k') => (Err e, k')
      end
  end.
(** api.py:135-169 write_strings_on_files_between_markers *)
Definition byte_strings (sy : system) (E : env) (nl : str) (k : files) (names tocs : list str) (marker : str)
    : res bool * files :=
  if length names =? length tocs then byte_loop sy E nl k (combine names tocs) marker true
  else (Err ValueError, k).
(** The successive files of that loop, as Disk.disk_states (api.py:114-130, 164-167). *)
Fixpoint byte_states (sy : system) (E : env) (nl : str) (k : files) (l : list (str * str)) (marker : str) : list files :=
  k :: match l with
       | [] => []
       | (n, t) :: l' =>
           if is_stdin n then []
           else match file_get k n with
                | None => []
                | Some b =>
                    let '(bs, r) := byte_steps sy E nl t marker b in
                    map (file_set k n) bs
                    ++ match r with
                       | Ok _ => byte_states sy E nl (file_set k n (last bs b)) l' marker
                       | Err _ => []
                       end
                end
       end.

(** Effect of a run (cli.py:54-105): what was printed, the files, and the result of write_toc. *)
Record byte_effect := ByteEffect { b_out : str; b_files : files; b_result : res bool }.
(** cli.py:54-105 CliToApi.write_toc *)
Definition byte_cli (sy : system) (E : env) (a : cli_args) (k : files) (input : stdin_state) : byte_effect :=
  let seen := seen_disk (opened_files sy k) in
  match build_multiple_tocs E (args_opts a) (mkWorld seen input) (a_names a) with
  | Err e => ByteEffect [] k (Err e)
  | Ok (tocs, _) =>
      let names := effective_names (a_names a) in
      if a_in_place a then
        let '(r, k') := byte_strings sy E (cli_newline (a_newline a)) k names tocs (a_toc_marker a) in
        ByteEffect [] k' (do equal <- r; Ok (negb equal && a_diff a))
      else
        let '(out, r) := print_loop E a seen (combine names tocs) true in
        ByteEffect out k (do equal <- r; Ok (negb equal && a_diff a))
  end.
(** What a run leaves: output, files and exit status (__main__.py:28-48). *)
Record byte_outcome := ByteOutcome { by_out : str; by_files : files; by_status : Z }.
(** __main__.py:28-48 main, as Program.program, on files that are bytes. *)
Definition byte_program (sy : system) (E : env) (num : str -> option Z) (ws : list str) (k : files) (input : stdin_state)
    : byte_outcome :=
  match parse_args E num ws with
  | Usage => ByteOutcome [] k 2
  | Shown => ByteOutcome [] k 0
  | Got a => let e := byte_cli sy E a k input in ByteOutcome (b_out e) (b_files e) (exit_status (b_result e))
  end.
(** The successive files of a run (cli.py:53-105), as Program.program_states. *)
Definition byte_program_states (sy : system) (E : env) (num : str -> option Z) (ws : list str) (k : files) (input : stdin_state)
    : list files :=
  match parse_args E num ws with
  | Got a =>
      match build_multiple_tocs E (args_opts a) (mkWorld (seen_disk (opened_files sy k)) input) (a_names a) with
      | Err _ => [k]
      | Ok (tocs, _) =>
          let names := effective_names (a_names a) in
          if a_in_place a && (length names =? length tocs)
          then byte_states sy E (cli_newline (a_newline a)) k (combine names tocs) (a_toc_marker a)
          else [k]
      end
  | _ => [k]
  end.
