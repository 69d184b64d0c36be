(** Model of md_toc/generic.py and of the functions of md_toc/api.py that look for, compare
    and write a table of contents in a file. *)
From Coq Require Import String List NArith ZArith Bool Arith.
From Verif Require Import Str Regex HtmlRe Fence Atx Entity Inlines Anchor Toc.
Import ListNotations.
Local Open Scope list_scope.

(** Lines of a text as readline returns them (LF kept). *)
Fixpoint lines_of (s : str) : list str :=
  match s with
  | [] => []
  | c :: s' =>
      if N.eqb c cLF then [c] :: lines_of s'
      else match lines_of s' with
           | l :: ls => (c :: l) :: ls
           | [] => [[c]]
           end
  end.

(** ** The three fpyutils 4.0.1 functions that md-toc calls (external code, not in /repo).
    Contract assumed here.  A file is what reading it in text mode gives, so it has no CR; what
    is written is read back through [universal].  All lines but the inserted ones are rewritten
    with the LF they were read with. *)

(** Reading in text mode (universal newlines): CR LF and lone CR become LF. *)
Definition universal (s : str) : str := replace_char cCR cLF (replace_crlf s).

(** fpyutils.filelines.get_line_matches(f, marker, 0, loose_matching=True): the 1-based
    numbers of the lines equal to the marker up to surrounding white space. *)
Definition py_strip (E : env) (s : str) : str := strip (e_space E) s.
(** fpyutils.filelines.get_line_matches (generic.py:91-97) *)
Fixpoint marker_lines (E : env) (marker : str) (n : nat) (lines : list str) : list nat :=
  match lines with
  | [] => []
  | l :: ls =>
      if seqb (py_strip E l) (py_strip E marker) then n :: marker_lines E marker (S n) ls
      else marker_lines E marker (S n) ls
  end.

(** fpyutils.filelines.remove_line_interval(f, a, b, f): delete lines a..b. *)
Definition fpy_remove (lines : list str) (a b : nat) : res (list str) :=
  if (a <? 1) || (b <? a) || (length lines <? b) then Err LineOutOfFileBoundsError
  else Ok (firstn (a - 1) lines ++ skipn b lines).

(** fpyutils.filelines.insert_string_at_line(f, s, n, f, append=False): put [s] before line n
    (at the end if n is one more than the number of lines).  Its newline_character is only used
    to pad a file that is too short, which does not happen here. *)
Definition fpy_insert (lines : list str) (s : str) (n : nat) : res (list str) :=
  if (n <? 1) || (S (length lines) <? n) then Err LineOutOfFileBoundsError
  else Ok (lines_of (universal (concat (firstn (n - 1) lines) ++ s ++ concat (skipn (n - 1) lines)))).

(** ** generic.py *)

(** generic.py:53-69 _extract_lines *)
Definition extract_lines (lines : list str) (start stop : Z) : res str :=
  if (stop <? start)%Z || (start <? 1)%Z || (stop <? 1)%Z then Err ValueError
  else Ok (concat (firstn (Z.to_nat (stop - start + 1)) (skipn (Z.to_nat (start - 1)) lines))).

(** generic.py:72-85 _remove_line_intervals; an interval is a list, expected to have two
    elements *)
Fixpoint remove_line_intervals (lines : list str) (ivs : list (list Z)) : res (list str) :=
  match ivs with
  | [] => Ok lines
  | [a; b] :: ivs' =>
      if (a <? 1)%Z || (b <? 1)%Z || (b <? a)%Z then Err ValueError
      else do lines <- fpy_remove lines (Z.to_nat a) (Z.to_nat b);
           remove_line_intervals lines ivs'
  | _ :: _ => Err ValueError
  end.

(** generic.py:158-184 _replace_substring *)
Fixpoint replace_from (i : Z) (s repl : str) (start stop : Z) (done : bool) : str :=
  match s with
  | [] => []
  | c :: s' =>
      if (i <? start)%Z || (stop <? i)%Z then c :: replace_from (i + 1) s' repl start stop done
      else if done then replace_from (i + 1) s' repl start stop done
      else repl ++ replace_from (i + 1) s' repl start stop true
  end.
(** generic.py:158-184 _replace_substring *)
Definition replace_substring (s repl : str) (start stop : Z) : res str :=
  if (stop <? start)%Z then Err ValueError else Ok (replace_from 0 s repl start stop false).

(** generic.py:223-231 _string_empty *)
Definition re_string_empty : re :=
  let not_lfcr := RNot (RSeq (RChr 10) (RChr 13)) in
  RPlus (RAlts [not_lfcr;
                RSeq not_lfcr (RSeq (RChr 13) (RChr 10));
                RSeq not_lfcr (RChr 13);
                RSeq not_lfcr (RChr 10);
                RSeq not_lfcr (RChr 11);
                RSeq not_lfcr (RChr 32);
                RSeq not_lfcr (RChr 9)]).
(** generic.py:223-231 _string_empty *)
Definition string_empty (s : str) : bool := fullmatch re_string_empty s.

(** generic.py:234-249 _detect_toc_list *)
Definition re_toc_list (E : env) : re :=
  RSeqs [RUpTo 3 (RChr 32);
         RAlt (ROneOf (lit "-+*")) (RSeq (RPlus (RSet (e_digit E))) (ROneOf (lit ".)")));
         RChr 32;
         RNot (RPlus (ROneOf [32%N; 9%N; 11%N]));
         RStar RDot].
(** generic.py:234-249 _detect_toc_list *)
Definition detect_toc_list (E : env) (s : str) : bool := fullmatch (re_toc_list E) s.

(** generic.py:252-301 _read_line_interval *)
Fixpoint skip_lfcr (s : str) : str * bool :=
  match s with
  | a :: s1 =>
      match s1 with
      | b :: s2 => if N.eqb a cLF && N.eqb b cCR then (fst (skip_lfcr s2), true) else (s, false)
      | [] => (s, false)
      end
  | [] => (s, false)
  end.
(** generic.py:277-281: the loop *)
Fixpoint skip_crlf (s : str) (n : Z) : str * Z :=
  match s with
  | a :: s1 =>
      match s1 with
      | b :: s2 => if N.eqb a cCR && N.eqb b cLF then skip_crlf s2 (n + 1) else (s, n)
      | [] => (s, n)
      end
  | [] => (s, n)
  end.
(** generic.py:283-287: the loop *)
Fixpoint skip_nl (s : str) (n : Z) : str * Z :=
  match s with
  | a :: s1 => if N.eqb a cLF || N.eqb a cCR then skip_nl s1 (n + 1) else (s, n)
  | [] => (s, n)
  end.
(** generic.py:268-299: the loop *)
Fixpoint rli_loop (fuel : nat) (s : str) (n start stop : Z) : str :=
  match fuel with
  | O => []
  | S fuel' =>
      let '(s, invalid) := skip_lfcr s in
      let '(s, n) := skip_crlf s n in
      let '(s, n) := skip_nl s n in
      match s with
      | [] => []
      | c :: s' =>
          (if (start <=? n)%Z && (n <=? stop)%Z
           then (if invalid then [cLF; cCR] else []) ++ [c] else [])
          ++ rli_loop fuel' s' n start stop
      end
  end.
(** generic.py:252-301 _read_line_interval *)
Definition read_line_interval (s : str) (start stop : Z) : str :=
  if (stop <? start)%Z || (start <? 1)%Z then [] else rli_loop (S (length s)) s 1 start stop.

(** generic.py:88-155 _get_existing_toc *)
Record existing := mkExisting {
  x_old : str;               (* old_toc *)
  x_delete : list (list Z);  (* lines_to_delete *)
  x_two : bool;              (* two_or_more_markers *)
  x_len : nat;               (* marker_line_positions_length *)
  x_positions : list nat;    (* marker_line_positions *)
  x_first : nat }.           (* first_marker_line_number *)

(** 112-149: the loop; [pos] are the marker lines from the first one of the pair on *)
Fixpoint existing_loop (E : env) (lines : list str) (pos : list nat) (len : nat)
    : res (option (str * nat * nat) * nat * bool) :=
  match pos with
  | a :: ((b :: _) as pos') =>
      let za := Z.of_nat a in
      let zb := Z.of_nat b in
      let text := concat lines in
      let interval := read_line_interval text (za + 1) (zb - 1) in
      let inner := read_line_interval text (za + 2) (zb - 2) in
      if detect_toc_list E inner || string_empty interval then
        do old <- (if (za + 1 <=? zb - 1)%Z
                   then do t <- extract_lines lines (za + 1) (zb - 1); Ok (py_strip E t)
                   else Ok []);
        Ok (Some (old, a, b), len - 1, true)
      else
        do '(r, l, _) <- existing_loop E lines pos' (len - 1);
        Ok (r, l, true)
  | _ => Ok (None, len, false)
  end.

(** generic.py:88-155 _get_existing_toc *)
Definition get_existing_toc (E : env) (marker : str) (d : doc) : res existing :=
  if d_bad d then Err UnicodeDecodeError
  else
    let lines := d_lines d in
    let pos := marker_lines E marker 1 lines in
    let first := match pos with a :: _ => a | [] => 0 end in
    do '(r, len, two) <- existing_loop E lines pos (length pos);
    match r with
    | Some (old, a, b) =>
        Ok (mkExisting old [[Z.of_nat a; Z.of_nat b]] two len pos a)
    | None =>
        Ok (mkExisting (if negb two && (len =? 1) then marker else []) [] two len pos first)
    end.

(** ** api.py *)

(** api.py:48-66 tocs_equal *)
Definition tocs_equal (E : env) (toc marker : str) (d : doc) : res bool :=
  do x <- get_existing_toc E marker d;
  Ok (seqb (py_strip E toc) (x_old x)).

(** api.py:98-101: the text that is written *)
Definition final_toc (E : env) (nl marker toc : str) : str :=
  marker ++ nl ++ nl ++ rstrip (e_space E) toc ++ nl ++ nl ++ marker ++ nl.

(** api.py:69-132 write_string_on_file_between_markers on the contents of a file; [nl] is
    newline_string.  The result lists the successive contents of the file (one per fpyutils call
    that rewrites it) and the returned boolean. *)
Definition write_toc_steps (E : env) (nl toc marker : str) (d : doc) : res (list (list str) * bool) :=
  do x <- get_existing_toc E marker d;
  let equal := seqb (py_strip E toc) (x_old x) in
  do l1 <- remove_line_intervals (d_lines d) (x_delete x);
  let s1 := match x_delete x with [] => [] | _ => [l1] end in
  do '(s2, l2) <-
     (if negb (x_two x) && (x_len x =? 1) then
        match x_positions x with
        | p :: _ =>
            do l <- remove_line_intervals l1 [[Z.of_nat p; Z.of_nat p]];
            Ok ([l], l)
        | [] => Err KeyError
        end
      else Ok ([], l1));
  if 1 <=? x_len x then
    do l3 <- fpy_insert l2 (final_toc E nl marker toc) (x_first x);
    Ok (s1 ++ s2 ++ [l3], equal)
  else Ok (s1 ++ s2, equal).

(** The contents after the call. *)
Definition write_toc (E : env) (nl toc marker : str) (d : doc) : res (doc * bool) :=
  do '(steps, equal) <- write_toc_steps E nl toc marker d;
  Ok (mkDoc (last steps (d_lines d)) (d_bad d), equal).
