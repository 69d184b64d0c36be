(** Model of md_toc/api.py: replace_and_split_newlines, get_atx_heading. *)
From Coq Require Import String List NArith ZArith Bool Arith.
From Verif Require Import Str Fence.
Import ListNotations.
Local Open Scope list_scope.

(** api.py:1070-1088 replace_and_split_newlines *)
Definition replace_and_split_newlines (line : str) : list str :=
  split_char cLF (strip (N.eqb cLF) (replace_char cCR cLF (replace_crlf line))).

(** types.AtxHeadingStructElement (types.py).  The dictionary whose fields are
    None, None, False is represented by the absence of a heading. *)
Record heading := mkHeading { h_level : nat; h_text : str; h_visible : bool }.

(** Number of leading characters satisfying [p]. *)
Fixpoint span_len (p : N -> bool) (s : str) : nat :=
  match s with
  | x :: s' => if p x then S (span_len p s') else 0
  | [] => 0
  end.

(** api.py:1238-1254, the "cut spaces and hashes" loop.  [rest] is the part of the reversed
    line that starts at index [i]; [lim] is [len_subl - cs_start]; [hrs] is
    [hash_round_start].  The two inner loops index the reversed line without a bound:
    running off its end is an IndexError.  If the loop ends without finding a character
    that is not a space or hash, [cs_end] keeps its value 0 (line 1231). *)
Fixpoint cut_closing (fuel : nat) (sp : N -> bool) (len : nat) (rest : str)
    (i lim rounds hrs : nat) : res nat :=
  match fuel with
  | O => Err OutOfFuel
  | S fuel' =>
      if i <? lim then
        match rest with
        | [] => Err IndexError
        | c :: _ =>
            if negb (sp c || N.eqb c cHASH) || (1 <? rounds) then
              Ok (if (hrs <? i) && (0 <? rounds) then len - hrs else len - i)
            else
              let n1 := span_len sp rest in
              let rest1 := skipn n1 rest in
              let hrs' := i + n1 in
              let n2 := span_len (N.eqb cHASH) rest1 in
              let rest2 := skipn n2 rest1 in
              match rest2 with
              | [] => Err IndexError
              | _ => cut_closing fuel' sp len rest2 (hrs' + n2) lim
                       (if 0 <? n2 then S rounds else rounds) hrs'
              end
        end
      else Ok 0
  end.

(** api.py:1271-1290, escaping of square brackets.  [acc] is the already rewritten prefix,
    reversed; a bracket gets a backslash when preceded by an even number of them. *)
Fixpoint escape_brackets (acc s : str) : str :=
  match s with
  | [] => rev acc
  | c :: s' =>
      if N.eqb c cLB || N.eqb c cRB then
        if Nat.even (leading cBS acc) then escape_brackets (c :: cBS :: acc) s'
        else escape_brackets (c :: acc) s'
      else escape_brackets (c :: acc) s'
  end.

(** api.py:1262-1266, the chain of strip calls. *)
Definition strip_blanks (s : str) : str :=
  fold_left (fun t c => strip (N.eqb c) t) [cSP; cTAB; cLF; cVT; cFF; cCR] s.

(** api.py:1258-1290: what happens to the heading text when links are enabled. *)
Definition link_label (s : str) : res str :=
  let s := if N.eqb (last s 0%N) cBS then s ++ [cSP] else s in
  if length (strip_blanks s) =? 0 then Err GithubEmptyLinkLabel
  else if (999 <? Z.of_nat (length s))%Z then Err GithubOverflowCharsLinkLabel
  else Ok (escape_brackets [] s).

(** api.py:1139-1297, one subline, CommonMark-like parsers.  [vis] is [line_visible].
    Lines 1217-1236 look for CR and LF inside the subline: there are none after
    replace_and_split_newlines, so that part is left out, and so are CR and LF as
    characters allowed after the opening sequence (line 1188). *)
Definition atx_cm (p : parser) (keep : Z) (no_links vis : bool) (subl : str)
    : res (option heading * bool) :=
  match subl with
  | [] => Ok (None, vis)
  | c0 :: _ =>
    if N.eqb c0 cBS then Ok (None, vis)
    else
      let offset := leading cSP subl in
      if 3 <? offset then Ok (None, vis)
      else
        let after := skipn offset subl in
        let level := leading cHASH after in
        if (6 <? level) || (level =? 0) then Ok (None, vis)
        else
          let vis := if (Z.of_nat level >? keep)%Z then false else vis in
          let sp := fun c => N.eqb c cSP || (negb (gfm p) && N.eqb c cTAB) in
          let rest := skipn level after in
          match rest with
          | c :: _ =>
              if sp c then
                let cs_start := offset + level + 1 + span_len sp (skipn 1 rest) in
                do cs_end <- cut_closing (S (length subl)) sp (length subl) (rev subl) 0
                               (length subl - cs_start) 0 0;
                let final := slice subl cs_start cs_end in
                do final <- (if no_links then Ok final else link_label final);
                Ok (Some (mkHeading level final vis), vis)
              else Ok (None, vis)
          | [] =>
              do final <- (if no_links then Ok [] else link_label []);
              Ok (Some (mkHeading level final vis), vis)
          end
  end.

(** api.py:1299-1348, one subline, redcarpet.  The loop of lines 1322-1324 stops at the end
    of the subline, which contains no newline. *)
Definition atx_redcarpet (no_links vis : bool) (subl : str) : option heading * bool :=
  if startswith [cHASH] subl then
    let level := Nat.min 6 (leading cHASH subl) in
    let rest := skipn level subl in
    match rest with
    | c :: _ =>
        if negb (N.eqb c cSP) then (None, vis)
        else
          let i := level + leading cSP rest in
          let stop := length (rstrip (N.eqb cSP) (rstrip (N.eqb cHASH) subl)) in
          if i <? stop then
            if negb no_links && N.eqb (last subl 0%N) cBS then
              (Some (mkHeading level (slice (subl ++ [cSP]) i (stop + 1)) vis), vis)
            else (Some (mkHeading level (slice subl i stop) vis), vis)
          else (None, false)
    | [] => (None, false)
    end
  else (None, vis).

(** api.py:1128-1356, the loop over the sublines. *)
Fixpoint atx_lines (p : parser) (keep : Z) (no_links vis : bool) (subls : list str)
    : res (list (option heading)) :=
  match subls with
  | [] => Ok []
  | s :: rest =>
      if cm_family p then
        do '(h, vis') <- atx_cm p keep no_links vis s;
        do hs <- atx_lines p keep no_links vis' rest;
        Ok (h :: hs)
      else match p with
           | Redcarpet =>
               let '(h, vis') := atx_redcarpet no_links vis s in
               do hs <- atx_lines p keep no_links vis' rest;
               Ok (h :: hs)
           | _ => atx_lines p keep no_links vis rest
           end
  end.

(** api.py:1091-1356 get_atx_heading *)
Definition get_atx_heading (p : parser) (keep : Z) (no_links : bool) (line : str)
    : res (list (option heading)) :=
  if (keep <? 1)%Z then Err ValueError
  else match line with
       | [] => Ok [None]
       | _ => atx_lines p keep no_links true (replace_and_split_newlines line)
       end.
