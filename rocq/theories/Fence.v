(** Model of the code fence functions of md_toc/api.py. *)
From Coq Require Import String List NArith Bool Arith.
From Verif Require Import Str.
Import ListNotations.
Local Open Scope list_scope.

(** Number of leading characters equal to [c]. *)
Fixpoint leading (c : N) (s : str) : nat :=
  match s with
  | x :: s' => if N.eqb x c then S (leading c s') else 0
  | [] => 0
  end.

(** api.py:1417-1437 is_valid_code_fence_indent.  It is always called with its default
    parser by the two functions below (api.py:1462, 1562). *)
Definition is_valid_code_fence_indent (p : parser) (line : str) : bool :=
  if cm_family p then leading cSP line <=? 3 else false.

(** api.py:1440-1513 is_opening_code_fence.  Lines 1474-1504 compute the info string;
    stripping it of spaces (and tabs) does not change whether it contains a backtick,
    so it is not stripped here. *)
Definition is_opening_code_fence (p : parser) (line : str) : option str :=
  if cm_family p then
    if negb (is_valid_code_fence_indent Github line) then None
    else
      let line := rstrip (N.eqb cLF) (lstrip (N.eqb cSP) line) in
      if startswith [cTICK; cTICK; cTICK] line || startswith [cTILDE; cTILDE; cTILDE] line then
        let c0 := hd 0%N line in
        let start := leading c0 line in
        let info := skipn start line in
        if cin cTICK info && negb (N.eqb c0 cTILDE) then None
        else Some (firstn start line)
      else None
  else None.

(** [s == len(s) * s[0]] for a non-empty [s]. *)
Definition all_same (s : str) : bool :=
  match s with
  | [] => true
  | c :: s' => forallb (N.eqb c) s'
  end.

(** api.py:1516-1621 is_closing_code_fence. *)
Definition is_closing_code_fence (p : parser) (line fence : str) (is_document_end : bool) : bool :=
  if cm_family p then
    if negb (is_valid_code_fence_indent Github line) then false
    else
      let fence := lstrip (N.eqb cSP) fence in
      if negb (startswith [cTICK] fence || startswith [cTILDE] fence) then false
      else if length fence <? 3 then false
      else
        let fence := rstrip (fun c => N.eqb c cSP || N.eqb c cLF) fence in
        if negb (all_same fence) then false
        else if is_document_end then true
        else
          let line := lstrip (N.eqb cSP) line in
          if negb (startswith fence line) then false
          else
            let line := rstrip (fun c => N.eqb c cSP || N.eqb c cLF
                                        || (negb (gfm p) && N.eqb c cTAB)) line in
            if length line <? length fence then false
            else all_same line
  else false.
