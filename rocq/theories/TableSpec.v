(** Vocabulary for the properties of the generated table: its entries and its rows. *)
From Coq Require Import String List NArith ZArith Bool Arith.
From Verif Require Import Str Atx Anchor Toc Spec AnchorSpec TocSpec.
Import ListNotations.
Local Open Scope list_scope.

(** No line raises, and [fs] are the headings of the lines, in order. *)
Inductive headings (E : env) (p : parser) (no_links : bool) : list str -> list found -> Prop :=
| hs_nil : headings E p no_links [] []
| hs_other : forall l ls fs, line_heading E p no_links l = Ok None ->
    headings E p no_links ls fs -> headings E p no_links (l :: ls) fs
| hs_heading : forall l ls f fs, line_heading E p no_links l = Ok (Some f) ->
    headings E p no_links ls fs -> headings E p no_links (l :: ls) (f :: fs).

Record entry := mkEntry { e_level : nat; e_text : str; e_anchor : str }.

(** The headings with their anchors, numbered among all the headings before them ([seen] are
    the slugs of earlier headings). *)
Fixpoint with_anchors (p : parser) (seen : list str) (fs : list found) : list entry :=
  match fs with
  | [] => []
  | f :: fs' => mkEntry (f_level f) (f_text f) (anchor_of p (f_slug f) seen)
                :: with_anchors p (seen ++ [f_slug f]) fs'
  end.
(** The entries of the table: the headings within the limit. *)
Definition entries (p : parser) (keep : Z) (fs : list found) : list entry :=
  filter (fun e => listed p keep (e_level e)) (with_anchors p [] fs).
Definition levels (es : list entry) : list nat := map e_level es.

(** A row: indentation, marker, a space, label, newline.  [used_ordered] and [used_marker]
    are the list kind and marker after normalisation (see C25). *)
Definition marker_text (o : opts) (number : nat) : str :=
  if used_ordered o then numeral (N.of_nat number) ++ used_marker o else used_marker o.
Definition row (o : opts) (e : entry) (column number : nat) : str :=
  repeat 32%N column ++ marker_text o number ++ [32%N] ++ entry_label o (e_text e) (e_anchor e) ++ o_newline o.
Fixpoint table (o : opts) (es : list entry) (cols nums : list nat) : str :=
  match es, cols, nums with
  | e :: es', c :: cols', n :: nums' => row o e c n ++ table o es' cols' nums'
  | _, _, _ => []
  end.
(** [t] is a table with exactly one row per entry. *)
Definition is_table (o : opts) (es : list entry) (cols nums : list nat) (t : str) : Prop :=
  length cols = length es /\ length nums = length es /\ t = table o es cols nums.

(** Numbers.  Entries of level [l] since the last entry of a smaller level; [earlier] are the
    levels of the earlier entries, the most recent one first. *)
Fixpoint siblings (earlier : list nat) (l : nat) : nat :=
  match earlier with
  | [] => 0
  | x :: h => if x <? l then 0 else (if x =? l then 1 else 0) + siblings h l
  end.
(** Each number is one more than the number of earlier entries of the same sublist. *)
Definition numbered_per_sublist (ls nums : list nat) : Prop :=
  forall i l, nth_error ls i = Some l -> nth_error nums i = Some (S (siblings (rev (firstn i ls)) l)).

(** Entry [j] is the parent of entry [i]: the last one before it with a smaller level. *)
Definition parent (ls : list nat) (j i : nat) : Prop :=
  j < i /\ exists lj li, nth_error ls j = Some lj /\ nth_error ls i = Some li /\ lj < li
  /\ forall k lk, j < k < i -> nth_error ls k = Some lk -> li <= lk.
(** Every entry starts at the column where the content of its parent starts; entries without
    a parent are not indented. *)
Definition nested (o : opts) (ls cols nums : list nat) : Prop :=
  (forall j i cj nj, parent ls j i -> nth_error cols j = Some cj -> nth_error nums j = Some nj ->
     nth_error cols i = Some (cj + length (marker_text o nj) + 1))
  /\ (forall i, i < length ls -> (forall j, ~ parent ls j i) -> nth_error cols i = Some 0).

(** No entry is above the first one or skips a level downwards. *)
Definition coherent (ls : list nat) : Prop :=
  forall pre l post, ls = pre ++ l :: post -> pre <> [] -> hd 0 pre <= l <= S (last pre 0).

(** The situations the table properties are about: one of the six parsers, at least one level
    kept, no lines skipped (see C20 for skipped lines), a decodable document (see C21) whose
    examined lines (those outside code blocks, see C08) are [ks], and base slugs on which SHA-1
    does not collide (redcarpet does not use it). *)
Definition applies (E : env) (o : opts) (filename : str) (lines ks : list str) : Prop :=
  o_parser o <> OtherParser /\ o_skip o = 0%Z /\ (1 <= o_keep o)%Z /\ Forall file_line lines
  /\ examined (o_parser o) (names_stdin filename) lines ks
  /\ (o_parser o <> Redcarpet -> no_collision E (line_slugs E (o_parser o) (o_no_links o) ks)).

(** The number of an entry of level [curr] that follows one of level [prev] (0: none), given the
    current counts per level. *)
Definition next_index (counts : Z -> option Z) (prev curr n : Z) : Prop :=
  match counts curr with
  | None => n = 1%Z
  | Some c => if ((0 <? prev) && (prev <? curr))%Z then n = 1%Z else n = (c + 1)%Z
  end.
