(** Callers that build a table row by row with the library's functions, and the rows they expect.
    32 is the space, 91 the opening bracket. *)
From Coq Require Import String List NArith ZArith Bool Arith.
From Verif Require Import Str Anchor Toc Spec TocSpec TableSpec BookSpec.
Import ListNotations.
Local Open Scope list_scope.

Record item := Item { i_level : nat; i_text : str; i_anchor : str }.

(** ** The caller *)
(** What a caller keeps between two rows: the counts of the numbers, the log of the indentation and the
    level of the last row, 0 before the first one. *)
Record desk := Desk { k_counts : typecount; k_log : list ilog; k_prev : nat }.
(** One row.  The calls are the ones of the body of the loop of api.py:341-424, without the check of the
    coherence: increase_index_ordered_list (only for numbered lists), compute_toc_line_indentation_spaces,
    build_toc_line_without_indentation and build_toc_line. *)
Definition one_row (p : parser) (ordered no_links : bool) (m : str) (k : desk) (x : item) : res (str * desk) :=
  let curr := Z.of_nat (i_level x) in
  let prev := Z.of_nat (k_prev k) in
  do counts <- (if ordered then increase_index p (k_counts k) prev curr else Ok (k_counts k));
  let index := if ordered then match tc_get counts curr with Some n => n | None => 0%Z end else 1%Z in
  do log <- compute_indentation p ordered m (k_log k) curr prev index;
  do e <- log_get log curr;
  do line <- toc_line_no_indent p ordered no_links index m (mkHeader (i_level x) (i_text x) (Some (i_anchor x)) true);
  match line with
  | None => Err TypeError
  | Some line => do line <- build_toc_line line (il_spaces e); Ok (line, Desk counts log (i_level x))
  end.
Fixpoint by_hand (p : parser) (ordered no_links : bool) (m : str) (k : desk) (xs : list item) : res (list str * desk) :=
  match xs with
  | [] => Ok ([], k)
  | x :: xs' =>
      do '(line, k) <- one_row p ordered no_links m k x;
      do '(lines, k) <- by_hand p ordered no_links m k xs';
      Ok (line :: lines, k)
  end.
(** The caller starts a new table: the counts are empty and there is no last row; the log is [log]. *)
Definition new_table (log : list ilog) : desk := Desk [] log 0.

(** ** The rows *)
Definition bullet (ordered : bool) (m : str) (n : nat) : str := (if ordered then numeral (N.of_nat n) else []) ++ m.
(** An entry starts where the text of the entry around it starts; redcarpet indents by four per level. *)
Definition left_edge (p : parser) (ordered : bool) (m : str) (level : nat) (around : list nat) : nat :=
  match p with
  | Redcarpet => 4 * (level - 1)
  | _ => list_sum (map (fun n => length (bullet ordered m n) + 1) around)
  end.
Definition row_of (p : parser) (ordered no_links : bool) (m : str) (path : list nat) (x : item) : str :=
  repeat 32%N (left_edge p ordered m (i_level x) (removelast path)) ++ bullet ordered m (last path 0) ++ [32%N] ++
  (if no_links then i_text x else [91%N] ++ i_text x ++ lit "](#" ++ i_anchor x ++ lit ")").
(** [first] is the level of the first row, [path] are the numbers of the open entries. *)
Fixpoint rows_of (p : parser) (ordered no_links : bool) (m : str) (first : nat) (path : list nat) (xs : list item) : list str :=
  match xs with
  | [] => []
  | x :: xs' => let path' := advance path (i_level x - first) in
                row_of p ordered no_links m path' x :: rows_of p ordered no_links m first path' xs'
  end.
Definition expected_rows (p : parser) (ordered no_links : bool) (m : str) (xs : list item) : list str :=
  rows_of p ordered no_links m (hd 0 (map i_level xs)) [] xs.

(** The markers that a list of this kind can have. *)
Definition right_marker (p : parser) (ordered : bool) (m : str) : Prop :=
  if ordered then In m (match p with Redcarpet => [lit "."] | _ => [lit "."; lit ")"] end)
  else In m [lit "-"; lit "+"; lit "*"].
Definition callable (p : parser) (ordered : bool) (m : str) (xs : list item) : Prop :=
  p <> OtherParser /\ right_marker p ordered m /\ Forall (fun x => 1 <= i_level x <= 6) xs
  /\ (Z.of_nat (length xs) <= 999999999)%Z.

(** Several tables, each with its own parser, kind of list, choice of links and marker, one after the
    other with the same log. *)
Record job := Job { j_parser : parser; j_ordered : bool; j_no_links : bool; j_marker : str; j_items : list item }.
Fixpoint tables (log : list ilog) (js : list job) : res (list (list str)) :=
  match js with
  | [] => Ok []
  | j :: js' =>
      do '(lines, k) <- by_hand (j_parser j) (j_ordered j) (j_no_links j) (j_marker j) (new_table log) (j_items j);
      do rest <- tables (k_log k) js';
      Ok (lines :: rest)
  end.
Definition job_rows (j : job) : list str := expected_rows (j_parser j) (j_ordered j) (j_no_links j) (j_marker j) (j_items j).
Definition job_fits (j : job) : Prop :=
  callable (j_parser j) (j_ordered j) (j_marker j) (j_items j) /\ coherent (map i_level (j_items j)).
