(** Specification of build_toc in terms of the history of headings: no counters, no
    dictionaries, no indentation log, no code fence flag. *)
From Coq Require Import String List NArith ZArith Bool Arith.
From Verif Require Import Str Atx Anchor Toc Spec AnchorSpec.
Import ListNotations.
Local Open Scope list_scope.

(** A line of a text file: no line terminator except for one LF at its end; only the last
    line of a file may lack it. *)
Definition file_line (l : str) : Prop :=
  exists s, single_line s /\ (l = s ++ [10%N] \/ (l = s /\ s <> [])).

Definition small_indent (l : str) : Prop :=
  exists ind r, l = repeat 32%N ind ++ r /\ ind <= 3 /\ hd_error r <> Some 32%N.

Definition opens (p : parser) (l : str) (c : N) (n : nat) : Prop :=
  commonmark_parser p /\ opening_fence_line l c n.

(** The name '-' stands for standard input. *)
Definition names_stdin (filename : str) : bool := if list_eq_dec N.eq_dec filename (lit "-") then true else false.

(** [outside p start lines kept end]: reading [lines] when the fenced block [start] is open
    (None: no block), [kept] are the lines that are outside all fenced blocks, fences excluded,
    and [end] is the block that is still open after the last line. *)
Definition block := option (N * nat).
Inductive outside (p : parser) : block -> list str -> list str -> block -> Prop :=
| out_nil : forall b, outside p b [] [] b
| out_open : forall l c n ls ks e,
    opens p l c n -> outside p (Some (c, n)) ls ks e -> outside p None (l :: ls) ks e
| out_text : forall l ls ks e,
    (forall c n, ~ opens p l c n) -> outside p None ls ks e -> outside p None (l :: ls) (l :: ks) e
| out_close : forall l c n ls ks e,
    closing_fence_line p l c n -> outside p None ls ks e -> outside p (Some (c, n)) (l :: ls) ks e
| out_inside : forall l c n ls ks e,
    ~ closing_fence_line p l c n -> outside p (Some (c, n)) ls ks e ->
    outside p (Some (c, n)) (l :: ls) ks e.

(** The last line is inside a block that it does not close. *)
Definition ends_inside (p : parser) (lines : list str) : Prop :=
  exists pre last ks c n, lines = pre ++ [last] /\ outside p None pre ks (Some (c, n))
    /\ ~ closing_fence_line p last c n.

(** The lines that are looked at for headings: those outside blocks and, for files, a
    quirk: the last line if it is inside an unclosed block and not indented by more than three
    spaces. *)
Inductive examined (p : parser) (stdin : bool) : list str -> list str -> Prop :=
| ex_normal : forall lines ks e,
    outside p None lines ks e ->
    (stdin = true \/ ~ ends_inside p lines \/
     exists pre last, lines = pre ++ [last] /\ ~ small_indent last) ->
    examined p stdin lines ks
| ex_quirk : forall pre last ks c n,
    stdin = false -> outside p None pre ks (Some (c, n)) ->
    ~ closing_fence_line p last c n -> small_indent last ->
    examined p stdin (pre ++ [last]) (ks ++ [last]).

(** ** One line *)
Record found := mkFound { f_level : nat; f_text : str; f_slug : str }.

(** The heading of a line and the base slug of its text: the results of the public functions
    get_atx_heading and build_anchor_link on this line alone. *)
Definition line_heading (E : env) (p : parser) (no_links : bool) (line : str) : res (option found) :=
  match get_atx_heading p 6 no_links line with
  | Err e => Err e
  | Ok [Some h] =>
      match build_anchor_link E p [] (h_text h) with
      | Err e => Err e
      | Ok (Some s, _) => Ok (Some (mkFound (h_level h) (h_text h) s))
      | Ok (None, _) => Ok None
      end
  | Ok _ => Ok None
  end.

(** Base slugs of the headings of some lines. *)
Definition line_slugs (E : env) (p : parser) (no_links : bool) (lines : list str) : list str :=
  flat_map (fun l => match line_heading E p no_links l with Ok (Some f) => [f_slug f] | _ => [] end) lines.

(** Headings deeper than the limit are not listed; redcarpet has no limit. *)
Definition listed (p : parser) (keep : Z) (level : nat) : bool :=
  match p with Redcarpet => true | _ => (Z.of_nat level <=? keep)%Z end.

Definition anchor_of (p : parser) (slug : str) (seen : list str) : str :=
  match p with Redcarpet => slug | _ => label_number slug (occurrences slug seen) end.

(** ** Numbers.  [hist] are the levels of the earlier entries, the most recent one first. *)

(** The number of the most recent entry of level [l] (0 if there is none). *)
Fixpoint last_number (hist : list nat) (l : nat) : nat :=
  match hist with
  | [] => 0
  | x :: h =>
      if x =? l then
        match h with
        | [] => 1
        | y :: _ => if y <? l then 1 else S (last_number h l)
        end
      else last_number h l
  end.
(** The number of the next entry if it has level [l]. *)
Definition number (hist : list nat) (l : nat) : nat :=
  match hist with
  | [] => 1
  | y :: _ => if y <? l then 1 else S (last_number hist l)
  end.

(** ** Columns.  [hist] are the levels of the earlier entries and the widths of their markers,
    the most recent one first. *)
Fixpoint column_from (direct : bool) (hist : list (nat * nat)) (l : nat) : nat :=
  match hist with
  | [] => 0
  | (x, w) :: h =>
      if x <? l then (if direct then column_from true h x + w + 1 else 0)
      else if x =? l then column_from true h l
      else column_from false h l
  end.
Definition column (p : parser) (hist : list (nat * nat)) (l : nat) : nat :=
  match p with Redcarpet => 4 * (l - 1) | _ => column_from true hist l end.

(** ** Entries *)
Definition incoherent (hist : list nat) (l : nat) : bool :=
  match hist with
  | [] => false
  | prev :: _ => (S prev <? l) || (l <? last hist 0)
  end.

(** The marker of an entry, with its number. *)
Definition numbered_list (o : opts) (ordered : bool) : bool := ordered && negb (o_constant o).
Definition entry_number (o : opts) (ordered : bool) (hist : list (nat * nat)) (l : nat) : nat :=
  if numbered_list o ordered then number (map fst hist) l else 1.
Definition entry_marker (o : opts) (ordered : bool) (m : str) (hist : list (nat * nat)) (l : nat) : str :=
  if ordered then decN (N.of_nat (entry_number o ordered hist l)) ++ m else m.

Definition entry_label (o : opts) (text anchor : str) : str :=
  if o_no_links o then text
  else [91%N] ++ text ++ lit "](#" ++ anchor ++ lit ")".

Definition entry_line (o : opts) (ordered : bool) (m : str) (hist : list (nat * nat)) (l : nat)
    (text anchor : str) : res str :=
  let p := o_parser o in
  if numbered_list o ordered && limits_index p
     && (999999999 <? Z.of_nat (entry_number o ordered hist l))%Z
  then Err GithubOverflowOrderedListMarker
  else if negb (o_no_indentation o) && negb (o_no_list_coherence o) && incoherent (map fst hist) l
  then Err TocDoesNotRenderAsCoherentList
  else if negb ordered && negb (sin m (bullet_markers p)) then Err ValueError
  else Ok (repeat 32%N (if o_no_indentation o then 0 else column p hist l)
           ++ entry_marker o ordered m hist l ++ [32%N] ++ entry_label o text anchor ++ o_newline o).

(** ** The table.  [seen]: base slugs of the earlier headings, listed or not; [hist]: earlier
    entries. *)
Fixpoint toc_lines (E : env) (o : opts) (ordered : bool) (m : str)
    (seen : list str) (hist : list (nat * nat)) (lines : list str) : res (list str) :=
  match lines with
  | [] => Ok []
  | line :: rest =>
      match line_heading E (o_parser o) (o_no_links o) line with
      | Err e => Err e
      | Ok None => toc_lines E o ordered m seen hist rest
      | Ok (Some f) =>
          let seen' := seen ++ [f_slug f] in
          if listed (o_parser o) (o_keep o) (f_level f) then
            match entry_line o ordered m hist (f_level f) (f_text f)
                    (anchor_of (o_parser o) (f_slug f) seen) with
            | Err e => Err e
            | Ok s =>
                match toc_lines E o ordered m seen'
                        ((f_level f, length (entry_marker o ordered m hist (f_level f))) :: hist) rest with
                | Err e => Err e
                | Ok ss => Ok (s :: ss)
                end
            end
          else toc_lines E o ordered m seen' hist rest
      end
  end.

(** The list kind and marker that are really used. *)
Definition used_ordered (o : opts) : bool := o_ordered o || o_constant o.
Definition used_marker (o : opts) : str :=
  let m := match o_marker o with Some m => m | None => [] end in
  if used_ordered o then
    (if in_dec (list_eq_dec N.eq_dec) m (match o_parser o with Redcarpet => [lit "."] | _ => [lit "."; lit ")"] end)
     then m else lit ".")
  else m.
