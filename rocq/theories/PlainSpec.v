(** Ordinary documents: titles without markup and prose.  The table one expects for them. *)
From Coq Require Import String List NArith ZArith Bool Arith.
From Verif Require Import Str Spec AnchorSpec TableSpec EmphSpec.
Import ListNotations.
Local Open Scope list_scope.

(** Characters without a meaning in Markdown text. *)
Definition quiet (c : N) : Prop :=
  ~ In c (lit "`\&<[]*_") /\ c <> 0%N /\ c <> 10%N /\ c <> 13%N.

(** Every run of hyphens becomes one hyphen; [after] tells whether a hyphen comes right before. *)
Fixpoint squeeze (after : bool) (s : str) : str :=
  match s with
  | [] => []
  | c :: r => if N.eqb c 45 then (if after then squeeze true r else 45%N :: squeeze true r)
              else c :: squeeze false r
  end.
(** The end of the way from text to anchor: punctuation is dropped, spaces become hyphens, and
    GitLab squeezes them. *)
Definition hyphenate (E : env) (p : parser) (s : str) : str :=
  let kept := filter (fun c => e_word E c || N.eqb c 45 || N.eqb c 32) s in
  let dashed := map (fun c => if N.eqb c 32 then 45%N else c) kept in
  match p with Gitlab => squeeze false dashed | _ => dashed end.
Definition plain_slug (E : env) (p : parser) (text : str) : str := hyphenate E p (e_lower E text).

(** Documents. *)
Inductive item := Title (level : nat) (text : str) | Prose (text : str).
Definition shown (x : item) : str :=
  match x with
  | Title level text => repeat 35%N level ++ [32%N] ++ text ++ [10%N]
  | Prose text => text ++ [10%N]
  end.
(** Text that the anchor takes as it is: no emphasis delimiters (stars, underscores), no tags, or
    underscores that do not count, and then neither code spans nor entities. *)
Definition plain_title (E : env) (text : str) : Prop :=
  Forall (fun c => ~ In c (lit "\<[]*") /\ c <> 0%N /\ c <> 10%N /\ c <> 13%N) text
  /\ ((~ In 95%N text /\ plain_digits E text)
      \/ (Forall (fun c => quiet c \/ c = 95%N) text /\ all_idle E (e_lower E text))).
(** A title: at most 999 characters of plain text, no hash among them, no blank at either end.
    Prose: a line that does not begin with a space, a hash, a backtick or a tilde. *)
Definition ordinary (E : env) (x : item) : Prop :=
  match x with
  | Title level text =>
      1 <= level <= 6 /\ plain_title E text /\ ~ In 35%N text /\ 1 <= length text <= 999
      /\ ~ In (hd 32%N text) [9; 11; 12; 32]%N /\ ~ In (last text 32%N) [9; 11; 12; 32]%N
  | Prose text => single_line text /\ ~ In (hd 0%N text) (lit " #`~")
  end.

Definition titles (l : list item) : list (nat * str) :=
  flat_map (fun x => match x with Title level text => [(level, text)] | Prose _ => [] end) l.

(** The expected rows.  [first] is the level of the first row, [seen] the slugs of the titles so far. *)
Fixpoint contents (E : env) (p : parser) (keep : Z) (first : nat) (seen : list str) (l : list (nat * str)) : list str :=
  match l with
  | [] => []
  | (level, text) :: r =>
      let slug := plain_slug E p text in
      let rest := contents E p keep first (seen ++ [slug]) r in
      if (Z.of_nat level <=? keep)%Z then
        (repeat 32%N (2 * (level - first)) ++ lit "- [" ++ text ++ lit "](#" ++
         label_number slug (occurrences slug seen) ++ lit ")" ++ [10%N]) :: rest
      else rest
  end.
(** The levels of the titles that are listed. *)
Definition listed_levels (keep : Z) (l : list (nat * str)) : list nat :=
  filter (fun level => (Z.of_nat level <=? keep)%Z) (map fst l).
