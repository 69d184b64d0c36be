(** Vocabulary for the removal of HTML tags.  60 and 62 are the angle brackets, 34 the double
    quote, 39 the single quote, 47 the slash, 61 the equals sign, 45 the hyphen. *)
From Coq Require Import String List NArith.
From Verif Require Import Str EnvSpec.
Import ListNotations.
Local Open Scope list_scope.

(** [cut_down s t]: [t] is left of [s] when pieces that begin with '<' and end with '>' are cut out,
    one after the other. *)
Inductive cut_down : str -> str -> Prop :=
| cut_done : forall s, cut_down s s
| cut_one : forall a v b t, cut_down (a ++ b) t -> cut_down (a ++ 60%N :: v ++ 62%N :: b) t.

(** Text with the things that CommonMark calls raw HTML. *)
Inductive value := Bare (v : str) | Single (v : str) | Double (v : str).
(** An attribute: the blanks in front of it, its name and its value, if any, with the blanks around the equals sign. *)
Record attribute := Attr { a_gap : str; a_name : str; a_value : option (str * str * value) }.
Inductive piece :=
| Text (w : str)
| Open (name : str) (attrs : list attribute) (tail : str) (slash : bool)
| Close (name tail : str)
| Comment (w : str)
| Instruction (w : str)
| Declaration (name gap w : str)
| Cdata (w : str).

Definition show_value (v : value) : str :=
  match v with
  | Bare v => v
  | Single v => 39%N :: v ++ [39%N]
  | Double v => 34%N :: v ++ [34%N]
  end.
Definition show_attr (a : attribute) : str :=
  a_gap a ++ a_name a ++ match a_value a with None => [] | Some (b1, b2, v) => b1 ++ 61%N :: b2 ++ show_value v end.
Definition show (x : piece) : str :=
  match x with
  | Text w => w
  | Open name attrs tail slash => 60%N :: name ++ concat (map show_attr attrs) ++ tail ++ (if slash then [47%N] else []) ++ [62%N]
  | Close name tail => 60%N :: 47%N :: name ++ tail ++ [62%N]
  | Comment w => lit "<!--" ++ w ++ lit "-->"
  | Instruction w => lit "<?" ++ w ++ lit "?>"
  | Declaration name gap w => lit "<!" ++ name ++ gap ++ w ++ lit ">"
  | Cdata w => lit "<![CDATA[" ++ w ++ lit "]]>"
  end.
Definition html (l : list piece) : str := concat (map show l).
Definition texts (l : list piece) : str := concat (map (fun x => match x with Text w => w | _ => [] end) l).

Definition blanks (b : str) : Prop := Forall (fun c => c = 32%N \/ c = 9%N) b.
Definition tag_name (n : str) : Prop := exists c r, n = c :: r /\ is_letter c /\ Forall (fun x => is_letter x \/ is_digit x \/ x = 45%N) r.
Definition attr_name (n : str) : Prop := exists c r, n = c :: r /\ (is_letter c \/ In c (lit "_:")) /\ Forall (fun x => is_letter x \/ is_digit x \/ In x (lit ":._-")) r.
Definition good_value (v : value) : Prop :=
  match v with
  | Bare v => v <> [] /\ Forall (fun c => ~ In c ([9%N; 10%N; 11%N; 12%N; 13%N; 32%N; 34%N; 39%N; 0%N] ++ lit "=<>`")) v
  | Single v => ~ In 39%N v /\ ~ In 0%N v
  | Double v => ~ In 34%N v /\ ~ In 0%N v
  end.
Definition good_attr (a : attribute) : Prop :=
  a_gap a <> [] /\ blanks (a_gap a) /\ attr_name (a_name a) /\
  match a_value a with None => True | Some (b1, b2, v) => blanks b1 /\ blanks b2 /\ good_value v end.
(** [w] does not occur in [s] *)
Definition without (w s : str) : Prop := forall a b, s <> a ++ w ++ b.
Definition proper (x : piece) : Prop :=
  match x with
  | Text w => ~ In 60%N w
  | Open name attrs tail _ => tag_name name /\ Forall good_attr attrs /\ blanks tail
  | Close name tail => tag_name name /\ blanks tail
  | Comment w => 2 <= length w /\ ~ In 60%N w /\ ~ In 62%N w /\ without (lit "--") w /\ last w 0%N <> 45%N
  | Instruction w => ~ In 60%N w /\ without (lit "?>") w
  | Declaration name gap w => name <> [] /\ Forall (fun c => (65 <= c <= 90)%N) name /\ gap <> [] /\ blanks gap /\ w <> [] /\ ~ In 60%N w /\ ~ In 62%N w
  | Cdata w => w <> [] /\ ~ In 60%N w /\ without (lit "]]>") w
  end.

(** What CommonMark calls raw HTML: nothing else is ever removed.  White space may be of any kind here;
    [named] is a condition on the names of tags. *)
Definition white (b : str) : Prop := Forall (fun c => In c [9; 10; 11; 12; 13; 32]%N) b.
Definition loose_attr (a : attribute) : Prop :=
  a_gap a <> [] /\ white (a_gap a) /\ attr_name (a_name a) /\
  match a_value a with None => True | Some (b1, b2, v) => white b1 /\ white b2 /\ good_value v end.
Inductive raw (named : str -> Prop) : str -> Prop :=
| raw_open : forall name attrs tail slash, tag_name name -> named name -> Forall loose_attr attrs -> white tail ->
    raw named (show (Open name attrs tail slash))
| raw_close : forall name tail, tag_name name -> named name -> white tail -> raw named (show (Close name tail))
| raw_comment : forall w, (forall t, w <> lit ">" ++ t) -> (forall t, w <> lit "->" ++ t) -> without (lit "--") w -> last w 0%N <> 45%N ->
    raw named (show (Comment w))
| raw_instruction : forall w, without (lit "?>") w -> raw named (show (Instruction w))
| raw_declaration : forall c w, (65 <= c <= 90)%N -> ~ In 62%N w -> raw named (lit "<!" ++ c :: w ++ lit ">")
| raw_section : forall w, without (lit "]]>") w -> raw named (show (Cdata w)).
(** [cut_raw named s t]: [t] is left of [s] when pieces of raw HTML are cut out, one after the other. *)
Inductive cut_raw (named : str -> Prop) : str -> str -> Prop :=
| cut_raw_done : forall s, cut_raw named s s
| cut_raw_one : forall a k b t, raw named k -> cut_raw named (a ++ b) t -> cut_raw named (a ++ k ++ b) t.

(** The tag names that GitHub Flavored Markdown does not allow, in any case; a name that continues with a hyphen
    counts as well. *)
Definition forbidden (n : str) : Prop :=
  exists w u v, In w [lit "title"; lit "textarea"; lit "style"; lit "xmp"; lit "iframe"; lit "noembed"; lit "noframes"; lit "script"; lit "plaintext"] /\
    n = u ++ v /\ Forall2 (fun c d => c = d \/ (c + 32)%N = d) u w /\ (v = [] \/ exists v', v = 45%N :: v').
(** What github and commonmarker remove... *)
Definition allowed (x : piece) : Prop :=
  match x with
  | Open name _ _ _ => ~ forbidden name
  | Close name tail => ~ forbidden name /\ length tail <= 1
  | _ => True
  end.
(** ...and what they leave: tags with a forbidden name, and closing tags with two blanks or more at the end. *)
Definition kept_tag (x : piece) : Prop :=
  match x with
  | Open name attrs _ _ => forbidden name /\ ~ In 60%N (concat (map show_attr attrs))
  | Close name tail => forbidden name \/ 2 <= length tail
  | _ => False
  end.
Inductive stripped : list piece -> list piece -> Prop :=
| stripped_nil : stripped [] []
| stripped_text : forall w l k, stripped l k -> stripped (Text w :: l) (Text w :: k)
| stripped_gone : forall x l k, (forall w, x <> Text w) -> allowed x -> stripped l k -> stripped (x :: l) k
| stripped_kept : forall x l k, kept_tag x -> stripped l k -> stripped (x :: l) (x :: k).
