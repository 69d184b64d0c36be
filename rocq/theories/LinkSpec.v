(** How CommonMark reads the emphasis of a text with brackets, inline links, code spans, raw HTML and
    autolinks, for the properties of remove_emphasis.  It follows the procedure "look for link or image"
    of the CommonMark specification: an opening bracket is remembered; a closing bracket followed by an
    address in parentheses makes a link (an image, after an exclamation mark) with the last bracket
    remembered; the emphasis of its label is paired on its own, and after a link no earlier bracket can
    start a link any more.  No link reference is defined.  91 and 93 are the brackets, 40 and 41 the
    parentheses, 60 and 62 the angle brackets, 33 the exclamation mark, 34 and 39 the quotes, 38 the
    ampersand, 64 the at sign, 92 the backslash, 96 the backtick. *)
From Coq Require Import String List NArith Arith Bool.
From Verif Require Import Str EnvSpec EmphSpec DelimSpec.
From Verif Require HtmlSpec.
Import ListNotations.
Local Open Scope list_scope.

(** ** What stands in the parentheses of a link: blanks, the address, blanks and a title, blanks *)
Inductive place := Plain (d : str) | Pointed (d : str).        (* Pointed: in angle brackets *)
Record target := Target { t_before : str; t_place : place; t_between : str; t_title : option (N * str); t_after : str }.
Definition to (d : str) : target := Target [] (Plain d) [] None [].
Definition show_place (x : place) : str := match x with Plain d => d | Pointed d => 60%N :: d ++ [62%N] end.
Definition show_title (t : option (N * str)) : str :=
  match t with None => [] | Some (q, w) => q :: w ++ [if N.eqb q 40 then 41%N else q] end.
Definition show_target (g : target) : str :=
  t_before g ++ show_place (t_place g) ++ t_between g ++ show_title (t_title g) ++ t_after g.

Definition punctuation (c : N) : Prop := (33 <= c <= 47)%N \/ (58 <= c <= 64)%N \/ (91 <= c <= 96)%N \/ (123 <= c <= 126)%N.
Definition visible (E : env) (c : N) : Prop := ((33 <= c)%N /\ c <> 127%N) /\ ~ space_char E c.
(** Narrower than CommonMark: no backslash in an address in angle brackets, none at the end of a plain one (C59_backslash_refuted). *)
(** An address: parentheses are escaped or balanced, at most 32 deep.  [depth] are open already. *)
Inductive address (E : env) : nat -> str -> Prop :=
| address_end : address E 0 []
| address_char : forall depth c d, visible E c -> ~ In c (lit "()\") -> address E depth d -> address E depth (c :: d)
| address_escape : forall depth c d, punctuation c -> address E depth d -> address E depth (92%N :: c :: d)
| address_slash : forall depth c d, ~ punctuation c -> address E depth (c :: d) -> address E depth (92%N :: c :: d)
| address_open : forall depth d, depth < 32 -> address E (S depth) d -> address E depth (40%N :: d)
| address_close : forall depth d, address E depth d -> address E (S depth) (41%N :: d).
(** A title that ends with the character [q]: only escaped ones are inside; no unescaped opening
    parenthesis in a title in parentheses. *)
Inductive title_text (q : N) : str -> Prop :=
| title_end : title_text q []
| title_char : forall c w, c <> 0%N -> c <> 92%N -> c <> q -> (q = 40%N -> c <> 41%N) -> title_text q w -> title_text q (c :: w)
| title_escape : forall c w, c <> 0%N -> title_text q w -> title_text q (92%N :: c :: w).
Definition well_formed (E : env) (g : target) : Prop :=
  HtmlSpec.blanks (t_before g) /\ HtmlSpec.blanks (t_between g) /\ HtmlSpec.blanks (t_after g) /\
  match t_place g with
  | Plain d => address E 0 d /\ hd 0%N d <> 60%N /\ (d = [] -> t_title g = None /\ t_after g = [])
  | Pointed d => Forall (fun c => ~ In c (lit "<>\") /\ c <> 10%N /\ c <> 13%N) d
  end /\
  match t_title g with
  | None => t_between g = []
  | Some (q, w) => t_between g <> [] /\ In q [34; 39; 40]%N /\ title_text q w
  end.

(** ** Text after a closing bracket that is no target
    [begins blank char title w t rest]: [w] is an opening parenthesis, blanks, an address, blanks and the
    title [t] (empty: none), blanks, and [rest].  It is wider than [well_formed]: any backslash is allowed. *)
Inductive pointed : str -> Prop :=
| pointed_end : pointed []
| pointed_char : forall c d, ~ In c (lit "<>\") -> c <> 10%N -> pointed d -> pointed (c :: d)
| pointed_escape : forall c d, pointed d -> pointed (92%N :: c :: d).
Inductive balanced (char : N -> Prop) : nat -> str -> Prop :=
| balanced_end : balanced char 0 []
| balanced_char : forall depth c d, char c -> ~ In c (lit "()\") -> balanced char depth d -> balanced char depth (c :: d)
| balanced_escape : forall depth c d, punctuation c -> balanced char depth d -> balanced char depth (92%N :: c :: d)
| balanced_slash : forall depth d, ~ punctuation (hd 0%N d) -> balanced char depth d -> balanced char depth (92%N :: d)
| balanced_open : forall depth d, depth < 32 -> balanced char (S depth) d -> balanced char depth (40%N :: d)
| balanced_close : forall depth d, balanced char depth d -> balanced char (S depth) (41%N :: d).
Definition begins (blank char : N -> Prop) (title : str -> Prop) (w t rest : str) : Prop :=
  exists b1 p b2 b3 : str, w = 40%N :: b1 ++ p ++ b2 ++ t ++ b3 ++ rest /\
  Forall blank b1 /\ Forall blank b2 /\ Forall blank b3 /\
  ((exists d, p = 60%N :: d ++ [62%N] /\ pointed d) \/ (hd 0%N p <> 60%N /\ balanced char 0 p /\ (p = [] -> t = []))) /\
  (t = [] \/ b2 <> [] /\ title t).
(** A link to CommonMark. *)
Definition link_ahead (w : str) : Prop := exists t rest,
  begins (fun c => In c [9; 10; 13; 32]%N) (fun c => (33 <= c)%N /\ c <> 127%N)
         (fun t => exists q x, t = show_title (Some (q, x)) /\ In q [34; 39; 40]%N /\ title_text q x) w t (41%N :: rest).

(** ** Raw HTML and autolinks *)
Inductive angle :=
| Tag (x : HtmlSpec.piece)
| Mail (user : str) (domain : str * list str)     (* the first label of the domain, and the others *)
| Uri (scheme rest : str).
Definition show_angle (x : angle) : str :=
  match x with
  | Tag x => HtmlSpec.show x
  | Mail u (l, ls) => 60%N :: u ++ 64%N :: l ++ flat_map (fun l => 46%N :: l) ls ++ [62%N]
  | Uri s r => 60%N :: s ++ 58%N :: r ++ [62%N]
  end.
Definition domain_label (l : str) : Prop :=
  1 <= length l <= 63 /\ Forall (fun c => is_letter c \/ is_digit c \/ c = 45%N) l /\ hd 0%N l <> 45%N /\ last l 0%N <> 45%N.
Definition mail_char (c : N) : Prop := is_letter c \/ is_digit c \/ In c (lit ".!#$%&'*+/=?^_`{|}~-").
Definition genuine (x : angle) : Prop :=
  match x with
  | Tag x => HtmlSpec.proper x /\ (forall w, x <> HtmlSpec.Text w)
  | Mail u (l, ls) => u <> [] /\ Forall mail_char u /\ Forall domain_label (l :: ls)
  | Uri s r => 2 <= length s <= 32 /\ is_letter (hd 0%N s) /\ Forall (fun c => is_letter c \/ is_digit c \/ In c (lit "+.-")) s /\
               Forall (fun c => (33 <= c)%N /\ ~ In c (lit "<>")) r
  end.
(** Raw HTML or an autolink begins with the angle bracket before [after]... *)
Definition angle_ahead (after : str) : Prop :=
  exists k rest, 60%N :: after = k ++ rest /\ (HtmlSpec.raw (fun _ => True) k \/ exists x, genuine x /\ k = show_angle x).
(** ...or what only the program takes for one: an address without its scheme, or a tag with an equals sign and no
    value. *)
Definition hollow_attr (a : HtmlSpec.attribute) : Prop :=
  HtmlSpec.loose_attr a \/
  HtmlSpec.loose_attr (HtmlSpec.Attr (HtmlSpec.a_gap a) (HtmlSpec.a_name a) None) /\
  exists b1 b2, HtmlSpec.a_value a = Some (b1, b2, HtmlSpec.Bare []) /\ HtmlSpec.white b1 /\ HtmlSpec.white b2.
Definition mistaken (after : str) : Prop :=
  (exists u rest, after = 58%N :: u ++ 62%N :: rest /\ Forall (fun c => (33 <= c)%N /\ ~ In c (lit "<>")) u) \/
  (exists name attrs tail slash rest, 60%N :: after = HtmlSpec.show (HtmlSpec.Open name attrs tail slash) ++ rest /\
    HtmlSpec.tag_name name /\ Forall hollow_attr attrs /\ HtmlSpec.white tail).

(** ** Tokens *)
Inductive token :=
| Piece (p : piece)           (* text, escapes, code spans and runs of delimiters *)
| LeftBracket
| ImageBracket                (* an exclamation mark and a bracket *)
| RightBracket                (* a bracket that ends no link *)
| LinkTo (g : target)         (* the end of a link: "](", the target [g] and ")" *)
| Ticks (n : nat)             (* [n] backticks that start no code span *)
| Slash                       (* a backslash that escapes nothing *)
| Amp (w : str)               (* an ampersand and text; an entity, perhaps *)
| Less                        (* an angle bracket that begins nothing *)
| Angle (x : angle).
Definition spelt (t : token) : str :=
  match t with
  | Piece p => spell1 p
  | LeftBracket => [91%N]
  | ImageBracket => [33%N; 91%N]
  | RightBracket => [93%N]
  | LinkTo g => [93%N; 40%N] ++ show_target g ++ [41%N]
  | Ticks n => repeat 96%N n
  | Slash => [92%N]
  | Amp w => 38%N :: w
  | Less => [60%N]
  | Angle x => show_angle x
  end.
Definition text_of (ts : list token) : str := flat_map spelt ts.

(** ** What is remembered while reading, the nearest first: runs, and opening brackets with whether
    they start an image and whether they can still start anything *)
Inductive item := Run (r : run) | Bracket (image active : bool).
Definition runs_of (st : list item) : list run := flat_map (fun i => match i with Run r => [r] | Bracket _ _ => [] end) st.
(** Links do not contain links. *)
Definition asleep (st : list item) : list item :=
  map (fun i => match i with Bracket false _ => Bracket false false | _ => i end) st.
Definition no_words (ts : list token) : Prop := match ts with Piece (Words _) :: _ => False | _ => True end.

(** Events of the reading, on which a condition can be put: a link, with what is remembered before its
    label, whether it is an image, the runs of its label and its target; backticks that start no code
    span, with what follows them; a closing bracket that ends no link although one was open, with what
    follows it; raw HTML or an autolink; an angle bracket that begins neither, with
    what follows it; a run of delimiters, with what is remembered before it, the text
    before it and the character after it. *)
Inductive event :=
| Link (st : list item) (image : bool) (label : list run) (g : target)
| Stray (later : list token)
| Bare (after : str)
| Raw (x : angle)
| Lone (after : str)
| Seen (st : list item) (a : str) (r : run) (y : N).

(** [scans E guard a st ts out]: [ts] is a cutting into tokens of what follows the text [a], with [st]
    remembered from [a]; [out] are the runs of the links of [ts] and those of [st] and [ts] outside
    links, after the pairing.  [guard] is a condition on the events. *)
Inductive scans (E : env) (guard : event -> Prop) : str -> list item -> list token -> list run -> Prop :=
| scans_end : forall a st out, paired [] (rev (runs_of st)) out -> scans E guard a st [] out
| scans_words : forall a st w ts out, w <> [] -> Forall inert w -> no_words ts ->
    (last w 0%N = 33%N -> hd 0%N (text_of ts) <> 91%N) ->
    scans E guard (a ++ w) st ts out -> scans E guard a st (Piece (Words w) :: ts) out
| scans_escape : forall a st c ts out, punctuation c ->
    scans E guard (a ++ spell1 (Escape c)) st ts out -> scans E guard a st (Piece (Escape c) :: ts) out
| scans_code : forall a st n w ts out, 1 <= n <= 1000 -> hd 96%N w <> 96%N -> last w 96%N <> 96%N ->
    last w 0%N <> 13%N -> no_ticks_of n w -> hd 0%N (text_of ts) <> 96%N ->
    scans E guard (a ++ spell1 (Code n w)) st ts out -> scans E guard a st (Piece (Code n w) :: ts) out
| scans_marks : forall a st c n o cl ts out, delimiter c -> 1 <= n -> hd 10%N (text_of ts) <> c ->
    (o = true <-> may_open E c (last a 10%N) (hd 10%N (text_of ts))) ->
    (cl = true <-> may_close E c (last a 10%N) (hd 10%N (text_of ts))) ->
    guard (Seen st a (mkRun (length a) c n o cl 0 0) (hd 10%N (text_of ts))) ->
    scans E guard (a ++ repeat c n) (Run (mkRun (length a) c n o cl 0 0) :: st) ts out ->
    scans E guard a st (Piece (Marks c n) :: ts) out
| scans_left : forall a st ts out,
    scans E guard (a ++ [91%N]) (Bracket false true :: st) ts out -> scans E guard a st (LeftBracket :: ts) out
| scans_image : forall a st ts out,
    scans E guard (a ++ [33%N; 91%N]) (Bracket true true :: st) ts out -> scans E guard a st (ImageBracket :: ts) out
| scans_right : forall a rs ts out,    (* no bracket is remembered *)
    scans E guard (a ++ [93%N]) (map Run rs) ts out -> scans E guard a (map Run rs) (RightBracket :: ts) out
| scans_close : forall a rs image active st ts out,
    active = false \/ (~ link_ahead (text_of ts) /\ guard (Bare (text_of ts))) ->
    scans E guard (a ++ [93%N]) (map Run rs ++ st) ts out ->
    scans E guard a (map Run rs ++ Bracket image active :: st) (RightBracket :: ts) out
| scans_link : forall a rs image st g ts inner out, well_formed E g -> guard (Link st image (rev rs) g) ->
    paired [] (rev rs) inner ->
    scans E guard (a ++ spelt (LinkTo g)) (if image then st else asleep st) ts out ->
    scans E guard a (map Run rs ++ Bracket image true :: st) (LinkTo g :: ts) (inner ++ out)
| scans_ticks : forall a st n ts out, 1 <= n -> hd 0%N (text_of ts) <> 96%N -> 1000 < n \/ no_ticks_of n (text_of ts) -> guard (Stray ts) ->
    scans E guard (a ++ repeat 96%N n) st ts out -> scans E guard a st (Ticks n :: ts) out
| scans_slash : forall a st ts out, ~ punctuation (hd 0%N (text_of ts)) ->
    scans E guard (a ++ [92%N]) st ts out -> scans E guard a st (Slash :: ts) out
| scans_amp : forall a st w ts out, Forall inert w -> plain_digits E w -> no_words ts ->
    (last w 0%N = 33%N -> hd 0%N (text_of ts) <> 91%N) ->
    scans E guard (a ++ 38%N :: w) st ts out -> scans E guard a st (Amp w :: ts) out
| scans_less : forall a st ts out, ~ angle_ahead (text_of ts) -> guard (Lone (text_of ts)) ->
    scans E guard (a ++ [60%N]) st ts out -> scans E guard a st (Less :: ts) out
| scans_angle : forall a st x ts out, genuine x -> guard (Raw x) ->
    scans E guard (a ++ show_angle x) st ts out -> scans E guard a st (Angle x :: ts) out.

(** ** The text without its emphasis: a run of [out] keeps [keep] of its delimiters. *)
Definition kept (keep : run -> nat) (out : list run) (at_ n : nat) : nat :=
  match find (fun r => r_start r =? at_) out with Some r => keep r | None => n end.
Fixpoint without (keep : run -> nat) (out : list run) (at_ : nat) (ts : list token) : str :=
  match ts with
  | [] => []
  | Piece (Marks c n) :: ts' => repeat c (kept keep out at_ n) ++ without keep out (at_ + n) ts'
  | t :: ts' => spelt t ++ without keep out (at_ + length (spelt t)) ts'
  end.

(** ** Labels whose closing runs all find what they close: [settled past next].  Nothing that could
    still open emphasis is left waiting when a closing run finds no partner. *)
Inductive settled : list run -> list run -> Prop :=
| settled_end : forall past, settled past []
| settled_pass : forall past c next,
    r_closes c = false \/ r_left c = 0 \/ (forall o, In o past -> r_opens o = false \/ r_left o = 0) ->
    settled (c :: past) next -> settled past (c :: next)
| settled_pair : forall mid o below c next, fits o c -> (forall x, In x mid -> ~ fits x c) ->
    settled (map shut mid ++ open_with (strength o c) o :: below)
            (close_with (strength o c) c :: next) ->
    settled (mid ++ o :: below) (c :: next).
(** What is asked of links: no delimiter is remembered before the label, or the label is settled; an
    image is in no other brackets that could start a link or an image, a link in none that could
    start an image; the title is in quotes that are not in it; neither the address nor the title has
    both an ampersand and a semicolon.  After stray backticks code spans are spread, the attributes of tags
    have values, no instruction ends with two question marks and no section with three brackets, an instruction
    has no at sign beside an angle bracket, there are no addresses with a scheme in angle brackets, and what only the
    program takes for raw HTML or for an address does not occur.  A closing bracket that ends no link is not followed by what only the program takes for
    a link, by a title at the end of the text, or by the label of a reference.  Runs are as in C58. *)
Definition no_entity (w : str) : Prop := ~ In 38%N w \/ ~ In 59%N w.
Definition handled (g : target) : Prop :=
  no_entity (show_place (t_place g)) /\
  match t_title g with None => True | Some (q, w) => q <> 40%N /\ ~ In q w /\ no_entity w end.
(** A title to the program: its quotes are not in it, and a quote closes a parenthesis. *)
Definition quoted (t : str) : Prop := exists q w,
  (In q [34; 39]%N /\ t = q :: w ++ [q] /\ ~ In q w) \/ (t = 40%N :: w ++ [39%N] /\ ~ In 40%N w /\ ~ In 41%N w).
Definition resembles : str -> str -> str -> Prop := begins (fun c => In c [9; 10; 12; 13; 32]%N) (fun c => ~ In c [9; 10; 12; 13; 32]%N) quoted.
(** The code spans have backticks in different numbers, and none has backticks in it in the number of a
    later one. *)
Definition spread (ts : list token) : Prop := forall u n w v m x,
  ts = u ++ Piece (Code n w) :: v -> In (Piece (Code m x)) v -> m <> n /\ no_ticks_of m w.
Definition calm (E : env) (e : event) : Prop :=
  match e with
  | Link st image label g =>
      (runs_of st = [] \/ settled [] label) /\ (forall i, In (Bracket i true) st -> i = false /\ image = false) /\ handled g
  | Bare w => ~ In 11%N w /\ (forall t rest, ~ resembles w t (41%N :: rest)) /\ (forall t, t <> [] -> ~ resembles w t []) /\
      (hd 0%N w = 91%N -> In (nth 1 w 0%N) [91; 93]%N)
  | Stray later => spread later
  | Raw (Tag (HtmlSpec.Open _ attrs _ _)) => forall a, In a attrs -> HtmlSpec.a_value a <> None
  | Raw (Tag (HtmlSpec.Instruction w)) => last w 0%N <> 63%N /\ (~ In 62%N w \/ ~ In 64%N w)
  | Raw (Tag (HtmlSpec.Cdata w)) => last w 0%N <> 93%N
  | Raw (Uri _ _) => False
  | Lone w => ~ mistaken w
  | Seen st a r y => unmistaken E (r_char r) a y /\ (r_char r = 95%N -> underscores_agree (r :: runs_of st))
  | Raw _ => True
  end.
(** What is assumed of the tables for text with ampersands: the names of entities are made of letters,
    digits and semicolons. *)
Definition entity_tables (E : env) : Prop :=
  digit_ascii E /\ e_entities E <> [] /\ Forall (fun e => Forall (fun c => is_letter c \/ is_digit c \/ c = 59%N) (fst e)) (e_entities E).
