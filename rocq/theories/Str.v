(** Python strings, integers printing, exceptions: the small part of the Python
    runtime that md-toc uses.  A [str] is a list of Unicode code points. *)
From Coq Require Import Ascii String List NArith ZArith Bool Arith.
From Coq Require Decimal Hexadecimal.
Import ListNotations.
Local Open Scope list_scope.

(** A Python string. *)
Definition str := list N.

(** Literals: [lit "abc"] is the Python literal ['abc'] (ASCII only). *)
Definition lit (s : string) : str := map N_of_ascii (list_ascii_of_string s).

(** Single characters used by the code. *)
Definition cTAB : N := 9.
Definition cLF : N := 10.
Definition cVT : N := 11.
Definition cFF : N := 12.
Definition cCR : N := 13.
Definition cSP : N := 32.
Definition cHASH : N := 35.
Definition cDASH : N := 45.
Definition cLB : N := 91.      (* [ *)
Definition cBS : N := 92.      (* backslash *)
Definition cRB : N := 93.      (* ] *)
Definition cUND : N := 95.
Definition cSTAR : N := 42.
Definition cTICK : N := 96.
Definition cTILDE : N := 126.

(** Exceptions raised by the modelled code (Python built-ins, and
    md_toc/exceptions.py:24-45).  [OutOfFuel] is an artefact of the model:
    theorems show that it is never produced. *)
Inductive exn :=
| ValueError | KeyError | IndexError | TypeError | AttributeError
| UnboundLocalError | UnicodeDecodeError | UnicodeEncodeError | FileNotFoundError
| GithubOverflowCharsLinkLabel | GithubEmptyLinkLabel
| GithubOverflowOrderedListMarker | StdinIsNotAFileToBeWritten
| TocDoesNotRenderAsCoherentList | StringCannotContainNewlines
| LineOutOfFileBoundsError
| OutOfFuel.

(** Result of a Python call: a value or an exception. *)
Inductive res (A : Type) := Ok (a : A) | Err (e : exn).
Arguments Ok {A} a.
Arguments Err {A} e.

(** Sequencing: an exception ends the computation. *)
Definition bind {A B} (r : res A) (f : A -> res B) : res B :=
  match r with Ok a => f a | Err e => Err e end.
Notation "'do' x <- r ; k" := (bind r (fun x => k))
  (at level 200, x name, r at level 100, k at level 200).
Notation "'do' ' p <- r ; k" := (bind r (fun z => match z with p => k end))
  (at level 200, p strict pattern, r at level 100, k at level 200).

(** Equality of strings ([==]). *)
Fixpoint seqb (a b : str) : bool :=
  match a, b with
  | [], [] => true
  | x :: a', y :: b' => N.eqb x y && seqb a' b'
  | _, _ => false
  end.

(** [c in s] for a one-character [c]. *)
Definition cin (c : N) (s : str) : bool := existsb (N.eqb c) s.

(** [str.startswith]. *)
Fixpoint startswith (p s : str) : bool :=
  match p, s with
  | [], _ => true
  | x :: p', y :: s' => N.eqb x y && startswith p' s'
  | _ :: _, [] => false
  end.

(** [str.lstrip]/[rstrip]/[strip] with a set of characters given as a predicate. *)
Fixpoint lstrip (p : N -> bool) (s : str) : str :=
  match s with
  | x :: s' => if p x then lstrip p s' else s
  | [] => []
  end.
(** [str.rstrip] (as above). *)
Definition rstrip (p : N -> bool) (s : str) : str := rev (lstrip p (rev s)).
(** [str.strip] (as above). *)
Definition strip (p : N -> bool) (s : str) : str := rstrip p (lstrip p s).

(** Slicing [s[a:b]] with non-negative bounds. *)
Definition slice (s : str) (a b : nat) : str := firstn (b - a) (skipn a s).

(** [s.replace(c, d)] for one-character strings, and [s.replace(c, '')]. *)
Definition replace_char (c d : N) (s : str) : str :=
  map (fun x => if N.eqb x c then d else x) s.
(** [s.replace(c, '')] (api.py:863). *)
Definition delete_char (c : N) (s : str) : str :=
  filter (fun x => negb (N.eqb x c)) s.

(** [s.replace('\r\n', '\n')]. *)
Fixpoint replace_crlf (s : str) : str :=
  match s with
  | [] => []
  | x :: s' =>
      if N.eqb x cCR then
        match s' with
        | y :: s'' => if N.eqb y cLF then cLF :: replace_crlf s'' else x :: replace_crlf s'
        | [] => [x]
        end
      else x :: replace_crlf s'
  end.

(** [s.split(c)] for a one-character separator. *)
Fixpoint split_char (c : N) (s : str) : list str :=
  match s with
  | [] => [[]]
  | x :: s' =>
      if N.eqb x c then [] :: split_char c s'
      else match split_char c s' with
           | p :: ps => (x :: p) :: ps
           | [] => [[x]]
           end
  end.

(** [sep.join(l)]. *)
Fixpoint join (sep : str) (l : list str) : str :=
  match l with
  | [] => []
  | [a] => a
  | a :: l' => a ++ sep ++ join sep l'
  end.

(** [str(n)] and ['{:x}'.format(n)]. *)
Fixpoint uint_str (u : Decimal.uint) : str :=
  match u with
  | Decimal.Nil => []
  | Decimal.D0 u => 48%N :: uint_str u
  | Decimal.D1 u => 49%N :: uint_str u
  | Decimal.D2 u => 50%N :: uint_str u
  | Decimal.D3 u => 51%N :: uint_str u
  | Decimal.D4 u => 52%N :: uint_str u
  | Decimal.D5 u => 53%N :: uint_str u
  | Decimal.D6 u => 54%N :: uint_str u
  | Decimal.D7 u => 55%N :: uint_str u
  | Decimal.D8 u => 56%N :: uint_str u
  | Decimal.D9 u => 57%N :: uint_str u
  end.

(** [str(n)] of a natural number (api.py:754, 1011). *)
Definition decN (n : N) : str := uint_str (N.to_uint n).
(** [str(n)] of an integer (api.py:754, 1011). *)
Definition dec (z : Z) : str :=
  match z with
  | Zneg p => 45%N :: decN (Npos p)
  | _ => decN (Z.to_N z)
  end.

(** Hexadecimal digits of ['{:x}'.format(n)]. *)
Fixpoint hexuint_str (u : Hexadecimal.uint) : str :=
  match u with
  | Hexadecimal.Nil => []
  | Hexadecimal.D0 u => 48%N :: hexuint_str u
  | Hexadecimal.D1 u => 49%N :: hexuint_str u
  | Hexadecimal.D2 u => 50%N :: hexuint_str u
  | Hexadecimal.D3 u => 51%N :: hexuint_str u
  | Hexadecimal.D4 u => 52%N :: hexuint_str u
  | Hexadecimal.D5 u => 53%N :: hexuint_str u
  | Hexadecimal.D6 u => 54%N :: hexuint_str u
  | Hexadecimal.D7 u => 55%N :: hexuint_str u
  | Hexadecimal.D8 u => 56%N :: hexuint_str u
  | Hexadecimal.D9 u => 57%N :: hexuint_str u
  | Hexadecimal.Da u => 97%N :: hexuint_str u
  | Hexadecimal.Db u => 98%N :: hexuint_str u
  | Hexadecimal.Dc u => 99%N :: hexuint_str u
  | Hexadecimal.Dd u => 100%N :: hexuint_str u
  | Hexadecimal.De u => 101%N :: hexuint_str u
  | Hexadecimal.Df u => 102%N :: hexuint_str u
  end.
(** ['{:x}'.format(n)] (api.py:1062-1063). *)
Definition hexN (n : N) : str := hexuint_str (N.to_hex_uint n).

(** ASCII classes. *)
Definition in_range (a b c : N) : bool := (N.leb a c && N.leb c b)%bool.
(** [A-Z] *)
Definition ascii_upper (c : N) : bool := in_range 65 90 c.
(** [a-z] *)
Definition ascii_lower (c : N) : bool := in_range 97 122 c.
(** [A-Za-z] *)
Definition ascii_alpha (c : N) : bool := (ascii_upper c || ascii_lower c)%bool.
(** [0-9] *)
Definition ascii_digit (c : N) : bool := in_range 48 57 c.
(** [A-Za-z0-9] *)
Definition ascii_alnum (c : N) : bool := (ascii_alpha c || ascii_digit c)%bool.

(** [string.punctuation]. *)
Definition ascii_punct (c : N) : bool :=
  (in_range 33 47 c || in_range 58 64 c || in_range 91 96 c || in_range 123 126 c)%bool.

(** [str.lower] on one ASCII character. *)
Definition ascii_tolower (c : N) : N := if ascii_upper c then (c + 32)%N else c.

(** Markdown parsers known to md-toc (md_toc/constants.py:67-291); [OtherParser]
    stands for any string that is not a key of that dictionary. *)
Inductive parser :=
| Github | Cmark | Gitlab | Commonmarker | Goldmark | Redcarpet | OtherParser.

(** [parser in ['github', 'cmark', 'gitlab', 'commonmarker', 'goldmark']], a test that
    occurs throughout md_toc/api.py (e.g. lines 631, 818, 922, 971, 1139, 1454). *)
Definition cm_family (p : parser) : bool :=
  match p with
  | Github | Cmark | Gitlab | Commonmarker | Goldmark => true
  | _ => false
  end.

(** [parser in ['github', 'commonmarker']] (md_toc/api.py:1179, 1495, 1600). *)
Definition gfm (p : parser) : bool :=
  match p with Github | Commonmarker => true | _ => false end.

(** The parts of Python's runtime that are data or cryptography rather than code:
    Unicode database, SHA-1, HTML5 entities.  Everything is proved for every [env]
    (possibly under [env_ok], which only constrains ASCII characters). *)
Record env := mkEnv {
  e_lower : str -> str;               (* str.lower *)
  e_word : N -> bool;                 (* regular expression \w *)
  e_digit : N -> bool;                (* regular expression \d *)
  e_space : N -> bool;                (* str.isspace, as used by str.strip() *)
  e_zs : N -> bool;                   (* unicodedata.category(c) == 'Zs' *)
  e_punct : N -> bool;                (* unicodedata.category(c).startswith('P') *)
  e_sha1 : str -> str;                (* hashlib.sha1(s.encode('UTF-8')).hexdigest() *)
  e_entities : list (str * (str * nat)) (* md_toc/constants.py:30-46: name, decoded
                                           bytes (with the final NUL), number of bytes *)
}.
