(** The subset of Python's [re] that md-toc uses: character classes, sequences,
    ordered alternatives, greedy repetition, negative lookahead, word boundary.
    The matcher is a total function (continuation passing, first match wins, exactly the
    search order of Python's backtracking engine); [prev] is the character before the
    current position, needed by \b. *)
From Coq Require Import List NArith Bool Arith.
From Verif Require Import Str.
Import ListNotations.

(** Syntax of the patterns (Python [re]; the patterns themselves are in HtmlRe.v and Write.v). *)
Inductive re :=
| RSet (p : N -> bool)      (* [...] or . or a single character *)
| REps                      (* empty *)
| RSeq (a b : re)           (* ab *)
| RAlt (a b : re)           (* a|b, a tried first *)
| RStar (a : re)            (* a*, greedy *)
| RNot (a : re)             (* (?!a) *)
| RWordB (w : N -> bool).   (* \b for the given \w *)

(** Word character at a position, false outside the string (Python's \b). *)
Definition is_word_at (w : N -> bool) (o : option N) : bool :=
  match o with Some c => w c | None => false end.

(** \b *)
Definition at_boundary (w : N -> bool) (prev : option N) (s : str) : bool :=
  xorb (is_word_at w prev) (is_word_at w (hd_error s)).

(** [rmatch r prev s k]: try to match [r] at the start of [s], then run [k] on what
    follows; the first success in Python's search order is returned.  An iteration of a
    star that consumes nothing is not followed (as in Python, where it would loop). *)
Fixpoint rmatch (r : re) (prev : option N) (s : str)
    (k : option N -> str -> option str) {struct r} : option str :=
  match r with
  | RSet p => match s with
              | x :: s' => if p x then k (Some x) s' else None
              | [] => None
              end
  | REps => k prev s
  | RSeq a b => rmatch a prev s (fun pv s' => rmatch b pv s' k)
  | RAlt a b => match rmatch a prev s k with
                | Some v => Some v
                | None => rmatch b prev s k
                end
  | RStar a =>
      (fix loop (n : nat) (prev : option N) (s : str) {struct n} : option str :=
         match (match n with
                | O => None
                | S n' => rmatch a prev s
                            (fun pv s' => if length s' <? length s then loop n' pv s' else None)
                end) with
         | Some v => Some v
         | None => k prev s
         end) (length s) prev s
  | RNot a => match rmatch a prev s (fun _ s' => Some s') with
              | Some _ => None
              | None => k prev s
              end
  | RWordB w => if at_boundary w prev s then k prev s else None
  end.

(** Building blocks. *)
Definition RChr (c : N) : re := RSet (N.eqb c).
(** a literal string *)
Fixpoint RLit (s : str) : re :=
  match s with
  | [] => REps
  | [c] => RChr c
  | c :: s' => RSeq (RChr c) (RLit s')
  end.
(** [...] *)
Definition ROneOf (s : str) : re := RSet (fun c => cin c s).
(** [^...] *)
Definition RNotIn (s : str) : re := RSet (fun c => negb (cin c s)).
Definition RAny : re := RSet (fun _ => true).       (* . with re.DOTALL *)
Definition RDot : re := RNotIn [cLF].                (* . without re.DOTALL *)
Definition RPlus (a : re) : re := RSeq a (RStar a).
(** a? *)
Definition ROpt (a : re) : re := RAlt a REps.
(** a{0,n} *)
Fixpoint RUpTo (n : nat) (a : re) : re :=
  match n with O => REps | S n' => RAlt (RSeq a (RUpTo n' a)) REps end.

(** [re.fullmatch(r, s) is not None]. *)
Definition fullmatch (r : re) (s : str) : bool :=
  match rmatch r None s (fun _ s' => match s' with [] => Some [] | _ => None end) with
  | Some _ => true
  | None => false
  end.

(** Length of the match of [re.match(r, s)], 0 if there is none (the code never
    distinguishes an empty match from no match: md_toc/cmark/scanners_c.py:77-91). *)
Definition matchlen (r : re) (s : str) : nat :=
  match rmatch r None s (fun _ s' => Some s') with
  | Some rest => length s - length rest
  | None => 0
  end.

(** [re.sub(r, '', s)] for a pattern that cannot match the empty string.  [skip] counts
    the characters of the current match still to be dropped. *)
Fixpoint resub (r : re) (prev : option N) (s : str) (skip : nat) {struct s} : str :=
  match s with
  | [] => []
  | x :: s' =>
      match skip with
      | S n => resub r (Some x) s' n
      | O => match rmatch r prev s (fun _ t => Some t) with
             | Some rest =>
                 match length s - length rest with
                 | O => x :: resub r (Some x) s' 0
                 | S n => resub r (Some x) s' n
                 end
             | None => x :: resub r (Some x) s' 0
             end
      end
  end.
(** [re.sub(r, '', s)] (api.py:828). *)
Definition re_delete (r : re) (s : str) : str := resub r None s 0.
