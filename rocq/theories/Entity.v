(** Model of md_toc/cmark/houdini_html_u_c.py and of the buffer functions it uses.  A
    buffer is modelled by the string in its [ptr] field.  In buffer_c.py the field [size]
    is always at least [len(ptr)], so [strbuf_put] (buffer_c.py:150-181) appends
    [data[:length]] and [strbuf_putc] (138-147) appends its character.  Buffer.v
    has the buffers with their sizes and the exit for buffers larger than 2^30 characters, and
    C67_same_result (PropBuffer.v) proves that the result is the same. *)
From Coq Require Import String List NArith ZArith Bool Arith.
From Verif Require Import Str.
Import ListNotations.
Local Open Scope list_scope.

(** generic.py:189-220 _strncmp *)
Fixpoint str_cmp (a b : str) : comparison :=
  match a, b with
  | x :: a', y :: b' => match N.compare x y with Eq => str_cmp a' b' | c => c end
  | _, _ => Eq
  end.
(** generic.py:189-220 _strncmp: the shorter of the two truncated strings comes first *)
Definition strncmp (s1 s2 : str) (n : nat) : comparison :=
  let a := firstn n s1 in
  let b := firstn n s2 in
  match Nat.compare (length a) (length b) with
  | Eq => str_cmp a b
  | c => c
  end.

(** houdini_html_u_c.py:44-64 _cmark_S_lookup (binary search) *)
Fixpoint s_lookup (fuel : nat) (tbl : list (str * (str * nat))) (i low hi : nat) (s : str) (n : nat)
    : res (option str) :=
  match fuel with
  | O => Err OutOfFuel
  | S fuel' =>
      match nth_error tbl i with
      | None => Err IndexError
      | Some (name, (bytes, _)) =>
          match strncmp s name n with
          | Eq => if n =? length name then Ok (Some bytes) else Ok None
          | Lt => if low <? i then
                    let j := i - (i - low) / 2 in
                    let j := if j =? i then j - 1 else j in
                    s_lookup fuel' tbl j low (i - 1) s n
                  else Ok None
          | Gt => if i <? hi then
                    let j := i + (hi - i) / 2 in
                    let j := if j =? i then j + 1 else j in
                    s_lookup fuel' tbl j (i + 1) hi s n
                  else Ok None
          end
      end
  end.

(** houdini_html_u_c.py:68-72 _cmark_S_lookup_entity *)
Definition lookup_entity (E : env) (s : str) (n : nat) : res (option str) :=
  let tbl := e_entities E in
  s_lookup (S (length tbl)) tbl (length tbl / 2) 0 (length tbl - 1) s n.

(** houdini_html_u_c.py:85-98: decimal digits *)
Fixpoint dec_digits (E : env) (s : str) (cp : Z) (n : nat) : Z * nat * str :=
  match s with
  | c :: s' =>
      if e_digit E c then
        let cp := (cp * 10 + (Z.of_N c - 48))%Z in
        dec_digits E s' (if (1114112 <=? cp)%Z then 1114112%Z else cp) (S n)
      else (cp, n, s)
  | [] => (cp, n, s)
  end.

(** houdini_html_u_c.py:101-114: hexadecimal digits (the class is [\dA-Fa-f], where \d
    includes every Unicode decimal digit) *)
Definition hex_class (E : env) (c : N) : bool :=
  (e_digit E c || in_range 65 70 c || in_range 97 102 c)%bool.
(** houdini_html_u_c.py:101-114: the loop *)
Fixpoint hex_digits (E : env) (s : str) (cp : Z) (n : nat) : Z * nat * str :=
  match s with
  | c :: s' =>
      if hex_class E c then
        let cp := (cp * 16 + ((Z.of_N (N.lor c 32)) mod 39 - 9))%Z in
        hex_digits E s' (if (1114112 <=? cp)%Z then 1114112%Z else cp) (S n)
      else (cp, n, s)
  | [] => (cp, n, s)
  end.

(** utf8_c.py:123-139 _cmark_cmark_utf8proc_encode_char with utf8_c.py:35-59
    _cmark_encode_unknown *)
Definition encode_char (uc : Z) : res str :=
  if (uc <? 0)%Z then Err ValueError
  else if (1 <? uc)%Z then Ok [cTAB]
  else Ok (dec uc).

(** houdini_html_u_c.py:116-123 *)
Definition fix_codepoint (cp : Z) : Z :=
  if ((cp =? 0) || ((55296 <=? cp) && (cp <? 57344)) || (1114112 <=? cp))%Z%bool
  then 65533%Z else cp.

(** houdini_html_u_c.py:131-144, the loop over [range(2, size)]; [t] is the part of the
    source that starts at index [i] (the caller truncates the source to 32 characters,
    CMARK_ENTITY_MAX_LENGTH). *)
Fixpoint named_entity (E : env) (src t : str) (i : nat) : res (option (str * nat)) :=
  match t with
  | [] => Ok None
  | c :: t' =>
      if N.eqb c cSP then Ok None
      else if N.eqb c 59 then
        do e <- lookup_entity E src i;
        match e with
        | Some bytes => Ok (Some (bytes, S i))
        | None => Ok None
        end
      else named_entity E src t' (S i)
  end.

(** houdini_html_u_c.py:76-146 _cmark_houdini_unescape_ent.  [s] is the source truncated to
    [size].  Result: what is appended to the buffer and the number of characters consumed,
    or None for the return value 0. *)
Definition unescape_ent (E : env) (s : str) : res (option (str * nat)) :=
  if (3 <=? length s) && N.eqb (hd 0%N s) cHASH then
    match tl s with
    | c1 :: s1 =>
        let '(cp, num, rest, skip, maxd) :=
          if e_digit E c1 then
            let '(cp, n, rest) := dec_digits E (tl s) 0%Z 0 in (cp, n, rest, 1, 7)
          else if N.eqb c1 120 || N.eqb c1 88 then
            let '(cp, n, rest) := hex_digits E s1 0%Z 0 in (cp, n, rest, 2, 6)
          else (0%Z, 0, [], 0, 7) in
        if (1 <=? num) && (num <=? maxd) && N.eqb (hd 0%N rest) 59 then
          do b <- encode_char (fix_codepoint cp);
          Ok (Some (b, skip + num + 1))
        else Ok None
    | [] => Ok None
    end
  else
    let s32 := firstn 32 s in
    named_entity E s (skipn 2 s32) 2.

(** houdini_html_u_c.py:150-187 _cmark_houdini_unescape_html with 190-196
    _cmark_houdini_unescape_html_f: the contents of the buffer afterwards.  (The special
    return value 0 of the former only selects the copy of the whole source by the latter,
    which is what this function produces as well.) *)
Fixpoint unescape_html (fuel : nat) (E : env) (s : str) : res str :=
  match fuel with
  | O => Err OutOfFuel
  | S fuel' =>
      match s with
      | [] => Ok []
      | c :: s' =>
          if N.eqb c 38 then
            do e <- unescape_ent E s';
            match e with
            | Some (b, n) => do t <- unescape_html fuel' E (skipn n s'); Ok (b ++ t)
            | None => do t <- unescape_html fuel' E s'; Ok (38%N :: t)
            end
          else do t <- unescape_html fuel' E s'; Ok (c :: t)
      end
  end.
(** houdini_html_u_c.py:190-196 _cmark_houdini_unescape_html_f *)
Definition unescape_html_f (E : env) (s : str) : res str := unescape_html (S (length s)) E s.

(** buffer_c.py:306-343 _cmark_cmark_strbuf_unescape: only its exception matters (the
    result is stored in a node). A backslash that ends the buffer is an IndexError. *)
Fixpoint strbuf_unescape (s : str) : res unit :=
  match s with
  | [] => Ok tt
  | c :: s' =>
      if N.eqb c cBS then
        match s' with
        | [] => Err IndexError
        | d :: s'' => if ascii_punct d then strbuf_unescape s'' else strbuf_unescape s'
        end
      else strbuf_unescape s'
  end.
