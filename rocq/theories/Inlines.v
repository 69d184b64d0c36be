(** Model of md_toc/cmark/inlines_c.py as used by remove_emphasis: the scanner that
    produces the list of character ranges to be removed ("ignore").

    Simplifications.  The tree of nodes built on the side is left out, and the doubly linked
    list of delimiters is a list, most recent first; a delimiter is identified by the position
    of its run, which is unique.  Pointers.v has both as linked objects, and C62_same_result
    (PropPointers.v) proves that the result is the same.  Smart punctuation is off (options = 0, api.py:871), so
    quotes, hyphens and periods are plain text.  NUL bytes have been removed by the caller
    (api.py:863), so the ValueError of _cmark_peek_char (391-402) is not modelled. *)
From Coq Require Import String List NArith ZArith Bool Arith.
From Verif Require Import Str Regex HtmlRe Fence Atx Entity.
Import ListNotations.
Local Open Scope list_scope.

(** inlines_c.py:127-151 _cmarkDelimiter.  [d_num] is [inl_text.length]; [d_len] is the
    original length; [d_start], [d_end] are the 0-based start and end of the run
    ([inl_text.start_column - 1] and [inl_text.end_column], inlines_c.py:217-228, 796). *)
Record delim := mkDelim {
  d_start : nat; d_end : nat; d_char : N; d_len : nat;
  d_open : bool; d_close : bool; d_num : nat; d_off : nat }.

(** inlines_c.py:154-172 _cmarkBracket.  [image] is always False (2066-2129 compares an
    int with a str), [position] and [bracket_after] only select a reference label, and the
    reference map is always empty (api.py:852, references_c.py:118-157). *)
Record bracket := mkBracket { b_prevdelim : option nat; b_active : bool }.

(** inlines_c.py:175-208 _cmarkSubject *)
Record subject := mkSubj {
  s_pos : nat;
  s_skip_cdata : bool; s_skip_decl : bool; s_skip_pi : bool;
  s_delims : list delim;
  s_brackets : list bracket;
  s_backticks : list (nat * nat);
  s_scanned : bool;
  s_ignore : list (nat * nat) }.

(** [subj.pos = n] *)
Definition set_pos (st : subject) (n : nat) : subject :=
  mkSubj n (s_skip_cdata st) (s_skip_decl st) (s_skip_pi st) (s_delims st) (s_brackets st)
    (s_backticks st) (s_scanned st) (s_ignore st).
(** [subj.flags = ...] (inlines_c.py:1095, 1103, 1111) *)
Definition set_flags (st : subject) (a b c : bool) : subject :=
  mkSubj (s_pos st) a b c (s_delims st) (s_brackets st) (s_backticks st) (s_scanned st) (s_ignore st).
(** [subj.last_delim = ...] *)
Definition set_delims (st : subject) (l : list delim) : subject :=
  mkSubj (s_pos st) (s_skip_cdata st) (s_skip_decl st) (s_skip_pi st) l (s_brackets st)
    (s_backticks st) (s_scanned st) (s_ignore st).
(** [subj.last_bracket = ...] *)
Definition set_brackets (st : subject) (l : list bracket) : subject :=
  mkSubj (s_pos st) (s_skip_cdata st) (s_skip_decl st) (s_skip_pi st) (s_delims st) l
    (s_backticks st) (s_scanned st) (s_ignore st).
(** [subj.backticks], [subj.scanned_for_backticks] (inlines_c.py:525-564) *)
Definition set_ticks (st : subject) (l : list (nat * nat)) (b : bool) : subject :=
  mkSubj (s_pos st) (s_skip_cdata st) (s_skip_decl st) (s_skip_pi st) (s_delims st) (s_brackets st)
    l b (s_ignore st).
(** [ignore] (inlines_c.py:2135-2161) *)
Definition set_ignore (st : subject) (l : list (nat * nat)) : subject :=
  mkSubj (s_pos st) (s_skip_cdata st) (s_skip_decl st) (s_skip_pi st) (s_delims st) (s_brackets st)
    (s_backticks st) (s_scanned st) l.

(** inlines_c.py:357-378 _cmark_subject_from_buf *)
Definition init_subject : subject := mkSubj 0 false false false [] [] [] false [].

(** cmark_ctype_c.py:35-40 _cmark_cmark_isspace, utf8_c.py:169-172 is_space *)
Definition cm_space (E : env) (c : N) : bool :=
  (e_zs E c || cin c [9%N; 10%N; 12%N; 13%N])%bool.
(** utf8_c.py:176-179 is_punctuation *)
Definition uc_punct (E : env) (c : N) : bool :=
  ((N.ltb c 128 && ascii_punct c) || e_punct E c)%bool.

(** What the scanner is given: the text [c_data] and the length [c_len] left after
    trimming its end. *)
Record chunk := mkChunk { c_data : str; c_len : nat }.
(** The part of the text that is scanned. *)
Definition c_inp (ch : chunk) : str := firstn (c_len ch) (c_data ch).

(** inlines_c.py:391-402 _cmark_peek_char: None stands for 0 (end of input) *)
Definition peek (ch : chunk) (pos : nat) : option N :=
  if pos <? c_len ch then nth_error (c_data ch) pos else None.
(** [peek_char(subj) == c] (inlines_c.py:391-402) *)
Definition peek_is (ch : chunk) (pos : nat) (c : N) : bool :=
  match peek ch pos with Some x => N.eqb x c | None => false end.
(** inlines_c.py:406-407 _cmark_peek_at *)
Definition peek_at (ch : chunk) (pos : nat) : res N :=
  match nth_error (c_data ch) pos with Some x => Ok x | None => Err IndexError end.

(** scanners_c.py:39-74 _cmark__scan_at *)
Definition scan_at (r : re) (ch : chunk) (offset : nat) : nat :=
  if c_len ch <? offset then 0 else matchlen r (skipn offset (c_data ch)).

(** inlines_c.py:525-564 _cmark_scan_to_closing_backticks *)
Definition MAXBACKTICKS : nat := 1000.
(** The list of 205, whose first 1000 entries are zeroed (386-387); entry 1000 keeps its
    initial value. *)
Fixpoint bt_get (l : list (nat * nat)) (n : nat) : nat :=
  match l with
  | (k, v) :: l' => if k =? n then v else bt_get l' n
  | [] => if n =? MAXBACKTICKS then MAXBACKTICKS else 0
  end.
(** The loop of inlines_c.py:538-560: [rest] is what follows position [pos], [run] the number of
    backticks just read. *)
Fixpoint close_ticks (rest : str) (pos run opn : nat) (bt : list (nat * nat))
    : option nat * list (nat * nat) :=
  let store := if run <=? MAXBACKTICKS then (run, pos - run) :: bt else bt in
  match rest with
  | c :: rest' =>
      if N.eqb c cTICK then close_ticks rest' (S pos) (S run) opn bt
      else if run =? 0 then close_ticks rest' (S pos) 0 opn bt
      else if run =? opn then (Some pos, store)
      else close_ticks rest' (S pos) 0 opn store
  | [] =>
      if run =? 0 then (None, bt)
      else if run =? opn then (Some pos, store)
      else (None, store)
  end.

(** inlines_c.py:604-626 _cmark_handle_backticks.  Of _cmark_S_normalize_code (571-598) only
    the exception is kept: it looks at the character after a CR, so a code span whose
    last character is a CR is an IndexError. *)
Definition handle_backticks (ch : chunk) (st : subject) : res subject :=
  let n := span_len (N.eqb cTICK) (skipn (s_pos st) (c_inp ch)) in
  let startpos := s_pos st + n in
  let st1 := set_pos st startpos in
  if MAXBACKTICKS <? n then Ok st1
  else if s_scanned st && (bt_get (s_backticks st) n <=? startpos) then Ok st1
  else
    match close_ticks (skipn startpos (c_inp ch)) startpos 0 n (s_backticks st) with
    | (Some endpos, bt) =>
        let code := slice (c_data ch) startpos (endpos - n) in
        if N.eqb (last code 0%N) cCR then Err IndexError
        else Ok (set_ticks (set_pos st endpos) bt (s_scanned st))
    | (None, bt) => Ok (set_ticks st1 bt true)
    end.

(** inlines_c.py:645-648: walk back over characters that look like UTF-8 continuation
    bytes *)
Definition looks_continuation (c : N) : bool := N.eqb (N.shiftr c 6) 2.
(** inlines_c.py:645-648: the loop *)
Fixpoint walk_back (data : str) (p : nat) : nat :=
  match p with
  | O => O
  | S p' => match nth_error data p with
            | Some c => if looks_continuation c then walk_back data p' else p
            | None => p
            end
  end.

(** inlines_c.py:630-703 _cmark_scan_delims for '*' and '_': length of the run, can_open,
    can_close *)
Definition scan_delims (E : env) (ch : chunk) (pos : nat) (c : N) : nat * bool * bool :=
  let before := match pos with
                | O => 10%N
                | S p => nth (walk_back (c_data ch) p) (c_data ch) 10%N
                end in
  let n := span_len (N.eqb c) (skipn pos (c_inp ch)) in
  let after := match peek ch (pos + n) with Some x => x | None => 10%N end in
  let sp := cm_space E in
  let pu := uc_punct E in
  let left := (0 <? n) && negb (sp after) && (negb (pu after) || sp before || pu before) in
  let right := (0 <? n) && negb (sp before) && (negb (pu before) || sp after || pu after) in
  if N.eqb c cUND then
    (n, left && (negb right || pu before), right && (negb left || pu after))
  else (n, left, right).

(** inlines_c.py:772-800 _cmark_handle_delim with 734-751 _cmark_push_delimiter *)
Definition handle_delim (E : env) (ch : chunk) (st : subject) (c : N) : subject :=
  let '(n, op, cl) := scan_delims E ch (s_pos st) c in
  let st1 := set_pos st (s_pos st + n) in
  if op || cl then
    set_delims st1 (mkDelim (s_pos st) (s_pos st + n) c n op cl n 0 :: s_delims st)
  else st1.

(** ** process_emphasis *)

Definition oid_eqb (a b : option nat) : bool :=
  match a, b with
  | Some x, Some y => x =? y
  | None, None => true
  | _, _ => false
  end.

(** inlines_c.py:888-902: index into openers_bottom *)
Definition bottom_index (d : delim) : res nat :=
  if N.eqb (d_char d) 34 then Ok 0
  else if N.eqb (d_char d) 39 then Ok 1
  else if N.eqb (d_char d) cUND then Ok 2
  else if N.eqb (d_char d) cSTAR then
    Ok (3 + (if d_open d then 3 else 0) + d_len d mod 3)
  else Err ValueError.

(** inlines_c.py:910-914: the "multiple of 3" rule *)
Definition can_match (opener closer : delim) : bool :=
  d_open opener && N.eqb (d_char opener) (d_char closer) &&
  (negb (d_open closer || d_close opener) || (d_len closer mod 3 =? 0)
   || negb ((d_len opener + d_len closer) mod 3 =? 0)).

(** inlines_c.py:904-917: look back for an opener, stopping at the bottom; returns the opener
    and what is below it *)
Fixpoint find_opener (before : list delim) (bottom : option nat) (closer : delim)
    : option (delim * list delim) :=
  match before with
  | [] => None
  | o :: below =>
      if oid_eqb (Some (d_start o)) bottom then None
      else if can_match o closer then Some (o, below)
      else find_opener below bottom closer
  end.

(** inlines_c.py:958-1046 _cmark_remove_emph: the used delimiters and the two ranges *)
Definition use_delims (opener closer : delim) : nat :=
  if (2 <=? d_num closer) && (2 <=? d_num opener) then 2 else 1.
(** inlines_c.py:958-1046: the range removed from the opener *)
Definition opener_range (u : nat) (o : delim) : nat * nat :=
  (d_end o - u - d_off o, d_end o - d_off o).
(** inlines_c.py:958-1046: the range removed from the closer *)
Definition closer_range (u : nat) (c : delim) : nat * nat :=
  (d_start c + d_off c, d_start c + u + d_off c).
(** inlines_c.py:958-1046: a run after some of its delimiters were used *)
Definition shrink (u : nat) (d : delim) : delim :=
  mkDelim (d_start d) (d_end d) (d_char d) (d_len d) (d_open d) (d_close d) (d_num d - u) (d_off d + u).

(** [openers_bottom[i] = v] (inlines_c.py:885-950) *)
Definition upd (f : nat -> option nat) (i : nat) (v : option nat) : nat -> option nat :=
  fun j => if j =? i then v else f j.

(** inlines_c.py:885-950, the main loop.  [before]: the delimiters before the current one,
    nearest first; [after]: the current one and those after it. *)
Fixpoint pe_loop (fuel : nat) (before after : list delim) (bottoms : nat -> option nat)
    (ignore : list (nat * nat)) : res (list delim * list (nat * nat)) :=
  match fuel with
  | O => Err OutOfFuel
  | S fuel' =>
      match after with
      | [] => Ok (before, ignore)
      | closer :: rest =>
          if d_close closer then
            do idx <- bottom_index closer;
            match find_opener before (bottoms idx) closer with
            | Some (opener, below) =>
                let u := use_delims opener closer in
                let o' := shrink u opener in
                let c' := shrink u closer in
                let before' := if d_num o' =? 0 then below else o' :: below in
                let after' := if d_num c' =? 0 then rest else c' :: rest in
                pe_loop fuel' before' after' bottoms
                  (ignore ++ [opener_range u opener; closer_range u closer])
            | None =>
                let bottoms' := upd bottoms idx (option_map d_start (hd_error before)) in
                pe_loop fuel' (if d_open closer then closer :: before else before) rest
                  bottoms' ignore
            end
          else pe_loop fuel' (closer :: before) rest bottoms ignore
      end
  end.

(** Delimiters above [bottom] (nearest to the top first), and the rest; None if [bottom]
    is not in the list. *)
Fixpoint split_at (bottom : nat) (l : list delim) : option (list delim * list delim) :=
  match l with
  | [] => None
  | d :: l' =>
      if d_start d =? bottom then Some ([], l)
      else match split_at bottom l' with
           | Some (a, b) => Some (d :: a, b)
           | None => None
           end
  end.

(** inlines_c.py:952-954: drop everything above the bottom *)
Fixpoint drop_until (bottom : option nat) (l : list delim) : list delim :=
  match l with
  | [] => []
  | d :: l' => if oid_eqb (Some (d_start d)) bottom then l else drop_until bottom l'
  end.

(** A bound for the number of iterations of the loop (not in the program). *)
Definition pe_measure (before after : list delim) : nat :=
  length after + fold_right (fun d n => d_num d + n) 0 (before ++ after).

(** inlines_c.py:862-954 _cmark_process_emphasis *)
Definition process_emphasis (st : subject) (bottom : option nat) : res subject :=
  let '(above, below) :=
    match bottom with
    | None => (s_delims st, [])
    | Some b => match split_at b (s_delims st) with
                | Some ab => ab
                | None => ([], s_delims st)     (* 881-883: closer runs off the list *)
                end
    end in
  let after := rev above in
  do '(stack, ign) <- pe_loop (S (pe_measure below after)) below after (fun _ => bottom) (s_ignore st);
  Ok (set_ignore (set_delims st (drop_until bottom stack)) ign).

(** ** Other inline constructs *)

(** inlines_c.py:1052-1136 _cmark_handle_pointy_brace; autolinks: 321-361.  Of the autolink
    only the exceptions of the entity decoder matter. *)
Definition autolink (E : env) (ch : chunk) (st : subject) (n : nat) : res subject :=
  let p := s_pos st in
  let url := strip (cm_space E) (slice (c_data ch) p (p + n - 1)) in
  do _ <- unescape_html_f E url;
  Ok (set_pos st (p + n)).

(** inlines_c.py:1077-1114: length matched after '<' by raw HTML (0: none) and the new flags *)
Definition html_inline (ch : chunk) (st : subject) (p : nat) : nat * (bool * bool * bool) :=
  let flags := (s_skip_cdata st, s_skip_decl st, s_skip_pi st) in
  if p + 2 <=? c_len ch then
    match nth_error (c_data ch) p, nth_error (c_data ch) (S p) with
    | Some c, Some d =>
        if N.eqb c 33 then
          if N.eqb d 45 then
            let n := scan_at re_scan_htmlcomment ch (p + 2) in
            ((if 0 <? n then n + 2 else 0), flags)
          else if N.eqb d cLB then
            if s_skip_cdata st then (0, flags)
            else
              let n := scan_at re_scan_cdata ch (p + 2) in
              if 0 <? n then
                if c_len ch <? p + (n + 5) then (0, (true, s_skip_decl st, s_skip_pi st))
                else (n + 5, flags)
              else (0, flags)
          else if s_skip_decl st then (0, flags)
          else
            let n := scan_at re_scan_declaration ch (p + 1) in
            if 0 <? n then
              if c_len ch <? p + (n + 2) then (0, (s_skip_cdata st, true, s_skip_pi st))
              else (n + 2, flags)
            else (0, flags)
        else if N.eqb c 63 then
          if s_skip_pi st then (0, flags)
          else
            let n := scan_at re_scan_pi ch (p + 1) in
            if c_len ch <? p + (n + 3) then (0, (s_skip_cdata st, s_skip_decl st, true))
            else (n + 3, flags)
        else (scan_at re_scan_htmltag ch p, flags)
    | _, _ => (0, flags)
    end
  else (0, flags).

(** inlines_c.py:1052-1136 _cmark_handle_pointy_brace *)
Definition handle_pointy_brace (E : env) (ch : chunk) (st : subject) : res subject :=
  let st := set_pos st (S (s_pos st)) in
  let p := s_pos st in
  let n := scan_at re_scan_autolink_uri ch p in
  if 0 <? n then autolink E ch st n
  else
    let n := scan_at re_scan_autolink_email ch p in
    if 0 <? n then autolink E ch st n
    else
      let '(n, (a, b, c)) := html_inline ch st p in
      Ok (set_flags (set_pos st (p + n)) a b c).

(** inlines_c.py:432-441 _cmark_skip_line_end *)
Definition skip_line_end (ch : chunk) (p : nat) : nat :=
  let p := if peek_is ch p cCR then S p else p in
  if peek_is ch p cLF then S p else p.

(** inlines_c.py:1141-1155 _cmark_handle_backslash *)
Definition handle_backslash (ch : chunk) (st : subject) : subject :=
  let p := S (s_pos st) in
  match peek ch p with
  | Some c => if ascii_punct c then set_pos st (S p) else set_pos st (skip_line_end ch p)
  | None => set_pos st p
  end.

(** inlines_c.py:1160-1175 _cmark_handle_entity *)
Definition handle_entity (E : env) (ch : chunk) (st : subject) : res subject :=
  let p := S (s_pos st) in
  do e <- unescape_ent E (skipn p (c_inp ch));
  match e with
  | Some (_, n) => Ok (set_pos st (p + n))
  | None => Ok (set_pos st p)
  end.

(** inlines_c.py:1501-1517 _cmark_handle_newline *)
Definition handle_newline (ch : chunk) (st : subject) : res subject :=
  do c <- peek_at ch (s_pos st);
  let p := if N.eqb c cCR then S (s_pos st) else s_pos st in
  do d <- peek_at ch p;
  let p := if N.eqb d cLF then S p else p in
  let n := span_len (fun x => N.eqb x cSP || N.eqb x cTAB) (skipn p (c_inp ch)) in
  Ok (set_pos st (p + n)).

(** inlines_c.py:1265-1298 _cmark_manual_scan_link_url_2: [s] is the input from the offset
    on; the result is the length of the URL, None for -1 *)
Fixpoint scan_url2 (E : env) (s : str) (i nb : nat) : option nat :=
  match s with
  | [] => None
  | c :: s' =>
      let plain := scan_url2 E s' (S i) nb in
      if N.eqb c cBS then
        match s' with
        | d :: s'' => if ascii_punct d then scan_url2 E s'' (S (S i)) nb else plain
        | [] => plain
        end
      else if N.eqb c 40 then
        if 32 <=? nb then None else scan_url2 E s' (S i) (S nb)
      else if N.eqb c 41 then
        match nb with
        | O => Some i
        | S nb' => scan_url2 E s' (S i) nb'
        end
      else if cm_space E c then
        if i =? 0 then None else if nb =? 0 then Some i else None
      else plain
  end.

(** inlines_c.py:1302-1329 _cmark_manual_scan_link_url, the part in pointy brackets: [s]
    starts after '<', [i] is its index; the result includes both brackets *)
Fixpoint scan_url1 (s : str) (i : nat) : option nat :=
  match s with
  | [] => None
  | c :: s' =>
      if N.eqb c 62 then match s' with [] => None | _ => Some (S i) end
      else if N.eqb c cBS then
        match s' with
        | _ :: s'' => scan_url1 s'' (S (S i))
        | [] => None
        end
      else if N.eqb c cLF || N.eqb c 60 then None
      else scan_url1 s' (S i)
  end.

(** Length consumed and URL text. *)
Definition scan_url (E : env) (ch : chunk) (offset : nat) : option (nat * str) :=
  let s := skipn offset (c_inp ch) in
  match s with
  | c :: s' =>
      if N.eqb c 60 then
        match scan_url1 s' 1 with
        | Some n => Some (n, slice (c_data ch) (S offset) (S offset + (n - 2)))
        | None => None
        end
      else match scan_url2 E s 0 0 with
           | Some n => Some (n, slice (c_data ch) offset (offset + n))
           | None => None
           end
  | [] => None
  end.

(** inlines_c.py:1181-1189 _cmark_cmark_clean_url (exceptions only) *)
Definition clean_url (E : env) (url : str) : res unit :=
  do b <- unescape_html_f E (strip (cm_space E) url);
  strbuf_unescape b.

(** inlines_c.py:1192-1212 _cmark_cmark_clean_title (exceptions only) *)
Definition clean_title (E : env) (t : str) : res unit :=
  match t with
  | [] => Ok tt
  | first :: _ =>
      let lst := last t 0%N in
      let body :=
        if ((N.eqb first 39 && N.eqb lst 39) || (N.eqb first 40 && N.eqb lst 41)
            || (N.eqb first 34 && N.eqb lst 34))%bool
        then firstn (length t - 2) (tl t) else t in
      do b <- unescape_html_f E body;
      strbuf_unescape b
  end.

(** inlines_c.py:1220-1261 _cmark_link_label at position [p]: the only outcome that does not
    restore the position is an exception.  After '[' the loop runs unless the next
    character is a bracket (at the end of input the "character" is chr(0), which is true);
    its body looks up the missing key 'max chars label'. *)
Definition ref_label (ch : chunk) (p : nat) : res unit :=
  if peek_is ch p cLB then
    if peek_is ch (S p) cLB || peek_is ch (S p) cRB then Ok tt else Err KeyError
  else Ok tt.

(** inlines_c.py:1475-1486: deactivate earlier brackets *)
Fixpoint deactivate (l : list bracket) : list bracket :=
  match l with
  | [] => []
  | b :: l' => if b_active b then mkBracket (b_prevdelim b) false :: deactivate l' else l
  end.

(** inlines_c.py:1382-1414, try to parse an inline link after ']' at position [p]: the
    position after the closing parenthesis *)
Definition inline_link (E : env) (ch : chunk) (p : nat) : res (option nat) :=
  if peek_is ch p 40 then
    let sps := scan_at re_scan_spacechars ch (S p) in
    match scan_url E ch (S p + sps) with
    | Some (n, url) =>
        let endurl := S p + sps + n in
        let starttitle := endurl + scan_at re_scan_spacechars ch endurl in
        let endtitle := if starttitle =? endurl then starttitle
                        else starttitle + scan_at re_scan_link_title ch starttitle in
        let endall := endtitle + scan_at re_scan_spacechars ch endtitle in
        do c <- peek_at ch endall;
        if N.eqb c 41 then
          do _ <- clean_url E url;
          do _ <- clean_title E (slice (c_data ch) starttitle endtitle);
          Ok (Some (S endall))
        else Ok None
    | None => Ok None
    end
  else Ok None.

(** inlines_c.py:1334-1495 _cmark_handle_close_bracket *)
Definition handle_close_bracket (E : env) (ch : chunk) (st : subject) : res subject :=
  let st := set_pos st (S (s_pos st)) in
  match s_brackets st with
  | [] => Ok st
  | b :: bs =>
      if negb (b_active b) then Ok (set_brackets st bs)
      else
        do l <- inline_link E ch (s_pos st);
        match l with
        | Some endpos =>
            do st' <- process_emphasis (set_pos st endpos) (b_prevdelim b);
            Ok (set_brackets st' (deactivate bs))
        | None =>
            do _ <- ref_label ch (s_pos st);
            Ok (set_brackets st bs)
        end
  end.

(** inlines_c.py:1521-2059 _cmark_subject_find_special_char: [rest] starts at index [n] *)
Definition special_char (c : N) : bool :=
  cin c [10%N; 13%N; 33%N; 38%N; 42%N; 60%N; 91%N; 92%N; 93%N; 95%N; 96%N].
(** inlines_c.py:1521-2059: the loop *)
Fixpoint find_special (rest : str) (n : nat) : res nat :=
  match rest with
  | [] => Ok n
  | c :: rest' =>
      if N.ltb 256 c then Ok n
      else if N.eqb c 256 then Err IndexError
      else if special_char c then Ok n
      else find_special rest' (S n)
  end.

(** inlines_c.py:2066-2129 _cmark_parse_inline *)
Definition parse_inline (E : env) (ch : chunk) (st : subject) (c : N) : res subject :=
  if N.eqb c cCR || N.eqb c cLF then handle_newline ch st
  else if N.eqb c cTICK then handle_backticks ch st
  else if N.eqb c cBS then Ok (handle_backslash ch st)
  else if N.eqb c 38 then handle_entity E ch st
  else if N.eqb c 60 then handle_pointy_brace E ch st
  else if N.eqb c cSTAR || N.eqb c cUND then Ok (handle_delim E ch st c)
  else if cin c [39%N; 34%N; 45%N; 46%N; 33%N] then Ok (set_pos st (S (s_pos st)))
  else if N.eqb c cLB then
    Ok (set_brackets (set_pos st (S (s_pos st)))
          (mkBracket (option_map d_start (hd_error (s_delims st))) true :: s_brackets st))
  else if N.eqb c cRB then handle_close_bracket E ch st
  else
    do n <- find_special (skipn (S (s_pos st)) (c_inp ch)) (S (s_pos st));
    Ok (set_pos st n).

(** inlines_c.py:2135-2161: the loop *)
Fixpoint parse_loop (fuel : nat) (E : env) (ch : chunk) (st : subject) : res subject :=
  match fuel with
  | O => Err OutOfFuel
  | S fuel' =>
      match peek ch (s_pos st) with
      | None => Ok st
      | Some c => do st' <- parse_inline E ch st c; parse_loop fuel' E ch st'
      end
  end.

(** chunk_h.py:59-64 _cmark_cmark_chunk_rtrim applied to the input (2148) *)
Definition trimmed (E : env) (s : str) : chunk :=
  mkChunk s (length (rstrip (cm_space E) s)).

(** inlines_c.py:2135-2161 _cmark_cmark_parse_inlines *)
Definition parse_inlines (E : env) (s : str) : res (list (nat * nat)) :=
  let ch := trimmed E s in
  do st <- parse_loop (S (length s)) E ch init_subject;
  do st <- process_emphasis st None;
  Ok (s_ignore st).

(** api.py:882-899 filter_indices_from_line *)
Fixpoint filter_from (i : nat) (s : str) (ranges : list (nat * nat)) : str :=
  match s with
  | [] => []
  | c :: s' =>
      if existsb (fun r => (fst r <=? i) && (i <? snd r)) ranges
      then filter_from (S i) s' ranges
      else c :: filter_from (S i) s' ranges
  end.
(** api.py:882-899 filter_indices_from_line *)
Definition filter_indices_from_line (s : str) (ranges : list (nat * nat)) : str :=
  filter_from 0 s ranges.

(** api.py:833-879 remove_emphasis (lines 875-877 are unreachable) *)
Definition remove_emphasis (E : env) (p : parser) (line : str) : res str :=
  match p with
  | OtherParser => Ok line
  | _ =>
      let line := delete_char 0 line in
      do ign <- parse_inlines E line;
      Ok (filter_indices_from_line line ign)
  end.
