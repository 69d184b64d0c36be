(** Model of the string buffers of md_toc/cmark/buffer_c.py and of everything in
    houdini_html_u_c.py, chunk_h.py, utf8_c.py and inlines_c.py that writes to them.  Entity.v
    and Inlines.v have a buffer as its text only and keep of a clean-up only its exceptions;
    here a buffer has its three fields, grows, may end the program, and is changed in place.
    C67_same_result (PropBuffer.v) proves that both give the same result.

    Simplifications.  The field [mem] of a buffer is left out (never read).  A slice bound that is
    a field [size] is read as 0 if negative; sizes never are.  Node objects are left out
    (Pointers.v); the texts put into them are computed and dropped. *)
From Coq Require Import String List NArith ZArith Bool Arith.
From Verif Require Import Str Regex HtmlRe Fence Atx Entity Inlines.
From Verif Require Write.
Import ListNotations.
Local Open Scope list_scope.

(** How a piece of the program ends: with a value, with an exception or with sys.exit
    (buffer_c.py:86-89). *)
Inductive outcome (A : Type) := Done (a : A) | Raised (e : exn) | Exited.
Arguments Done {A} a.
Arguments Raised {A} e.
Arguments Exited {A}.
(** Sequence: what comes next runs only after a value (Python statements in order). *)
Definition obind {A B} (r : outcome A) (f : A -> outcome B) : outcome B :=
  match r with Done a => f a | Raised e => Raised e | Exited => Exited end.
Notation "'run' x <- r ; k" := (obind r (fun x => k)) (at level 200, x name, r at level 100, k at level 200).
Notation "'run' ' p <- r ; k" := (obind r (fun x => match x with p => k end)) (at level 200, p pattern, r at level 100, k at level 200).
(** A piece of the program that writes to no buffer. *)
Definition lift {A} (r : res A) : outcome A := match r with Ok a => Done a | Err e => Raised e end.

(** ** buffer_c.py *)
(** buffer_h.py:34-39 _cmarkCmarkStrbuf *)
Record buf := mkBuf { b_ptr : str; b_asize : Z; b_size : Z }.
(** buffer_h.py:46-50 _cmark_CMARK_BUF_INIT, buffer_c.py:55-63 _cmark_cmark_strbuf_init
    with initial size 0 *)
Definition buf_init : buf := mkBuf [] 0 0.
(** buffer_c.py:81: the largest number of _cmark_cmark_strbuf_grow *)
Definition INT32_MAX : Z := 2147483647.
(** buffer_c.py:72-106 _cmark_cmark_strbuf_grow.  [int(x / 2)] is [x / 2] rounded down: [x] is
    below 2^31, so that the division of floating-point numbers is exact. *)
Definition buf_grow (b : buf) (target : Z) : outcome buf :=
  if (target <=? 0)%Z then Raised ValueError
  else if (target <? b_asize b)%Z then Done b
  else
    let t := Z.land target INT32_MAX in
    if (INT32_MAX / 2 <? t)%Z then Exited
    else Done (mkBuf (b_ptr b) (Z.land (t + t / 2 + 1 + 7) (Z.lnot 7)) (b_size b)).
(** buffer_c.py:110-115 _cmark_cmark_strbuf_clear *)
Definition buf_clear (b : buf) : buf :=
  mkBuf (if (0 <? b_asize b)%Z then [] else b_ptr b) (b_asize b) 0.
(** buffer_c.py:119-133 _cmark_cmark_strbuf_set *)
Definition buf_set (b : buf) (data : str) (n : Z) : outcome buf :=
  if (n <=? 0)%Z then Done (buf_clear b)
  else if seqb data (b_ptr b) then Done (mkBuf (b_ptr b) (b_asize b) n)
  else
    run b <- (if (b_asize b <=? n)%Z then buf_grow b n else Done b);
    Done (mkBuf (firstn (Z.to_nat n) data ++ skipn (Z.to_nat n) (b_ptr b)) (b_asize b) n).
(** buffer_c.py:138-147 _cmark_cmark_strbuf_putc (with 67-68 _cmark_S_strbuf_grow_by) *)
Definition buf_putc (b : buf) (c : N) : outcome buf :=
  run b <- buf_grow b (b_size b + 1);
  Done (mkBuf (b_ptr b ++ [N.land c 255]) (b_asize b) (b_size b + 1)).
(** buffer_c.py:150-181 _cmark_cmark_strbuf_put; of a list of bytes [data] is the decoded text *)
Definition buf_put (b : buf) (data : str) (n : Z) : outcome buf :=
  if (n <=? 0)%Z then Done b
  else
    run b <- buf_grow b (b_size b + n);
    Done (mkBuf (firstn (Z.to_nat (b_size b)) (b_ptr b) ++ firstn (Z.to_nat n) data ++
                 skipn (Z.to_nat (b_size b + 1 + n)) (b_ptr b))
            (b_asize b) (b_size b + n)).
(** buffer_c.py:184-185 _cmark_cmark_strbuf_puts of a text *)
Definition buf_puts (b : buf) (data : str) : outcome buf := buf_put b data (Z.of_nat (length data)).
(** buffer_c.py:189-198 _cmark_cmark_strbuf_detach: what is returned (the buffer is not used
    afterwards) *)
Definition buf_detach (b : buf) : str := if (b_asize b =? 0)%Z then [] else b_ptr b.
(** buffer_c.py:227-232 _cmark_cmark_strbuf_truncate *)
Definition buf_truncate (b : buf) (n : Z) : buf :=
  let n := if (n <? 0)%Z then 0%Z else n in
  if (n <? b_size b)%Z then mkBuf (b_ptr b) (b_asize b) n else b.
(** buffer_c.py:239-248 _cmark_cmark_strbuf_drop *)
Definition buf_drop (b : buf) (n : Z) : buf :=
  if (0 <? n)%Z then
    let n := if (b_size b <? n)%Z then b_size b else n in
    let size := (b_size b - n)%Z in
    if (size =? 0)%Z then mkBuf (b_ptr b) (b_asize b) size
    else
      let s := b_ptr b in
      mkBuf (firstn (Z.to_nat n) s ++ slice s (Z.to_nat n) (Z.to_nat (size + n)) ++ skipn (Z.to_nat (n + size)) s)
        (b_asize b) size
  else b.
(** buffer_c.py:306-343 _cmark_cmark_strbuf_unescape: the loop.  [s] is the field [ptr]. *)
Fixpoint unescape_loop (fuel : nat) (s : str) (r w : nat) : res (str * nat) :=
  match fuel with
  | O => Err OutOfFuel
  | S fuel' =>
      match nth_error s r with
      | None => Ok (s, w)
      | Some c =>
          do r <- (if N.eqb c cBS then
                     match nth_error s (S r) with
                     | None => Err IndexError
                     | Some d => Ok (if ascii_punct d then S r else r)
                     end
                   else Ok r);
          match nth_error s r with
          | None => Err IndexError
          | Some d => unescape_loop fuel' (firstn w s ++ [d] ++ skipn (w + 1) s) (S r) (S w)
          end
      end
  end.
(** buffer_c.py:306-343 _cmark_cmark_strbuf_unescape *)
Definition buf_unescape (b : buf) : outcome buf :=
  run '(s, w) <- lift (unescape_loop (S (length (b_ptr b))) (b_ptr b) 0 0);
  Done (buf_truncate (mkBuf s (b_asize b) (b_size b)) (Z.of_nat w)).

(** ** utf8_c.py and houdini_html_u_c.py *)
(** utf8_c.py:123-139 _cmark_cmark_utf8proc_encode_char with utf8_c.py:35-59
    _cmark_encode_unknown, which writes one character and counts three *)
Definition encode_char_buf (uc : Z) (ob : buf) : outcome buf :=
  if (uc <? 0)%Z then Raised ValueError
  else if (1 <? uc)%Z || (1114112 <=? uc)%Z then buf_put ob [cTAB] 3
  else buf_put ob (dec uc) 1.

(** houdini_html_u_c.py:44-64 _cmark_S_lookup: the bytes found, decoded, and their number *)
Fixpoint s_lookup_bytes (fuel : nat) (tbl : list (str * (str * nat))) (i low hi : nat) (s : str) (n : nat)
    : res (option (str * nat)) :=
  match fuel with
  | O => Err OutOfFuel
  | S fuel' =>
      match nth_error tbl i with
      | None => Err IndexError
      | Some (name, bytes) =>
          match strncmp s name n with
          | Eq => if n =? length name then Ok (Some bytes) else Ok None
          | Lt => if low <? i then
                    let j := i - (i - low) / 2 in
                    let j := if j =? i then j - 1 else j in
                    s_lookup_bytes fuel' tbl j low (i - 1) s n
                  else Ok None
          | Gt => if i <? hi then
                    let j := i + (hi - i) / 2 in
                    let j := if j =? i then j + 1 else j in
                    s_lookup_bytes fuel' tbl j (i + 1) hi s n
                  else Ok None
          end
      end
  end.
(** houdini_html_u_c.py:68-72 _cmark_S_lookup_entity *)
Definition lookup_bytes (E : env) (s : str) (n : nat) : res (option (str * nat)) :=
  let tbl := e_entities E in
  s_lookup_bytes (S (length tbl)) tbl (length tbl / 2) 0 (length tbl - 1) s n.
(** houdini_html_u_c.py:131-144, the loop over [range(2, size)], with the write of 140 *)
Fixpoint named_entity_buf (E : env) (ob : buf) (src t : str) (i : nat) : outcome (buf * nat) :=
  match t with
  | [] => Done (ob, 0)
  | c :: t' =>
      if N.eqb c cSP then Done (ob, 0)
      else if N.eqb c 59 then
        run e <- lift (lookup_bytes E src i);
        match e with
        | Some (bytes, n) => run ob <- buf_put ob bytes (Z.of_nat n); Done (ob, S i)
        | None => Done (ob, 0)
        end
      else named_entity_buf E ob src t' (S i)
  end.
(** houdini_html_u_c.py:76-146 _cmark_houdini_unescape_ent: the buffer and the number of
    characters consumed (0: not an entity).  Every index is below [size]. *)
Definition unescape_ent_buf (E : env) (ob : buf) (src : str) (size : nat) : outcome (buf * nat) :=
  let s := firstn size src in
  if (3 <=? size) && N.eqb (hd 0%N s) cHASH then
    match tl s with
    | c1 :: s1 =>
        let '(cp, num, rest, skip, maxd) :=
          if e_digit E c1 then
            let '(cp, n, rest) := dec_digits E (tl s) 0%Z 0 in (cp, n, rest, 1, 7)
          else if N.eqb c1 120 || N.eqb c1 88 then
            let '(cp, n, rest) := hex_digits E s1 0%Z 0 in (cp, n, rest, 2, 6)
          else (0%Z, 0, [], 0, 7) in
        if (1 <=? num) && (num <=? maxd) && N.eqb (hd 0%N rest) 59 then
          run ob <- encode_char_buf (fix_codepoint cp) ob;
          Done (ob, skip + num + 1)
        else Done (ob, 0)
    | [] => Done (ob, 0)
    end
  else named_entity_buf E ob s (skipn 2 (firstn 32 s)) 2.
(** houdini_html_u_c.py:159-184, the outer loop from index [i]; the inner loop (161-162) goes to
    the next '&' or to [size] *)
Fixpoint html_loop (fuel : nat) (E : env) (ob : buf) (src : str) (size i : nat) : outcome (buf * bool) :=
  match fuel with
  | O => Raised OutOfFuel
  | S fuel' =>
      if i <? size then
        let org := i in
        let i := i + span_len (fun c => negb (N.eqb c 38)) (slice src i size) in
        if (org =? 0) && (org <? i) && (size <=? i) then Done (ob, false)
        else
          run ob <- (if (org <? i) && (org =? 0) then buf_grow ob (Z.of_nat size) else Done ob);
          run ob <- (if org <? i then buf_put ob (skipn org src) (Z.of_nat (i - org)) else Done ob);
          if size <=? i then Done (ob, true)
          else
            let i := S i in
            run '(ob, ent) <- unescape_ent_buf E ob (skipn i src) (size - i);
            let i := i + ent in
            run ob <- (if ent =? 0 then buf_putc ob 38%N else Done ob);
            html_loop fuel' E ob src size i
      else Done (ob, true)
  end.
(** houdini_html_u_c.py:150-187 _cmark_houdini_unescape_html: false stands for the result 0 *)
Definition unescape_html_buf (E : env) (ob : buf) (src : str) (size : nat) : outcome (buf * bool) :=
  html_loop (S size) E ob src size 0.
(** houdini_html_u_c.py:190-196 _cmark_houdini_unescape_html_f *)
Definition unescape_html_f_buf (E : env) (ob : buf) (src : str) (size : nat) : outcome buf :=
  run '(ob, b) <- unescape_html_buf E ob src size;
  if b then Done ob else buf_put ob src (Z.of_nat size).

(** ** chunk_h.py *)
(** chunk_h.py:52-55 _cmark_cmark_chunk_ltrim *)
Fixpoint chunk_ltrim (E : env) (data : str) (n : nat) : res chunk :=
  match n with
  | O => Ok (mkChunk data 0)
  | S n' =>
      match data with
      | [] => Err IndexError
      | c :: data' => if cm_space E c then chunk_ltrim E data' n' else Ok (mkChunk data n)
      end
  end.
(** chunk_h.py:59-64 _cmark_cmark_chunk_rtrim *)
Fixpoint chunk_rtrim (E : env) (data : str) (n : nat) : res chunk :=
  match n with
  | O => Ok (mkChunk data 0)
  | S n' =>
      match nth_error data n' with
      | None => Err IndexError
      | Some c => if cm_space E c then chunk_rtrim E data n' else Ok (mkChunk data n)
      end
  end.
(** chunk_h.py:68-70 _cmark_cmark_chunk_trim *)
Definition chunk_trim (E : env) (ch : chunk) : res chunk :=
  do ch <- chunk_ltrim E (c_data ch) (c_len ch);
  chunk_rtrim E (c_data ch) (c_len ch).
(** chunk_h.py:88-91 _cmark_cmark_chunk_dup *)
Definition chunk_dup (ch : chunk) (pos len : nat) : chunk := mkChunk (skipn pos (c_data ch)) len.

(** ** inlines_c.py *)
(** inlines_c.py:576-590, the loop of _cmark_S_normalize_code: the text, [w] and
    [contains_nonspace]; [n] is the number of iterations left *)
Fixpoint normalize_loop (n : nat) (s : str) (r w : nat) (nonspace : bool) : res (str * nat * bool) :=
  match n with
  | O => Ok (s, w, nonspace)
  | S n' =>
      match nth_error s r with
      | None => Err IndexError
      | Some c =>
          do '(s, w) <-
            (if N.eqb c cCR then
               match nth_error s (S r) with
               | None => Err IndexError
               | Some d =>
                   if N.eqb d cLF then Ok (s, w)
                   else do s <- Write.replace_substring s [cSP] (Z.of_nat w) (Z.of_nat w); Ok (s, S w)
               end
             else if N.eqb c cLF then
               do s <- Write.replace_substring s [cSP] (Z.of_nat w) (Z.of_nat w); Ok (s, S w)
             else do s <- Write.replace_substring s [c] (Z.of_nat w) (Z.of_nat w); Ok (s, S w));
          match nth_error s r with
          | None => Err IndexError
          | Some c => normalize_loop n' s (S r) w (nonspace || negb (N.eqb c cSP))
          end
      end
  end.
(** inlines_c.py:571-598 _cmark_S_normalize_code.  The loop runs [size] times; an index -1 (595,
    [w] = 0) is the last character. *)
Definition normalize_code (b : buf) : outcome buf :=
  run '(s, w, nonspace) <- lift (normalize_loop (Z.to_nat (b_size b)) (b_ptr b) 0 0 false);
  let b := mkBuf s (b_asize b) (b_size b) in
  let last := match w with O => List.last s 0%N | S w' => nth w' s 0%N end in
  if nonspace && N.eqb (hd 0%N s) cSP && N.eqb last cSP then
    Done (buf_truncate (buf_drop b 1) (Z.of_nat w - 2))
  else Done (buf_truncate b (Z.of_nat w)).

(** inlines_c.py:604-626 _cmark_handle_backticks *)
Definition handle_backticks_buf (ch : chunk) (st : subject) : outcome subject :=
  let n := span_len (N.eqb cTICK) (skipn (s_pos st) (c_inp ch)) in
  let startpos := s_pos st + n in
  let st1 := set_pos st startpos in
  if MAXBACKTICKS <? n then Done st1
  else if s_scanned st && (bt_get (s_backticks st) n <=? startpos) then Done st1
  else
    match close_ticks (skipn startpos (c_inp ch)) startpos 0 n (s_backticks st) with
    | (Some endpos, bt) =>
        run b <- buf_set buf_init (skipn startpos (c_data ch))
                   (Z.of_nat endpos - Z.of_nat startpos - Z.of_nat n);
        run b <- normalize_code b;
        let _ := buf_detach b in
        Done (set_ticks (set_pos st endpos) bt (s_scanned st))
    | (None, bt) => Done (set_ticks st1 bt true)
    end.

(** inlines_c.py:276-289 _cmark_make_str_with_entities: the text of the node (with 240-272) *)
Definition str_with_entities (E : env) (content : chunk) : outcome str :=
  run '(b, found) <- unescape_html_buf E buf_init (c_data content) (c_len content);
  Done (if found then buf_detach b else firstn (c_len content) (c_data content)).
(** inlines_c.py:321-331 _cmark_cmark_clean_autolink: the trimmed chunk and the target *)
Definition clean_autolink (E : env) (url : chunk) (is_email : bool) : outcome (chunk * str) :=
  run url <- lift (chunk_trim E url);
  run b <- (if is_email then buf_puts buf_init (lit "mailto:") else Done buf_init);
  run b <- unescape_html_f_buf E b (c_data url) (c_len url);
  Done (url, buf_detach b).
(** inlines_c.py:335-354 _cmark_make_autolink, called by 1063-1067 and 1072-1076 *)
Definition autolink_buf (E : env) (ch : chunk) (st : subject) (n : nat) (is_email : bool) : outcome subject :=
  let p := s_pos st in
  run '(url, _) <- clean_autolink E (chunk_dup ch p (n - 1)) is_email;
  run _ <- str_with_entities E url;
  Done (set_pos st (p + n)).
(** inlines_c.py:1052-1136 _cmark_handle_pointy_brace *)
Definition handle_pointy_brace_buf (E : env) (ch : chunk) (st : subject) : outcome subject :=
  let st := set_pos st (S (s_pos st)) in
  let p := s_pos st in
  let n := scan_at re_scan_autolink_uri ch p in
  if 0 <? n then autolink_buf E ch st n false
  else
    let n := scan_at re_scan_autolink_email ch p in
    if 0 <? n then autolink_buf E ch st n true
    else
      let '(n, (a, b, c)) := html_inline ch st p in
      Done (set_flags (set_pos st (p + n)) a b c).

(** inlines_c.py:1160-1175 _cmark_handle_entity *)
Definition handle_entity_buf (E : env) (ch : chunk) (st : subject) : outcome subject :=
  let p := S (s_pos st) in
  run '(b, n) <- unescape_ent_buf E buf_init (skipn p (c_data ch)) (c_len ch - p);
  let _ := buf_detach b in
  Done (set_pos st (p + n)).

(** inlines_c.py:1265-1329 _cmark_manual_scan_link_url: the length consumed and the chunk *)
Definition scan_url_chunk (E : env) (ch : chunk) (offset : nat) : option (nat * chunk) :=
  let s := skipn offset (c_inp ch) in
  match s with
  | c :: s' =>
      if N.eqb c 60 then
        match scan_url1 s' 1 with
        | Some n => Some (n, chunk_dup ch (S offset) (n - 2))
        | None => None
        end
      else match scan_url2 E s 0 0 with
           | Some n => Some (n, chunk_dup ch offset n)
           | None => None
           end
  | [] => None
  end.
(** inlines_c.py:1181-1189 _cmark_cmark_clean_url *)
Definition clean_url_buf (E : env) (url : chunk) : outcome str :=
  run url <- lift (chunk_trim E url);
  run b <- unescape_html_f_buf E buf_init (c_data url) (c_len url);
  run b <- buf_unescape b;
  Done (buf_detach b).
(** inlines_c.py:1192-1212 _cmark_cmark_clean_title: None for a title of length 0 *)
Definition clean_title_buf (E : env) (title : chunk) : outcome (option str) :=
  match c_len title with
  | O => Done None
  | S n =>
      match hd_error (c_data title), nth_error (c_data title) n with
      | Some first, Some lst =>
          run b <-
            (if ((N.eqb first 39 && N.eqb lst 39) || (N.eqb first 40 && N.eqb lst 41)
                 || (N.eqb first 34 && N.eqb lst 34))%bool
             then unescape_html_f_buf E buf_init (tl (c_data title)) (c_len title - 2)
             else unescape_html_f_buf E buf_init (c_data title) (c_len title));
          run b <- buf_unescape b;
          Done (Some (buf_detach b))
      | _, _ => Raised IndexError
      end
  end.
(** inlines_c.py:1382-1414: try to parse an inline link after ']' at position [p] *)
Definition inline_link_buf (E : env) (ch : chunk) (p : nat) : outcome (option nat) :=
  if peek_is ch p 40 then
    let sps := scan_at re_scan_spacechars ch (S p) in
    match scan_url_chunk E ch (S p + sps) with
    | Some (n, url) =>
        let endurl := S p + sps + n in
        let starttitle := endurl + scan_at re_scan_spacechars ch endurl in
        let endtitle := if starttitle =? endurl then starttitle
                        else starttitle + scan_at re_scan_link_title ch starttitle in
        let endall := endtitle + scan_at re_scan_spacechars ch endtitle in
        run c <- lift (peek_at ch endall);
        if N.eqb c 41 then
          run _ <- clean_url_buf E url;
          run _ <- clean_title_buf E (chunk_dup ch starttitle (endtitle - starttitle));
          Done (Some (S endall))
        else Done None
    | None => Done None
    end
  else Done None.
(** inlines_c.py:1334-1495 _cmark_handle_close_bracket *)
Definition handle_close_bracket_buf (E : env) (ch : chunk) (st : subject) : outcome subject :=
  let st := set_pos st (S (s_pos st)) in
  match s_brackets st with
  | [] => Done st
  | b :: bs =>
      if negb (b_active b) then Done (set_brackets st bs)
      else
        run l <- inline_link_buf E ch (s_pos st);
        match l with
        | Some endpos =>
            run st' <- lift (process_emphasis (set_pos st endpos) (b_prevdelim b));
            Done (set_brackets st' (deactivate bs))
        | None =>
            run _ <- lift (ref_label ch (s_pos st));
            Done (set_brackets st bs)
        end
  end.
(** inlines_c.py:2066-2129 _cmark_parse_inline.  The characters that write to no buffer are as in
    Inlines.v. *)
Definition parse_inline_buf (E : env) (ch : chunk) (st : subject) (c : N) : outcome subject :=
  if N.eqb c cTICK then handle_backticks_buf ch st
  else if N.eqb c 38 then handle_entity_buf E ch st
  else if N.eqb c 60 then handle_pointy_brace_buf E ch st
  else if N.eqb c cRB then handle_close_bracket_buf E ch st
  else lift (parse_inline E ch st c).
(** inlines_c.py:2135-2161: the loop *)
Fixpoint parse_loop_buf (fuel : nat) (E : env) (ch : chunk) (st : subject) : outcome subject :=
  match fuel with
  | O => Raised OutOfFuel
  | S fuel' =>
      match peek ch (s_pos st) with
      | None => Done st
      | Some c => run st' <- parse_inline_buf E ch st c; parse_loop_buf fuel' E ch st'
      end
  end.
(** inlines_c.py:2135-2161 _cmark_cmark_parse_inlines; the end of the text is trimmed (2148) *)
Definition parse_inlines_buf (E : env) (s : str) : outcome (list (nat * nat)) :=
  run ch <- lift (chunk_rtrim E s (length s));
  run st <- parse_loop_buf (S (length s)) E ch init_subject;
  run st <- lift (process_emphasis st None);
  Done (s_ignore st).
(** api.py:833-879 remove_emphasis *)
Definition remove_emphasis_buf (E : env) (p : parser) (line : str) : outcome str :=
  match p with
  | OtherParser => Done line
  | _ =>
      let line := delete_char 0 line in
      run ign <- parse_inlines_buf E line;
      Done (filter_indices_from_line line ign)
  end.
