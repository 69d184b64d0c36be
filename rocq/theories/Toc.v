(** Model of md_toc/api.py: list markers, ordered numbering, indentation, build_toc. *)
From Coq Require Import String List NArith ZArith Bool Arith.
From Verif Require Import Str Regex HtmlRe Fence Atx Entity Inlines Anchor.
Import ListNotations.
Local Open Scope list_scope.

(** constants.py:71, 78, 168, 172: admissible list markers *)
Definition closing_markers (p : parser) : list str :=
  match p with
  | Redcarpet => [lit "."]
  | OtherParser => []
  | _ => [lit "."; lit ")"]
  end.
(** constants.py:78, 172: bullet markers *)
Definition bullet_markers (p : parser) : list str :=
  match p with
  | OtherParser => []
  | _ => [lit "-"; lit "+"; lit "*"]
  end.
(** [s in l] *)
Definition sin (s : str) (l : list str) : bool := existsb (seqb s) l.

(** [parser in md_parser] (constants.py:67-291) *)
Definition known (p : parser) : bool := match p with OtherParser => false | _ => true end.

(** The check repeated at api.py:638-649 and 736-747. *)
Definition marker_ok (p : parser) (ordered : bool) (m : str) : bool :=
  negb (known p) || (if ordered then sin m (closing_markers p) else sin m (bullet_markers p)).

(** ** Ordered numbering *)

(** types.HeaderTypeCounter: 'h1', 'h2', ... to numbers; the key is the level *)
Definition typecount := list (Z * Z).
(** [d.get('h' + str(k))] *)
Fixpoint tc_get (d : typecount) (k : Z) : option Z :=
  match d with
  | [] => None
  | (k', v) :: d' => if (k' =? k)%Z then Some v else tc_get d' k
  end.
(** [d['h' + str(k)] = v] *)
Fixpoint tc_set (d : typecount) (k v : Z) : typecount :=
  match d with
  | [] => [(k, v)]
  | (k', w) :: d' => if (k' =? k)%Z then (k', v) :: d' else (k', w) :: tc_set d' k v
  end.

(** Parsers for which the size of an ordered list marker is checked (api.py:549): goldmark
    and redcarpet are not among them. *)
Definition limits_index (p : parser) : bool :=
  match p with Github | Cmark | Gitlab | Commonmarker => true | _ => false end.

(** api.py:513-552 increase_index_ordered_list *)
Definition increase_index (p : parser) (d : typecount) (prev curr : Z) : res typecount :=
  if (prev <? 0)%Z then Err ValueError
  else if (curr <? 1)%Z then Err ValueError
  else
    let prev := if (prev =? 0)%Z then curr else prev in
    let base := match tc_get d curr with
                | None => 0%Z
                | Some v => if (prev <? curr)%Z then 0%Z else v
                end in
    let n := (base + 1)%Z in
    if limits_index p && (999999999 <? n)%Z then Err GithubOverflowOrderedListMarker
    else Ok (tc_set d curr n).

(** ** Indentation *)

(** types.IndentationLogElement *)
Record ilog := mkIlog { il_index : Z; il_marker : str; il_spaces : Z }.

(** api.py:555-581 init_indentation_log; the entry of level i is element i-1 of the list *)
Definition init_indentation_log (p : parser) (m : str) : res (list ilog) :=
  if known p then Ok (repeat (mkIlog 0 m 0) 6) else Err KeyError.

(** [l[i]] *)
Definition log_get (l : list ilog) (i : Z) : res ilog :=
  if (i <? 1)%Z then Err KeyError
  else match nth_error l (Z.to_nat (i - 1)) with Some e => Ok e | None => Err KeyError end.

(** Update of one element. *)
Fixpoint list_upd {A} (l : list A) (n : nat) (f : A -> A) : list A :=
  match l, n with
  | [], _ => []
  | x :: l', O => f x :: l'
  | x :: l', S n' => x :: list_upd l' n' f
  end.
(** Update of [l[i]]. *)
Definition log_upd (l : list ilog) (i : Z) (f : ilog -> ilog) : res (list ilog) :=
  do _ <- log_get l i; Ok (list_upd l (Z.to_nat (i - 1)) f).

(** [l[i]['indentation spaces'] = n] *)
Definition set_spaces (n : Z) (e : ilog) : ilog := mkIlog (il_index e) (il_marker e) n.
(** [l[i]['index'] = n] *)
Definition set_index (n : Z) (e : ilog) : ilog := mkIlog n (il_marker e) (il_spaces e).
(** [l[i]['list marker'] = m] *)
Definition set_marker (m : str) (e : ilog) : ilog := mkIlog (il_index e) m (il_spaces e).

(** api.py:671-682: reset of the deeper levels *)
Definition reset_deeper (l : list ilog) (curr : Z) (m : str) : list ilog :=
  firstn (Z.to_nat curr) l ++ map (fun _ => mkIlog 0 m 0) (skipn (Z.to_nat curr) l).

(** api.py:584-693 compute_toc_line_indentation_spaces.  The dictionary argument has the keys
    1..n; a missing key is a KeyError.  An unknown parser leaves it unchanged. *)
Definition compute_indentation (p : parser) (ordered : bool) (m : str) (log : list ilog)
    (curr prev index : Z) : res (list ilog) :=
  if (curr <? 1)%Z then Err ValueError
  else if (prev <? 0)%Z then Err ValueError
  else if cm_family p && negb (length log =? 6) then Err ValueError
  else if (index <? 1)%Z then Err ValueError
  else if negb (marker_ok p ordered m) then Err ValueError
  else if cm_family p then
    do index_length <- (if ordered && negb (prev =? 0)%Z then
                          do e <- log_get log prev; Ok (Z.of_nat (length (dec (il_index e))))
                        else Ok 0%Z);
    do log <- (if (prev =? 0)%Z then log_upd log curr (set_spaces 0)
               else if (prev <? curr)%Z then
                 do e <- log_get log prev;
                 log_upd log curr
                   (set_spaces (il_spaces e + Z.of_nat (length (il_marker e)) + index_length + 1)%Z)
               else if (curr <? prev)%Z then Ok (reset_deeper log curr m)
               else Ok log);
    do log <- (if ordered then log_upd log curr (set_index index) else Ok log);
    log_upd log curr (set_marker m)
  else match p with
       | Redcarpet => log_upd log curr (set_spaces (4 * (curr - 1))%Z)
       | _ => Ok log
       end.

(** ** TOC lines *)

(** api.py:696-769 build_toc_line_without_indentation.  An unknown parser returns None; a
    header without an anchor makes the join fail (TypeError). *)
Definition toc_line_no_indent (p : parser) (ordered no_links : bool) (index : Z) (m : str) (h : header)
    : res (option str) :=
  if (Z.of_nat (hd_level h) <? 1)%Z then Err ValueError
  else if (index <? 1)%Z then Err ValueError
  else if negb (marker_ok p ordered m) then Err ValueError
  else if known p then
    let m := if ordered then dec index ++ m else m in
    do line <- (if no_links then Ok (hd_text h)
                else match hd_anchor h with
                     | Some a => Ok ([cLB] ++ hd_text h ++ [cRB] ++ lit "(#" ++ a ++ lit ")")
                     | None => Err TypeError
                     end);
    Ok (Some (m ++ [cSP] ++ line))
  else Ok None.

(** api.py:772-803 build_toc_line *)
Definition build_toc_line (line : str) (spaces : Z) : res str :=
  if (spaces <? 0)%Z then Err ValueError
  else Ok (repeat cSP (Z.to_nat spaces) ++ line).

(** ** build_toc *)

(** Options of build_toc (api.py:172-185).  [o_marker] = None is Python's None. *)
Record opts := mkOpts {
  o_ordered : bool; o_no_links : bool; o_no_indentation : bool; o_no_list_coherence : bool;
  o_keep : Z; o_parser : parser; o_marker : option str; o_skip : Z; o_constant : bool;
  o_newline : str }.

(** An open text file: the lines that readline returns one after the other (universal
    newlines: each is non-empty and ends with LF, except perhaps the last one), and whether
    reading on after them raises UnicodeDecodeError instead of giving the empty string. *)
Record doc := mkDoc { d_lines : list str; d_bad : bool }.

(** api.py:269-279: adjustment of the list marker.  A marker None behaves like a string that
    is in none of the marker lists: the empty string is used for it. *)
Definition fix_marker (o : opts) : res (bool * str) :=
  let p := o_parser o in
  let m := match o_marker o with Some m => m | None => [] end in
  do m <- (if o_ordered o then
             if known p then Ok (if seqb m (lit "-") then lit "." else m) else Err KeyError
           else Ok m);
  let ordered := o_ordered o || o_constant o in
  do m <- (if ordered then
             if known p then Ok (if sin m (closing_markers p) then m else lit ".") else Err KeyError
           else Ok m);
  Ok (ordered, m).

(** api.py:281-287: skip lines.  The decoding error of these reads is not caught. *)
Fixpoint skip (n : nat) (d : doc) : res doc :=
  match n with
  | O => Ok d
  | S n' => match d_lines d with
            | _ :: l => skip n' (mkDoc l (d_bad d))
            | [] => if d_bad d then Err UnicodeDecodeError else Ok d
            end
  end.

(** Local variables of the loop (api.py:246-251, 295-299). *)
Record state := mkState {
  t_toc : list str;             (* toc *)
  t_types : typecount;          (* header_type_counter *)
  t_prev : Z;                   (* header_type_prev *)
  t_first : Z;                  (* header_type_first *)
  t_dups : dupcount;            (* header_duplicate_counter *)
  t_log : list ilog;            (* indentation_log *)
  t_in : bool;                  (* is_within_code_fence *)
  t_fence : option str;         (* code_fence *)
  t_end : bool }.               (* is_document_end *)

(** api.py:246-251, 295-299: initial values *)
Definition init_state (log : list ilog) : state :=
  mkState [] [] 0 0 [] log false None false.

(** api.py:289-293, 317-320, 428-430: the comment about binary files *)
Definition binary_comment (filename : str) : str :=
  lit "<!--stop reading " ++ filename ++ lit ": probably a binary file-->".

(** api.py:354-420: a visible header.  [ordered] and [m] are the adjusted values. *)
Definition add_header (o : opts) (ordered : bool) (m : str) (st : state) (h : header) : res state :=
  let p := o_parser o in
  let curr := Z.of_nat (hd_level h) in
  do '(types, index) <-
     (if ordered && negb (o_constant o) then
        do t <- increase_index p (t_types st) (t_prev st) curr;
        Ok (t, match tc_get t curr with Some n => n | None => 0%Z end)
      else Ok (t_types st, 1%Z));
  do '(first, log, spaces) <-
     (if o_no_indentation o then Ok (t_first st, t_log st, 0%Z)
      else
        do '(first, prev) <-
           (if o_no_list_coherence o then Ok (t_first st, t_prev st)
            else
              let first := if (t_first st =? 0)%Z then curr else t_first st in
              let prev := if (t_prev st =? 0)%Z then curr else t_prev st in
              if ((curr <? first) || (prev + 1 <? curr))%Z then Err TocDoesNotRenderAsCoherentList
              else Ok (first, prev));
        do log <- compute_indentation p ordered m (t_log st) curr prev index;
        do e <- log_get log curr;
        Ok (first, log, il_spaces e));
  do line <- toc_line_no_indent p ordered (o_no_links o) index m h;
  match line with
  | None => Err TypeError
  | Some line =>
      do line <- build_toc_line line spaces;
      Ok (mkState (t_toc st ++ [line ++ o_newline o]) types curr first (t_dups st) log
            (t_in st) (t_fence st) (t_end st))
  end.

(** api.py:323-337: code fence detection; whether the line is looked at for a header, and the
    new state *)
Definition fence_step (p : parser) (line : str) (st : state) : bool * bool * option str :=
  let '(inside, fence) :=
    if t_in st then
      match t_fence st with
      | Some f => (negb (is_closing_code_fence p line f (t_end st)), Some f)
      | None => (true, None)
      end
    else match is_opening_code_fence p line with
         | Some f => (true, Some f)
         | None => (false, None)
         end in
  ((negb inside || match fence with None => true | Some _ => false end), inside, fence).

(** Update of is_within_code_fence and code_fence (api.py:323-337). *)
Definition set_fence (st : state) (inside : bool) (fence : option str) : state :=
  mkState (t_toc st) (t_types st) (t_prev st) (t_first st) (t_dups st) (t_log st) inside fence (t_end st).
(** [is_document_end = True] (api.py:313-315) *)
Definition set_end (st : state) : state :=
  mkState (t_toc st) (t_types st) (t_prev st) (t_first st) (t_dups st) (t_log st)
    (t_in st) (t_fence st) true.
(** Update of header_duplicate_counter by get_md_header (api.py:340-346). *)
Definition set_dups (st : state) (d : dupcount) : state :=
  mkState (t_toc st) (t_types st) (t_prev st) (t_first st) d (t_log st) (t_in st) (t_fence st) (t_end st).

(** api.py:323-424: one line, after the end-of-document detection.  [headers[0]] fails with
    an IndexError if the list is empty. *)
Definition line_step (E : env) (o : opts) (ordered : bool) (m : str) (line : str) (st : state) : res state :=
  let p := o_parser o in
  let '(look, inside, fence) := fence_step p line st in
  let st := set_fence st inside fence in
  if look then
    do '(hs, d) <- get_md_header E p (o_keep o) (o_no_links o) (t_dups st) line;
    let st := set_dups st d in
    match hs with
    | [] => Err IndexError
    | None :: _ => Ok st
    | Some h :: _ => if hd_visible h then add_header o ordered m st h else Ok st
    end
  else Ok st.

(** api.py:300-430: the loop.  The result None stands for the early return of the comment
    about binary files. *)
Fixpoint toc_loop (E : env) (o : opts) (stdin : bool) (ordered : bool) (m : str)
    (lines : list str) (bad : bool) (st : state) : res (option state) :=
  match lines with
  | [] => Ok (if bad then None else Some st)
  | line :: rest =>
      if negb stdin && match rest with [] => bad | _ => false end then Ok None
      else
        let st := if negb stdin && match rest with [] => true | _ => false end
                  then set_end st else st in
        do st <- line_step E o ordered m line st;
        toc_loop E o stdin ordered m rest bad st
  end.

(** api.py:172-436 build_toc, applied to the contents of the file.  [filename] is '-' for
    standard input. *)
Definition is_stdin (filename : str) : bool := seqb filename [cDASH].

(** api.py:172-436 build_toc *)
Definition build_toc (E : env) (o : opts) (filename : str) (d : doc) : res str :=
  if (o_skip o <? 0)%Z then Err ValueError
  else
    do '(ordered, m) <- fix_marker o;
    do d <- skip (Z.to_nat (o_skip o)) d;
    match d_lines d, d_bad d with
    | [], true => Ok (binary_comment filename)
    | _, _ =>
        do log <- init_indentation_log (o_parser o) m;
        do r <- toc_loop E o (is_stdin filename) ordered m (d_lines d) (d_bad d) (init_state log);
        match r with
        | None => Ok (binary_comment filename)
        | Some st => Ok (concat (t_toc st))
        end
    end.
