(** Model of md_toc/api.py: anchor_link_punctuation_filter, build_anchor_link, get_md_header. *)
From Coq Require Import String List NArith ZArith Bool Arith.
From Verif Require Import Str Regex HtmlRe Fence Atx Entity Inlines.
Import ListNotations.
Local Open Scope list_scope.

(** api.py:902-933 anchor_link_punctuation_filter: [re.sub] of the class [^\w\- ].  With a
    parser outside the CommonMark family the local variable is never assigned. *)
Definition anchor_char (E : env) (c : N) : bool :=
  (e_word E c || N.eqb c cDASH || N.eqb c cSP)%bool.
(** api.py:902-933 anchor_link_punctuation_filter *)
Definition anchor_link_punctuation_filter (E : env) (p : parser) (s : str) : res str :=
  if cm_family p then Ok (filter (anchor_char E) s) else Err UnboundLocalError.

(** api.py:987-990, [re.sub('-+', '-', s)] *)
Fixpoint squeeze_dashes (s : str) : str :=
  match s with
  | [] => []
  | c :: s' =>
      if N.eqb c cDASH then
        match s' with
        | d :: _ => if N.eqb d cDASH then squeeze_dashes s' else c :: squeeze_dashes s'
        | [] => [c]
        end
      else c :: squeeze_dashes s'
  end.

(** api.py:971-990: the anchor before numbering of duplicates *)
Definition slug (E : env) (p : parser) (text : str) : res str :=
  let t := remove_html_tags E p (e_lower E text) in
  do t <- remove_emphasis E p t;
  do t <- anchor_link_punctuation_filter E p t;
  let t := replace_char cSP cDASH t in
  Ok (match p with Gitlab => squeeze_dashes t | _ => t end).

(** types.HeaderDuplicateCounter: a dictionary from checksums to counts. *)
Definition dupcount := list (str * Z).
(** [d[k]], 0 for an absent key (api.py:1006-1007) *)
Fixpoint dup_get (d : dupcount) (k : str) : Z :=
  match d with
  | [] => 0%Z
  | (k', v) :: d' => if seqb k' k then v else dup_get d' k
  end.
(** [d[k] = v] (api.py:1013) *)
Fixpoint dup_set (d : dupcount) (k : str) (v : Z) : dupcount :=
  match d with
  | [] => [(k, v)]
  | (k', w) :: d' => if seqb k' k then (k', v) :: d' else (k', w) :: dup_set d' k v
  end.

(** api.py:1000-1014: numbering of duplicates.  An absent key counts as 0 (lines 1006-1007).
    [encode('UTF-8')] cannot fail: no surrogate matches \w. *)
Definition number_anchor (E : env) (d : dupcount) (s : str) : str * dupcount :=
  let k := e_sha1 E s in
  let n := dup_get d k in
  (if (0 <? n)%Z then s ++ [cDASH] ++ dec n else s, dup_set d k (n + 1)).

(** api.py:1018: the STRIPPED characters of redcarpet *)
Definition rc_stripped (c : N) : bool := cin c (lit " -&+$,/:;=?@""#{}|^~[]`\*()%.!'").

(** api.py:1023-1043: the loop.  The inner loops over '<' and '&' advance a local copy of the
    loop variable, so only these two characters are skipped.  Result: the collected
    characters, [inserted > 0] and [stripped > 0] at the end. *)
Fixpoint rc_loop (s : str) (inserted stripped : bool) : str * bool * bool :=
  match s with
  | [] => ([], inserted, stripped)
  | c :: s' =>
      if N.eqb c 60 || N.eqb c 38 then rc_loop s' inserted stripped
      else if negb (N.leb c 127) || rc_stripped c then
        let '(t, i, st) := rc_loop s' inserted true in
        ((if inserted && negb stripped then cDASH :: t else t), i, st)
      else
        let '(t, i, st) := rc_loop s' true false in
        (ascii_tolower c :: t, i, st)
  end.

(** api.py:1052-1057: the djb2 hash *)
Definition rc_hash (s : str) : N := fold_left (fun h c => (h * 32 + h + c)%N) s 5381%N.

(** api.py:1015-1065 *)
Definition rc_anchor (s : str) : str :=
  let '(t, inserted, stripped) := rc_loop s false false in
  if negb inserted && (0 <? length s) then lit "part-" ++ hexN (rc_hash s)
  else if stripped && inserted then removelast t
  else t.

(** api.py:936-1067 build_anchor_link.  The result for an unknown parser is None. *)
Definition build_anchor_link (E : env) (p : parser) (d : dupcount) (text : str)
    : res (option str * dupcount) :=
  if 1 <? length (replace_and_split_newlines text) then Err StringCannotContainNewlines
  else if cm_family p then
    do s <- slug E p text;
    let '(a, d') := number_anchor E d s in
    Ok (Some a, d')
  else match p with
       | Redcarpet => Ok (Some (rc_anchor text), d)
       | _ => Ok (None, d)
       end.

(** types.Header (types.py) *)
Record header := mkHeader { hd_level : nat; hd_text : str; hd_anchor : option str; hd_visible : bool }.

(** api.py:1394-1414: the loop over the headings of a line *)
Fixpoint md_headers (E : env) (p : parser) (d : dupcount) (l : list (option heading))
    : res (list (option header) * dupcount) :=
  match l with
  | [] => Ok ([], d)
  | None :: l' =>
      do '(hs, d') <- md_headers E p d l';
      Ok (None :: hs, d')
  | Some h :: l' =>
      do '(a, d1) <- build_anchor_link E p d (h_text h);
      do '(hs, d2) <- md_headers E p d1 l';
      Ok (Some (mkHeader (h_level h) (h_text h) a (h_visible h)) :: hs, d2)
  end.

(** api.py:1359-1414 get_md_header *)
Definition get_md_header (E : env) (p : parser) (keep : Z) (no_links : bool) (d : dupcount) (line : str)
    : res (list (option header) * dupcount) :=
  do l <- get_atx_heading p keep no_links line;
  md_headers E p d l.
