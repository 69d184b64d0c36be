(** The inline parser with its linked structures: the doubly linked list of delimiters and
    the tree of inline nodes, object by object.  Inlines.v is the same program with the list
    of delimiters as a list and without the tree; PropPointers.v proves that both give the
    same result.

    An object is a number; attributes are read and written through it, so two names for the
    same object see each other's changes.  None is None.  [while] loops take fuel; running out
    of it is [OutOfFuel], which is not an exception of the program.

    Simplifications.  Objects are never reused (the program's [del] only drops a name).
    Of the attributes of a node only the links, the type, the length and the columns are kept;
    text, soft and hard line breaks, code and raw HTML all have type TEXT here (the operations
    below never tell them apart).  The text node made for a closing bracket is dropped by
    _cmark_parse_inline (inlines_c.py:2106-2107), so it is not made.  The bracket stack is a list
    (it is only pushed and popped). *)
From Coq Require Import String List NArith ZArith Bool Arith.
From Verif Require Import Str Regex HtmlRe Fence Atx Entity Inlines.
Import ListNotations.
Local Open Scope list_scope.

(** A reference to an object, or None. *)
Definition ptr := option nat.

(** cmark_h.py:45-83 _cmarkCmarkNodeType, the values used below *)
Definition NODE_NONE : nat := 0.
Definition NODE_DOCUMENT : nat := 1.
Definition NODE_BLOCK_QUOTE : nat := 2.
Definition NODE_LIST : nat := 3.
Definition NODE_ITEM : nat := 4.
Definition NODE_CUSTOM_BLOCK : nat := 7.
Definition NODE_PARAGRAPH : nat := 8.
Definition NODE_HEADING : nat := 9.
Definition NODE_THEMATIC_BREAK : nat := 10.
Definition NODE_TEXT : nat := 11.
Definition NODE_CUSTOM_INLINE : nat := 16.
Definition NODE_EMPH : nat := 17.
Definition NODE_STRONG : nat := 18.
Definition NODE_LINK : nat := 19.
Definition NODE_IMAGE : nat := 20.

(** ** Nodes *)

(** node_h.py:99-130 _cmarkCmarkNode: the links *)
Record link := mkLink { k_next : ptr; k_prev : ptr; k_parent : ptr; k_first : ptr; k_last : ptr }.
(** node_h.py:99-130 _cmarkCmarkNode: type, length, start_column, end_column *)
Record info := mkInfo { v_type : nat; v_len : nat; v_start : nat; v_end : nat }.
(** All nodes: those below [h_count] exist. *)
Record heap := mkHeap { h_link : nat -> link; h_info : nat -> info; h_count : nat }.

(** Change the value of a function at one place. *)
Definition put {A} (f : nat -> A) (x : nat) (v : A) : nat -> A := fun y => if y =? x then v else f y.

(** node_h.py:99-130: a new node has no links *)
Definition nolink : link := mkLink None None None None None.

(** [x.next], [x.prev], [x.parent], [x.first_child], [x.last_child], [x.type] (node_h.py:99-130) *)
Definition next_of (h : heap) (x : nat) : ptr := k_next (h_link h x).
Definition prev_of (h : heap) (x : nat) : ptr := k_prev (h_link h x).
Definition parent_of (h : heap) (x : nat) : ptr := k_parent (h_link h x).
Definition first_of (h : heap) (x : nat) : ptr := k_first (h_link h x).
Definition last_of (h : heap) (x : nat) : ptr := k_last (h_link h x).
Definition type_of (h : heap) (x : nat) : nat := v_type (h_info h x).

(** assignments to these attributes (node_h.py:99-130) *)
Definition set_link (h : heap) (x : nat) (l : link) : heap := mkHeap (put (h_link h) x l) (h_info h) (h_count h).
Definition set_next (h : heap) (x : nat) (v : ptr) : heap :=
  set_link h x (mkLink v (prev_of h x) (parent_of h x) (first_of h x) (last_of h x)).
Definition set_prev (h : heap) (x : nat) (v : ptr) : heap :=
  set_link h x (mkLink (next_of h x) v (parent_of h x) (first_of h x) (last_of h x)).
Definition set_parent (h : heap) (x : nat) (v : ptr) : heap :=
  set_link h x (mkLink (next_of h x) (prev_of h x) v (first_of h x) (last_of h x)).
Definition set_first (h : heap) (x : nat) (v : ptr) : heap :=
  set_link h x (mkLink (next_of h x) (prev_of h x) (parent_of h x) v (last_of h x)).
Definition set_last (h : heap) (x : nat) (v : ptr) : heap :=
  set_link h x (mkLink (next_of h x) (prev_of h x) (parent_of h x) (first_of h x) v).
(** [x.length = n] (node_h.py:110) *)
Definition set_len (h : heap) (x : nat) (n : nat) : heap :=
  mkHeap (h_link h) (put (h_info h) x (mkInfo (v_type (h_info h x)) n (v_start (h_info h x)) (v_end (h_info h x)))) (h_count h).

(** inlines_c.py:217-229 _cmark_make_literal, 233-237 _cmark_make_simple,
    241-260 _cmark_make_str, 263-273 _cmark_make_str_from_buf: a new node *)
Definition alloc (h : heap) (i : info) : heap * nat :=
  (mkHeap (put (h_link h) (h_count h) nolink) (put (h_info h) (h_count h) i) (S (h_count h)), h_count h).

(** inlines_c.py:293-305 _cmark_append_child *)
Definition append_child (h : heap) (node child : nat) : heap :=
  let old := last_of h node in
  let h := set_next h child None in
  let h := set_prev h child old in
  let h := set_parent h child (Some node) in
  let h := set_last h node (Some child) in
  match old with
  | Some l => set_next h l (Some child)
  | None => set_first h node (Some child)
  end.

(** node_c.py:200-216 _cmark_S_node_unlink *)
Definition s_node_unlink (h : heap) (x : nat) : heap :=
  let h := match prev_of h x with Some p => set_next h p (next_of h x) | None => h end in
  let h := match next_of h x with Some n => set_prev h n (prev_of h x) | None => h end in
  match parent_of h x with
  | Some p =>
      let h := if oid_eqb (first_of h p) (Some x) then set_first h p (next_of h x) else h in
      if oid_eqb (last_of h p) (Some x) then set_last h p (prev_of h x) else h
  | None => h
  end.

(** node_c.py:220-225 _cmark_cmark_node_unlink *)
Definition node_unlink (h : heap) (x : nat) : heap :=
  set_parent (set_prev (set_next (s_node_unlink h x) x None) x None) x None.

(** node_c.py:35-39 _cmark_S_is_block, 43-47 _cmark_S_is_inline *)
Definition is_block (t : nat) : bool := (NODE_DOCUMENT <=? t) && (t <=? NODE_THEMATIC_BREAK).
Definition is_inline (t : nat) : bool := (NODE_TEXT <=? t) && (t <=? NODE_IMAGE).

(** node_c.py:57-63: is [child] the node [cur] or one of its ancestors? *)
Fixpoint ancestor (fuel : nat) (h : heap) (cur : ptr) (child : nat) : res bool :=
  match cur with
  | None => Ok false
  | Some x =>
      match fuel with
      | O => Err OutOfFuel
      | S fuel' => if x =? child then Ok true else ancestor fuel' h (parent_of h x) child
      end
  end.

(** Is a number in a list of numbers? *)
Definition nin (n : nat) (l : list nat) : bool := existsb (Nat.eqb n) l.

(** node_c.py:51-93 _cmark_S_can_contain *)
Definition can_contain (h : heap) (node child : nat) : res bool :=
  if node =? child then Ok false
  else
    do up <- match first_of h child with
             | Some _ => ancestor (S (h_count h)) h (parent_of h node) child
             | None => Ok false
             end;
    if (up : bool) then Ok false
    else
      let t := type_of h child in
      let n := type_of h node in
      if t =? NODE_DOCUMENT then Ok false
      else if nin n [NODE_DOCUMENT; NODE_BLOCK_QUOTE; NODE_ITEM] then Ok (is_block t && negb (t =? NODE_ITEM))
      else if n =? NODE_LIST then Ok (t =? NODE_ITEM)
      else if n =? NODE_CUSTOM_BLOCK then Ok true
      else if nin n [NODE_PARAGRAPH; NODE_HEADING; NODE_EMPH; NODE_STRONG; NODE_LINK; NODE_IMAGE; NODE_CUSTOM_INLINE]
      then Ok (is_inline t)
      else Ok false.

(** node_c.py:229-257 _cmark_cmark_node_insert_before (the returned number is not used) *)
Definition insert_before (h : heap) (node sibling : nat) : res heap :=
  match parent_of h node with
  | None => Ok h
  | Some p =>
      do ok <- can_contain h p sibling;
      if negb ok then Ok h
      else
        let h := s_node_unlink h sibling in
        let old := prev_of h node in
        let h := match old with Some o => set_next h o (Some sibling) | None => h end in
        let h := set_prev h sibling old in
        let h := set_next h sibling (Some node) in
        let h := set_prev h node (Some sibling) in
        let h := set_parent h sibling (parent_of h node) in
        Ok match parent_of h node, old with
           | Some p, None => set_first h p (Some sibling)
           | _, _ => h
           end
  end.

(** node_c.py:260-288 _cmark_cmark_node_insert_after *)
Definition insert_after (h : heap) (node sibling : nat) : res heap :=
  match parent_of h node with
  | None => Ok h
  | Some p =>
      do ok <- can_contain h p sibling;
      if negb ok then Ok h
      else
        let h := s_node_unlink h sibling in
        let old := next_of h node in
        let h := match old with Some o => set_prev h o (Some sibling) | None => h end in
        let h := set_next h sibling old in
        let h := set_prev h sibling (Some node) in
        let h := set_next h node (Some sibling) in
        let h := set_parent h sibling (parent_of h node) in
        Ok match parent_of h node, old with
           | Some p, None => set_last h p (Some sibling)
           | _, _ => h
           end
  end.

(** node_c.py:98-141 _cmark_S_free_nodes (what it does to the data of a node is not kept) *)
Fixpoint free_nodes (fuel : nat) (h : heap) (e : ptr) : res heap :=
  match e with
  | None => Ok h
  | Some x =>
      match fuel with
      | O => Err OutOfFuel
      | S fuel' =>
          let h := match last_of h x with
                   | Some l => let h := set_next h l (next_of h x) in set_next h x (first_of h x)
                   | None => h
                   end in
          free_nodes fuel' h (next_of h x)
      end
  end.

(** node_c.py:145-148 _cmark_cmark_node_free *)
Definition node_free (h : heap) (x : nat) : res heap :=
  let h := set_next (s_node_unlink h x) x None in
  free_nodes (S (h_count h)) h (Some x).

(** inlines_c.py:1006-1011 and 1451-1456: move the nodes from [tmp] on, up to [stop], under
    [dst] *)
Fixpoint move (fuel : nat) (h : heap) (tmp stop : ptr) (dst : nat) : res heap :=
  match tmp with
  | None => Ok h
  | Some t =>
      if oid_eqb tmp stop then Ok h
      else
        match fuel with
        | O => Err OutOfFuel
        | S fuel' =>
            let tmpnext := next_of h t in
            let h := node_unlink h t in
            let h := append_child h dst t in
            move fuel' h tmpnext stop dst
        end
  end.

(** ** Delimiters *)

(** inlines_c.py:127-151 _cmarkDelimiter *)
Record cell := mkCell {
  l_prev : ptr; l_next : ptr; l_inl : nat; l_len : nat; l_char : N;
  l_open : bool; l_close : bool; l_off : nat }.

(** All objects: the nodes, the delimiters (those below [g_count] exist) and
    [subj.last_delim]. *)
Record graph := mkGraph { g_nodes : heap; g_cell : nat -> cell; g_count : nat; g_last : ptr }.

(** assignments to attributes of a delimiter and to [subj.last_delim]
    (inlines_c.py:127-151, 175-208), and to the nodes *)
Definition set_cell (g : graph) (a : nat) (k : cell) : graph :=
  mkGraph (g_nodes g) (put (g_cell g) a k) (g_count g) (g_last g).
Definition set_lprev (g : graph) (a : nat) (v : ptr) : graph :=
  let k := g_cell g a in
  set_cell g a (mkCell v (l_next k) (l_inl k) (l_len k) (l_char k) (l_open k) (l_close k) (l_off k)).
Definition set_lnext (g : graph) (a : nat) (v : ptr) : graph :=
  let k := g_cell g a in
  set_cell g a (mkCell (l_prev k) v (l_inl k) (l_len k) (l_char k) (l_open k) (l_close k) (l_off k)).
Definition set_off (g : graph) (a : nat) (n : nat) : graph :=
  let k := g_cell g a in
  set_cell g a (mkCell (l_prev k) (l_next k) (l_inl k) (l_len k) (l_char k) (l_open k) (l_close k) n).
Definition set_glast (g : graph) (v : ptr) : graph := mkGraph (g_nodes g) (g_cell g) (g_count g) v.
Definition set_nodes (g : graph) (h : heap) : graph := mkGraph h (g_cell g) (g_count g) (g_last g).

(** The attributes of a delimiter and of its text node in one record (inlines_c.py:127-151,
    966-969): how Inlines.v sees a delimiter. *)
Definition view (g : graph) (a : nat) : delim :=
  let k := g_cell g a in
  let i := h_info (g_nodes g) (l_inl k) in
  mkDelim (pred (v_start i)) (v_end i) (l_char k) (l_len k) (l_open k) (l_close k) (v_len i) (l_off k).

(** inlines_c.py:707-719 _cmark_remove_delimiter *)
Definition remove_delimiter (g : graph) (a : nat) : res graph :=
  do g <- match l_next (g_cell g a) with
          | None => if oid_eqb (Some a) (g_last g) then Ok (set_glast g (l_prev (g_cell g a)))
                    else Err ValueError
          | Some n => Ok (set_lprev g n (l_prev (g_cell g a)))
          end;
  match l_prev (g_cell g a) with
  | Some p => Ok (set_lnext g p (l_next (g_cell g a)))
  | None => Ok g
  end.

(** inlines_c.py:734-751 _cmark_push_delimiter *)
Definition push_delimiter (g : graph) (c : N) (can_open can_close : bool) (inl : nat) : graph :=
  let a := g_count g in
  let k := mkCell (g_last g) None inl (v_len (h_info (g_nodes g) inl)) c can_open can_close 0 in
  let g' := mkGraph (g_nodes g) (put (g_cell g) a k) (S a) (g_last g) in
  let g' := match l_prev k with Some p => set_lnext g' p (Some a) | None => g' end in
  set_glast g' (Some a).

(** inlines_c.py:881-883: move back to the first relevant delimiter *)
Fixpoint back (fuel : nat) (g : graph) (closer bottom : ptr) : res ptr :=
  match closer with
  | None => Ok None
  | Some c =>
      if oid_eqb (l_prev (g_cell g c)) bottom then Ok closer
      else match fuel with
           | O => Err OutOfFuel
           | S fuel' => back fuel' g (l_prev (g_cell g c)) bottom
           end
  end.

(** inlines_c.py:904-917: look back for an opener; None if there is none *)
Fixpoint search (fuel : nat) (g : graph) (opener bottom : ptr) (closer : nat) : res ptr :=
  match opener with
  | None => Ok None
  | Some o =>
      if oid_eqb opener bottom then Ok None
      else if can_match (view g o) (view g closer) then Ok (Some o)
      else match fuel with
           | O => Err OutOfFuel
           | S fuel' => search fuel' g (l_prev (g_cell g o)) bottom closer
           end
  end.

(** inlines_c.py:990-995: remove the delimiters between opener and closer *)
Fixpoint free_between (fuel : nat) (g : graph) (d : ptr) (opener : nat) : res graph :=
  match d with
  | None => Ok g
  | Some a =>
      if a =? opener then Ok g
      else match fuel with
           | O => Err OutOfFuel
           | S fuel' =>
               let tmp := l_prev (g_cell g a) in
               do g <- remove_delimiter g a;
               free_between fuel' g tmp opener
           end
  end.

(** [a - b], which the program never makes negative: the model stops if it would *)
Definition minus (a b : nat) : res nat := if a <? b then Err OutOfFuel else Ok (a - b).

(** inlines_c.py:958-1046 _cmark_remove_emph; also the new closer *)
Definition remove_emph (g : graph) (o c : nat) (ign : list (nat * nat))
    : res (graph * ptr * list (nat * nat)) :=
  let no := l_inl (g_cell g o) in
  let nc := l_inl (g_cell g c) in
  let u := use_delims (view g o) (view g c) in
  do a <- minus (v_len (h_info (g_nodes g) no)) u;
  do b <- minus (v_len (h_info (g_nodes g) nc)) u;
  let g := set_nodes g (set_len (set_len (g_nodes g) no a) nc b) in
  do g <- free_between (S (g_count g)) g (l_prev (g_cell g c)) o;
  let h := g_nodes g in
  let '(h, e) := alloc h (mkInfo (if u =? 1 then NODE_EMPH else NODE_STRONG) 0
                           (v_start (h_info h no)) (v_end (h_info h nc))) in
  do h <- move (S (h_count h)) h (next_of h no) (Some nc) e;
  do h <- insert_after h no e;
  let g := set_nodes g h in
  let ign := ign ++ [opener_range u (view g o); closer_range u (view g c)] in
  let g := set_off g o (l_off (g_cell g o) + u) in
  let g := set_off g c (l_off (g_cell g c) + u) in
  do g <- (if a =? 0 then
             do h <- node_free (g_nodes g) no;
             remove_delimiter (set_nodes g h) o
           else Ok g);
  if b =? 0 then
    do h <- node_free (g_nodes g) nc;
    let g := set_nodes g h in
    let tmp := l_next (g_cell g c) in
    do g <- remove_delimiter g c;
    Ok (g, tmp, ign)
  else Ok (g, Some c, ign).

(** inlines_c.py:885-950, the main loop *)
Fixpoint emph_loop (fuel : nat) (g : graph) (closer : ptr) (bottoms : nat -> ptr)
    (ign : list (nat * nat)) : res (graph * list (nat * nat)) :=
  match fuel with
  | O => Err OutOfFuel
  | S fuel' =>
      match closer with
      | None => Ok (g, ign)
      | Some c =>
          if l_close (g_cell g c) then
            do idx <- bottom_index (view g c);
            do opener <- search (S (g_count g)) g (l_prev (g_cell g c)) (bottoms idx) c;
            match opener with
            | Some o =>
                do '(g, closer, ign) <- remove_emph g o c ign;
                emph_loop fuel' g closer bottoms ign
            | None =>
                let closer := l_next (g_cell g c) in
                let bottoms := upd bottoms idx (l_prev (g_cell g c)) in
                do g <- (if l_open (g_cell g c) then Ok g else remove_delimiter g c);
                emph_loop fuel' g closer bottoms ign
            end
          else emph_loop fuel' g (l_next (g_cell g c)) bottoms ign
      end
  end.

(** inlines_c.py:952-954 (and 2156-2157, with None): remove delimiters from the end until
    [bottom] *)
Fixpoint drop_delims (fuel : nat) (g : graph) (bottom : ptr) : res graph :=
  match g_last g with
  | None => Ok g
  | Some a =>
      if oid_eqb (Some a) bottom then Ok g
      else match fuel with
           | O => Err OutOfFuel
           | S fuel' => do g <- remove_delimiter g a; drop_delims fuel' g bottom
           end
  end.

(** A bound for the number of iterations of the main loop (not in the program): the number of
    delimiters and of the characters in them. *)
Definition emph_bound (g : graph) : nat :=
  fold_right (fun a n => S (v_len (h_info (g_nodes g) (l_inl (g_cell g a)))) + n) 1 (seq 0 (g_count g)).

(** inlines_c.py:862-954 _cmark_process_emphasis *)
Definition process_ptr (g : graph) (bottom : ptr) (ign : list (nat * nat)) : res (graph * list (nat * nat)) :=
  do closer <- back (S (g_count g)) g (g_last g) bottom;
  do '(g, ign) <- emph_loop (emph_bound g) g closer (fun _ => bottom) ign;
  do g <- drop_delims (S (g_count g)) g bottom;
  Ok (g, ign).

(** ** The parser *)

(** inlines_c.py:154-172 _cmarkBracket *)
Record pbracket := mkPB { q_prev : ptr; q_active : bool; q_inl : nat }.

(** inlines_c.py:175-208 _cmarkSubject with all objects; the lists [s_delims] and
    [s_brackets] of [p_sub] stay empty *)
Record pstate := mkP { p_sub : subject; p_graph : graph; p_brackets : list pbracket }.

(** api.py:854 the root node, of type 0, is object 0 *)
Definition ROOT : nat := 0.
Definition init_graph : graph :=
  mkGraph (mkHeap (fun _ => nolink) (fun _ => mkInfo NODE_NONE 0 0 0) 1)
          (fun _ => mkCell None None 0 0 0%N false false 0) 0 None.

(** inlines_c.py:241-260 _cmark_make_str: a text node for the characters [i] to [j], excluded
    (columns are 1-based, inlines_c.py:226-227) *)
Definition make_text (g : graph) (i j : nat) : graph * nat :=
  let '(h, x) := alloc (g_nodes g) (mkInfo NODE_TEXT (j - i) (S i) j) in
  (set_nodes g h, x).
(** inlines_c.py:2126-2127: the new node becomes a child of the root *)
Definition add_child (g : graph) (x : nat) : graph := set_nodes g (append_child (g_nodes g) ROOT x).

(** A node for what lies between the position [i] and the new position *)
Definition add_leaf (P : pstate) (st : subject) : pstate :=
  let '(g, x) := make_text (p_graph P) (s_pos (p_sub P)) (s_pos st) in
  mkP st (add_child g x) (p_brackets P).

(** inlines_c.py:1052-1076: does an autolink start here? *)
Definition is_autolink (ch : chunk) (p : nat) : bool :=
  (0 <? scan_at re_scan_autolink_uri ch p) || (0 <? scan_at re_scan_autolink_email ch p).

(** inlines_c.py:335-353 _cmark_make_autolink: a link node with a text node in it *)
Definition add_autolink (P : pstate) (st : subject) : pstate :=
  let g := p_graph P in
  let i := s_pos (p_sub P) in
  let j := s_pos st in
  let '(h, x) := alloc (g_nodes g) (mkInfo NODE_LINK 0 (S i) j) in
  let '(g, y) := make_text (set_nodes g h) (S i) (pred j) in
  let g := set_nodes g (append_child (g_nodes g) x y) in
  mkP st (add_child g x) (p_brackets P).

(** inlines_c.py:772-800 _cmark_handle_delim *)
Definition handle_delim_ptr (E : env) (ch : chunk) (P : pstate) (c : N) : pstate :=
  let st := p_sub P in
  let '(n, op, cl) := scan_delims E ch (s_pos st) c in
  let st1 := set_pos st (s_pos st + n) in
  let '(g, x) := make_text (p_graph P) (s_pos st) (s_pos st + n) in
  let g := if op || cl then push_delimiter g c op cl x else g in
  mkP st1 (add_child g x) (p_brackets P).

(** inlines_c.py:1475-1486: deactivate earlier brackets *)
Fixpoint deactivate_ptr (l : list pbracket) : list pbracket :=
  match l with
  | [] => []
  | b :: l' => if q_active b then mkPB (q_prev b) false (q_inl b) :: deactivate_ptr l' else l
  end.

(** inlines_c.py:1334-1495 _cmark_handle_close_bracket *)
Definition close_bracket_ptr (E : env) (ch : chunk) (P : pstate) : res pstate :=
  let st := set_pos (p_sub P) (S (s_pos (p_sub P))) in
  match p_brackets P with
  | [] => Ok (mkP st (p_graph P) [])
  | b :: bs =>
      if negb (q_active b) then Ok (mkP st (p_graph P) bs)
      else
        do l <- inline_link E ch (s_pos st);
        match l with
        | Some endpos =>
            let h := g_nodes (p_graph P) in
            let '(h, x) := alloc h (mkInfo NODE_LINK 0 (v_start (h_info h (q_inl b))) endpos) in
            do h <- insert_before h (q_inl b) x;
            do h <- move (S (h_count h)) h (next_of h (q_inl b)) None x;
            do h <- node_free h (q_inl b);
            do '(g, ign) <- process_ptr (set_nodes (p_graph P) h) (q_prev b) (s_ignore st);
            Ok (mkP (set_ignore (set_pos st endpos) ign) g (deactivate_ptr bs))
        | None =>
            do _ <- ref_label ch (s_pos st);
            Ok (mkP st (p_graph P) bs)
        end
  end.

(** inlines_c.py:2066-2129 _cmark_parse_inline *)
Definition parse_inline_ptr (E : env) (ch : chunk) (P : pstate) (c : N) : res pstate :=
  let st := p_sub P in
  if N.eqb c cCR || N.eqb c cLF then do st' <- handle_newline ch st; Ok (add_leaf P st')
  else if N.eqb c cTICK then do st' <- handle_backticks ch st; Ok (add_leaf P st')
  else if N.eqb c cBS then Ok (add_leaf P (handle_backslash ch st))
  else if N.eqb c 38 then do st' <- handle_entity E ch st; Ok (add_leaf P st')
  else if N.eqb c 60 then
    do st' <- handle_pointy_brace E ch st;
    Ok (if is_autolink ch (S (s_pos st)) then add_autolink P st' else add_leaf P st')
  else if N.eqb c cSTAR || N.eqb c cUND then Ok (handle_delim_ptr E ch P c)
  else if cin c [39%N; 34%N; 45%N; 46%N; 33%N] then Ok (add_leaf P (set_pos st (S (s_pos st))))
  else if N.eqb c cLB then
    let st' := set_pos st (S (s_pos st)) in
    let '(g, x) := make_text (p_graph P) (s_pos st) (S (s_pos st)) in
    Ok (mkP st' (add_child g x) (mkPB (g_last g) true x :: p_brackets P))
  else if N.eqb c cRB then close_bracket_ptr E ch P
  else
    do n <- find_special (skipn (S (s_pos st)) (c_inp ch)) (S (s_pos st));
    Ok (add_leaf P (set_pos st n)).

(** inlines_c.py:2135-2161: the loop *)
Fixpoint parse_loop_ptr (fuel : nat) (E : env) (ch : chunk) (P : pstate) : res pstate :=
  match fuel with
  | O => Err OutOfFuel
  | S fuel' =>
      match peek ch (s_pos (p_sub P)) with
      | None => Ok P
      | Some c => do P' <- parse_inline_ptr E ch P c; parse_loop_ptr fuel' E ch P'
      end
  end.

(** inlines_c.py:2135-2161 _cmark_cmark_parse_inlines *)
Definition parse_inlines_ptr (E : env) (s : str) : res (list (nat * nat)) :=
  let ch := trimmed E s in
  do P <- parse_loop_ptr (S (length s)) E ch (mkP init_subject init_graph []);
  do '(g, ign) <- process_ptr (p_graph P) None (s_ignore (p_sub P));
  do g <- drop_delims (S (g_count g)) g None;
  Ok ign.

(** api.py:833-879 remove_emphasis *)
Definition remove_emphasis_ptr (E : env) (p : parser) (line : str) : res str :=
  match p with
  | OtherParser => Ok line
  | _ =>
      let line := delete_char 0 line in
      do ign <- parse_inlines_ptr E line;
      Ok (filter_indices_from_line line ign)
  end.
