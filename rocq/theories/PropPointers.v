(** C62: the objects behind remove_emphasis, which point to each other. *)
From Coq Require Import String List NArith Bool Arith Lia.
From Coq Require Import Relation_Operators.
From Verif Require Import Str Spec EnvSpec Regex HtmlRe Fence Atx Entity Inlines AsciiEnv HelperSpec EntityProof EmphSpec
  DelimSpec LinkSpec InlineProof InlineRead Pointers PointersTree PointersForest PointersList PointersEmph PointersRun PropEmphasis PropLinks.
Import ListNotations.
Local Open Scope list_scope.

(** ** What the words mean *)
(** From [start] on, the references [f] lead through exactly the objects of the list. *)
Inductive walk (f : nat -> option nat) : option nat -> list nat -> Prop :=
| walk_end : walk f None []
| walk_on : forall a l, walk f (f a) l -> walk f (Some a) (a :: l).
(** The references [f] never lead from an object back to it. *)
Definition acyclic (f : nat -> option nat) : Prop := forall x, ~ clos_trans nat (fun a b => f a = Some b) x x.
(** The states the program goes through while it reads a text. *)
Inductive reached (E : env) (ch : chunk) : pstate -> Prop :=
| reached_start : reached E ch (mkP init_subject init_graph [])
| reached_step : forall P P' c, reached E ch P -> peek ch (s_pos (p_sub P)) = Some c -> parse_inline_ptr E ch P c = Ok P' -> reached E ch P'.

(** These, and the state after the emphasis of the whole text has been found. *)
Inductive moment (E : env) (ch : chunk) : pstate -> Prop :=
| reading : forall P, reached E ch P -> moment E ch P
| finished : forall P g ign, reached E ch P -> peek ch (s_pos (p_sub P)) = None -> process_ptr (p_graph P) None (s_ignore (p_sub P)) = Ok (g, ign) ->
    moment E ch (mkP (p_sub P) g (p_brackets P)).
(** The nodes in use: the root, all links and emphases, the text nodes of the delimiters in the list and of the
    open brackets, and all nodes that references lead to from there. *)
Inductive in_use (P : pstate) : nat -> Prop :=
| use_root : in_use P ROOT
| use_branch : forall x, x < h_count (g_nodes (p_graph P)) -> type_of (g_nodes (p_graph P)) x <> NODE_TEXT -> in_use P x
| use_delimiter : forall l a, walk (fun a => l_prev (g_cell (p_graph P) a)) (g_last (p_graph P)) l -> In a l -> in_use P (l_inl (g_cell (p_graph P) a))
| use_bracket : forall b, In b (p_brackets P) -> in_use P (q_inl b)
| use_next : forall x y, in_use P x -> next_of (g_nodes (p_graph P)) x = Some y -> in_use P y
| use_prev : forall x y, in_use P x -> prev_of (g_nodes (p_graph P)) x = Some y -> in_use P y
| use_parent : forall x y, in_use P x -> parent_of (g_nodes (p_graph P)) x = Some y -> in_use P y
| use_first : forall x y, in_use P x -> first_of (g_nodes (p_graph P)) x = Some y -> in_use P y
| use_last : forall x y, in_use P x -> last_of (g_nodes (p_graph P)) x = Some y -> in_use P y.

Lemma reached_rel E ch P : reached E ch P -> exists st, rel P st /\ inv anywhere ch st.
Proof.
  induction 1 as [|P P' c R IH Pk St]; [exists init_subject; split; [apply rel_init|apply inv_init]|]. destruct IH as (st & Rl & Iv).
  assert (Ep : s_pos st = s_pos (p_sub P)) by (destruct Rl as (L & _ & _ & -> & _); reflexivity). rewrite <- Ep in Pk.
  assert (A := inline_alike E ch P st c Rl Iv Pk). assert (K := parse_inline_ok anywhere E ch st c Iv Pk (fun _ _ _ => I)). rewrite St in A.
  destruct (parse_inline E ch st c) as [st'|e]; [|contradiction]. exists st'. split; [exact A|apply K].
Qed.

Lemma moment_core E ch P : moment E ch P -> exists L, dinv (p_graph P) L /\ ginv (p_graph P) /\ groves (p_graph P) L (p_brackets P).
Proof.
  intros [P' R|P' g ign R _ Ep]; destruct (reached_rel E ch P' R) as (st & (L & D & G & Est & _ & _ & _ & Gv) & (Iv & _)); [exists L; auto|]. cbn [p_graph p_brackets].
  destruct (process_same (p_graph P') L None st D G) as (g' & L' & ign' & E1 & D1 & G1 & F1 & (Tc & Ti & Tf) & _); [intros a Q; discriminate Q|rewrite Est; reflexivity| |].
  { rewrite Est in Iv. cbn in Iv. eapply Forall_impl; [|exact Iv]. intros d (_ & _ & Q1 & Q2 & _). split; assumption. }
  replace (s_ignore st) with (s_ignore (p_sub P')) in E1 by (rewrite Est; reflexivity). rewrite Ep in E1. injection E1 as <- <-. exists L'. split; [exact D1|]. split; [exact G1|].
  destruct Gv as (N & Di & F). split; [exact N|]. split; [intros a b A B; rewrite Ti; rewrite Tc in A; apply Di; assumption|]. apply Tf; [|exact F].
  destruct G as (_ & _ & TR & GI & _). intros a A [Q|(b & B & Q)]; [destruct (GI a A) as (_ & Q2); rewrite Q, TR in Q2; discriminate|]. apply (Di a b A B). symmetry. exact Q.
Qed.

(** ** The delimiters *)
Lemma walk_back_list g L : forall cur pre, L = pre ++ cur -> linked g L -> walk (fun a => l_prev (g_cell g a)) (hd_error cur) cur.
Proof.
  induction cur as [|a cur IH]; intros pre E K; [constructor|]. constructor. rewrite (proj2 (K pre a cur E)). apply (IH (pre ++ [a])); [rewrite <- app_assoc; exact E|exact K].
Qed.
Lemma walk_on_list g L : forall cur post, L = rev cur ++ post -> linked g L -> walk (fun a => l_next (g_cell g a)) (hd_error cur) cur.
Proof.
  induction cur as [|a cur IH]; intros post E K; [constructor|]. cbn [rev] in E. rewrite <- app_assoc in E. constructor. rewrite (proj1 (K (rev cur) a post E)), rev_involutive. apply (IH (a :: post) E K).
Qed.
(** At every moment the delimiters form one list that can be walked from the last one to the first and,
    through the same delimiters, from the first one to the last; none comes twice. *)
Theorem C62_delimiters_doubly_linked : forall E ch P, moment E ch P ->
  exists l, walk (fun a => l_prev (g_cell (p_graph P) a)) (g_last (p_graph P)) l /\
            walk (fun a => l_next (g_cell (p_graph P) a)) (hd_error (rev l)) (rev l) /\ NoDup l.
Proof.
  intros E ch P R. destruct (moment_core E ch P R) as (L & (K & N & La & _) & _). exists L. rewrite La.
  split; [apply (walk_back_list _ L L []); [reflexivity|exact K]|]. split; [apply (walk_on_list _ L (rev L) []); [rewrite rev_involutive, app_nil_r; reflexivity|exact K]|exact N].
Qed.
Print Assumptions C62_delimiters_doubly_linked.

(** ** The nodes *)
Lemma ranked_acyclic f (r : nat -> nat) : (forall x y, f x = Some y -> r x < r y) -> acyclic f.
Proof.
  intros H x C. assert (Q : forall a b, clos_trans nat (fun a b => f a = Some b) a b -> r a < r b) by (induction 1; [apply H; assumption|lia]). specialize (Q x x C). lia.
Qed.
Lemma ranked_acyclic_down f (r : nat -> nat) : (forall x y, f x = Some y -> r y < r x) -> acyclic f.
Proof.
  intros H x C. assert (Q : forall a b, clos_trans nat (fun a b => f a = Some b) a b -> r b < r a) by (induction 1; [apply H; assumption|lia]). specialize (Q x x C). lia.
Qed.
(** At every moment neither the next nor the previous siblings nor the parents of a node lead back to it,
    and every reference leads to a node that exists. *)
Theorem C62_nodes_acyclic : forall E ch P, moment E ch P -> let h := g_nodes (p_graph P) in
  acyclic (next_of h) /\ acyclic (prev_of h) /\ acyclic (parent_of h) /\
  forall x y, next_of h x = Some y \/ prev_of h x = Some y \/ parent_of h x = Some y \/ first_of h x = Some y \/ last_of h x = Some y -> y < h_count h.
Proof.
  intros E ch P R h. destruct (moment_core E ch P R) as (L & _ & ((r & t & T) & _) & _). fold h in T.
  split; [apply (ranked_acyclic _ r); intros x y H; apply (t_next _ _ _ _ _ T H)|]. split; [apply (ranked_acyclic_down _ r); intros x y H; apply (t_prev _ _ _ _ _ T H)|].
  split; [apply (ranked_acyclic _ t); intros x y H; apply (t_parent _ _ _ _ _ T H)|].
  intros x y [H|[H|[H|[H|H]]]]; [apply (t_next _ _ _ _ _ T H)|apply (t_prev _ _ _ _ _ T H)|apply (t_parent _ _ _ _ _ T H)|apply (t_first _ _ _ _ _ T H)|apply (t_last _ _ _ _ _ T H)].
Qed.
Print Assumptions C62_nodes_acyclic.

Lemma walk_unique f s l : walk f s l -> forall l', walk f s l' -> l' = l.
Proof. induction 1 as [|a l W IH]; intros l' W'; inversion W' as [|? l2 W2]; subst; [reflexivity|]. rewrite (IH _ W2). reflexivity. Qed.
Lemma walk_exists f (r : nat -> nat) n : (forall x y, f x = Some y -> y < n /\ r x < r y) -> forall k x, left r n x <= k -> x < n -> exists l, walk f (Some x) l.
Proof.
  intros H. induction k as [|k IH]; intros x Lx Bx.
  - exfalso. assert (left r n x <> 0); [|lia]. unfold left. intros Z. apply length_zero_iff_nil in Z.
    assert (I : In x (filter (fun y => r x <=? r y) (seq 0 n))) by (apply filter_In; split; [apply in_seq; lia|apply Nat.leb_refl]). rewrite Z in I. destruct I.
  - destruct (f x) as [y|] eqn:F; [|exists [x]; constructor; rewrite F; constructor]. destruct (H x y F) as (B & R). assert (Q := left_lt r n x y R Bx). destruct (IH y ltac:(lia) B) as (l & W). exists (x :: l). constructor. rewrite F. exact W.
Qed.
Lemma walk_closed f s l : walk f s l -> forall z y, In z l -> f z = Some y -> In y l.
Proof.
  induction 1 as [|a l W IH]; intros z y Z F; [destruct Z|]. right. destruct Z as [->|Z]; [|apply (IH z y Z F)]. rewrite F in W. inversion W; subst. left. reflexivity.
Qed.
Lemma walk_above f (r : nat -> nat) s l : (forall x y, f x = Some y -> r x < r y) -> walk f s l -> NoDup l /\ forall a z, s = Some a -> In z l -> r a <= r z.
Proof.
  intros H. induction 1 as [|a l W (IH1 & IH2)]; [split; [constructor|intros ? ? _ []]|]. split.
  - constructor; [|exact IH1]. intros I. destruct (f a) as [b|] eqn:F; [|inversion W; subst; destruct I]. specialize (IH2 b a eq_refl I). specialize (H a b F). lia.
  - intros a' z E Z; injection E as <-. destruct Z as [->|Z]; [lia|]. destruct (f a) as [b|] eqn:F; [|inversion W; subst; destruct Z]. specialize (IH2 b z eq_refl Z). specialize (H _ b F). lia.
Qed.
Lemma walk_back live h : woven live h -> forall l a, walk (next_of h) (Some a) l -> live a -> forall pre, walk (prev_of h) (prev_of h a) pre ->
  (forall z, In z l -> live z /\ parent_of h z = parent_of h a) /\ exists z, In z l /\ next_of h z = None /\ walk (prev_of h) (Some z) (rev l ++ pre).
Proof.
  intros W. induction l as [|b l IH]; intros a Wk La pre Pr; inversion Wk as [|? ? W2]; subst b; subst. destruct (W a La) as (_ & A1 & _).
  destruct (next_of h a) as [c|] eqn:N.
  - destruct (A1 c eq_refl) as (C1 & C2 & C3). destruct (IH c W2 C1 (a :: pre)) as (H1 & z & Z1 & Z2 & Z3); [rewrite C2; constructor; exact Pr|]. split.
    + intros z' [<-|Z]; [auto|]. destruct (H1 z' Z) as (H2 & H3). split; [exact H2|congruence].
    + exists z. split; [right; exact Z1|]. split; [exact Z2|]. cbn [rev]. rewrite <- app_assoc. exact Z3.
  - inversion W2; subst. split; [intros z [<-|[]]; auto|]. exists a. split; [left; reflexivity|]. split; [exact N|]. cbn. constructor. exact Pr.
Qed.
Lemma use_live E ch P : moment E ch P -> exists r t live, tinv r t (g_nodes (p_graph P)) /\ woven live (g_nodes (p_graph P)) /\ forall x, in_use P x -> live x.
Proof.
  intros R. destruct (moment_core E ch P R) as (L & (K & _ & La & _) & ((r & t & T) & _) & (_ & _ & live & W & Br & H)). exists r, t, live. split; [exact T|]. split; [exact W|].
  induction 1 as [|x Bx Tx|l a Wl Al|b Hb|x y U IH N|x y U IH N|x y U IH N|x y U IH N|x y U IH N].
  - apply H. auto.
  - apply Br; assumption.
  - apply H. right. exists a. split; [|reflexivity]. rewrite La in Wl. rewrite <- (walk_unique _ _ _ Wl L (walk_back_list _ L L [] eq_refl K)) in Al. exact Al.
  - apply H. left. right. exists b. auto.
  - destruct (W x IH) as (_ & Q & _). apply (Q y N).
  - destruct (W x IH) as (_ & _ & Q & _). apply (Q y N).
  - destruct (W x IH) as (_ & _ & _ & Q & _). apply (Q y N).
  - destruct (W x IH) as (_ & _ & _ & _ & Q & _). apply (Q y N).
  - destruct (W x IH) as (_ & _ & _ & _ & _ & Q & _). apply (Q y N).
Qed.
(** At every moment the nodes in use form trees: the children of a node can be walked from the first one to
    the last and, through the same nodes, from the last one to the first; they are the nodes that have it as
    their parent, each once; and a node without parent has no siblings. *)
Theorem C62_nodes_form_trees : forall E ch P, moment E ch P -> let h := g_nodes (p_graph P) in forall x, in_use P x ->
  (exists l, walk (next_of h) (first_of h x) l /\ walk (prev_of h) (last_of h x) (rev l) /\ NoDup l /\
             forall y, in_use P y -> (In y l <-> parent_of h y = Some x)) /\
  (parent_of h x = None -> next_of h x = None /\ prev_of h x = None).
Proof.
  intros E ch P R h x U. destruct (use_live E ch P R) as (r & t & live & T & W & H). fold h in T, W. assert (Lx := H x U). destruct (W x Lx) as (_ & _ & _ & _ & X4 & X5 & X6 & X7). split; [|exact X6].
  destruct (first_of h x) as [a|] eqn:F.
  - destruct (X4 a eq_refl) as (A1 & A2 & A3). destruct (walk_exists (next_of h) r (h_count h) (fun x y => t_next r t h x y T) _ a (left_le r (h_count h) a) (proj1 (W a A1))) as (l & Wl).
    destruct (walk_back live h W l a Wl A1 []) as (H1 & z & Z1 & Z2 & Z3); [rewrite A3; constructor|]. rewrite app_nil_r in Z3. destruct (H1 z Z1) as (Z4 & Z5).
    exists l. split; [exact Wl|]. split; [|split].
    + destruct (W z Z4) as (_ & _ & _ & Y3 & _). destruct (Y3 x) as (_ & _ & Y); [congruence|]. rewrite (Y Z2). exact Z3.
    + apply (walk_above (next_of h) r (Some a) l (fun x y Q => proj2 (t_next r t h x y T Q)) Wl).
    + intros y Uy. split; [intros Y; destruct (H1 y Y) as (_ & ->); exact A2|]. assert (Ly := H y Uy). clear Uy. intros Py.
      assert (Q : forall n y, r y < n -> live y -> parent_of h y = Some x -> In y l); [|apply (Q (S (r y)) y); [lia|exact Ly|exact Py]]. clear y Ly Py.
      induction n as [|n IH]; intros y Ln Ly Py; [lia|]. destruct (W y Ly) as (_ & _ & Y2 & Y3 & _). destruct (prev_of h y) as [w|] eqn:Pv.
      * destruct (Y2 w eq_refl) as (W1 & W2 & W3). destruct (t_prev _ _ _ _ _ T Pv) as (_ & Lt). apply (walk_closed _ _ _ Wl w y); [|exact W2]. apply IH; [lia|exact W1|congruence].
      * destruct (Y3 x Py) as (_ & Q & _). specialize (Q eq_refl). rewrite F in Q. injection Q as ->. inversion Wl; subst. left. reflexivity.
  - exists []. assert (Ll : last_of h x = None) by (apply X7; reflexivity). rewrite Ll. split; [constructor|]. split; [constructor|]. split; [constructor|]. intros y Uy. split; [intros []|]. assert (Ly := H y Uy). intros Py. exfalso.
    assert (Q : forall n y, r y < n -> live y -> parent_of h y = Some x -> False); [|apply (Q (S (r y)) y); [lia|exact Ly|exact Py]]. clear y Uy Ly Py.
    induction n as [|n IH]; intros y Ln Ly Py; [lia|]. destruct (W y Ly) as (_ & _ & Y2 & Y3 & _). destruct (prev_of h y) as [w|] eqn:Pv.
    + destruct (Y2 w eq_refl) as (W1 & W2 & W3). destruct (t_prev _ _ _ _ _ T Pv) as (_ & Lt). apply (IH w); [lia|exact W1|congruence].
    + destruct (Y3 x Py) as (_ & Q & _). specialize (Q eq_refl). congruence.
Qed.
Print Assumptions C62_nodes_form_trees.

(** ** The result *)
(** The linked objects do what the lists of Inlines.v do, so that all claims about remove_emphasis (and
    through it about anchors and tables) hold of the program with linked objects too. *)
Theorem C62_same_result : forall E p line, remove_emphasis_ptr E p line = remove_emphasis E p line.
Proof. exact remove_emphasis_same. Qed.
Print Assumptions C62_same_result.
(** No walk goes on for ever: each one passes at most as many objects as there are. *)
Theorem C62_walks_end : forall E p line e, remove_emphasis_ptr E p line = Err e -> e = IndexError \/ e = KeyError \/ e = ValueError.
Proof. intros E p line e H. rewrite C62_same_result in H. exact (C27_terminates E p line e H). Qed.
Print Assumptions C62_walks_end.
(** Text without links and odd characters is never refused: in particular the check of the list of delimiters
    (a ValueError if a delimiter without successor is not the last one) never fails. *)
Theorem C62_harmless_text_never_raises : forall E p line,
  e_entities E <> [] -> ~ In 0%N line -> harmless E line -> exists t, remove_emphasis_ptr E p line = Ok t.
Proof. intros E p line He H0 Hh. rewrite C62_same_result. exact (C28_harmless_text_never_raises E p line He H0 Hh). Qed.
Print Assumptions C62_harmless_text_never_raises.
(** With links, tags, code and emphasis in the text, the linked objects give what CommonMark prescribes. *)
Theorem C62_links_as_commonmark : forall E p ts out, p <> OtherParser -> zs_ascii E -> entity_tables E -> ~ In 0%N (text_of ts) ->
  scans E (calm E) [] [] ts out -> (forall r, In r out -> r_closed r = 0 \/ r_opened r = 0) ->
  remove_emphasis_ptr E p (text_of ts) = Ok (without r_left out 0 ts).
Proof. intros. rewrite C62_same_result. apply C59_links_as_commonmark; assumption. Qed.
Print Assumptions C62_links_as_commonmark.

(** ** Examples *)
Fixpoint after (n : nat) (E : env) (ch : chunk) (P : pstate) : option pstate :=
  match n with
  | O => Some P
  | S n' => match peek ch (s_pos (p_sub P)) with
            | Some c => match parse_inline_ptr E ch P c with Ok P' => after n' E ch P' | Err _ => None end
            | None => None
            end
  end.
Lemma after_reached E ch : forall n P P', reached E ch P -> after n E ch P = Some P' -> reached E ch P'.
Proof.
  induction n as [|n IH]; intros P P' R A; cbn [after] in A; [injection A as <-; exact R|]. destruct (peek ch (s_pos (p_sub P))) as [c|] eqn:Pk; [|discriminate].
  destruct (parse_inline_ptr E ch P c) as [P1|] eqn:St; [|discriminate]. exact (IH P1 P' (reached_step E ch P P1 c R Pk St) A).
Qed.
Definition sample : chunk := trimmed ascii_env (lit "*a **b _c [d *e* _f](u) g_ **h").
Definition sample_state : pstate :=
  match after 18 ascii_env sample (mkP init_subject init_graph []) with Some P => P | None => mkP init_subject init_graph [] end.
Lemma sample_reached : reached ascii_env sample sample_state.
Proof.
  unfold sample_state. destruct (after 18 ascii_env sample (mkP init_subject init_graph [])) as [P|] eqn:A; [|constructor]. exact (after_reached _ _ 18 _ _ (reached_start _ _) A).
Qed.
(** At position 27, after the link: 20 nodes; of the 7 delimiters the three of the label have left the
    list, so that the last one (number 6) is followed by 2, 1 and 0. *)
Example C62_reached_ex : reached ascii_env sample sample_state /\ s_pos (p_sub sample_state) = 27 /\ h_count (g_nodes (p_graph sample_state)) = 20 /\
  g_count (p_graph sample_state) = 7 /\ walk (fun a => l_prev (g_cell (p_graph sample_state) a)) (g_last (p_graph sample_state)) [6; 2; 1; 0].
Proof.
  assert (Q : (s_pos (p_sub sample_state), h_count (g_nodes (p_graph sample_state)), g_count (p_graph sample_state), g_last (p_graph sample_state),
               map (fun a => l_prev (g_cell (p_graph sample_state) a)) [6; 2; 1; 0]) = (27, 20, 7, Some 6, [Some 2; Some 1; Some 0; None])) by (vm_compute; reflexivity).
  split; [exact sample_reached|]. revert Q. generalize sample_state as P. intros P Q. cbn [map] in Q. injection Q as Q1 Q2 Q3 Q4 Q5 Q6 Q7 Q8. rewrite Q4.
  split; [exact Q1|]. split; [exact Q2|]. split; [exact Q3|]. constructor. rewrite Q5. constructor. rewrite Q6. constructor. rewrite Q7. constructor. rewrite Q8. constructor.
Qed.
(** Eight nodes below the root: node 3, a link with node 4 in it, is the third of its seven children. *)
Definition sample_link : chunk := trimmed ascii_env (lit "*a <x@y.z> [b _c").
Definition link_state : pstate :=
  match after 7 ascii_env sample_link (mkP init_subject init_graph []) with Some P => P | None => mkP init_subject init_graph [] end.
Lemma link_reached : reached ascii_env sample_link link_state.
Proof.
  unfold link_state. destruct (after 7 ascii_env sample_link (mkP init_subject init_graph [])) as [P|] eqn:A; [|constructor]. exact (after_reached _ _ 7 _ _ (reached_start _ _) A).
Qed.
Example C62_nodes_form_trees_ex : let h := g_nodes (p_graph link_state) in reached ascii_env sample_link link_state /\ in_use link_state ROOT /\ in_use link_state 3 /\ in_use link_state 4 /\
  walk (next_of h) (first_of h ROOT) [1; 2; 3; 5; 6; 7; 8] /\ walk (prev_of h) (last_of h ROOT) [8; 7; 6; 5; 3; 2; 1] /\
  walk (next_of h) (first_of h 3) [4] /\ parent_of h 4 = Some 3 /\ next_of h 3 = Some 5 /\ parent_of h 3 = Some ROOT /\ parent_of h ROOT = None.
Proof.
  assert (Q : (first_of (g_nodes (p_graph link_state)) ROOT, last_of (g_nodes (p_graph link_state)) ROOT, parent_of (g_nodes (p_graph link_state)) ROOT,
               map (h_link (g_nodes (p_graph link_state))) [1; 2; 3; 4; 5; 6; 7; 8]) =
    (Some 1, Some 8, None, [mkLink (Some 2) None (Some 0) None None; mkLink (Some 3) (Some 1) (Some 0) None None; mkLink (Some 5) (Some 2) (Some 0) (Some 4) (Some 4); mkLink None None (Some 3) None None;
      mkLink (Some 6) (Some 3) (Some 0) None None; mkLink (Some 7) (Some 5) (Some 0) None None; mkLink (Some 8) (Some 6) (Some 0) None None; mkLink None (Some 7) (Some 0) None None])) by (vm_compute; reflexivity).
  split; [exact link_reached|]. revert Q. generalize link_state as P. intros P Q. cbn [map] in Q. injection Q as Q1 Q2 Q3 L1 L2 L3 L4 L5 L6 L7 L8.
  assert (U1 : in_use P 1) by (apply (use_first P ROOT); [constructor|exact Q1]).
  assert (U2 : in_use P 2) by (apply (use_next P 1); [exact U1|unfold next_of; rewrite L1; reflexivity]).
  assert (U3 : in_use P 3) by (apply (use_next P 2); [exact U2|unfold next_of; rewrite L2; reflexivity]).
  assert (U4 : in_use P 4) by (apply (use_first P 3); [exact U3|unfold first_of; rewrite L3; reflexivity]).
  split; [constructor|]. split; [exact U3|]. split; [exact U4|]. rewrite Q1, Q2, Q3.
  split; [repeat (constructor; unfold next_of; rewrite ?L1, ?L2, ?L3, ?L5, ?L6, ?L7, ?L8; cbn [k_next]; fold (next_of (g_nodes (p_graph P))))|].
  split; [repeat (constructor; unfold prev_of; rewrite ?L1, ?L2, ?L3, ?L5, ?L6, ?L7, ?L8; cbn [k_prev]; fold (prev_of (g_nodes (p_graph P))))|].
  unfold first_of, next_of, parent_of. rewrite L3, L4. cbn. split; [|auto]. constructor. rewrite L4. constructor.
Qed.
(** When all emphasis has been found: node 18, a link, has the text 14 and the emphasis 19, with the text 16 in it,
    as its children; nodes 15 and 17, the asterisks around that emphasis, have been freed. *)
Definition sample_end : chunk := trimmed ascii_env (lit "**a *b* _c_ d** [e *f*](g) <x@y.z>").
Definition last_state : pstate :=
  match after 20 ascii_env sample_end (mkP init_subject init_graph []) with Some P => P | None => mkP init_subject init_graph [] end.
Definition end_graph : graph := match process_ptr (p_graph last_state) None (s_ignore (p_sub last_state)) with Ok (g, _) => g | Err _ => init_graph end.
Definition end_ignored : list (nat * nat) := match process_ptr (p_graph last_state) None (s_ignore (p_sub last_state)) with Ok (_, ign) => ign | Err _ => [] end.
Definition end_state : pstate := mkP (p_sub last_state) end_graph (p_brackets last_state).
Lemma end_moment : moment ascii_env sample_end end_state.
Proof.
  apply (finished _ _ last_state end_graph end_ignored).
  - unfold last_state. destruct (after 20 ascii_env sample_end (mkP init_subject init_graph [])) as [P|] eqn:A; [|constructor]. exact (after_reached _ _ 20 _ _ (reached_start _ _) A).
  - vm_compute. reflexivity.
  - unfold end_graph, end_ignored. assert (Q : match process_ptr (p_graph last_state) None (s_ignore (p_sub last_state)) with Ok _ => true | Err _ => false end = true) by (vm_compute; reflexivity).
    destruct (process_ptr (p_graph last_state) None (s_ignore (p_sub last_state))) as [(g & i)|]; [reflexivity|discriminate Q].
Qed.
Example C62_nodes_form_trees_end_ex : let h := g_nodes (p_graph end_state) in moment ascii_env sample_end end_state /\ in_use end_state 18 /\ in_use end_state 19 /\ in_use end_state 16 /\
  walk (next_of h) (first_of h 18) [14; 19] /\ walk (prev_of h) (last_of h 18) [19; 14] /\ walk (next_of h) (first_of h 19) [16] /\
  parent_of h 14 = Some 18 /\ parent_of h 19 = Some 18 /\ parent_of h 16 = Some 19 /\ parent_of h 18 = None.
Proof.
  assert (Q : (h_count (g_nodes (p_graph end_state)), type_of (g_nodes (p_graph end_state)) 18, map (h_link (g_nodes (p_graph end_state))) [14; 16; 18; 19]) =
    (26, NODE_LINK, [mkLink (Some 19) None (Some 18) None None; mkLink None None (Some 19) None None; mkLink None None None (Some 14) (Some 19); mkLink None (Some 14) (Some 18) (Some 16) (Some 16)])) by (vm_compute; reflexivity).
  split; [exact end_moment|]. revert Q. generalize end_state as P. intros P Q. cbn [map] in Q. injection Q as Qc Qt L1 L2 L3 L4.
  assert (U1 : in_use P 18) by (apply use_branch; [rewrite Qc; lia|rewrite Qt; discriminate]).
  assert (U2 : in_use P 19) by (apply (use_last P 18); [exact U1|unfold last_of; rewrite L3; reflexivity]).
  assert (U3 : in_use P 16) by (apply (use_first P 19); [exact U2|unfold first_of; rewrite L4; reflexivity]).
  split; [exact U1|]. split; [exact U2|]. split; [exact U3|]. unfold first_of, last_of, parent_of. rewrite L1, L2, L3, L4. cbn [k_first k_last k_parent].
  split; [repeat (constructor; unfold next_of; rewrite ?L1, ?L4; cbn [k_next]; fold (next_of (g_nodes (p_graph P))))|].
  split; [repeat (constructor; unfold prev_of; rewrite ?L1, ?L4; cbn [k_prev]; fold (prev_of (g_nodes (p_graph P))))|].
  split; [constructor; unfold next_of; rewrite L2; constructor|auto].
Qed.
Example C62_same_result_ex :
  remove_emphasis_ptr ascii_env Github (lit "*a **b** _c [d *e* _f_](u) g_* <x@y.z> `*h*` &amp; **i* j**") = Ok (lit "a b c [d e f](u) g <x@y.z> `*h*` &amp; i j*").
Proof. vm_compute. reflexivity. Qed.
