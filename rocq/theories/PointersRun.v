(** The inline parser with linked structures (Pointers.v) and with lists (Inlines.v): every
    step, and the whole run. *)
From Coq Require Import String List NArith Bool Arith Lia.
From Verif Require Import Str Spec EnvSpec Regex HtmlRe Fence Atx Entity Inlines HelperSpec EntityProof InlineProof Pointers PointersTree PointersForest PointersList PointersEmph.
Import ListNotations.
Local Open Scope list_scope.

Definition absb (g : graph) (b : pbracket) : bracket := mkBracket (named g (q_prev b)) (q_active b).
Definition brok (g : graph) (b : pbracket) : Prop :=
  known g (q_prev b) /\
  (q_active b = true -> q_inl b < h_count (g_nodes g) /\ type_of (g_nodes g) (q_inl b) = NODE_TEXT /\ parent_of (g_nodes g) (q_inl b) = Some ROOT).
(** Below an inactive bracket all are inactive. *)
Fixpoint down (l : list pbracket) : Prop :=
  match l with
  | [] => True
  | b :: l' => (q_active b = false -> Forall (fun b => q_active b = false) l') /\ down l'
  end.
Definition stacked (st : subject) (ds : list delim) (bs : list bracket) : subject := set_brackets (set_delims st ds) bs.
(** The nodes of the root, of the brackets and of the delimiters, and all that are linked with them, form
    trees of doubly linked children; no two of them are the same. *)
Definition groves (g : graph) (L : list nat) (bs : list pbracket) : Prop :=
  NoDup (map q_inl bs) /\ (forall a b, a < g_count g -> In b bs -> l_inl (g_cell g a) <> q_inl b) /\
  forest (g_nodes g) (fun k => (k = ROOT \/ exists b, In b bs /\ q_inl b = k) \/ exists a, In a L /\ l_inl (g_cell g a) = k).
Definition rel (P : pstate) (st : subject) : Prop :=
  exists L, dinv (p_graph P) L /\ ginv (p_graph P) /\
    st = stacked (p_sub P) (map (view (p_graph P)) L) (map (absb (p_graph P)) (p_brackets P)) /\
    (forall a, a < g_count (p_graph P) -> sid (p_graph P) a < s_pos (p_sub P)) /\
    Forall (brok (p_graph P)) (p_brackets P) /\ down (p_brackets P) /\ groves (p_graph P) L (p_brackets P).
Definition alike (a : res pstate) (b : res subject) : Prop :=
  match a, b with
  | Ok P, Ok st => rel P st
  | Err e, Err e' => e = e'
  | _, _ => False
  end.

(** ** A new leaf under the root *)
Lemma make_text_ok g i j : ginv g -> let '(g1, x) := make_text g i j in
  x = h_count (g_nodes g) /\ g_count g1 = g_count g /\ g_last g1 = g_last g /\ g_cell g1 = g_cell g /\ h_count (g_nodes g1) = S x /\
  h_info (g_nodes g1) x = mkInfo NODE_TEXT (j - i) (S i) j /\ ginv g1 /\
  (forall a, a < g_count g -> view g1 a = view g a) /\
  (forall y, y < x -> type_of (g_nodes g1) y = type_of (g_nodes g) y /\ parent_of (g_nodes g1) y = parent_of (g_nodes g) y) /\
  (forall y z, y < x -> last_of (g_nodes g1) y = Some z -> z < x) /\
  exists r t, tinv r t (g_nodes g1) /\ (forall y, y < x -> r y < r x) /\ (forall y, y <> x -> t x < t y).
Proof.
  intros G. unfold make_text. set (inf := mkInfo NODE_TEXT (j - i) (S i) j). change (alloc (g_nodes g) inf) with (fst (alloc (g_nodes g) inf), h_count (g_nodes g)). cbv beta iota.
  set (x := h_count (g_nodes g)). set (h := fst (alloc (g_nodes g) inf)).
  split; [reflexivity|]. split; [reflexivity|]. split; [reflexivity|]. split; [reflexivity|]. split; [reflexivity|]. split; [apply alloc_info|].
  assert (Gr : grown (g_nodes g) h) by apply alloc_grown.
  assert (Tx : exists r t, tinv r t h /\ (forall y, y < x -> r y < r x) /\ (forall y, y <> x -> t x < t y)).
  { destruct G as ((r & t & T) & _). exists (r_new r x), (t_low t x). split; [apply alloc_low; exact T|]. unfold r_new, t_low. split; intros y Y.
    - rewrite put_eq, put_ne by lia. apply top_spec. exact Y.
    - rewrite put_eq, put_ne by exact Y. lia. }
  destruct (ginv_nodes g h G) as (G1 & V1); [destruct Tx as (r & t & T & _); exists r, t; exact T|exact Gr|].
  split; [exact G1|]. split; [exact V1|]. split; [|split; [|exact Tx]].
  2:{ intros y z Y. unfold last_of, h. cbn [g_nodes set_nodes]. rewrite alloc_link. destruct (Nat.eqb_spec y (h_count (g_nodes g))); [unfold x in Y; lia|]. intros Z. destruct G as ((r & t & T) & _). apply (t_last _ _ _ _ _ T Z). }
  intros y Y. split; [apply (grown_type _ _ _ Gr Y)|]. unfold parent_of, h. cbn [g_nodes set_nodes]. rewrite alloc_link. destruct (Nat.eqb_spec y (h_count (g_nodes g))); [unfold x in Y; lia|reflexivity].
Qed.
Lemma add_child_ok g x r t : ginv g -> tinv r t (g_nodes g) -> x < h_count (g_nodes g) -> x <> ROOT -> (forall y, last_of (g_nodes g) ROOT = Some y -> r y < r x) -> t x < t ROOT ->
  ginv (add_child g x) /\ (forall a, a < g_count g -> view (add_child g x) a = view g a) /\ same (g_nodes g) (g_nodes (add_child g x)) /\
  (forall y, parent_of (g_nodes (add_child g x)) y = if y =? x then Some ROOT else parent_of (g_nodes g) y) /\ tinv r t (g_nodes (add_child g x)).
Proof.
  intros G T X XR L Lt. unfold add_child.
  assert (T1 : tinv r t (append_child (g_nodes g) ROOT x)).
  { apply append_tinv; try assumption; [apply G|]. destruct G as (_ & _ & TR & _). rewrite TR. discriminate. }
  assert (S1 := append_same (g_nodes g) ROOT x).
  destruct (ginv_nodes g (append_child (g_nodes g) ROOT x) G (ex_intro _ r (ex_intro _ t T1)) (same_grown _ _ S1)) as (G1 & V1).
  split; [exact G1|]. split; [exact V1|]. split; [exact S1|]. split; [|exact T1]. intros y. apply append_parent.
Qed.

Lemma brok_leaf g g' b x : brok g b -> g_count g' = g_count g -> h_count (g_nodes g) <= h_count (g_nodes g') -> x = h_count (g_nodes g) ->
  (forall y, y < x -> type_of (g_nodes g') y = type_of (g_nodes g) y /\ parent_of (g_nodes g') y = parent_of (g_nodes g) y) -> brok g' b.
Proof.
  intros (K & A) C Hc -> H. split; [intros a Ha; rewrite C; apply K; exact Ha|]. intros Ac. destruct (A Ac) as (A1 & A2 & A3). destruct (H _ A1) as (H1 & H2). rewrite H1, H2. split; [lia|auto].
Qed.
Lemma absb_same g g' b : (forall a, a < g_count g -> view g' a = view g a) -> known g (q_prev b) -> absb g' b = absb g b.
Proof. intros V K. unfold absb, named. destruct (q_prev b) as [a|]; [|reflexivity]. cbn [option_map]. unfold sid. rewrite V by (apply K; reflexivity). reflexivity. Qed.
Lemma map_absb g g' bs : (forall a, a < g_count g -> view g' a = view g a) -> Forall (brok g) bs -> map (absb g') bs = map (absb g) bs.
Proof. intros V F. apply map_ext_in. intros b B. rewrite Forall_forall in F. apply absb_same; [exact V|apply F; exact B]. Qed.

(** The root gets a text node for the characters from [i] to [j]. *)
Lemma leaf_ok g i j L bs : ginv g -> dinv g L -> Forall (brok g) bs ->
  let '(g1, x) := make_text g i j in let g2 := add_child g1 x in
  ginv g2 /\ dinv g2 L /\ Forall (brok g2) bs /\ g_count g2 = g_count g /\ g_last g1 = g_last g /\ (forall a, a < g_count g -> view g2 a = view g a) /\
  x < h_count (g_nodes g2) /\ type_of (g_nodes g2) x = NODE_TEXT /\ parent_of (g_nodes g2) x = Some ROOT /\
  x = h_count (g_nodes g) /\ g_cell g2 = g_cell g /\ (forall K, forest (g_nodes g) K -> K ROOT -> forest (g_nodes g2) (fun k => K k \/ k = x)).
Proof.
  intros G D B. assert (M := make_text_ok g i j G). assert (Fm : forall K, forest (g_nodes g) K -> K ROOT -> forest (g_nodes (let '(g1, x) := make_text g i j in add_child g1 x)) (fun k => K k \/ k = h_count (g_nodes g))) by (intros K F R; apply (add_forest (g_nodes g) _ ROOT K F R)).
  destruct (make_text g i j) as (g1 & x). destruct M as (X & C & La & Ce & Hc & Hi & G1 & V1 & O1 & O2 & r & t & T & Rx & Tx). cbn zeta.
  assert (X0 : ROOT < x) by (rewrite X; apply G).
  destruct (add_child_ok g1 x r t G1 T) as (G2 & V2 & S2 & P2 & T2); [lia|lia| | |].
  - intros y Y. apply Rx. apply (O2 ROOT); assumption.
  - apply Tx. lia.
  - split; [exact G2|]. split.
    { apply dinv_nodes. apply (dinv_cells g); auto. intros a. rewrite Ce. auto. }
    assert (O3 : forall y, y < x -> type_of (g_nodes (add_child g1 x)) y = type_of (g_nodes g) y /\ parent_of (g_nodes (add_child g1 x)) y = parent_of (g_nodes g) y).
    { intros y Y. destruct (O1 y Y) as (Y1 & Y2). rewrite (same_type _ _ _ S2), P2. destruct (Nat.eqb_spec y x); [lia|auto]. }
    split.
    { eapply Forall_impl; [|exact B]. intros b Hb. apply (brok_leaf g _ b x Hb); [exact C|rewrite (proj1 S2); lia|exact X|exact O3]. }
    split; [exact C|]. split; [exact La|]. split; [intros a A; rewrite V2 by (rewrite C; exact A); apply V1; exact A|].
    split; [rewrite (proj1 S2); lia|]. split; [rewrite (same_type _ _ _ S2); unfold type_of; rewrite Hi; reflexivity|]. split; [rewrite P2, Nat.eqb_refl; reflexivity|]. split; [exact X|]. split; [exact Ce|]. rewrite X. rewrite X in Fm. exact Fm.
Qed.

Lemma groves_more g g' L bs : groves g L bs -> g_cell g' = g_cell g -> g_count g' = g_count g ->
  (forall K, forest (g_nodes g) K -> K ROOT -> forest (g_nodes g') K) -> groves g' L bs.
Proof. intros (N & D & F) E C H. split; [exact N|]. rewrite E, C. split; [exact D|]. apply H; [exact F|]. left. left. reflexivity. Qed.
Lemma groves_bound g L bs b : groves g L bs -> In b bs -> q_inl b < h_count (g_nodes g).
Proof. intros (_ & _ & F) B. apply (forest_bound _ _ _ F). left. right. exists b. auto. Qed.

Lemma add_leaf_rel P L st' : dinv (p_graph P) L -> ginv (p_graph P) -> (forall a, a < g_count (p_graph P) -> sid (p_graph P) a < s_pos (p_sub P)) ->
  Forall (brok (p_graph P)) (p_brackets P) -> down (p_brackets P) -> groves (p_graph P) L (p_brackets P) -> s_pos (p_sub P) <= s_pos st' ->
  rel (add_leaf P st') (stacked st' (map (view (p_graph P)) L) (map (absb (p_graph P)) (p_brackets P))).
Proof.
  intros D G Sp B Dn Gv Le. unfold add_leaf. assert (K := leaf_ok (p_graph P) (s_pos (p_sub P)) (s_pos st') L (p_brackets P) G D B).
  destruct (make_text (p_graph P) (s_pos (p_sub P)) (s_pos st')) as (g1 & x). cbn zeta in K. destruct K as (G2 & D2 & B2 & C2 & _ & V2 & _ & _ & _ & X & Ce & Fo).
  exists L. cbn [p_graph p_sub p_brackets]. split; [exact D2|]. split; [exact G2|]. split; [|split; [|split; [exact B2|split; [exact Dn|]]]].
  3:{ apply (groves_more _ _ _ _ Gv Ce C2). intros K F R. apply (forest_sub _ _ _ (Fo K F R)). auto. }
  - f_equal; symmetry; [|apply map_absb; assumption]. apply map_view_ext; [apply D|]. intros a _ A. apply V2. exact A.
  - intros a A. rewrite C2 in A. unfold sid. rewrite V2 by exact A. specialize (Sp a A). unfold sid in Sp. lia.
Qed.

(** ** A new link with a text in it *)
Lemma append_last h n x y : last_of (append_child h n x) y = if y =? n then Some x else last_of h y.
Proof. unfold append_child. destruct (last_of h n); autorewrite with links; reflexivity. Qed.
Lemma add_autolink_rel P L st' : dinv (p_graph P) L -> ginv (p_graph P) -> (forall a, a < g_count (p_graph P) -> sid (p_graph P) a < s_pos (p_sub P)) ->
  Forall (brok (p_graph P)) (p_brackets P) -> down (p_brackets P) -> groves (p_graph P) L (p_brackets P) -> s_pos (p_sub P) <= s_pos st' ->
  rel (add_autolink P st') (stacked st' (map (view (p_graph P)) L) (map (absb (p_graph P)) (p_brackets P))).
Proof.
  intros D G Sp B Dn Gv Le. unfold add_autolink, make_text. set (i1 := mkInfo NODE_LINK 0 (S (s_pos (p_sub P))) (s_pos st')). set (i2 := mkInfo NODE_TEXT _ _ _).
  set (g := p_graph P) in *. set (h := g_nodes g). change (alloc h i1) with (fst (alloc h i1), h_count h). cbv beta iota. set (h1 := fst (alloc h i1)). set (x := h_count h).
  change (g_nodes (set_nodes g h1)) with h1. change (alloc h1 i2) with (fst (alloc h1 i2), h_count h1). cbv beta iota. set (h2 := fst (alloc h1 i2)). set (y := h_count h1).
  unfold add_child. cbn [g_nodes set_nodes]. set (h3 := append_child h2 x y). set (h4 := append_child h3 ROOT x).
  assert (Gc := G). destruct Gc as ((r & t & T) & R & TR & GI & I). fold h in T, R, TR.
  assert (T1 := alloc_low r t h i1 T). fold h1 x in T1. assert (T2 := alloc_low _ _ h1 i2 T1). fold h2 y in T2.
  assert (Y : y = S x) by reflexivity. assert (C2 : h_count h2 = S (S x)) by reflexivity.
  set (r2 := r_new (r_new r x) y) in *. set (t2 := t_low (t_low t x) y) in *.
  assert (Gr2 : grown h h2) by (eapply grown_trans; apply alloc_grown).
  assert (Tyx : type_of h2 x = NODE_LINK).
  { unfold type_of, h2. cbn. rewrite put_ne by (unfold y; cbn; lia). rewrite put_eq. reflexivity. }
  assert (Tyr : type_of h2 ROOT = NODE_NONE) by (rewrite (grown_type _ _ _ Gr2 R); exact TR).
  assert (RX : ROOT < x) by exact R.
  assert (LK : forall z, z < x -> h_link h2 z = h_link h z).
  { intros z Z. unfold h2. rewrite alloc_link. destruct (Nat.eqb_spec z (h_count h1)) as [E|_]; [change (h_count h1) with (S x) in E; lia|]. unfold h1. rewrite alloc_link. destruct (Nat.eqb_spec z (h_count h)); [unfold x in Z; lia|reflexivity]. }
  assert (T3 : tinv r2 t2 h3).
  { apply append_tinv; [exact T2|lia|lia|rewrite Tyx; discriminate| |].
    - unfold t2, t_low. rewrite put_eq, put_ne by lia. lia.
    - intros l Hl. exfalso. unfold last_of, h2 in Hl. rewrite alloc_link in Hl. destruct (Nat.eqb_spec x (h_count h1)) as [E|_]; [change (h_count h1) with (S x) in E; lia|]. unfold h1 in Hl. rewrite alloc_link, Nat.eqb_refl in Hl. discriminate. }
  assert (S3 := append_same h2 x y). fold h3 in S3.
  assert (T4 : tinv r2 t2 h4).
  { apply append_tinv; [exact T3|rewrite (proj1 S3); lia|rewrite (proj1 S3); lia|rewrite (same_type _ _ _ S3), Tyr; discriminate| |].
    - unfold t2, t_low. rewrite !(put_ne _ y) by lia. rewrite put_eq, put_ne by lia. lia.
    - intros l Hl. unfold h3 in Hl. rewrite append_last in Hl. destruct (Nat.eqb_spec ROOT x); [lia|]. unfold last_of in Hl. rewrite LK in Hl by exact RX. destruct (t_last _ _ _ _ _ T Hl) as (L1 & _). fold x in L1.
      unfold r2, r_new. rewrite !(put_ne _ y) by lia. rewrite put_eq, put_ne by lia. apply top_spec. exact L1. }
  assert (S4 := append_same h3 ROOT x). fold h4 in S4.
  assert (Gr : grown h h4) by (eapply grown_trans; [exact Gr2|]; eapply grown_trans; apply same_grown; eassumption).
  destruct (ginv_nodes g h4 G (ex_intro _ r2 (ex_intro _ t2 T4)) Gr) as (G4 & V4).
  exists L. cbn [p_graph p_sub p_brackets]. change (mkGraph h4 (g_cell g) (g_count g) (g_last g)) with (set_nodes g h4). change (set_nodes (set_nodes (set_nodes (set_nodes g h1) h2) h3) h4) with (set_nodes g h4).
  split; [apply dinv_nodes; exact D|]. split; [exact G4|]. split; [|split; [|split; [|split; [exact Dn|]]]].
  4:{ apply (groves_more g (set_nodes g h4) L (p_brackets P) Gv eq_refl eq_refl). intros K F Kr. cbn [g_nodes set_nodes]. destruct (alloc_forest h i1 K F) as (live & W1 & S1 & L1 & H1 & B1). fold h1 x in W1, S1, L1, B1.
      destruct (alloc_forest h1 i2 live (ex_intro _ live (conj W1 (conj B1 (fun k Q => Q))))) as (live2 & W2 & S2 & L2 & H2 & B2). fold h2 y in W2, S2, L2, B2.
      assert (LX : h_link h2 x = h_link h1 x) by (unfold h2; rewrite alloc_link; destruct (Nat.eqb_spec x (h_count h1)) as [Q|]; [change (h_count h1) with (S x) in Q; lia|reflexivity]).
      assert (NX : h_link h1 x = nolink) by (unfold h1; rewrite alloc_link, Nat.eqb_refl; reflexivity).
      assert (W3 : woven live2 h3) by (apply append_woven; auto; lia).
      exists live2. split; [|split; [apply (branches_same _ _ _ B2); eapply same_trans; eassumption|auto]]. apply append_woven; [exact W3|auto|auto| |lia].
      split; [|split]; unfold h3; [rewrite (app_next live2 h2 x y x W2 (H2 x L1) S2); unfold last_of, next_of; rewrite LX, NX; reflexivity|rewrite app_prev|rewrite append_parent]; (destruct (Nat.eqb_spec x y); [lia|]); unfold prev_of, parent_of; rewrite LX, NX; reflexivity. }
  - f_equal; symmetry; [|apply map_absb; assumption]. apply map_view_ext; [apply D|]. intros a _ A. apply V4. exact A.
  - intros a A. unfold sid. rewrite V4 by exact A. specialize (Sp a A). unfold sid in Sp. lia.
  - eapply Forall_impl; [|exact B]. intros b Hb. apply (brok_leaf g _ b x Hb); [reflexivity|apply Gr|reflexivity|]. intros z Z. cbn [g_nodes set_nodes]. split; [apply (grown_type _ _ _ Gr Z)|].
    unfold h4. rewrite append_parent. destruct (Nat.eqb_spec z x); [lia|]. unfold h3. rewrite append_parent. destruct (Nat.eqb_spec z y); [lia|]. unfold parent_of. rewrite LK by exact Z. reflexivity.
Qed.

(** ** A new delimiter *)
Lemma push_ok g L c op cl x : dinv g L -> ginv g -> x < h_count (g_nodes g) -> type_of (g_nodes g) x = NODE_TEXT ->
  (forall a, a < g_count g -> sid g a < pred (v_start (h_info (g_nodes g) x))) ->
  let g' := push_delimiter g c op cl x in let i := h_info (g_nodes g) x in
  dinv g' (g_count g :: L) /\ ginv g' /\ g_nodes g' = g_nodes g /\ g_count g' = S (g_count g) /\
  view g' (g_count g) = mkDelim (pred (v_start i)) (v_end i) c (v_len i) op cl (v_len i) 0 /\ (forall a, a < g_count g -> view g' a = view g a) /\ (forall a, l_inl (g_cell g' a) = if a =? g_count g then x else l_inl (g_cell g a)).
Proof.
  intros D G X Tx Sx g' i. assert (Dc := D). destruct Dc as (K & N & La & Fo). set (a := g_count g) in *.
  assert (Cell : forall b, g_cell g' b = if b =? a then mkCell (g_last g) None x (v_len i) c op cl 0
                  else if oid_eqb (Some b) (g_last g) then mkCell (l_prev (g_cell g b)) (Some a) (l_inl (g_cell g b)) (l_len (g_cell g b)) (l_char (g_cell g b)) (l_open (g_cell g b)) (l_close (g_cell g b)) (l_off (g_cell g b)) else g_cell g b).
  { intros b. unfold g', push_delimiter. cbn [l_prev]. destruct (g_last g) as [p|] eqn:Lp.
    - assert (Pa : p < a) by (rewrite Forall_forall in Fo; apply Fo; apply hd_error_in; congruence).
      cbn [set_glast set_lnext set_cell g_cell oid_eqb]. fold a. unfold put. destruct (Nat.eqb_spec p a); [lia|]. destruct (Nat.eqb_spec b p) as [E1|]; destruct (Nat.eqb_spec b a) as [E2|]; try lia; try reflexivity. rewrite E1. reflexivity.
    - cbn [set_glast g_cell oid_eqb]. reflexivity. }
  assert (Ca : g_count g' = S a) by (unfold g', push_delimiter; cbn [l_prev]; destruct (g_last g); reflexivity).
  assert (Na : g_nodes g' = g_nodes g) by (unfold g', push_delimiter; cbn [l_prev]; destruct (g_last g); reflexivity).
  assert (Ll : g_last g' = Some a) by reflexivity.
  assert (V : forall b, b < a -> view g' b = view g b).
  { intros b Bb. apply view_eq; [rewrite Na; reflexivity|]. rewrite Cell. destruct (Nat.eqb_spec b a); [lia|]. destruct (oid_eqb (Some b) (g_last g)); reflexivity. }
  assert (Va : view g' a = mkDelim (pred (v_start i)) (v_end i) c (v_len i) op cl (v_len i) 0) by (unfold view; rewrite Cell, Nat.eqb_refl, Na; reflexivity).
  split; [|split; [|split; [exact Na|split; [exact Ca|split; [exact Va|split; [exact V|]]]]]].
  3:{ intros b. rewrite Cell. fold a. destruct (b =? a); [reflexivity|]. destruct (oid_eqb _ _); reflexivity. }
  - split; [|split; [|split; [rewrite Ll; reflexivity|]]].
    + intros pre b post E. destruct pre as [|p0 pre]; cbn in E; injection E as <- E.
      * subst post. rewrite Cell, Nat.eqb_refl. cbn [l_next l_prev rev hd_error]. split; [reflexivity|exact La].
      * assert (Bn : b < a) by (rewrite Forall_forall in Fo; apply Fo; rewrite E; apply in_or_app; right; left; reflexivity). destruct (K pre b post E) as (K1 & K2).
        rewrite Cell. destruct (Nat.eqb_spec b a); [lia|]. rewrite La, E. destruct pre as [|p1 pre].
        -- cbn [app hd_error oid_eqb]. rewrite Nat.eqb_refl. cbn [l_next l_prev rev app hd_error]. split; [reflexivity|exact K2].
        -- replace (oid_eqb (Some b) (hd_error ((p1 :: pre) ++ b :: post))) with false.
           2:{ symmetry. apply oid_eqb_ne. cbn. intros Q. injection Q as <-. rewrite E in N. cbn in N. inversion N as [|? ? Q1 _]; subst. apply Q1. apply in_or_app. right. left. reflexivity. }
           split; [|exact K2]. rewrite K1. change (a :: p1 :: pre) with ([a] ++ p1 :: pre). rewrite hd_rev_app. reflexivity.
    + constructor; [|exact N]. intros Q. rewrite Forall_forall in Fo. specialize (Fo a Q). lia.
    + rewrite Ca. constructor; [lia|]. eapply Forall_impl; [|exact Fo]. cbn. intros; lia.
  - destruct G as (T & R & TR & GI & I). unfold ginv. rewrite Na, Ca. split; [exact T|]. split; [exact R|]. split; [exact TR|]. split.
    + intros b Bb. rewrite Cell. destruct (Nat.eqb_spec b a) as [->|]; [cbn; auto|]. destruct (oid_eqb _ _); cbn [l_inl]; apply GI; lia.
    + intros b1 b2 B1 B2 E. rewrite Ca in *. assert (Sa : sid g' a = pred (v_start i)) by (unfold sid; rewrite Va; reflexivity).
      destruct (Nat.eq_dec b1 a) as [->|N1], (Nat.eq_dec b2 a) as [->|N2]; try reflexivity.
      * exfalso. rewrite Sa in E. assert (Q : sid g' b2 = sid g b2) by (unfold sid; rewrite V by lia; reflexivity). rewrite Q in E. specialize (Sx b2 ltac:(lia)). fold i in Sx. lia.
      * exfalso. rewrite Sa in E. assert (Q : sid g' b1 = sid g b1) by (unfold sid; rewrite V by lia; reflexivity). rewrite Q in E. specialize (Sx b1 ltac:(lia)). fold i in Sx. lia.
      * apply I; [lia|lia|]. unfold sid in *. rewrite !V in E by lia. exact E.
Qed.

(** ** The steps that neither push nor remove a delimiter *)
Definition lift (ds : list delim) (bs : list bracket) (r : res subject) : res subject :=
  match r with Ok st => Ok (stacked st ds bs) | Err e => Err e end.
Lemma newline_lift ch st ds bs : handle_newline ch (stacked st ds bs) = lift ds bs (handle_newline ch st).
Proof. unfold handle_newline. cbn [s_pos stacked set_brackets set_delims]. destruct (peek_at ch (s_pos st)); [|reflexivity]. cbn [bind]. destruct (peek_at ch _); reflexivity. Qed.
Lemma backticks_lift ch st ds bs : handle_backticks ch (stacked st ds bs) = lift ds bs (handle_backticks ch st).
Proof.
  unfold handle_backticks. cbn [s_pos s_scanned s_backticks stacked set_brackets set_delims].
  destruct (MAXBACKTICKS <? _); [reflexivity|]. destruct (s_scanned st && _); [reflexivity|]. destruct (close_ticks _ _ _ _ _) as ([e|] & bt); [|reflexivity]. destruct (N.eqb _ _); reflexivity.
Qed.
Lemma backslash_lift ch st ds bs : handle_backslash ch (stacked st ds bs) = stacked (handle_backslash ch st) ds bs.
Proof. unfold handle_backslash. cbn [s_pos stacked set_brackets set_delims]. destruct (peek ch _) as [c|]; [|reflexivity]. destruct (ascii_punct c); reflexivity. Qed.
Lemma entity_lift E ch st ds bs : handle_entity E ch (stacked st ds bs) = lift ds bs (handle_entity E ch st).
Proof. unfold handle_entity. cbn [s_pos stacked set_brackets set_delims]. destruct (unescape_ent E _) as [[(a & n)|]|e]; reflexivity. Qed.
Lemma pointy_lift E ch st ds bs : handle_pointy_brace E ch (stacked st ds bs) = lift ds bs (handle_pointy_brace E ch st).
Proof.
  unfold handle_pointy_brace. cbn [s_pos stacked set_brackets set_delims set_pos].
  destruct (0 <? scan_at re_scan_autolink_uri _ _); [unfold autolink; cbn [s_pos set_pos]; destruct (unescape_html_f _ _); reflexivity|].
  destruct (0 <? scan_at re_scan_autolink_email _ _); [unfold autolink; cbn [s_pos set_pos]; destruct (unescape_html_f _ _); reflexivity|].
  change (html_inline ch (set_pos (stacked st ds bs) (S (s_pos st))) (S (s_pos st))) with (html_inline ch (set_pos st (S (s_pos st))) (S (s_pos st))).
  change (html_inline ch _ (S (s_pos st))) with (html_inline ch (set_pos st (S (s_pos st))) (S (s_pos st))).
  destruct (html_inline ch (set_pos st (S (s_pos st))) (S (s_pos st))) as (n & ((a & b) & c)). reflexivity.
Qed.

Lemma leaf_alike ch (F : subject -> res subject) (node : subject -> bool) P st : rel P st -> (forall st ds bs, F (stacked st ds bs) = lift ds bs (F st)) ->
  step_ok anywhere ch st (F st) ->
  alike (do st' <- F (p_sub P); Ok (if node st' then add_autolink P st' else add_leaf P st')) (F st).
Proof.
  intros (L & D & G & -> & Sp & B & Dn & Gv) C. rewrite C. cbn [s_pos stacked]. destruct (F (p_sub P)) as [st'|e]; cbn [bind lift alike step_ok]; [|reflexivity].
  intros (_ & Lt). cbn in Lt. destruct (node st'); [apply add_autolink_rel|apply add_leaf_rel]; try assumption; lia.
Qed.

(** ** A run of '*' or '_' *)
Lemma delim_alike E ch P st c : rel P st -> step_ok anywhere ch st (Ok (handle_delim E ch st c)) -> rel (handle_delim_ptr E ch P c) (handle_delim E ch st c).
Proof.
  intros (L & D & G & -> & Sp & B & Dn & Gv) (_ & Lt). unfold handle_delim_ptr. unfold handle_delim in *. cbn [s_pos s_delims stacked set_brackets set_delims] in *.
  destruct (scan_delims E ch (s_pos (p_sub P)) c) as ((n & op) & cl). set (i := s_pos (p_sub P)) in *.
  destruct (op || cl) eqn:O.
  2:{ change (set_pos (stacked (p_sub P) (map (view (p_graph P)) L) (map (absb (p_graph P)) (p_brackets P))) (i + n)) with (stacked (set_pos (p_sub P) (i + n)) (map (view (p_graph P)) L) (map (absb (p_graph P)) (p_brackets P))).
      exact (add_leaf_rel P L (set_pos (p_sub P) (i + n)) D G Sp B Dn Gv ltac:(cbn; lia)). }
  assert (M := make_text_ok (p_graph P) i (i + n) G).
  assert (Fm : forall K, forest (g_nodes (p_graph P)) K -> K ROOT -> forest (let '(g1, x) := make_text (p_graph P) i (i + n) in append_child (g_nodes g1) ROOT x) (fun k => K k \/ k = h_count (g_nodes (p_graph P)))) by (intros K F R; apply (add_forest (g_nodes (p_graph P)) _ ROOT K F R)).
  destruct (make_text (p_graph P) i (i + n)) as (g1 & x). destruct M as (X & C & La & Ce & Hc & Hi & G1 & V1 & O1 & O2 & r & t & T & Rx & Tx).
  assert (D1 : dinv g1 L) by (apply (dinv_cells (p_graph P)); auto; intros a; rewrite Ce; auto).
  destruct (push_ok g1 L c op cl x D1 G1) as (D2 & G2 & N2 & C2 & V2 & W2 & I2); [lia|unfold type_of; rewrite Hi; reflexivity| |].
  { intros a A. rewrite Hi. cbn [v_start pred]. rewrite C in A. unfold sid. rewrite V1 by exact A. apply Sp. exact A. }
  rewrite Hi in V2. cbn [v_start v_end v_len pred] in V2. replace (i + n - i) with n in V2 by lia.
  set (g2 := push_delimiter g1 c op cl x) in *.
  assert (X0 : ROOT < x) by (rewrite X; apply G).
  destruct (add_child_ok g2 x r t G2) as (G3 & V3 & S3 & P3 & T3); rewrite ?N2; [exact T|lia|lia| |apply Tx; lia|].
  { intros y Y. apply Rx. apply (O2 ROOT); assumption. }
  assert (C3 : g_count (add_child g2 x) = S (g_count (p_graph P))) by (change (g_count (add_child g2 x)) with (g_count g2); rewrite C2, C; reflexivity).
  assert (Vo : forall a, a < g_count (p_graph P) -> view (add_child g2 x) a = view (p_graph P) a) by (intros a A; rewrite V3 by lia; rewrite W2 by lia; apply V1; exact A).
  exists (g_count g1 :: L). cbn [p_graph p_sub p_brackets]. split; [apply dinv_nodes; exact D2|]. split; [exact G3|]. split; [|split; [|split; [|split; [exact Dn|]]]].
  4:{ split; [apply Gv|]. change (g_cell (add_child g2 x)) with (g_cell g2). rewrite C3. split.
      - intros a b A Hb. rewrite I2, Ce. destruct (Nat.eqb_spec a (g_count g1)); [assert (Q := groves_bound _ _ _ _ Gv Hb); lia|]. apply (proj1 (proj2 Gv)); [lia|exact Hb].
      - assert (F := Fm _ (proj2 (proj2 Gv)) (or_introl (or_introl eq_refl))). rewrite <- X in F. cbn [add_child g_nodes set_nodes]. rewrite N2. apply (forest_sub _ _ _ F). intros k [Q|(a & [<-|A] & Q)]; [left; left; exact Q| |].
        + right. rewrite <- Q, I2, Nat.eqb_refl. reflexivity.
        + left. right. exists a. split; [exact A|]. rewrite I2, Ce in Q. destruct (Nat.eqb_spec a (g_count g1)) as [->|]; [|exact Q]. exfalso. destruct D as (_ & _ & _ & Fo). rewrite Forall_forall in Fo. specialize (Fo _ A). lia. }
  - cbn [map]. rewrite V3, V2 by lia. rewrite (map_absb (p_graph P) _ _ Vo B). rewrite (map_view_ext (p_graph P) (add_child g2 x) L (proj2 (proj2 (proj2 D))) (fun a _ A => Vo a A)). reflexivity.
  - intros a A. rewrite C3 in A. cbn [s_pos set_pos]. unfold sid. destruct (Nat.eq_dec a (g_count (p_graph P))) as [->|Na].
    + rewrite <- C, V3, V2 by lia. cbn. cbn in Lt. lia.
    + rewrite Vo by lia. specialize (Sp a ltac:(lia)). unfold sid in Sp. lia.
  - eapply Forall_impl; [|exact B]. intros b (Kb & Hb). split; [intros a A; rewrite C3; specialize (Kb a A); lia|]. intros Ac. destruct (Hb Ac) as (H1 & H2 & H3). rewrite <- X in H1. destruct (O1 _ H1) as (Y1 & Y2).
    rewrite (proj1 S3), (same_type _ _ _ S3), P3, N2. destruct (Nat.eqb_spec (q_inl b) x); [lia|]. rewrite Y1, Y2. split; [lia|auto].
Qed.

(** ** '[' *)
Lemma open_alike P st i : rel P st -> i = s_pos st ->
  rel (let '(g, x) := make_text (p_graph P) i (S i) in mkP (set_pos (p_sub P) (S i)) (add_child g x) (mkPB (g_last g) true x :: p_brackets P))
      (set_brackets (set_pos st (S i)) (mkBracket (option_map d_start (hd_error (s_delims st))) true :: s_brackets st)).
Proof.
  intros (L & D & G & -> & Sp & B & Dn & Gv) ->. cbn [s_pos s_delims s_brackets stacked set_brackets set_delims]. set (i := s_pos (p_sub P)) in *.
  assert (K := leaf_ok (p_graph P) i (S i) L (p_brackets P) G D B). destruct (make_text (p_graph P) i (S i)) as (g1 & x). cbn zeta in K. destruct K as (G2 & D2 & B2 & C2 & La & V2 & X1 & X2 & X3 & X & Ce & Fo).
  assert (Lh : g_last g1 = hd_error L) by (rewrite La; apply D).
  exists L. cbn [p_graph p_sub p_brackets]. split; [exact D2|]. split; [exact G2|]. split; [|split; [|split; [|split]]].
  5:{ assert (Gb := fun b => groves_bound (p_graph P) L (p_brackets P) b). destruct G as (_ & _ & _ & GI & _). assert (Gw := Gv). destruct Gw as (N & Di & F). split; [|split].
      - cbn [map q_inl]. constructor; [|exact N]. intros Q. apply in_map_iff in Q as (b & Q1 & Q2). assert (Q3 := Gb b Gv Q2). lia.
      - intros a b A [<-|Hb]; rewrite Ce, C2 in *; cbn [q_inl]; [destruct (GI a A); lia|apply Di; assumption].
      - apply (forest_sub _ _ _ (Fo _ F (or_introl (or_introl eq_refl)))). rewrite Ce. intros k [[Q|(b & [<-|Hb] & Q)]|Q]; [left; left; left; exact Q|right; symmetry; exact Q|left; left; right; exists b; auto|left; right; exact Q]. }
  - unfold stacked. cbn [map]. rewrite (map_absb (p_graph P) _ _ V2 B), (map_view_ext (p_graph P) (add_child g1 x) L (proj2 (proj2 (proj2 D))) (fun a _ A => V2 a A)).
    assert (Q : absb (add_child g1 x) (mkPB (g_last g1) true x) = mkBracket (option_map d_start (hd_error (map (view (p_graph P)) L))) true).
    { unfold absb, named. cbn [q_prev q_active]. rewrite Lh. f_equal. destruct L as [|a L']; [reflexivity|]. cbn [hd_error map option_map]. unfold sid. rewrite V2; [reflexivity|]. destruct D as (_ & _ & _ & Fd). inversion Fd; assumption. }
    rewrite Q. reflexivity.
  - intros a A. rewrite C2 in A. unfold sid. rewrite V2 by exact A. specialize (Sp a A). unfold sid in Sp. cbn [s_pos set_pos]. lia.
  - constructor; [|exact B2]. split; cbn [q_prev q_active q_inl]; [|auto]. intros a A. rewrite Lh in A. rewrite C2. destruct D as (_ & _ & _ & Fd). rewrite Forall_forall in Fd. apply Fd. apply hd_error_in. exact A.
  - cbn [down q_active]. split; [discriminate|exact Dn].
Qed.

(** ** ']' *)
Lemma deactivate_abs g bs : map (absb g) (deactivate_ptr bs) = deactivate (map (absb g) bs).
Proof. induction bs as [|b bs IH]; [reflexivity|]. cbn [deactivate_ptr map deactivate]. unfold absb at 2. cbn [b_active]. destruct (q_active b) eqn:A; [cbn [map]; rewrite IH; reflexivity|]. cbn [map]. reflexivity. Qed.
Lemma deactivate_off bs : down bs -> Forall (fun b => q_active b = false) (deactivate_ptr bs).
Proof. induction bs as [|b bs IH]; [constructor|]. intros (H1 & H2). cbn [deactivate_ptr]. destruct (q_active b) eqn:A; [constructor; [reflexivity|apply IH; exact H2]|constructor; [exact A|apply H1; reflexivity]]. Qed.
Lemma deactivate_known g bs : Forall (brok g) bs -> Forall (fun b => known g (q_prev b)) (deactivate_ptr bs).
Proof. induction bs as [|b bs IH]; intros F; [constructor|]. inversion F as [|? ? F1 F2]; subst. cbn [deactivate_ptr]. destruct (q_active b); [constructor; [apply F1|apply IH; exact F2]|constructor; [apply F1|]; eapply Forall_impl; [|exact F2]; intros ? H; apply H]. Qed.
Lemma off_down bs : Forall (fun b => q_active b = false) bs -> down bs.
Proof. induction 1 as [|b bs H F IH]; [exact I|]. split; auto. Qed.
Lemma deactivate_inl bs : map q_inl (deactivate_ptr bs) = map q_inl bs.
Proof. induction bs as [|b bs IH]; [reflexivity|]. cbn [deactivate_ptr]. destruct (q_active b); [cbn [map q_inl]; rewrite IH; reflexivity|reflexivity]. Qed.
Lemma rel_pop P st p bs : rel P st -> (forall b, In b bs -> In b (p_brackets P)) -> NoDup (map q_inl bs) -> down bs -> s_pos (p_sub P) <= p ->
  rel (mkP (set_pos (p_sub P) p) (p_graph P) bs) (set_brackets (set_pos st p) (map (absb (p_graph P)) bs)).
Proof.
  intros (L & D & G & -> & Sp & B & Dn & Gv) In_ Nd Db Le. exists L. cbn [p_graph p_sub p_brackets]. split; [exact D|]. split; [exact G|]. split; [reflexivity|]. split; [|split; [|split; [exact Db|]]].
  3:{ destruct Gv as (_ & Di & F). split; [exact Nd|]. split; [intros a b A Hb; apply Di; auto|]. apply (forest_sub _ _ _ F). intros k [[Q|(b & Hb & Q)]|Q]; [left; left; exact Q|left; right; exists b; auto|right; exact Q]. }
  - intros a A. specialize (Sp a A). cbn [s_pos set_pos p_sub]. lia.
  - rewrite Forall_forall in *. auto.
Qed.

Lemma close_alike E ch P st : rel P st -> inv anywhere ch st -> alike (close_bracket_ptr E ch P) (handle_close_bracket E ch st).
Proof.
  intros Rl Iv. assert (Rl' := Rl). destruct Rl' as (L & D & G & Est & Sp & B & Dn & Gv). unfold close_bracket_ptr, handle_close_bracket.
  assert (Ep : s_pos st = s_pos (p_sub P)) by (rewrite Est; reflexivity). assert (Eb : s_brackets (set_pos st (S (s_pos st))) = map (absb (p_graph P)) (p_brackets P)) by (rewrite Est; reflexivity).
  rewrite Eb, Ep. set (i := S (s_pos (p_sub P))). cbn [s_pos set_pos]. destruct (p_brackets P) as [|b bs] eqn:Pb; cbn [map].
  - assert (Q := rel_pop P st i [] Rl ltac:(intros ? []) (NoDup_nil _) I ltac:(unfold i; lia)). cbn [map] in Q. replace (set_brackets (set_pos st i) []) with (set_pos st i) in Q; [exact Q|]. rewrite Est. reflexivity.
  - assert (Ib : forall b', In b' bs -> In b' (p_brackets P)) by (intros b' H; rewrite Pb; right; exact H).
    assert (Nq : NoDup (map q_inl bs)) by (destruct Gv as (N & _); cbn [map] in N; inversion N; assumption).
    unfold absb at 1. cbn [b_active]. destruct (q_active b) eqn:Ac; cbn [negb].
    2:{ apply rel_pop; [exact Rl|exact Ib|exact Nq|apply Dn|unfold i; lia]. }
    assert (Lk := inline_link_ok E ch i). destruct (inline_link E ch i) as [[endpos|]|e]; cbn [bind]; [| |reflexivity].
    2:{ destruct (ref_label ch i); [|reflexivity]. cbn [bind alike]. apply rel_pop; [exact Rl|exact Ib|exact Nq|apply Dn|unfold i; lia]. }
    assert (Bb := Forall_inv B). assert (Bs := Forall_inv_tail B). destruct Bb as (Kb & Hb). destruct (Hb Ac) as (H1 & H2 & H3). set (g := p_graph P) in *. set (q := q_inl b) in *.
    set (inf := mkInfo NODE_LINK 0 (v_start (h_info (g_nodes g) q)) endpos). change (alloc (g_nodes g) inf) with (fst (alloc (g_nodes g) inf), h_count (g_nodes g)). cbv beta iota. set (x := h_count (g_nodes g)) in *. set (h1 := fst (alloc (g_nodes g) inf)).
    assert (Gc := G). destruct Gc as ((r & t & T) & R & TR & GI & IG).
    assert (Ti : v_type inf <> NODE_TEXT) by discriminate.
    assert (M1 := alloc_movable r t (g_nodes g) inf T Ti). cbn zeta in M1. fold h1 x in M1. assert (T1 := alloc_high r t (g_nodes g) inf T). fold h1 x in T1.
    assert (Gr1 : grown (g_nodes g) h1) by apply alloc_grown.
    assert (LK : forall z, h_link h1 z = if z =? x then nolink else h_link (g_nodes g) z) by reflexivity.
    rewrite (insert_before_root h1 q x).
    2:{ unfold parent_of. rewrite LK. destruct (Nat.eqb_spec q x); [lia|exact H3]. }
    2:{ rewrite (grown_type _ _ _ Gr1 R). exact TR. }
    2:{ unfold first_of. rewrite LK, Nat.eqb_refl. reflexivity. }
    2:{ fold x in R. lia. }
    2:{ unfold type_of, h1. rewrite alloc_info. discriminate. }
    cbn [bind].
    destruct (move_ok (r_new r x) (t_high t x) x None (h_count h1) h1 0 (next_of h1 q) T1 M1) as (h2 & w & E2 & T2 & M2 & S2).
    { intros y Y. destruct (t_next _ _ _ _ _ T1 Y). split; [assumption|]. split; [|split; [lia|apply left_le]]. intros ->. apply (proj1 (proj1 (proj1 (proj2 (proj2 M1))) q)). exact Y. }
    rewrite E2. cbn [bind].
    assert (Tq : type_of h2 q = NODE_TEXT) by (rewrite (same_type _ _ _ S2), (grown_type _ _ _ Gr1 H1); exact H2).
    destruct (node_free_ok _ _ h2 q T2 Tq) as (h3 & E3 & T3 & S3 & _). rewrite E3. cbn [bind].
    assert (Fo3 : forall K, forest (g_nodes g) K -> K q -> forest h3 (fun k => K k /\ k <> q)).
    { intros K F Kq. apply (free_forest _ _ h2 q h3 K T2 Tq E3); [|exact Kq]. destruct (alloc_forest (g_nodes g) inf K F) as (live & W1 & Si & L1 & Hl & B1). fold h1 x in W1, Si, L1, B1.
      destruct (move_woven live (r_new r x) (t_high t x) x None (h_count h1) h1 0 (next_of h1 q) T1 M1 W1 L1) as (h2' & E2' & W2).
      { intros y Y. destruct (t_next _ _ _ _ _ T1 Y). split; [assumption|]. split; [intros ->; apply (proj1 (proj1 (proj1 (proj2 (proj2 M1))) q)); exact Y|]. split; [lia|]. split; [apply left_le|].
        destruct (W1 q (Hl q Kq)) as (_ & Y1 & _). apply (Y1 y Y). }
      rewrite E2 in E2'. injection E2' as <-. exists live. split; [exact W2|]. split; [apply (branches_same _ _ _ B1 S2)|exact Hl]. }
    assert (Gr : grown (g_nodes g) h3) by (eapply grown_trans; [exact Gr1|]; eapply grown_trans; apply same_grown; eassumption).
    destruct (ginv_nodes g h3 G (ex_intro _ (r_new r x) (ex_intro _ (t_high t x) T3)) Gr) as (G3 & V3). set (g3 := set_nodes g h3) in *.
    assert (D3 : dinv g3 L) by (apply dinv_nodes; exact D).
    assert (Ev : map (view g3) L = map (view g) L) by (apply map_view_ext; [apply D|]; intros a _ A; apply V3; exact A).
    assert (K3 : known g3 (q_prev b)) by exact Kb.
    assert (F3 : frame g g3) by (split; [reflexivity|]; intros a A; unfold sid; rewrite V3 by exact A; reflexivity).
    destruct (process_same g3 L (q_prev b) (set_pos st endpos) D3 G3 K3) as (g4 & L4 & ign & E4 & D4 & G4 & F4 & Tn & P4).
    { rewrite Ev, Est. reflexivity. }
    { rewrite Ev. destruct Iv as (Iv & _). rewrite Est in Iv. cbn in Iv. eapply Forall_impl; [|exact Iv]. intros d (_ & _ & Q1 & Q2 & _). split; assumption. }
    replace (s_ignore (set_pos st endpos)) with (s_ignore (set_pos (p_sub P) i)) in E4 by (rewrite Est; reflexivity). change (s_ignore (p_sub P)) with (s_ignore (set_pos (p_sub P) i)). rewrite E4. cbn [bind].
    assert (F : frame g g4) by (eapply frame_trans; eassumption).
    change (b_prevdelim (absb g b)) with (named g (q_prev b)). rewrite (frame_named g g3 (q_prev b) F3 Kb) in P4. change (set_pos (set_pos st i) endpos) with (set_pos st endpos).
    rewrite P4. cbn [bind alike].
    assert (Kn := deactivate_known g bs Bs). assert (Of := deactivate_off bs (proj2 Dn)).
    exists L4. cbn [p_graph p_sub p_brackets]. split; [exact D4|]. split; [exact G4|]. split; [|split; [|split; [|split; [apply off_down; exact Of|]]]].
    4:{ destruct Gv as (N & Di & Fg). cbn [map] in N. inversion N as [|? ? Nb Nbs]; subst. assert (Dq : map q_inl (deactivate_ptr bs) = map q_inl bs) by apply deactivate_inl.
        assert (Db : forall b', In b' (deactivate_ptr bs) -> exists b0, In b0 bs /\ q_inl b0 = q_inl b').
        { intros b' Hb'. assert (Q : In (q_inl b') (map q_inl bs)) by (rewrite <- Dq; apply in_map; exact Hb'). apply in_map_iff in Q as (b0 & Q1 & Q2). exists b0. auto. }
        destruct Tn as (Tc & Ti' & Tf). split; [rewrite Dq; exact Nbs|]. split.
        - intros a b' A Hb'. destruct (Db b' Hb') as (b0 & Hb0 & <-). rewrite Ti'. rewrite Tc in A. apply Di; [exact A|right; exact Hb0].
        - apply (Tf (fun k => k = ROOT \/ exists b, In b (deactivate_ptr bs) /\ q_inl b = k)).
          + intros a A [Q|(b' & Hb' & Q)].
            * destruct (GI a A) as (_ & Q2). change (g_cell g3) with (g_cell g) in Q. rewrite Q, TR in Q2. discriminate.
            * destruct (Db b' Hb') as (b0 & Hb0 & Q2). apply (Di a b0 A (or_intror Hb0)). rewrite Q2. symmetry. exact Q.
          + assert (F3' := Fo3 _ Fg (or_introl (or_intror (ex_intro _ b (conj (or_introl eq_refl) eq_refl))))). apply (forest_sub _ _ _ F3'). intros k [[Q|(b' & Hb' & Q)]|(a & A & Q)].
            * split; [left; left; exact Q|]. intros ->. rewrite Q, TR in H2. discriminate.
            * destruct (Db b' Hb') as (b0 & Hb0 & Q2). split; [left; right; exists b0; split; [right; exact Hb0|congruence]|]. intros ->. apply Nb. unfold q in Q. rewrite <- Q, <- Q2. apply in_map. exact Hb0.
            * split; [right; exists a; auto|]. intros ->. destruct D as (_ & _ & _ & Fo). rewrite Forall_forall in Fo. apply (Di a b (Fo a A) (or_introl eq_refl)). exact Q. }
    + rewrite <- deactivate_abs. replace (map (absb g) (deactivate_ptr bs)) with (map (absb g4) (deactivate_ptr bs)); [rewrite Est; reflexivity|].
      apply map_ext_in. intros b' Hb'. unfold absb. rewrite (frame_named g g4 (q_prev b') F); [reflexivity|]. rewrite Forall_forall in Kn. apply Kn. exact Hb'.
    + intros a A. destruct F as (F1 & F2). rewrite F1 in A. rewrite F2 by exact A. specialize (Sp a A). cbn [s_pos set_pos set_ignore]. unfold i in Lk. lia.
    + rewrite Forall_forall in *. intros b' Hb'. split; [apply (frame_known g g4 _ F); apply Kn; exact Hb'|]. intros Q. rewrite (Of b' Hb') in Q. discriminate.
Qed.

(** ** The loop *)
Lemma inline_alike E ch P st c : rel P st -> inv anywhere ch st -> peek ch (s_pos st) = Some c -> alike (parse_inline_ptr E ch P c) (parse_inline E ch st c).
Proof.
  intros Rl Iv Pk. assert (St := parse_inline_ok anywhere E ch st c Iv Pk (fun _ _ _ => I)). assert (Ep : s_pos st = s_pos (p_sub P)) by (destruct Rl as (L & _ & _ & -> & _); reflexivity).
  unfold parse_inline_ptr, parse_inline in *.
  destruct (N.eqb c cCR || N.eqb c cLF); [exact (leaf_alike ch _ (fun _ => false) P st Rl (newline_lift ch) St)|].
  destruct (N.eqb c cTICK); [exact (leaf_alike ch _ (fun _ => false) P st Rl (backticks_lift ch) St)|].
  destruct (N.eqb c cBS); [refine (leaf_alike ch (fun s => Ok (handle_backslash ch s)) (fun _ => false) P st Rl _ St); intros; cbn; rewrite backslash_lift; reflexivity|].
  destruct (N.eqb c 38); [exact (leaf_alike ch _ (fun _ => false) P st Rl (entity_lift E ch) St)|].
  destruct (N.eqb c 60); [exact (leaf_alike ch _ (fun _ => is_autolink ch (S (s_pos (p_sub P)))) P st Rl (pointy_lift E ch) St)|].
  destruct (N.eqb c cSTAR || N.eqb c cUND); [apply (delim_alike E ch P st c Rl St)|].
  destruct (cin c _); [refine (leaf_alike ch (fun s => Ok (set_pos s (S (s_pos s)))) (fun _ => false) P st Rl _ St); reflexivity|].
  destruct (N.eqb c cLB); [rewrite <- Ep; rewrite Ep; assert (Q := open_alike P st (s_pos (p_sub P)) Rl (eq_sym Ep)); destruct (make_text _ _ _); exact Q|].
  destruct (N.eqb c cRB); [apply close_alike; assumption|].
  assert (Q := leaf_alike ch (fun s => do n <- find_special (skipn (S (s_pos s)) (c_inp ch)) (S (s_pos s)); Ok (set_pos s n)) (fun _ => false) P st Rl).
  cbn beta in Q. assert (Q' := fun C => Q C St). clear Q.
  destruct (find_special (skipn (S (s_pos (p_sub P))) (c_inp ch)) (S (s_pos (p_sub P)))) as [n|e]; cbn [bind] in *; apply Q'; clear;
    intros st ds bs; cbn [s_pos stacked set_brackets set_delims]; destruct (find_special _ _); reflexivity.
Qed.

Lemma loop_alike E ch : forall fuel P st, rel P st -> inv anywhere ch st -> alike (parse_loop_ptr fuel E ch P) (parse_loop fuel E ch st).
Proof.
  induction fuel as [|fuel IH]; intros P st Rl Iv; [reflexivity|]. cbn [parse_loop_ptr parse_loop].
  assert (Ep : s_pos st = s_pos (p_sub P)) by (destruct Rl as (L & _ & _ & -> & _); reflexivity). rewrite <- Ep. destruct (peek ch (s_pos st)) as [c|] eqn:Pk; [|exact Rl].
  assert (A := inline_alike E ch P st c Rl Iv Pk). assert (St := parse_inline_ok anywhere E ch st c Iv Pk (fun _ _ _ => I)).
  destruct (parse_inline_ptr E ch P c) as [P'|e], (parse_inline E ch st c) as [st'|e']; cbn [alike bind step_ok] in *; try contradiction; [|exact A]. apply IH; [exact A|apply St].
Qed.

Lemma rel_init : rel (mkP init_subject init_graph []) init_subject.
Proof.
  exists []. cbn [p_graph p_sub p_brackets]. split; [|split; [|split; [reflexivity|split; [|split; [constructor|split; [exact I|]]]]]].
  4:{ split; [constructor|]. split; [intros a b A; cbn in A; lia|]. exists (fun x => x = ROOT). split; [|split; [intros x X _; cbn in X; unfold ROOT; lia|]; intros k [[Q|(b & [] & _)]|(a & [] & _)]; exact Q].
      intros x ->. cbn. unfold ROOT. split; [lia|]. repeat (split; [discriminate|]). split; [auto|tauto]. }
  - split; [intros [|] ? ? Q; discriminate|]. split; [constructor|]. split; [reflexivity|constructor].
  - split; [|split; [cbn; unfold ROOT; lia|split; [reflexivity|split; [|]]]].
    + exists (fun _ => 0), (fun _ => 0). intros x. cbn. split; [|split; [|split; [|split]]]; intros ? Q; discriminate Q.
    + intros a A. cbn in A. lia.
    + intros a b A. cbn in A. lia.
  - intros a A. cbn in A. lia.
Qed.

Theorem parse_inlines_same E s : parse_inlines_ptr E s = parse_inlines E s.
Proof.
  unfold parse_inlines_ptr, parse_inlines. assert (A := loop_alike E (trimmed E s) (S (length s)) _ _ rel_init (inv_init anywhere (trimmed E s))). assert (K := parse_loop_known E s).
  destruct (parse_loop_ptr _ _ _ _) as [P|e], (parse_loop _ _ _ _) as [st|e']; cbn [alike bind] in *; try contradiction; [|subst; reflexivity].
  destruct K as ((Iv & _) & _). destruct A as (L & D & G & Est & _).
  destruct (process_same (p_graph P) L None st D G) as (g & L' & ign & E1 & D1 & G1 & F1 & _ & P1); [intros a Q; discriminate Q|rewrite Est; reflexivity| |].
  { rewrite Est in Iv. cbn in Iv. eapply Forall_impl; [|exact Iv]. intros d (_ & _ & Q1 & Q2 & _). split; assumption. }
  replace (s_ignore st) with (s_ignore (p_sub P)) in E1 by (rewrite Est; reflexivity). rewrite E1. cbn [bind named option_map] in *. rewrite P1. cbn [bind].
  destruct (drop_ok None L' g (S (g_count g)) D1) as (g2 & L2 & -> & _); [apply G1|intros a Q; discriminate Q| |reflexivity].
  destruct D1 as (_ & N & _ & Fo). assert (Le : length L' <= length (seq 0 (g_count g))); [|rewrite seq_length in Le; lia].
  apply NoDup_incl_length; [exact N|]. intros a A. rewrite Forall_forall in Fo. apply in_seq. specialize (Fo a A). lia.
Qed.
Theorem remove_emphasis_same E p line : remove_emphasis_ptr E p line = remove_emphasis E p line.
Proof. unfold remove_emphasis_ptr, remove_emphasis. destruct p; rewrite ?parse_inlines_same; reflexivity. Qed.
