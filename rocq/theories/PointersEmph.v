(** Emphasis with linked structures (Pointers.v) and with lists (Inlines.v): the same. *)
From Coq Require Import String List NArith Bool Arith Lia.
From Verif Require Import Str Spec EnvSpec Regex HtmlRe Fence Atx Entity Inlines HelperSpec EntityProof InlineProof Pointers PointersTree PointersForest PointersList.
Import ListNotations.
Local Open Scope list_scope.

(** The nodes are in order and every delimiter has its own text node. *)
Definition ginv (g : graph) : Prop :=
  (exists r t, tinv r t (g_nodes g)) /\ ROOT < h_count (g_nodes g) /\ type_of (g_nodes g) ROOT = NODE_NONE /\
  (forall a, a < g_count g -> l_inl (g_cell g a) < h_count (g_nodes g) /\ type_of (g_nodes g) (l_inl (g_cell g a)) = NODE_TEXT) /\ ids g.

Lemma dinv_cells g g' L : dinv g L -> (forall a, l_prev (g_cell g' a) = l_prev (g_cell g a) /\ l_next (g_cell g' a) = l_next (g_cell g a)) ->
  g_last g' = g_last g -> g_count g' = g_count g -> dinv g' L.
Proof.
  intros (K & N & La & Fo) H E C. split; [|split; [exact N|split; [congruence|rewrite C; exact Fo]]].
  intros pre a post E2. destruct (H a) as (H1 & H2). rewrite H1, H2. apply K. exact E2.
Qed.
Lemma dinv_nodes g h L : dinv g L -> dinv (set_nodes g h) L.
Proof. intros D. apply (dinv_cells g); auto. Qed.
Lemma cell_set_off g n v b : g_cell (set_off g n v) b = if b =? n then mkCell (l_prev (g_cell g n)) (l_next (g_cell g n)) (l_inl (g_cell g n)) (l_len (g_cell g n)) (l_char (g_cell g n)) (l_open (g_cell g n)) (l_close (g_cell g n)) v else g_cell g b.
Proof. reflexivity. Qed.
Lemma dinv_off g a n L : dinv g L -> dinv (set_off g a n) L.
Proof. intros D. apply (dinv_cells g); auto. intros b. rewrite cell_set_off. destruct (Nat.eqb_spec b a) as [->|]; auto. Qed.
Lemma set_len_tinv r t h x n : tinv r t h -> tinv r t (set_len h x n).
Proof.
  intros T y. assert (E : forall z, type_of (set_len h x n) z = type_of h z) by (intros z; unfold type_of, set_len, put; cbn; destruct (Nat.eqb_spec z x) as [->|]; reflexivity).
  destruct (T y) as (A & B & C & D & F). split; [exact A|]. split; [exact B|]. split; [|split; [exact D|]].
  - intros z Z. rewrite E. apply C. exact Z.
  - intros z Z. rewrite E. apply F. exact Z.
Qed.
Lemma set_len_type h x n z : type_of (set_len h x n) z = type_of h z.
Proof. unfold type_of, set_len, put; cbn; destruct (Nat.eqb_spec z x) as [->|]; reflexivity. Qed.

(** What a step of the parser leaves of the delimiters. *)
Lemma view_eq g g' a : h_info (g_nodes g') (l_inl (g_cell g a)) = h_info (g_nodes g) (l_inl (g_cell g a)) -> core (g_cell g' a) = core (g_cell g a) -> view g' a = view g a.
Proof. intros H C. unfold core in C. injection C as C1 C2 C3 C4 C5 C6. unfold view. rewrite C1, C2, C3, C4, C5, C6, H. reflexivity. Qed.
Lemma ids_sid g g' : ids g -> g_count g' = g_count g -> (forall a, a < g_count g -> sid g' a = sid g a) -> ids g'.
Proof. intros I C S a b A B E. rewrite C in *. rewrite !S in E by assumption. apply I; assumption. Qed.

Lemma ginv_nodes g h : ginv g -> (exists r t, tinv r t h) -> grown (g_nodes g) h -> ginv (set_nodes g h) /\ (forall a, a < g_count g -> view (set_nodes g h) a = view g a).
Proof.
  intros (T & R & TR & G & I) T' Gr. assert (V : forall a, a < g_count g -> view (set_nodes g h) a = view g a).
  { intros a A. apply view_eq; [|reflexivity]. cbn. apply Gr. apply G. exact A. }
  split; [|exact V]. split; [exact T'|]. cbn. split; [destruct Gr; lia|]. split; [rewrite (grown_type _ _ _ Gr R); exact TR|]. split.
  - intros a A. destruct (G a A) as (G1 & G2). split; [destruct Gr; lia|]. rewrite (grown_type _ _ _ Gr G1). exact G2.
  - apply (ids_sid g); [exact I|reflexivity|]. intros a A. unfold sid. rewrite V by exact A. reflexivity.
Qed.
Lemma ginv_quiet g g' : ginv g -> quiet g g' -> ginv g'.
Proof.
  intros (T & R & TR & G & I) Q. pose proof (quiet_inl g g') as QI. pose proof (quiet_ids _ _ Q I) as I'. destruct Q as (Q1 & Q2 & Q3). unfold ginv. rewrite Q1, Q2.
  split; [exact T|]. split; [exact R|]. split; [exact TR|]. split; [|exact I'].
  intros a A. rewrite QI by (split; [assumption|split; assumption]). apply G. exact A.
Qed.

Lemma inl_ne g a b : ids g -> a < g_count g -> b < g_count g -> a <> b -> l_inl (g_cell g a) <> l_inl (g_cell g b).
Proof. intros I A B N E. apply N. apply I; [assumption|assumption|]. unfold sid, view. cbn. rewrite E. reflexivity. Qed.

Definition keep (d : delim) (a : nat) : list nat := if d_num d =? 0 then [] else [a].
Lemma rev_keep d a : rev (keep d a) = keep d a.
Proof. unfold keep. destruct (d_num d =? 0); reflexivity. Qed.

(** A step from [g] with the delimiters [L] to [g'] with the delimiters [L'] keeps the text nodes of the
    delimiters, and all nodes in use stay linked as they should be. *)
Definition tended (g : graph) (L : list nat) (g' : graph) (L' : list nat) : Prop :=
  g_count g' = g_count g /\ (forall a, l_inl (g_cell g' a) = l_inl (g_cell g a)) /\
  forall X : nat -> Prop, (forall a, a < g_count g -> ~ X (l_inl (g_cell g a))) ->
    forest (g_nodes g) (fun k => X k \/ exists a, In a L /\ l_inl (g_cell g a) = k) ->
    forest (g_nodes g') (fun k => X k \/ exists a, In a L' /\ l_inl (g_cell g' a) = k).
Lemma tended_refl g L : tended g L g L.
Proof. split; [reflexivity|]. split; [reflexivity|]. auto. Qed.
Lemma tended_trans g1 L1 g2 L2 g3 L3 : tended g1 L1 g2 L2 -> tended g2 L2 g3 L3 -> tended g1 L1 g3 L3.
Proof.
  intros (C1 & I1 & F1) (C2 & I2 & F2). split; [congruence|]. split; [intros a; rewrite I2; apply I1|]. intros X H F. apply F2; [|apply F1; assumption]. intros a A. rewrite I1. apply H. congruence.
Qed.
Lemma tended_quiet g g' L L' : quiet g g' -> incl L' L -> tended g L g' L'.
Proof.
  intros Q I. split; [apply Q|]. split; [intros a; apply (quiet_inl _ _ _ Q)|]. intros X H F. rewrite (proj1 Q). apply (forest_sub _ _ _ F). intros k [K|(a & A & B)]; [auto|]. right. exists a. rewrite <- (quiet_inl _ _ a Q). auto.
Qed.
Lemma tended_perm g L g' L' M : tended g L g' L' -> (forall a, In a L -> In a M) -> tended g M g' L'.
Proof. intros (C & I & F) S. split; [exact C|]. split; [exact I|]. intros X H Fo. apply F; [exact H|]. apply (forest_sub _ _ _ Fo). intros k [K|(a & A & B)]; [auto|]. right. exists a. auto. Qed.

Lemma remove_emph_ok g post c sk o below ign : dinv g (post ++ c :: sk ++ o :: below) -> ginv g -> 1 <= d_num (view g o) -> 1 <= d_num (view g c) ->
  let u := use_delims (view g o) (view g c) in
  let o' := shrink u (view g o) in let c' := shrink u (view g c) in
  exists g', remove_emph g o c ign = Ok (g', (if d_num c' =? 0 then hd_error (rev post) else Some c), ign ++ [opener_range u (view g o); closer_range u (view g c)]) /\
    dinv g' (post ++ keep c' c ++ keep o' o ++ below) /\ ginv g' /\ g_count g' = g_count g /\
    view g' o = o' /\ view g' c = c' /\ (forall x, x < g_count g -> x <> o -> x <> c -> view g' x = view g x) /\
    tended g (post ++ c :: sk ++ o :: below) g' (post ++ keep c' c ++ keep o' o ++ below).
Proof.
  intros D G No Nc u o' c'.
  assert (Ao : o < g_count g) by (destruct D as (_ & _ & _ & F); rewrite Forall_forall in F; apply F; apply in_or_app; right; right; apply in_or_app; right; left; reflexivity).
  assert (Ac : c < g_count g) by (destruct D as (_ & _ & _ & F); rewrite Forall_forall in F; apply F; apply in_or_app; right; left; reflexivity).
  assert (Noc : o <> c) by (intros ->; destruct D as (_ & N & _); apply NoDup_remove_2 in N; apply N; apply in_or_app; right; apply in_or_app; right; left; reflexivity).
  destruct (use_le (view g o) (view g c) No Nc) as (U1 & U2 & U3). fold u in U1, U2, U3.
  unfold remove_emph. fold u. set (no := l_inl (g_cell g o)). set (nc := l_inl (g_cell g c)).
  change (v_len (h_info (g_nodes g) no)) with (d_num (view g o)). change (v_len (h_info (g_nodes g) nc)) with (d_num (view g c)).
  unfold minus at 1. destruct (Nat.ltb_spec (d_num (view g o)) u); [lia|]. cbn [bind].
  unfold minus at 1. destruct (Nat.ltb_spec (d_num (view g c)) u); [lia|]. cbn [bind].
  change (d_num (view g o) - u) with (d_num o'). change (d_num (view g c) - u) with (d_num c').
  assert (Nn : no <> nc) by (apply inl_ne; try assumption; apply G).
  set (g1 := set_nodes g _).
  assert (I1 : forall z, h_info (g_nodes g1) z = if z =? nc then mkInfo (v_type (h_info (g_nodes g) nc)) (d_num c') (v_start (h_info (g_nodes g) nc)) (v_end (h_info (g_nodes g) nc))
             else if z =? no then mkInfo (v_type (h_info (g_nodes g) no)) (d_num o') (v_start (h_info (g_nodes g) no)) (v_end (h_info (g_nodes g) no)) else h_info (g_nodes g) z).
  { intros z. unfold g1, set_len, set_nodes, put. cbn [g_nodes h_info]. destruct (Nat.eqb_spec nc no); [congruence|]. reflexivity. }
  assert (D1 : dinv g1 (post ++ c :: sk ++ o :: below)) by (apply dinv_nodes; exact D).
  assert (Vs : forall x, sid g1 x = sid g x).
  { intros x. unfold sid, view. cbn [d_start]. rewrite I1. change (g_cell g1) with (g_cell g). destruct (Nat.eqb_spec (l_inl (g_cell g x)) nc) as [->|]; [reflexivity|]. destruct (Nat.eqb_spec (l_inl (g_cell g x)) no) as [->|]; reflexivity. }
  assert (G1 : ginv g1).
  { destruct G as ((r & t & T) & R & TR & GI & I). split; [exists r, t; apply set_len_tinv, set_len_tinv; exact T|]. split; [exact R|]. split; [unfold g1; cbn [g_nodes set_nodes]; rewrite !set_len_type; exact TR|].
    split; [|apply (ids_sid g); auto]. intros a A. unfold g1. cbn [g_nodes set_nodes g_cell]. rewrite !set_len_type. apply GI. exact A. }
  assert (Fuel : length sk <= S (g_count g1)).
  { destruct D as (_ & N & _ & F). apply nodup_r in N. inversion N as [|? ? _ N']; subst. apply nodup_l in N'. assert (L := NoDup_incl_length N' (l' := seq 0 (g_count g))).
    rewrite seq_length in L. cbn. etransitivity; [apply L|lia]. intros a A. apply in_seq. rewrite Forall_forall in F. split; [lia|]. apply F. apply in_or_app. right. right. apply in_or_app. left. exact A. }
  assert (Pc : l_prev (g_cell g1 c) = hd_error (sk ++ o :: below)) by (apply (linked_prev _ post); apply D1). rewrite Pc.
  destruct (free_between_ok o below sk (post ++ [c]) g1 (S (g_count g1))) as (g2 & -> & D2 & Q2); [rewrite <- app_assoc; exact D1|exact Fuel|]. cbn [bind].
  rewrite <- app_assoc in D2. cbn [app] in D2. assert (G2 := ginv_quiet _ _ G1 Q2).
  destruct (alloc (g_nodes g2) _) as (h3 & e) eqn:Al.
  set (inf := mkInfo _ _ _ _) in Al.
  assert (E3 : h3 = fst (alloc (g_nodes g2) inf) /\ e = h_count (g_nodes g2)) by (rewrite Al; injection Al as _ <-; auto). destruct E3 as (-> & ->). clear Al. set (e := h_count (g_nodes g2)). set (h3 := fst (alloc (g_nodes g2) inf)).
  assert (Ti : v_type inf <> NODE_TEXT) by (unfold inf; cbn; destruct (u =? 1); discriminate).
  destruct G2 as ((r & t & T2) & R2 & TR2 & GI2 & IG2).
  assert (M3 := alloc_movable r t (g_nodes g2) inf T2 Ti). cbn zeta in M3. fold h3 e in M3. assert (T3 := alloc_high r t (g_nodes g2) inf T2). fold h3 e in T3.
  assert (C2 : g_count g2 = g_count g) by (destruct Q2 as (_ & Q & _); exact Q).
  assert (Lo : l_inl (g_cell g2 o) = no) by (rewrite (quiet_inl _ _ _ Q2); reflexivity).
  assert (Lc : l_inl (g_cell g2 c) = nc) by (rewrite (quiet_inl _ _ _ Q2); reflexivity).
  assert (Bo : no < e) by (rewrite <- Lo; apply GI2; rewrite C2; exact Ao).
  assert (Bc : nc < e) by (rewrite <- Lc; apply GI2; rewrite C2; exact Ac).
  destruct (move_ok (r_new r e) (t_high t e) e (Some nc) (h_count h3) h3 0 (next_of h3 no) T3 M3) as (h4 & w & E4 & T4 & M4 & S4).
  { intros x X. destruct (t_next _ _ _ _ _ T3 X). split; [assumption|]. split; [|split; [lia|apply left_le]]. intros ->. apply (proj1 (proj1 (proj1 (proj2 (proj2 M3))) no)). exact X. }
  rewrite E4. cbn [bind].
  destruct (insert_after_ok _ _ h4 no e w T4 M4) as (h5 & r5 & t5 & E5 & T5 & S5); [rewrite (proj1 S4); cbn; fold e; lia|lia|]. rewrite E5. cbn [bind].
  assert (Fo5 : forall K, forest (g_nodes g) K -> K no -> forest h5 K).
  { intros K F Kn. assert (F2 : forest (g_nodes g2) K) by (rewrite (proj1 Q2); apply (forest_ext (g_nodes g)); [exact F|reflexivity|reflexivity|intros z; unfold g1; cbn [g_nodes set_nodes]; rewrite !set_len_type; reflexivity]).
    destruct (alloc_forest (g_nodes g2) inf K F2) as (live & W3 & S3 & L3 & H3 & B3). fold h3 e in W3, S3, L3, B3.
    destruct (move_woven live (r_new r e) (t_high t e) e (Some nc) (h_count h3) h3 0 (next_of h3 no) T3 M3 W3 L3) as (h4' & E4' & W4).
    { intros x X. destruct (t_next _ _ _ _ _ T3 X). split; [assumption|]. split; [intros ->; apply (proj1 (proj1 (proj1 (proj2 (proj2 M3))) no)); exact X|]. split; [lia|]. split; [apply left_le|].
      destruct (W3 no (H3 no Kn)) as (_ & Y1 & _). apply (Y1 x X). }
    rewrite E4 in E4'. injection E4' as <-. exists live. split; [|split; [apply (branches_same _ _ _ B3); eapply same_trans; eassumption|exact H3]].
    destruct M4 as (_ & _ & (_ & A2 & A3 & A4) & _).
    apply (insert_woven live h4 no e h5 W4); [apply H3; exact Kn|exact L3|split; [exact A2|split; [exact A3|exact A4]]|lia| |exact E5].
    intros Q. destruct (t_next _ _ _ _ _ T4 Q). lia. }

  assert (Gr : grown (g_nodes g2) h5).
  { eapply grown_trans; [apply (alloc_grown _ inf)|]. fold h3. eapply grown_trans; apply same_grown; eassumption. }
  assert (G2 : ginv g2) by (split; [exists r, t; exact T2|auto]).
  destruct (ginv_nodes g2 h5 G2 (ex_intro _ r5 (ex_intro _ t5 T5)) Gr) as (G5 & V5). set (g5 := set_nodes g2 h5) in *.
  assert (D5 : dinv g5 (post ++ c :: o :: below)) by (apply dinv_nodes; exact D2).
  assert (V52 : forall x, x < g_count g -> view g5 x = view g1 x) by (intros x X; rewrite V5 by (rewrite C2; exact X); apply quiet_view; exact Q2).
  assert (W1 : forall x, view g1 x = mkDelim (d_start (view g x)) (d_end (view g x)) (d_char (view g x)) (d_len (view g x)) (d_open (view g x)) (d_close (view g x))
             (if l_inl (g_cell g x) =? nc then d_num c' else if l_inl (g_cell g x) =? no then d_num o' else d_num (view g x)) (d_off (view g x))).
  { intros x. unfold view. cbn [d_start d_end d_char d_len d_open d_close d_off d_num]. rewrite I1. change (g_cell g1) with (g_cell g). destruct (Nat.eqb_spec (l_inl (g_cell g x)) nc) as [->|]; [reflexivity|]. destruct (Nat.eqb_spec (l_inl (g_cell g x)) no) as [->|]; reflexivity. }
  replace (opener_range u (view g5 o)) with (opener_range u (view g o)) by (rewrite (V52 o Ao), W1; reflexivity).
  replace (closer_range u (view g5 c)) with (closer_range u (view g c)) by (rewrite (V52 c Ac), W1; reflexivity).
  set (ign' := ign ++ _).
  set (g6 := set_off (set_off g5 o _) c _).
  assert (K6 : forall x, g_cell g6 x = let k := g_cell g5 x in mkCell (l_prev k) (l_next k) (l_inl k) (l_len k) (l_char k) (l_open k) (l_close k)
              (if x =? c then l_off k + u else if x =? o then l_off k + u else l_off k)).
  { intros x. unfold g6. rewrite cell_set_off. destruct (Nat.eqb_spec x c) as [->|].
    - rewrite !cell_set_off. destruct (Nat.eqb_spec c o); [congruence|]. reflexivity.
    - rewrite cell_set_off. destruct (Nat.eqb_spec x o) as [->|]; [reflexivity|]. destruct (g_cell g5 x); reflexivity. }
  assert (D6 : dinv g6 (post ++ c :: o :: below)) by (apply dinv_off, dinv_off; exact D5).
  assert (V6 : forall x, x < g_count g -> view g6 x = if x =? o then o' else if x =? c then c' else view g x).
  { intros x X. assert (Z : view g6 x = mkDelim (d_start (view g5 x)) (d_end (view g5 x)) (d_char (view g5 x)) (d_len (view g5 x)) (d_open (view g5 x)) (d_close (view g5 x)) (d_num (view g5 x))
             (if x =? c then d_off (view g5 x) + u else if x =? o then d_off (view g5 x) + u else d_off (view g5 x))).
    { unfold view at 1. rewrite K6. change (g_nodes g6) with (g_nodes g5). reflexivity. }
    rewrite Z. rewrite (V52 x X), W1. cbn [d_start d_end d_char d_len d_open d_close d_num d_off].
    destruct (Nat.eqb_spec x o) as [->|N1].
    - destruct (Nat.eqb_spec o c); [contradiction|]. fold no. destruct (Nat.eqb_spec no nc); [contradiction|]. rewrite Nat.eqb_refl. reflexivity.
    - destruct (Nat.eqb_spec x c) as [->|N2].
      + fold nc. rewrite Nat.eqb_refl. reflexivity.
      + destruct (Nat.eqb_spec (l_inl (g_cell g x)) nc) as [Y|_]; [exfalso; apply (inl_ne g x c (proj2 (proj2 (proj2 (proj2 G)))) X Ac N2 Y)|].
        destruct (Nat.eqb_spec (l_inl (g_cell g x)) no) as [Y|_]; [exfalso; apply (inl_ne g x o (proj2 (proj2 (proj2 (proj2 G)))) X Ao N1 Y)|]. destruct (view g x); reflexivity. }
  assert (C6 : g_count g6 = g_count g) by exact C2.
  assert (G6 : ginv g6).
  { destruct G5 as (T & R & TR & GI & I). split; [exact T|]. split; [exact R|]. split; [exact TR|]. split.
    - intros a A. rewrite K6. cbn [l_inl]. apply GI. exact A.
    - apply (ids_sid g5); [exact I|reflexivity|]. intros a _. unfold sid, view. rewrite K6. reflexivity. }
  assert (Lo6 : l_inl (g_cell g6 o) = no) by (rewrite K6; exact Lo). assert (Lc6 : l_inl (g_cell g6 c) = nc) by (rewrite K6; exact Lc).
  assert (I6 : forall a, l_inl (g_cell g6 a) = l_inl (g_cell g a)) by (intros a; rewrite K6; cbn [l_inl]; change (g_cell g5) with (g_cell g2); rewrite (quiet_inl _ _ _ Q2); reflexivity).
  assert (Fo6 : forall K, forest (g_nodes g) K -> K no -> forest (g_nodes g6) K) by exact Fo5.
  (* the opener is removed if it is used up *)
  set (r7 := if d_num o' =? 0 then _ else Ok g6).
  assert (S7 : exists g7, r7 = Ok g7 /\ dinv g7 (post ++ c :: keep o' o ++ below) /\ ginv g7 /\ g_count g7 = g_count g /\ (forall x, x < g_count g -> view g7 x = view g6 x) /\ (forall a, l_inl (g_cell g7 a) = l_inl (g_cell g a)) /\
     (forall K, forest (g_nodes g6) K -> K no -> forest (g_nodes g7) (fun k => K k /\ (d_num o' = 0 -> k <> no)))).
  { unfold r7, keep. destruct (Nat.eqb_spec (d_num o') 0) as [Zo|Zo]; [|exists g6; split; [reflexivity|]; split; [exact D6|]; split; [exact G6|]; split; [exact C6|]; split; [auto|]; split; [exact I6|]; intros K F _; apply (forest_sub _ _ _ F); intros k Q; apply Q || (destruct Q; assumption)].
    destruct G6 as ((r6 & t6 & T6) & R6 & TR6 & GI6 & IG6).
    destruct (node_free_ok r6 t6 (g_nodes g6) no T6) as (h7 & E7 & T7 & S7 & _); [rewrite <- Lo6; apply GI6; rewrite C6; exact Ao|]. rewrite E7. cbn [bind].
    assert (G6 : ginv g6) by (split; [exists r6, t6; exact T6|auto]).
    destruct (ginv_nodes g6 h7 G6 (ex_intro _ r6 (ex_intro _ t6 T7)) (same_grown _ _ S7)) as (G7 & V7).
    destruct (remove_ok (set_nodes g6 h7) (post ++ [c]) o below) as (g8 & -> & D8 & Q8); [rewrite <- app_assoc; apply dinv_nodes; exact D6|].
    exists g8. split; [reflexivity|]. rewrite <- app_assoc in D8. split; [exact D8|]. split; [apply (ginv_quiet _ _ G7 Q8)|]. split; [rewrite (proj1 (proj2 Q8)); exact C6|].
    split; [intros x X; rewrite (quiet_view _ _ _ Q8); apply V7; rewrite C6; exact X|]. split; [intros a; rewrite (quiet_inl _ _ _ Q8); apply I6|].
    intros K F Kn. rewrite (proj1 Q8). cbn [g_nodes set_nodes]. apply (forest_sub _ (fun k => K k /\ k <> no)); [|intros k (A & B); auto].
    apply (free_forest r6 t6 (g_nodes g6) no h7 K T6); [rewrite <- Lo6; apply GI6; rewrite C6; exact Ao|exact E7|exact F|exact Kn]. }
  destruct S7 as (g7 & -> & D7 & G7 & C7 & V7 & I7 & Fo7). cbn [bind]. assert (Lc7 : l_inl (g_cell g7 c) = nc) by apply I7.
  (* the nodes that are in use at the end were in use at the start *)
  assert (Use : forall (X : nat -> Prop) k, (forall a, a < g_count g -> ~ X (l_inl (g_cell g a))) -> (X k \/ exists a, In a (post ++ keep c' c ++ keep o' o ++ below) /\ l_inl (g_cell g a) = k) ->
      ((X k \/ exists a, In a (post ++ c :: sk ++ o :: below) /\ l_inl (g_cell g a) = k) /\ (d_num o' = 0 -> k <> no)) /\ (d_num c' = 0 -> k <> nc)).
  { intros X k Hx Hk. assert (Nd := proj1 (proj2 D)). assert (Fo := proj2 (proj2 (proj2 D))). rewrite Forall_forall in Fo. destruct Hk as [Hk|(a & A & <-)].
    - split; [split; [left; exact Hk|]|]; intros _ ->; [apply (Hx o Ao)|apply (Hx c Ac)]; exact Hk.
    - assert (A' : In a (post ++ c :: sk ++ o :: below)).
      { unfold keep in A. apply in_app_or in A as [A|A]; [apply in_or_app; auto|]. apply in_or_app. right. apply in_app_or in A as [A|A]; [destruct (d_num c' =? 0); [destruct A|destruct A as [->|[]]; left; reflexivity]|]. right. apply in_or_app. right.
        apply in_app_or in A as [A|A]; [destruct (d_num o' =? 0); [destruct A|destruct A as [->|[]]; left; reflexivity]|right; exact A]. }
      split; [split; [right; exists a; auto|]|]; intros Z; (apply (inl_ne g); [apply G|apply Fo; exact A'|assumption|]); intros ->.
      + unfold keep in A. rewrite Z in A. cbn [Nat.eqb app] in A. rewrite app_comm_cons, app_assoc in Nd. apply NoDup_remove_2 in Nd. apply Nd. rewrite <- app_assoc. apply in_app_or in A as [A|A]; apply in_or_app; [auto|]. right.
        apply in_app_or in A as [A|A]; [destruct (d_num c' =? 0); [destruct A|destruct A as [->|[]]; left; reflexivity]|]. right. apply in_or_app. right. exact A.
      + unfold keep in A. rewrite Z in A. cbn [Nat.eqb app] in A. apply NoDup_remove_2 in Nd. apply Nd. apply in_app_or in A as [A|A]; apply in_or_app; [auto|]. right. apply in_or_app. right.
        apply in_app_or in A as [A|A]; [destruct (d_num o' =? 0); [destruct A|destruct A as [->|[]]; left; reflexivity]|right; exact A]. }
  assert (Ko : forall X : nat -> Prop, X no \/ exists a, In a (post ++ c :: sk ++ o :: below) /\ l_inl (g_cell g a) = no) by (intros X; right; exists o; split; [apply in_or_app; right; right; apply in_or_app; right; left; reflexivity|reflexivity]).
  assert (Kc : forall X : nat -> Prop, X nc \/ exists a, In a (post ++ c :: sk ++ o :: below) /\ l_inl (g_cell g a) = nc) by (intros X; right; exists c; split; [apply in_or_app; right; left; reflexivity|reflexivity]).
  (* and so is the closer *)
  assert (F7 : view g7 o = o' /\ view g7 c = c' /\ (forall x, x < g_count g -> x <> o -> x <> c -> view g7 x = view g x)).
  { split; [rewrite (V7 o Ao), (V6 o Ao), Nat.eqb_refl; reflexivity|]. split.
    - rewrite (V7 c Ac), (V6 c Ac). destruct (Nat.eqb_spec c o); [congruence|]. rewrite Nat.eqb_refl. reflexivity.
    - intros x X N1 N2. rewrite (V7 x X), (V6 x X). destruct (Nat.eqb_spec x o); [contradiction|]. destruct (Nat.eqb_spec x c); [contradiction|]. reflexivity. }
  destruct (d_num c' =? 0) eqn:Zc.
  - destruct G7 as ((r7' & t7 & T7) & R7 & TR7 & GI7 & IG7).
    destruct (node_free_ok r7' t7 (g_nodes g7) nc T7) as (h8 & E8 & T8 & S8 & _); [rewrite <- Lc7; apply GI7; rewrite C7; exact Ac|]. rewrite E8. cbn [bind].
    assert (G7 : ginv g7) by (split; [exists r7', t7; exact T7|auto]).
    destruct (ginv_nodes g7 h8 G7 (ex_intro _ r7' (ex_intro _ t7 T8)) (same_grown _ _ S8)) as (G8 & V8).
    assert (D8 := dinv_nodes g7 h8 _ D7). rewrite (proj1 (proj1 D8 post c (keep o' o ++ below) eq_refl)).
    destruct (remove_ok (set_nodes g7 h8) post c (keep o' o ++ below) D8) as (g9 & -> & D9 & Q9). cbn [bind].
    exists g9. split; [reflexivity|]. unfold keep at 1. rewrite Zc. split; [exact D9|]. split; [apply (ginv_quiet _ _ G8 Q9)|]. split; [rewrite (proj1 (proj2 Q9)); exact C7|].
    assert (V9 : forall x, x < g_count g -> view g9 x = view g7 x) by (intros x X; rewrite (quiet_view _ _ _ Q9); apply V8; rewrite C7; exact X).
    destruct F7 as (F1 & F2 & F3). split; [rewrite V9 by exact Ao; exact F1|]. split; [rewrite V9 by exact Ac; exact F2|]. split; [intros x X N1 N2; rewrite V9 by exact X; apply F3; assumption|].
    split; [rewrite (proj1 (proj2 Q9)); exact C7|]. assert (I9 : forall a, l_inl (g_cell g9 a) = l_inl (g_cell g a)) by (intros a; rewrite (quiet_inl _ _ _ Q9); apply I7). split; [exact I9|].
    intros X Hx F. assert (Fa := Fo7 _ (Fo6 _ F (Ko X)) (Ko X)). rewrite (proj1 Q9). cbn [g_nodes set_nodes].
    eapply forest_sub; [eapply (free_forest r7' t7 (g_nodes g7) nc h8); [exact T7|rewrite <- Lc7; apply GI7; rewrite C7; exact Ac|exact E8|exact Fa|]|].
    + cbn beta. split; [apply Kc|]. intros _. congruence.
    + intros k Hk. cbn beta. destruct (Use X k Hx) as (U4 & U5); [|split; [exact U4|apply U5; apply Nat.eqb_eq; exact Zc]].
      destruct Hk as [Hk|(a & A & B)]; [left; exact Hk|]. right. exists a. split; [exact A|rewrite <- B; symmetry; apply I9].
  - exists g7. split; [reflexivity|]. unfold keep at 1. rewrite Zc. split; [exact D7|]. split; [exact G7|]. split; [exact C7|]. destruct F7 as (F1 & F2 & F3). split; [exact F1|]. split; [exact F2|]. split; [exact F3|].
    split; [exact C7|]. split; [exact I7|]. intros X Hx F. assert (Fa := Fo7 _ (Fo6 _ F (Ko X)) (Ko X)). apply (forest_sub _ _ _ Fa).
    intros k Hk. apply (Use X k Hx). destruct Hk as [Hk|(a & A & B)]; [left; exact Hk|]. right. exists a. split; [exact A|rewrite <- B; symmetry; apply I7].
Qed.

(** ** The main loop *)
Definition sound (d : delim) : Prop := 1 <= d_num d /\ is_delim (d_char d).
Definition frame (g g' : graph) : Prop := g_count g' = g_count g /\ forall a, a < g_count g -> sid g' a = sid g a.
Lemma frame_refl g : frame g g.
Proof. split; auto. Qed.
Lemma frame_trans a b c : frame a b -> frame b c -> frame a c.
Proof. intros (A & B) (C & D). split; [congruence|]. intros x X. rewrite D by (rewrite A; exact X). apply B. exact X. Qed.
Lemma frame_named g g' p : frame g g' -> known g p -> named g' p = named g p.
Proof. intros (_ & F) K. destruct p as [a|]; [|reflexivity]. unfold named. cbn [option_map]. rewrite F by (apply K; reflexivity). reflexivity. Qed.
Lemma frame_known g g' p : frame g g' -> known g p -> known g' p.
Proof. intros (C & _) K a A. rewrite C. apply K. exact A. Qed.
Lemma quiet_frame g g' : quiet g g' -> frame g g'.
Proof. intros Q. split; [apply Q|]. intros a _. apply quiet_sid. exact Q. Qed.

Lemma map_view_ext g g' l : Forall (fun a => a < g_count g) l -> (forall a, In a l -> a < g_count g -> view g' a = view g a) -> map (view g') l = map (view g) l.
Proof. intros F H. apply map_ext_in. intros a A. apply H; [exact A|]. rewrite Forall_forall in F. apply F. exact A. Qed.
Lemma sound_index d : sound d -> exists i, bottom_index d = Ok i.
Proof. unfold bottom_index. intros (_ & D). destruct D as [D|D]; rewrite D; cbn; eexists; reflexivity. Qed.

Lemma emph_loop_ok : forall fuel k g ba aa bc ban ign,
  pe_measure (map (view g) ba) (map (view g) aa) < fuel -> pe_measure (map (view g) ba) (map (view g) aa) < k ->
  dinv g (rev aa ++ ba) -> ginv g -> Forall sound (map (view g) ba) -> Forall sound (map (view g) aa) ->
  (forall i, ban i = named g (bc i) /\ known g (bc i)) ->
  exists g' L ign', emph_loop fuel g (hd_error aa) bc ign = Ok (g', ign') /\
    pe_loop k (map (view g) ba) (map (view g) aa) ban ign = Ok (map (view g') L, ign') /\ dinv g' L /\ ginv g' /\ frame g g' /\ tended g (rev aa ++ ba) g' L.
Proof.
  induction fuel as [|fuel IH]; intros k g ba aa bc ban ign Hf Hk D G Sb Sa B; [lia|]. destruct k as [|k]; [lia|]. cbn [emph_loop pe_loop].
  destruct aa as [|c rest].
  - cbn [hd_error map rev app] in *. exists g, ba, ign. split; [reflexivity|]. split; [reflexivity|]. split; [exact D|]. split; [exact G|]. split; [apply frame_refl|apply tended_refl].
  - cbn [hd_error map] in *. rewrite measure_eq in Hf, Hk. cbn [length] in Hf, Hk. rewrite nums_cons in Hf, Hk. rewrite map_length in Hf, Hk.
    inversion Sa as [|? ? Sc Sr]; subst. change (l_close (g_cell g c)) with (d_close (view g c)). change (l_open (g_cell g c)) with (d_open (view g c)).
    cbn [rev] in D. rewrite <- app_assoc in D. cbn [app] in D.
    assert (Fall := proj2 (proj2 (proj2 D))). assert (Fb : Forall (fun a => a < g_count g) ba) by (apply Forall_app in Fall as (_ & F); inversion F; assumption).
    assert (Fr : Forall (fun a => a < g_count g) rest) by (apply Forall_app in Fall as (F & _); apply Forall_rev in F; rewrite rev_involutive in F; exact F).
    assert (Ac : c < g_count g) by (apply Forall_app in Fall as (_ & F); inversion F; assumption).
    destruct (proj1 D (rev rest) c ba eq_refl) as (Kn & Kp). rewrite rev_involutive in Kn.
    destruct (d_close (view g c)).
    + destruct (sound_index _ Sc) as (idx & ->). cbn [bind]. rewrite Kp.
      destruct (B idx) as (Bn & Bk). rewrite Bn.
      assert (Len : length ba <= S (g_count g)).
      { destruct D as (_ & N & _). apply nodup_r in N. inversion N as [|? ? _ N']; subst. assert (L := NoDup_incl_length N' (l' := seq 0 (g_count g))).
        rewrite seq_length in L. etransitivity; [apply L|lia]. intros a A. apply in_seq. rewrite Forall_forall in Fb. split; [lia|]. apply Fb. exact A. }
      assert (S := search_ok g (bc idx) c (proj2 (proj2 (proj2 (proj2 G)))) Bk ba (rev rest ++ [c]) (S (g_count g))). rewrite <- app_assoc in S. specialize (S (proj1 D) Fb Len).
      destruct (find_opener (map (view g) ba) (named g (bc idx)) (view g c)) as [(d & bl)|] eqn:Fo.
      * destruct S as (sk & o & below & -> & -> & -> & ->). cbn [bind]. rewrite map_app in *. cbn [map] in *. rewrite nums_app, nums_cons in Hf, Hk.
        apply Forall_app in Sb as (Ssk & Sb). inversion Sb as [|? ? So Sbl]; subst.
        destruct (remove_emph_ok g (rev rest) c sk o below ign D G (proj1 So) (proj1 Sc)) as (g' & -> & D' & G' & C' & Vo & Vc & Vx & Tn). cbn [bind].
        destruct (use_le (view g o) (view g c) (proj1 So) (proj1 Sc)) as (U1 & U2 & U3).
        set (u := use_delims (view g o) (view g c)) in *. set (o' := shrink u (view g o)) in *. set (c' := shrink u (view g c)) in *.
        cbn zeta. rewrite rev_involutive.
        assert (Nd := proj1 (proj2 D)).
        assert (Mb : map (view g') below = map (view g) below).
        { apply map_view_ext; [apply Forall_app in Fb as (_ & F); inversion F; assumption|]. intros a A A2. apply Vx; [exact A2| |].
          - intros ->. apply nodup_r in Nd. inversion Nd as [|? ? _ N2]; subst. apply nodup_r in N2. inversion N2; contradiction.
          - intros ->. apply NoDup_remove_2 in Nd. apply Nd. apply in_or_app. right. apply in_or_app. right. right. exact A. }
        assert (Mr : map (view g') rest = map (view g) rest).
        { apply map_view_ext; [exact Fr|]. intros a A A2. apply Vx; [exact A2| |].
          - intros ->. apply (nodup_app _ _ o Nd); [apply in_rev in A; exact A|]. right. apply in_or_app. right. left. reflexivity.
          - intros ->. apply (nodup_app _ _ c Nd); [apply in_rev in A; exact A|]. left. reflexivity. }
        assert (Mk : map (view g') (keep o' o ++ below) = if d_num o' =? 0 then map (view g) below else o' :: map (view g) below).
        { unfold keep. destruct (d_num o' =? 0); cbn; rewrite ?Mb, ?Vo; reflexivity. }
        assert (Ma : map (view g') (keep c' c ++ rest) = if d_num c' =? 0 then map (view g) rest else c' :: map (view g) rest).
        { unfold keep. destruct (d_num c' =? 0); cbn; rewrite ?Mr, ?Vc; reflexivity. }
        assert (Fr' : frame g g').
        { split; [exact C'|]. intros a A. unfold sid. destruct (Nat.eq_dec a o) as [->|N1]; [rewrite Vo; reflexivity|]. destruct (Nat.eq_dec a c) as [->|N2]; [rewrite Vc; reflexivity|]. rewrite Vx; auto. }
        assert (Meas : pe_measure (map (view g') (keep o' o ++ below)) (map (view g') (keep c' c ++ rest)) < fuel /\ pe_measure (map (view g') (keep o' o ++ below)) (map (view g') (keep c' c ++ rest)) < k).
        { rewrite measure_eq, Mk, Ma.
          destruct (Nat.eqb_spec (d_num o') 0); destruct (Nat.eqb_spec (d_num c') 0); rewrite ?nums_cons; cbn [length o' c' shrink d_num] in *; rewrite ?map_length; lia. }
        destruct (IH k g' (keep o' o ++ below) (keep c' c ++ rest) bc ban (ign ++ [opener_range u (view g o); closer_range u (view g c)])) as (g2 & L & ign2 & E1 & E2 & D2 & G2 & F2 & Tl).
        -- apply Meas.
        -- apply Meas.
        -- rewrite rev_app_distr. rewrite rev_keep, <- app_assoc. exact D'.
        -- exact G'.
        -- rewrite Mk. destruct (Nat.eqb_spec (d_num o') 0); [exact Sbl|]. constructor; [|exact Sbl]. split; [lia|apply So].
        -- rewrite Ma. destruct (Nat.eqb_spec (d_num c') 0); [exact Sr|]. constructor; [|exact Sr]. split; [lia|apply Sc].
        -- intros i. destruct (B i) as (B1 & B2). split; [rewrite (frame_named _ _ _ Fr' B2); exact B1|apply (frame_known _ _ _ Fr' B2)].
        -- exists g2, L, ign2. rewrite <- Mk, <- Ma, <- E2. split; [|split; [reflexivity|split; [exact D2|split; [exact G2|split; [eapply frame_trans; eassumption|]]]]].
           2:{ rewrite rev_app_distr, rev_keep, <- app_assoc in Tl. cbn [rev]. rewrite <- app_assoc. cbn [app]. eapply tended_trans; [exact Tn|exact Tl]. }
           replace (if d_num c' =? 0 then hd_error rest else Some c) with (hd_error (keep c' c ++ rest)); [exact E1|]. unfold keep. destruct (d_num c' =? 0); reflexivity.
      * rewrite S. cbn [bind]. cbn zeta. rewrite Kn.
        assert (Bu : forall g', frame g g' -> forall i, upd ban idx (option_map d_start (hd_error (map (view g) ba))) i = named g' (upd bc idx (hd_error ba) i) /\ known g' (upd bc idx (hd_error ba) i)).
        { intros g' F i. unfold upd. destruct (i =? idx).
          - assert (Kb : known g (hd_error ba)) by (intros a A; rewrite Forall_forall in Fb; apply Fb; apply hd_error_in; exact A).
            rewrite (frame_named _ _ _ F Kb). split; [destruct ba; reflexivity|apply (frame_known _ _ _ F Kb)].
          - destruct (B i) as (B1 & B2). rewrite (frame_named _ _ _ F B2). split; [exact B1|apply (frame_known _ _ _ F B2)]. }
        destruct (d_open (view g c)); cbn [bind].
        -- destruct (IH k g (c :: ba) rest (upd bc idx (hd_error ba)) (upd ban idx (option_map d_start (hd_error (map (view g) ba)))) ign) as (g2 & L & ign2 & E1 & E2 & D2 & G2 & F2 & Tl).
           ++ rewrite measure_eq, map_length. cbn [map]. rewrite nums_cons. lia.
           ++ rewrite measure_eq, map_length. cbn [map]. rewrite nums_cons. lia.
           ++ exact D.
           ++ exact G.
           ++ cbn [map]. constructor; assumption.
           ++ exact Sr.
           ++ apply Bu. apply frame_refl.
           ++ exists g2, L, ign2. cbn [rev]. rewrite <- app_assoc. cbn [app]. auto 10.
        -- destruct (remove_ok g (rev rest) c ba D) as (g1 & -> & D1 & Q1). cbn [bind].
           destruct (IH k g1 ba rest (upd bc idx (hd_error ba)) (upd ban idx (option_map d_start (hd_error (map (view g) ba)))) ign) as (g2 & L & ign2 & E1 & E2 & D2 & G2 & F2 & Tl).
           ++ rewrite !(quiet_map _ _ _ Q1), measure_eq, map_length. lia.
           ++ rewrite !(quiet_map _ _ _ Q1), measure_eq, map_length. lia.
           ++ exact D1.
           ++ apply (ginv_quiet _ _ G Q1).
           ++ rewrite (quiet_map _ _ _ Q1). exact Sb.
           ++ rewrite (quiet_map _ _ _ Q1). exact Sr.
           ++ apply Bu. apply quiet_frame. exact Q1.
           ++ exists g2, L, ign2. rewrite !(quiet_map _ _ _ Q1) in E2. split; [exact E1|]. split; [exact E2|]. split; [exact D2|]. split; [exact G2|]. split; [eapply frame_trans; [apply quiet_frame; exact Q1|exact F2]|].
              cbn [rev]. rewrite <- app_assoc. cbn [app]. eapply tended_trans; [apply (tended_quiet _ _ _ (rev rest ++ ba) Q1)|exact Tl]. intros a A. apply in_app_or in A as [A|A]; apply in_or_app; [left; exact A|right; right; exact A].
    + rewrite Kn. destruct (IH k g (c :: ba) rest bc ban ign) as (g2 & L & ign2 & E1 & E2 & D2 & G2 & F2 & Tl).
      * rewrite measure_eq, map_length. cbn [map]. rewrite nums_cons. lia.
      * rewrite measure_eq, map_length. cbn [map]. rewrite nums_cons. lia.
      * exact D.
      * exact G.
      * cbn [map]. constructor; assumption.
      * exact Sr.
      * exact B.
      * exists g2, L, ign2. cbn [rev]. rewrite <- app_assoc. cbn [app]. auto 10.
Qed.

(** ** The bound of the model is enough *)
Definition weigh (f : nat -> nat) (l : list nat) : nat := fold_right (fun a n => f a + n) 0 l.
Lemma weigh_app f a b : weigh f (a ++ b) = weigh f a + weigh f b.
Proof. unfold weigh. induction a as [|x a IH]; cbn; [reflexivity|]. rewrite IH. lia. Qed.
Lemma weigh_incl f l : NoDup l -> forall m, incl l m -> weigh f l <= weigh f m.
Proof.
  induction 1 as [|a l A N IH]; intros m I; [apply Nat.le_0_l|]. destruct (in_split a m (I a (or_introl eq_refl))) as (m1 & m2 & ->).
  assert (J : incl l (m1 ++ m2)).
  { intros x X. assert (Y := I x (or_intror X)). apply in_app_or in Y. apply in_or_app. destruct Y as [Y|[->|Y]]; auto. contradiction. }
  specialize (IH _ J). rewrite weigh_app in *. change (weigh f (a :: l)) with (f a + weigh f l). change (weigh f (a :: m2)) with (f a + weigh f m2). lia.
Qed.
Lemma emph_bound_ok g above below : dinv g (above ++ below) -> pe_measure (map (view g) below) (map (view g) (rev above)) < emph_bound g.
Proof.
  intros (_ & N & _ & F). set (f := fun a => S (d_num (view g a))).
  assert (E : emph_bound g = S (weigh f (seq 0 (g_count g)))).
  { unfold emph_bound, weigh, f. change (fun a n => S (v_len (h_info (g_nodes g) (l_inl (g_cell g a)))) + n) with (fun a n => S (d_num (view g a)) + n).
    generalize (seq 0 (g_count g)). induction l as [|x l IH]; cbn [fold_right]; [reflexivity|]. rewrite IH. lia. }
  assert (W : weigh f (above ++ below) <= weigh f (seq 0 (g_count g))).
  { apply weigh_incl; [exact N|]. intros a A. apply in_seq. rewrite Forall_forall in F. split; [lia|]. apply F. exact A. }
  assert (L : forall l, weigh f l = length l + nums (map (view g) l)).
  { induction l as [|x l IH]; [reflexivity|]. change (weigh f (x :: l)) with (f x + weigh f l). rewrite IH. cbn [length map]. rewrite nums_cons. unfold f. lia. }
  assert (Rv : forall l : list delim, nums (rev l) = nums l).
  { induction l as [|x l IH]; [reflexivity|]. cbn [rev]. rewrite nums_app, IH, !nums_cons. change (nums []) with 0. lia. }
  rewrite measure_eq, E, map_rev, Rv, rev_length, map_length. rewrite weigh_app in W. rewrite (L above), (L below) in W.
  lia.
Qed.

Lemma process_same g L bot st : dinv g L -> ginv g -> known g bot -> s_delims st = map (view g) L -> Forall sound (map (view g) L) ->
  exists g' L' ign, process_ptr g bot (s_ignore st) = Ok (g', ign) /\ dinv g' L' /\ ginv g' /\ frame g g' /\ tended g L g' L' /\
    process_emphasis st (named g bot) = Ok (set_ignore (set_delims st (map (view g') L')) ign).
Proof.
  intros D G K Es So. unfold process_ptr, process_emphasis.
  assert (Len : length L <= S (g_count g)).
  { destruct D as (_ & N & _ & F). assert (M := NoDup_incl_length N (l' := seq 0 (g_count g))).
    rewrite seq_length in M. etransitivity; [apply M|lia]. intros a A. apply in_seq. rewrite Forall_forall in F. split; [lia|]. apply F. exact A. }
  assert (Sp : exists above below, L = above ++ below /\ back (S (g_count g)) g (g_last g) bot = Ok (hd_error (rev above)) /\
     (match named g bot with None => (s_delims st, []) | Some b => match split_at b (s_delims st) with Some ab => ab | None => ([], s_delims st) end end) = (map (view g) above, map (view g) below)).
  { rewrite (proj1 (proj2 (proj2 D))), Es. destruct bot as [b|]; unfold named; cbn [option_map].
    - rewrite (back_some g b L [] _ (proj1 D) (proj1 (proj2 D)) Len). rewrite (cut_view g b L (proj2 (proj2 (proj2 (proj2 G)))) (K b eq_refl) (proj2 (proj2 (proj2 D)))).
      destruct (cut b L) as [(x & y)|] eqn:C.
      + apply cut_some in C as (-> & _). exists x, y. auto.
      + exists [], L. auto.
    - rewrite (back_none g L [] _ (proj1 D) Len). exists L, []. rewrite app_nil_r. auto. }
  destruct Sp as (above & below & -> & -> & ->). cbn [bind].
  rewrite map_app in So. apply Forall_app in So as (Sa & Sb).
  destruct (emph_loop_ok (emph_bound g) (S (pe_measure (map (view g) below) (map (view g) (rev above)))) g below (rev above) (fun _ => bot) (fun _ => named g bot) (s_ignore st)) as (g1 & L1 & ign & E1 & E2 & D1 & G1 & F1 & Tl).
  - apply emph_bound_ok. exact D.
  - lia.
  - rewrite rev_involutive. exact D.
  - exact G.
  - exact Sb.
  - rewrite map_rev. apply Forall_rev. exact Sa.
  - auto.
  - rewrite E1. cbn [bind]. rewrite <- map_rev, E2. cbn [bind].
    assert (Len1 : length L1 <= S (g_count g1)).
    { destruct D1 as (_ & N & _ & F). assert (M := NoDup_incl_length N (l' := seq 0 (g_count g1))).
      rewrite seq_length in M. etransitivity; [apply M|lia]. intros a A. apply in_seq. rewrite Forall_forall in F. split; [lia|]. apply F. exact A. }
    destruct (drop_ok bot L1 g1 _ D1 (proj2 (proj2 (proj2 (proj2 G1)))) (frame_known _ _ _ F1 K) Len1) as (g2 & L2 & -> & D2 & Q2 & V2 & I2). cbn [bind].
    exists g2, L2, ign. split; [reflexivity|]. split; [exact D2|]. split; [apply (ginv_quiet _ _ G1 Q2)|]. split; [eapply frame_trans; [exact F1|apply quiet_frame; exact Q2]|].
    split; [rewrite rev_involutive in Tl; eapply tended_trans; [exact Tl|apply (tended_quiet _ _ _ _ Q2); exact I2]|].
    rewrite (quiet_map _ _ _ Q2), V2, (frame_named _ _ _ F1 K). reflexivity.
Qed.
