(** Properly nested emphasis is removed. *)
From Coq Require Import String List NArith ZArith Bool Arith Lia.
From Verif Require Import Str StrFacts Spec EnvSpec Regex HtmlRe Fence Atx Entity Inlines HelperSpec EntityProof EmphSpec InlineProof InlineRun.
Import ListNotations.
Local Open Scope list_scope.

(** ** The ranges and what they cover *)
Definition covered (ranges : list (nat * nat)) (i : nat) : bool := existsb (fun r => (fst r <=? i) && (i <? snd r)) ranges.
Lemma covered_app a b i : covered (a ++ b) i = covered a i || covered b i.
Proof. apply existsb_app. Qed.
Lemma filter_ext s : forall i r r', (forall j, i <= j < i + length s -> covered r j = covered r' j) -> filter_from i s r = filter_from i s r'.
Proof.
  induction s as [|c s IH]; intros i r r' H; cbn [filter_from]; [reflexivity|]. cbn [length] in H. rewrite (IH (S i) r r') by (intros j Hj; apply H; lia).
  specialize (H i ltac:(lia)). unfold covered in H. rewrite H. reflexivity.
Qed.
Lemma filter_all s : forall i r, (forall j, i <= j < i + length s -> covered r j = true) -> filter_from i s r = [].
Proof.
  induction s as [|c s IH]; intros i r H; cbn [filter_from]; [reflexivity|]. cbn [length] in H. rewrite (IH (S i) r) by (intros j Hj; apply H; lia).
  specialize (H i ltac:(lia)). unfold covered in H. rewrite H. reflexivity.
Qed.
Lemma filter_none s i r : (forall j, i <= j < i + length s -> covered r j = false) -> filter_from i s r = s.
Proof. intros H. rewrite (filter_ext s i r []); [apply filter_from_nil|]. exact H. Qed.
Definition within (lo hi : nat) (r : nat * nat) : Prop := lo <= fst r /\ snd r <= hi.
Lemma within_out lo hi rs i : Forall (within lo hi) rs -> i < lo \/ hi <= i -> covered rs i = false.
Proof.
  intros H Hi. induction H as [|r rs (A & B) H IH]; [reflexivity|]. unfold covered in *. cbn [existsb]. rewrite IH. rewrite orb_false_r. apply andb_false_iff.
  destruct (Nat.leb_spec (fst r) i), (Nat.ltb_spec i (snd r)); auto. lia.
Qed.
Lemma within_weaken lo hi lo' hi' rs : Forall (within lo hi) rs -> lo' <= lo -> hi <= hi' -> Forall (within lo' hi') rs.
Proof. intros H A B. eapply Forall_impl; [|exact H]. intros r (C & D). split; lia. Qed.

(** ** The loop of process_emphasis without fuel *)
Definition none : nat -> option nat := fun _ => None.
Definition pe (before after : list delim) (ign : list (nat * nat)) (R : list delim * list (nat * nat)) : Prop :=
  exists fuel, pe_loop fuel before after none ign = Ok R.
Lemma pe_loop_mono : forall fuel before after bottoms ign r, pe_loop fuel before after bottoms ign = r -> r <> Err OutOfFuel ->
  forall fuel', fuel <= fuel' -> pe_loop fuel' before after bottoms ign = r.
Proof.
  induction fuel as [|fuel IH]; intros before after bottoms ign r H Hr fuel' Hle; [cbn in H; congruence|]. destruct fuel' as [|fuel']; [lia|].
  cbn [pe_loop] in *. destruct after as [|c rest]; [exact H|]. destruct (d_close c); [|apply IH; [exact H|exact Hr|lia]].
  destruct (bottom_index c) as [i|e]; cbn [bind] in *; [|exact H]. destruct (find_opener before (bottoms i) c) as [(o & below)|]; cbn zeta in *; (apply IH; [exact H|exact Hr|lia]).
Qed.
Lemma pe_nil before ign : pe before [] ign (before, ign).
Proof. exists 1. reflexivity. Qed.
Lemma pe_push before d rest ign R : d_close d = false -> pe (d :: before) rest ign R -> pe before (d :: rest) ign R.
Proof. intros H (fuel & F). exists (S fuel). cbn [pe_loop]. rewrite H. exact F. Qed.
Lemma pe_match o below c rest ign R : d_close c = true -> delimiter (d_char c) -> can_match o c = true ->
  pe (if d_num (shrink (use_delims o c) o) =? 0 then below else shrink (use_delims o c) o :: below)
     (if d_num (shrink (use_delims o c) c) =? 0 then rest else shrink (use_delims o c) c :: rest)
     (ign ++ [opener_range (use_delims o c) o; closer_range (use_delims o c) c]) R ->
  pe (o :: below) (c :: rest) ign R.
Proof.
  intros H Hc Hm (fuel & F). exists (S fuel). cbn [pe_loop]. rewrite H. assert (B : exists i, bottom_index c = Ok i).
  { unfold bottom_index. destruct Hc as [Hc|Hc]; rewrite Hc; eexists; reflexivity. }
  destruct B as (i & ->). cbn [bind find_opener none oid_eqb]. rewrite Hm. exact F.
Qed.
Lemma shrink_match u v o c : can_match (shrink u o) (shrink v c) = can_match o c.
Proof. reflexivity. Qed.
Lemma range_covered a b i : covered [(a, b)] i = (a <=? i) && (i <? b).
Proof. unfold covered. cbn. rewrite orb_false_r. reflexivity. Qed.
(** An opener and a closer of the same strength are used up together. *)
Lemma pe_pair : forall m o c, 1 <= d_num o -> d_num o <= m -> d_num c = d_num o -> d_off c = d_off o -> d_num o + d_off o <= d_end o ->
  d_close c = true -> delimiter (d_char c) -> can_match o c = true ->
  exists more, (forall i, covered more i = true <-> d_end o - d_off o - d_num o <= i < d_end o - d_off o \/ d_start c + d_off c <= i < d_start c + d_off c + d_num c) /\
    (exists lo hi, lo = Nat.min (d_end o - d_off o - d_num o) (d_start c + d_off c) /\ hi = Nat.max (d_end o - d_off o) (d_start c + d_off c + d_num c) /\ Forall (within lo hi) more) /\
    forall below rest ign R, pe below rest (ign ++ more) R -> pe (o :: below) (c :: rest) ign R.
Proof.
  induction m as [|m IH]; intros o c H1 Hm Hn Ho He Hc Hd Hmt; [lia|].
  set (u := use_delims o c). assert (Hu : 1 <= u <= d_num o) by (unfold u; pose proof (use_le o c H1 ltac:(lia)); lia).
  assert (Here : forall i, covered [opener_range u o; closer_range u c] i = true <-> d_end o - d_off o - u <= i < d_end o - d_off o \/ d_start c + d_off c <= i < d_start c + d_off c + u).
  { intros i. unfold covered, opener_range, closer_range. cbn [existsb fst snd]. rewrite orb_false_r, orb_true_iff, !andb_true_iff, !Nat.leb_le, !Nat.ltb_lt. lia. }
  destruct (Nat.eq_dec u (d_num o)) as [Eu|Eu].
  - exists [opener_range u o; closer_range u c]. split; [|split].
    + intros i. rewrite Here. lia.
    + eexists. eexists. split; [reflexivity|split; [reflexivity|]]. repeat constructor; unfold opener_range, closer_range; cbn [fst snd]; lia.
    + intros below rest ign R H. apply pe_match; try assumption. fold u. cbn [shrink d_num].
      replace (d_num o - u) with 0 by lia. replace (d_num c - u) with 0 by lia. exact H.
  - destruct (IH (shrink u o) (shrink u c)) as (more & Cov & (lo & hi & El & Eh & Wi) & Hpe); cbn [shrink d_num d_off d_end d_start d_close d_char] in *; try lia; try assumption.
    exists ([opener_range u o; closer_range u c] ++ more). split; [|split].
    + intros i. rewrite covered_app, orb_true_iff, Here, Cov. lia.
    + eexists. eexists. split; [reflexivity|split; [reflexivity|]]. apply Forall_app. split.
      * repeat constructor; unfold opener_range, closer_range; cbn [fst snd]; lia.
      * eapply within_weaken; [exact Wi| |]; lia.
    + intros below rest ign R H. apply pe_match; try assumption. fold u. cbn [d_num shrink].
      destruct (Nat.eqb_spec (d_num o - u) 0); [lia|]. destruct (Nat.eqb_spec (d_num c - u) 0); [lia|]. apply Hpe. rewrite <- app_assoc. exact H.
Qed.

(** ** Flanking *)
Lemma wordlike_not_delim E c : wordlike E c -> ~ delimiter c.
Proof. intros (_ & H & _) Hc. apply H. right. destruct Hc as [->| ->]; lia. Qed.
Lemma opening E c x y : edge E x -> wordlike E y -> opens E c x y = true /\ closes E c x y = false.
Proof.
  intros (A & _) (B1 & B2 & _). apply space_not in B1. apply punct_not in B2. unfold opens, closes, left_flank, right_flank. rewrite B1, B2. cbn [negb andb orb].
  destruct A as [A|A]; [apply space_iff in A|apply punct_iff in A]; rewrite A; cbn [negb andb orb]; destruct (N.eqb c cUND), (cm_space E x); try (destruct (uc_punct E x)); cbn; auto.
Qed.
Lemma closing E c x y : wordlike E x -> edge E y -> opens E c x y = false /\ closes E c x y = true.
Proof.
  intros (B1 & B2 & _) (A & _). apply space_not in B1. apply punct_not in B2. unfold opens, closes, left_flank, right_flank. rewrite B1, B2. cbn [negb andb orb].
  destruct A as [A|A]; [apply space_iff in A|apply punct_iff in A]; rewrite A; cbn [negb andb orb]; destruct (N.eqb c cUND), (cm_space E y); try (destruct (uc_punct E y)); cbn; auto.
Qed.

(** ** Scanning nested emphasis *)
Lemma hd_app_ne (a b : str) d : a <> [] -> hd d (a ++ b) = hd d a.
Proof. destruct a; [congruence|reflexivity]. Qed.
Lemma wordlike_ne E (s : str) : wordlike E (hd 10%N s) -> s <> [].
Proof. intros (H & _) ->. apply H. right. cbn. auto. Qed.
Lemma delim_step E ch st a c k b : scanned E ch -> zs_ascii E -> delimiter c -> c_data ch = a ++ repeat c k ++ b -> 1 <= k -> hd 10%N b <> c ->
  same_flags E c a (hd 10%N b) -> s_pos st = length a -> forall o cl, opens E c (last a 10%N) (hd 10%N b) = o -> closes E c (last a 10%N) (hd 10%N b) = cl -> o || cl = true ->
  runs E ch st (set_delims (set_pos st (length a + k)) (mkDelim (length a) (length a + k) c k o cl k 0 :: s_delims st)).
Proof.
  intros Hs Hz Hc Hd Hk Hb Ht Hp o cl Ho Hcl Hor. eapply runs_step; [|apply parse_delim; exact Hc|].
  - rewrite Hp. apply (peek_data E); [exact Hs| |apply delim_not_space; assumption]. rewrite Hd, nth_error_app2, Nat.sub_diag by lia. destruct k; [lia|reflexivity].
  - unfold handle_delim. rewrite Hp, (scan_run E ch a c k b Hs Hz Hc Hd Hk Hb Ht), Ho, Hcl, Hor. constructor.
Qed.
Lemma last_repeat (c d : N) k : 1 <= k -> last (repeat c k) d = c.
Proof. intros H. apply (last_Forall (fun y => y = c)); [destruct k; [lia|discriminate]|apply Forall_repeat; reflexivity]. Qed.
Lemma emph_scan E ch : scanned E ch -> zs_ascii E -> forall s t, emphasised E s t -> forall a b st,
  c_data ch = a ++ s ++ b -> s_pos st = length a -> length a <= c_len ch ->
  (a = [] \/ ~ delimiter (hd 10%N s)) ->
  (b = [] \/ ((exists d b', b = d :: b' /\ delimiter d) /\ ~ delimiter (last s 10%N))) ->
  exists ds more,
    runs E ch st (set_delims (set_pos st (Nat.min (length a + length s) (c_len ch))) (ds ++ s_delims st)) /\
    (forall below rest ign R, pe below rest (ign ++ more) R -> pe below (rev ds ++ rest) ign R) /\
    filter_from (length a) s more = t /\ Forall (within (length a) (length a + length s)) more.
Proof.
  intros Hs Hz. pose proof Hs as (Hl & _).
  intros s t H. induction H as [w Hw|c k pre body body' post post' Hc Hk Hpre Ex Hb1 Hb2 Ey H1 IH1 H2 IH2]; intros a b st Hd Hp Hle Ca Cb.
  - exists [], []. split; [|split; [|split; [apply filter_from_nil|constructor]]].
    + replace (set_delims _ _) with (set_pos st (Nat.min (length a + length w) (c_len ch))) by (destruct st; reflexivity).
      apply (runs_text E ch st a w b Hs Hd Hp Hw); [|exact Hle|].
      * intros x b' ->. destruct Cb as [Cb|((d & b'' & Eb & Hdl) & _)]; [discriminate|]. injection Eb as -> ->. apply delim_special. exact Hdl.
      * intros Hb. destruct Cb as [Cb|((d & b' & -> & Hdl) & _)]; [contradiction|]. rewrite <- app_length. apply (in_scan E ch (a ++ w) d b' Hs); [rewrite <- app_assoc; exact Hd|apply delim_not_space; assumption].
    + intros below rest ign R HR. rewrite app_nil_r in HR. exact HR.
  - set (run := repeat c k) in *. assert (Lr : length run = k) by apply repeat_length.
    assert (Hrun : run <> []) by (unfold run; destruct k; [lia|discriminate]).
    assert (Hhr : forall x, hd 10%N (run ++ x) = c) by (intros x; unfold run; destruct k; [lia|reflexivity]).
    assert (Hlr : forall x, last (x ++ run) 10%N = c) by (intros x; rewrite last_app_ne by exact Hrun; apply last_repeat; exact Hk).
    pose proof (wordlike_ne E body Hb1) as Hbody.
    (* before the opener *)
    assert (Hx : last (a ++ pre) 10%N = last pre 10%N).
    { destruct pre as [|p pre]; [|apply last_app_ne; discriminate]. destruct Ca as [->|Ca]; [reflexivity|]. exfalso. apply Ca. cbn [app]. rewrite Hhr. exact Hc. }
    assert (Hy : hd 10%N (post ++ b) = hd 10%N post).
    { destruct post as [|p post]; [|reflexivity]. destruct Cb as [->|(_ & Cb)]; [reflexivity|]. exfalso. apply Cb. rewrite app_nil_r. rewrite !app_assoc, Hlr. exact Hc. }
    set (a1 := a ++ pre) in *. set (a2 := a1 ++ run). set (a3 := a2 ++ body). set (a4 := a3 ++ run).
    assert (D1 : c_data ch = a1 ++ run ++ (body ++ run ++ post ++ b)) by (unfold a1; rewrite Hd, <- !app_assoc; reflexivity).
    assert (D2 : c_data ch = a2 ++ body ++ (run ++ post ++ b)) by (unfold a2; rewrite D1, <- !app_assoc; reflexivity).
    assert (D3 : c_data ch = a3 ++ run ++ (post ++ b)) by (unfold a3; rewrite D2, <- !app_assoc; reflexivity).
    assert (D4 : c_data ch = a4 ++ post ++ b) by (unfold a4; rewrite D3, <- !app_assoc; reflexivity).
    assert (L1 : length a1 = length a + length pre) by apply app_length.
    assert (L2 : length a2 = length a1 + k) by (unfold a2; rewrite app_length, Lr; reflexivity).
    assert (L3 : length a3 = length a2 + length body) by apply app_length.
    assert (L4 : length a4 = length a3 + k) by (unfold a4; rewrite app_length, Lr; reflexivity).
    assert (Ls : length (pre ++ run ++ body ++ run ++ post) = length pre + k + length body + k + length post) by (rewrite !app_length, Lr; lia).
    assert (Hh1 : hd 10%N (body ++ run ++ post ++ b) <> c).
    { rewrite hd_app_ne by exact Hbody. intros X. apply (wordlike_not_delim E _ Hb1). rewrite X. exact Hc. }
    assert (Hh3 : hd 10%N (post ++ b) <> c).
    { rewrite Hy. destruct Ey as (_ & _ & X). intros Y. apply X. rewrite Y. exact Hc. }
    destruct (span_run E ch a1 c k _ Hs Hz Hc D1 Hh1) as (_ & Q1). specialize (Q1 Hk).
    destruct (span_run E ch a3 c k _ Hs Hz Hc D3 Hh3) as (_ & Q3). specialize (Q3 Hk).
    assert (Q0 : length a1 < c_len ch) by lia.
    (* inert text *)
    assert (R1 : runs E ch st (set_pos st (length a1))).
    { replace (length a1) with (Nat.min (length a + length pre) (c_len ch)) by lia. apply (runs_text E ch st a pre (run ++ body ++ run ++ post ++ b) Hs); try assumption.
      - rewrite Hd, <- !app_assoc. reflexivity.
      - intros x b' X. apply delim_special. pose proof (Hhr (body ++ run ++ post ++ b)) as Y. rewrite X in Y. cbn in Y. subst x. exact Hc.
      - intros _. lia. }
    (* opener *)
    assert (O1 : opens E c (last a1 10%N) (hd 10%N (body ++ run ++ post ++ b)) = true /\ closes E c (last a1 10%N) (hd 10%N (body ++ run ++ post ++ b)) = false).
    { rewrite Hx, hd_app_ne by exact Hbody. apply opening; assumption. }
    assert (T1 : ~ tail_like (last a1 10%N)) by (rewrite Hx; apply Ex).
    pose proof (delim_step E ch (set_pos st (length a1)) a1 c k _ Hs Hz Hc D1 Hk Hh1 (not_tail_flags E c _ _ T1) eq_refl _ _ (proj1 O1) (proj2 O1) eq_refl) as R2.
    match type of R2 with runs _ _ _ ?x => set (st2 := x) in R2 end.
    (* body *)
    destruct (IH1 a2 (run ++ post ++ b) st2) as (ds1 & more1 & R3 & Pe1 & F1 & W1).
    { exact D2. } { subst st2. cbn. lia. } { lia. } { right. apply (wordlike_not_delim E). exact Hb1. }
    { right. split; [|apply (wordlike_not_delim E); exact Hb2]. exists c, (repeat c (pred k) ++ post ++ b). split; [|exact Hc]. unfold run. destruct k; [lia|reflexivity]. }
    rewrite Nat.min_l in R3 by lia. match type of R3 with runs _ _ _ ?x => set (st3 := x) in R3 end.
    (* closer *)
    assert (O3 : opens E c (last a3 10%N) (hd 10%N (post ++ b)) = false /\ closes E c (last a3 10%N) (hd 10%N (post ++ b)) = true).
    { unfold a3. rewrite last_app_ne, Hy by exact Hbody. apply closing; assumption. }
    assert (T3 : ~ tail_like (last a3 10%N)) by (unfold a3; rewrite last_app_ne by exact Hbody; apply Hb2).
    pose proof (delim_step E ch st3 a3 c k _ Hs Hz Hc D3 Hk Hh3 (not_tail_flags E c _ _ T3) ltac:(subst st3; cbn; lia) _ _ (proj1 O3) (proj2 O3) eq_refl) as R4.
    match type of R4 with runs _ _ _ ?x => set (st4 := x) in R4 end.
    (* the rest *)
    destruct (IH2 a4 b st4) as (ds2 & more2 & R5 & Pe2 & F2 & W2).
    { exact D4. } { subst st4. cbn. lia. } { lia. } { right. apply Ey. }
    { destruct Cb as [Cb|(Cb1 & Cb2)]; [left; exact Cb|]. destruct post as [|p post].
      - exfalso. apply Cb2. rewrite app_nil_r, !app_assoc, Hlr. exact Hc.
      - right. split; [exact Cb1|]. intros X. apply Cb2. rewrite !app_assoc, last_app_ne by discriminate. exact X. }
    set (d1 := mkDelim (length a1) (length a1 + k) c k true false k 0) in *. set (d2 := mkDelim (length a3) (length a3 + k) c k false true k 0) in *.
    assert (Ed : set_delims (set_pos st (Nat.min (length a + length (pre ++ run ++ body ++ run ++ post)) (c_len ch))) ((ds2 ++ d2 :: ds1 ++ [d1]) ++ s_delims st)
              = set_delims (set_pos st4 (Nat.min (length a4 + length post) (c_len ch))) (ds2 ++ s_delims st4)).
    { replace (length a + length (pre ++ run ++ body ++ run ++ post)) with (length a4 + length post) by lia.
      replace ((ds2 ++ d2 :: ds1 ++ [d1]) ++ s_delims st) with (ds2 ++ d2 :: ds1 ++ d1 :: s_delims st) by (rewrite <- app_assoc; cbn [app]; rewrite <- app_assoc; reflexivity).
      reflexivity. }
    destruct (pe_pair k d1 d2) as (moreP & CovP & (lo & hi & Elo & Ehi & WP) & PeP); cbn [d1 d2 d_num d_off d_end d_start d_close d_char] in *; try lia; try reflexivity; try assumption.
    { unfold can_match. cbn. rewrite N.eqb_refl. reflexivity. }
    exists (ds2 ++ d2 :: ds1 ++ [d1]), (more1 ++ moreP ++ more2). split; [|split; [|split]].
    + eapply runs_trans; [exact R1|]. eapply runs_trans; [exact R2|]. eapply runs_trans; [exact R3|]. eapply runs_trans; [exact R4|].
      rewrite Ed. exact R5.
    + intros below rest ign R HR. replace (rev (ds2 ++ d2 :: ds1 ++ [d1]) ++ rest) with (d1 :: rev ds1 ++ d2 :: rev ds2 ++ rest).
      * apply pe_push; [reflexivity|]. apply Pe1. apply PeP. apply Pe2. rewrite <- !app_assoc. exact HR.
      * rewrite rev_app_distr. cbn [rev]. rewrite rev_app_distr. cbn [rev app]. repeat (rewrite <- app_assoc; cbn [app]). reflexivity.
    + rewrite !filter_from_app, Lr.
      replace (length a + length pre) with (length a1) by lia. replace (length a1 + k) with (length a2) by lia. replace (length a2 + length body) with (length a3) by lia. replace (length a3 + k) with (length a4) by lia.
      assert (Out1 : forall j, j < length a2 \/ length a3 <= j -> covered more1 j = false) by (intros j Hj; apply (within_out _ _ _ _ W1); lia).
      assert (Out2 : forall j, j < length a4 -> covered more2 j = false) by (intros j Hj; apply (within_out _ _ _ _ W2); lia).
      assert (InP : forall j, covered moreP j = true <-> length a1 <= j < length a2 \/ length a3 <= j < length a4) by (intros j; rewrite CovP; lia).
      assert (OutP : forall j, ~ (length a1 <= j < length a2 \/ length a3 <= j < length a4) -> covered moreP j = false).
      { intros j Hj. destruct (covered moreP j) eqn:X; [|reflexivity]. apply InP in X. contradiction. }
      f_equal; [apply filter_none; intros j Hj; rewrite !covered_app, Out1, Out2, OutP by lia; reflexivity|].
      rewrite (filter_all run (length a1)); [|intros j Hj; rewrite !covered_app, (proj2 (InP j)) by lia; rewrite orb_true_r; reflexivity]. cbn [app].
      f_equal.
      { rewrite <- F1. apply filter_ext. intros j Hj. rewrite !covered_app, Out2, OutP by lia. rewrite !orb_false_r. reflexivity. }
      rewrite (filter_all run (length a3)); [|intros j Hj; rewrite !covered_app, (proj2 (InP j)) by lia; rewrite orb_true_r; reflexivity]. cbn [app].
      rewrite <- F2. apply filter_ext. intros j Hj. rewrite !covered_app, Out1, OutP by lia. reflexivity.
    + rewrite Ls. apply Forall_app. split; [|apply Forall_app; split].
      * eapply within_weaken; [exact W1| |]; lia.
      * eapply within_weaken; [exact WP| |]; lia.
      * eapply within_weaken; [exact W2| |]; lia.
Qed.
Lemma emph_removed E s t : zs_ascii E -> emphasised E s t -> exists ign, parse_inlines E s = Ok ign /\ filter_indices_from_line s ign = t.
Proof.
  intros Hz H. destruct (emph_scan E (trimmed E s) (scanned_trimmed E s) Hz s t H [] [] init_subject) as (ds & more & R & Pe & F & _); auto.
  { cbn. rewrite app_nil_r. reflexivity. } { cbn. lia. }
  exists more. split; [|exact F]. rewrite (parse_inlines_runs E s _ R); [|apply peek_end; cbn [s_pos set_delims set_pos length]; pose proof (trimmed_len E s); lia].
  set (st := set_delims _ _) in *. pose proof (parse_inlines_ok E s) as K. rewrite (parse_inlines_runs E s st R) in K; [|apply peek_end; subst st; cbn [s_pos set_delims set_pos length]; pose proof (trimmed_len E s); lia].
  unfold process_emphasis in *. replace (s_delims st) with ds in * by (subst st; cbn; rewrite app_nil_r; reflexivity). replace (s_ignore st) with (@nil (nat * nat)) in * by reflexivity.
  destruct (Pe [] [] [] ([], more)) as (fuel & Fu); [apply pe_nil|]. rewrite app_nil_r in Fu. fold none.
  set (full := S (pe_measure [] (rev ds))) in *.
  assert (X : pe_loop full [] (rev ds) none [] = Ok ([], more)).
  { destruct (Nat.le_ge_cases fuel full) as [L|L]; [apply (pe_loop_mono _ _ _ _ _ _ Fu); [discriminate|exact L]|].
    rewrite <- Fu. symmetry. apply (pe_loop_mono full); [reflexivity| |exact L]. fold none in K. intros X. rewrite X in K. cbn in K. destruct K as [K|[K|K]]; discriminate. }
  rewrite X. reflexivity.
Qed.
