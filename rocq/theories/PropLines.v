(** Properties of get_atx_heading: redcarpet lines (C54) and strings of several lines (C55). *)
From Coq Require Import String List NArith ZArith Bool Arith Lia.
From Verif Require Import Str Fence Atx Spec HeadSpec StrFacts FenceProof AtxProof LabelProof PropHeading.
Import ListNotations.
Local Open Scope list_scope.

Lemma hd_error_hd (s : str) c : s <> [] -> hd 0%N s <> c -> hd_error s <> Some c.
Proof. destruct s; cbn; [congruence|]. intros _ H E. injection E as ->. auto. Qed.
Lemma noend_last0 (s : str) c : s <> [] -> last s 0%N <> c -> noend (N.eqb c) s.
Proof.
  intros Hs H. destruct (exists_last_str s Hs) as (r & x & ->). apply noend_app. rewrite last_last in H. apply N.eqb_neq. congruence.
Qed.
Lemma last_noend (s : str) c : s <> [] -> noend (N.eqb c) s -> last s 0%N <> c.
Proof.
  intros Hs H. destruct (exists_last_str s Hs) as (r & x & ->). apply noend_app in H. rewrite last_last. apply N.eqb_neq in H. congruence.
Qed.
Lemma noend_prefix p (a b : str) : b <> [] -> noend p (a ++ b) <-> noend p b.
Proof.
  intros Hb. destruct (exists_last_str b Hb) as (r & x & ->). rewrite app_assoc. rewrite !noend_app. tauto.
Qed.
Lemma last_prefix (a b : str) : b <> [] -> last (a ++ b) 0%N = last b 0%N.
Proof. intros Hb. destruct (exists_last_str b Hb) as (r & x & ->). rewrite app_assoc, !last_last. reflexivity. Qed.

Lemma skipn_prefix_len (a b : str) : skipn (length a) (a ++ b) = b.
Proof. rewrite skipn_app, skipn_all, Nat.sub_diag. reflexivity. Qed.

(** What redcarpet does with a line. *)
Definition rc_text (no_links : bool) (line text : str) : str :=
  if negb no_links && N.eqb (last line 0%N) cBS then text ++ [cSP] else text.

Lemma rc_heading line level text no_links vis : redcarpet_line line level text ->
  atx_redcarpet no_links vis line = (Some (mkHeading level (rc_text no_links line text) vis), vis).
Proof.
  intros (k & j & m & -> & Hl & Ht & Hh & Ha & Hj). unfold atx_redcarpet.
  set (tail := repeat 32%N j ++ repeat 35%N m).
  assert (Htt : forall x : str, text ++ x <> []) by (intros x; destruct text; [congruence|discriminate]).
  assert (Hsp : forall x : str, repeat 32%N (S k) ++ x <> []) by (intros x; discriminate).
  replace (startswith [cHASH] (repeat 35%N level ++ repeat 32%N (S k) ++ text ++ tail)) with true.
  2:{ destruct level; [lia|]. reflexivity. }
  assert (L : leading cHASH (repeat 35%N level ++ repeat 32%N (S k) ++ text ++ tail) = level).
  { apply leading_unique. cbn. discriminate. }
  rewrite L. replace (Nat.min 6 level) with level by lia.
  rewrite skipn_repeat_app.
  assert (L2 : leading cSP (repeat 32%N (S k) ++ text ++ tail) = S k).
  { apply leading_unique. destruct text as [|x text]; [congruence|]. cbn in *. congruence. }
  cbv zeta. rewrite L2.
  assert (R : rstrip (N.eqb cSP) (rstrip (N.eqb cHASH) (repeat 35%N level ++ repeat 32%N (S k) ++ text ++ tail))
              = repeat 35%N level ++ repeat 32%N (S k) ++ text).
  { replace (rstrip (N.eqb cHASH) (repeat 35%N level ++ repeat 32%N (S k) ++ text ++ tail))
      with ((repeat 35%N level ++ repeat 32%N (S k) ++ text) ++ repeat 32%N j).
    - apply rstrip_unique; [apply Forall_repeat; reflexivity|].
      rewrite !noend_prefix; auto. apply noend_last0; auto.
    - unfold tail. rewrite !app_assoc. symmetry. apply rstrip_unique; [apply Forall_repeat; reflexivity|].
      destruct j.
      + cbn [repeat]. rewrite app_nil_r, <- app_assoc. rewrite !noend_prefix; auto. apply noend_last0; auto.
      + rewrite noend_prefix by discriminate. replace (S j) with (j + 1) by lia. rewrite repeat_app. cbn [repeat]. apply noend_app. reflexivity. }
  rewrite R. rewrite !app_length, !repeat_length.
  replace (level + S k <? level + (S k + length text)) with true.
  2:{ symmetry. apply Nat.ltb_lt. destruct text; [congruence|]. cbn. lia. }
  assert (Sl : forall x n, slice ((repeat 35%N level ++ repeat 32%N (S k) ++ text) ++ x) (level + S k) (level + (S k + length text) + n) = text ++ firstn n x).
  { intros x n. unfold slice. replace (level + (S k + length text) + n - (level + S k)) with (length text + n) by lia.
    replace (level + S k) with (length (repeat 35%N level ++ repeat 32%N (S k))) by (rewrite app_length, !repeat_length; reflexivity).
    rewrite (app_assoc (repeat 35%N level)), <- (app_assoc _ text x), skipn_prefix_len.
    rewrite firstn_app, firstn_all2 by lia. f_equal. f_equal. lia. }
  assert (S0 : slice (repeat 35%N level ++ repeat 32%N (S k) ++ text ++ tail) (level + S k) (level + (S k + length text)) = text).
  { specialize (Sl tail 0). rewrite Nat.add_0_r in Sl. rewrite <- !app_assoc in Sl. rewrite Sl. cbn [firstn]. apply app_nil_r. }
  cbn [repeat app]. change (negb (N.eqb 32 cSP)) with false. cbn iota.
  change (32%N :: repeat 32%N k ++ text ++ tail) with (repeat 32%N (S k) ++ text ++ tail).
  unfold rc_text.
  destruct (negb no_links && N.eqb (last (repeat 35%N level ++ repeat 32%N (S k) ++ text ++ tail) 0%N) cBS) eqn:Eb.
  - apply andb_true_iff in Eb as (_ & Eb).
    assert (tail = []) as ->.
    { destruct tail as [|y tl] eqn:Et; [reflexivity|]. exfalso. rewrite <- Et in Eb.
      assert (Hne : tail <> []) by (rewrite Et; discriminate).
      rewrite !last_prefix in Eb; auto.
      assert (I : In (last tail 0%N) tail). { destruct (exists_last_str tail Hne) as (r & x & Er). rewrite Er, last_last. apply in_app_iff. right. left. reflexivity. }
      apply N.eqb_eq in Eb. rewrite Eb in I. unfold tail in I. apply in_app_iff in I as [I|I]; apply repeat_spec in I; discriminate. }
    do 3 f_equal. rewrite app_nil_r. apply Sl.
  - do 3 f_equal. exact S0.
Qed.

(** The other lines. *)
Lemma rc_cases line no_links vis : (exists level text, redcarpet_line line level text) \/
  exists vis', atx_redcarpet no_links vis line = (None, vis') /\
    (vis' = true <-> vis = true /\ ~ hides Redcarpet 6 line).
Proof.
  unfold atx_redcarpet.
  destruct (startswith [cHASH] line) eqn:Es.
  2:{ right. exists vis. split; [reflexivity|]. split; [|tauto]. intros ->. split; [reflexivity|].
      intros (l & k & m & -> & Hl & _). destruct l; [lia|]. discriminate. }
  destruct (leading_split cHASH line) as (r0 & El & Hr0). set (n := leading cHASH line) in *.
  assert (Hn : 1 <= n). { destruct n; [|lia]. cbn in El. subst r0. destruct line; [discriminate|]. cbn in Es. apply andb_true_iff in Es as (Es & _). apply N.eqb_eq in Es. subst. cbn in Hr0. congruence. }
  cbv zeta.
  destruct (le_dec n 6) as [H6|H6].
  2:{ (* too many hashes *)
      replace (Nat.min 6 n) with 6 by lia. rewrite El.
      replace n with (6 + S (n - 7)) by lia. rewrite repeat_app, <- app_assoc.
      rewrite skipn_repeat_app. cbn [repeat app]. change (negb (N.eqb cHASH cSP)) with true. cbn iota.
      right. exists vis. split; [reflexivity|]. split; [|tauto]. intros ->. split; [reflexivity|].
      intros (l & k & m & E & Hl & Hk).
      assert (G : leading cHASH (repeat 35%N l ++ repeat 32%N k ++ repeat 35%N m) = l).
      { apply leading_unique. destruct k; [rewrite Hk by reflexivity; cbn; discriminate|cbn; discriminate]. }
      rewrite <- E in G.
      change (leading cHASH (repeat cHASH 6 ++ repeat cHASH (S (n - 7)) ++ r0) = l) in G.
      rewrite app_assoc, <- repeat_app in G. rewrite leading_unique in G by exact Hr0. lia. }
  replace (Nat.min 6 n) with n by lia.
  assert (Er : skipn n line = r0) by (rewrite El; apply skipn_repeat_app). rewrite Er.
  destruct r0 as [|c r1].
  - right. exists false. split; [reflexivity|]. split; [discriminate|]. intros (_ & G). exfalso. apply G.
    exists n, 0, 0. split; [exact El|]. split; [lia|reflexivity].
  - destruct (N.eqb c cSP) eqn:Ec; cbn [negb].
    2:{ apply N.eqb_neq in Ec. right. exists vis. split; [reflexivity|]. split; [|tauto]. intros ->. split; [reflexivity|].
        intros (l & k & m & E & Hl & Hk).
        assert (G : leading cHASH (repeat 35%N l ++ repeat 32%N k ++ repeat 35%N m) = l /\ skipn l (repeat 35%N l ++ repeat 32%N k ++ repeat 35%N m) = repeat 32%N k ++ repeat 35%N m).
        { split; [|apply skipn_repeat_app]. apply leading_unique. destruct k; [rewrite Hk by reflexivity; cbn; discriminate|cbn; discriminate]. }
        rewrite <- E in G. fold n in G. destruct G as (G1 & G2). subst l. rewrite Er in G2.
        destruct k; [rewrite Hk in G2 by reflexivity; discriminate|]. cbn in G2. injection G2 as G2 _. unfold cSP in Ec. congruence. }
    apply N.eqb_eq in Ec. subst c.
    destruct (leading_split cSP (cSP :: r1)) as (r & Esp & Hr). set (k := leading cSP (cSP :: r1)) in *.
    assert (Hk : exists k', k = S k') by (exists (leading cSP r1); reflexivity). destruct Hk as (k' & Hk).
    rewrite Hk in *. clear k Hk.
    destruct (rstrip_split (N.eqb cHASH) line) as (sh & E1 & F1 & N1). set (x := rstrip (N.eqb cHASH) line) in *.
    destruct (rstrip_split (N.eqb cSP) x) as (ss & E2 & F2 & N2). set (y := rstrip (N.eqb cSP) x) in *.
    assert (Esh : sh = repeat 35%N (length sh)).
    { clear -F1. induction F1 as [|c l Hc F IH]; [reflexivity|]. cbn. apply N.eqb_eq in Hc. subst c. f_equal. exact IH. }
    assert (Ess : ss = repeat 32%N (length ss)).
    { clear -F2. induction F2 as [|c l Hc F IH]; [reflexivity|]. cbn. apply N.eqb_eq in Hc. subst c. f_equal. exact IH. }
    assert (Eline : line = repeat 35%N n ++ repeat 32%N (S k') ++ r) by (rewrite El at 1; rewrite Esp at 1; reflexivity).
    assert (Eline2 : line = y ++ repeat 32%N (length ss) ++ repeat 35%N (length sh)).
    { rewrite E1 at 1. rewrite E2 at 1. rewrite Esh at 1. rewrite Ess at 1. rewrite <- app_assoc. reflexivity. }
    destruct (n + S k' <? length y) eqn:Hy.
    + (* then it is a heading *)
      left. apply Nat.ltb_lt in Hy.
      set (pre := repeat 35%N n ++ repeat 32%N (S k')) in *.
      assert (Lp : length pre = n + S k') by (unfold pre; rewrite app_length, !repeat_length; reflexivity).
      assert (Ey : y = pre ++ skipn (length pre) y).
      { rewrite <- (firstn_skipn (length pre) y) at 1. f_equal.
        assert (G : firstn (length pre) line = pre).
        { rewrite Eline, app_assoc. fold pre. rewrite firstn_app, firstn_all, Nat.sub_diag, firstn_O, app_nil_r. reflexivity. }
        rewrite Eline2, firstn_app in G. replace (length pre - length y) with 0 in G by lia. rewrite firstn_O, app_nil_r in G. exact G. }
      set (text := skipn (length pre) y) in *.
      assert (Ht : text <> []). { intros Z. rewrite Z, app_nil_r in Ey. rewrite Ey in Hy. lia. }
      assert (Er' : r = text ++ repeat 32%N (length ss) ++ repeat 35%N (length sh)).
      { rewrite Eline2, Ey in Eline. rewrite (app_assoc (repeat 35%N n)) in Eline. fold pre in Eline. rewrite <- app_assoc in Eline. apply app_inv_head in Eline. symmetry. exact Eline. }
      exists n, text, k', (length ss), (length sh).
      split; [rewrite Eline2 at 1; rewrite Ey at 1; unfold pre; rewrite <- !app_assoc; reflexivity|].
      split; [lia|]. split; [exact Ht|]. split; [|split].
      * destruct text as [|z text']; [congruence|]. rewrite Er' in Hr. cbn in *. intros ->. apply Hr. reflexivity.
      * apply last_noend; [exact Ht|]. rewrite Ey in N2. rewrite noend_prefix in N2 by exact Ht. exact N2.
      * intros Z. apply last_noend; [exact Ht|]. rewrite E2, Ess, Z in N1. cbn [repeat] in N1. rewrite app_nil_r in N1.
        rewrite Ey in N1. rewrite noend_prefix in N1 by exact Ht. exact N1.
    + right. exists false. split; [reflexivity|]. split; [discriminate|]. intros (_ & G). exfalso. apply G. apply Nat.ltb_ge in Hy.
      (* what follows the spaces is made of hashes *)
      assert (Fr : exists m, r = repeat 35%N m).
      { set (pre := repeat 35%N n ++ repeat 32%N (S k')) in *.
        assert (Lp : length pre = n + S k') by (unfold pre; rewrite app_length, !repeat_length; reflexivity).
        assert (Er' : r = skipn (length pre - length y) (repeat 32%N (length ss) ++ repeat 35%N (length sh))).
        { assert (G' : skipn (length pre) line = r) by (rewrite Eline, app_assoc; fold pre; apply skipn_prefix_len).
          rewrite <- G'. rewrite Eline2 at 1. rewrite skipn_app. rewrite skipn_all2 by lia. reflexivity. }
        rewrite skipn_app, repeat_length in Er'.
        assert (Sk : forall (c : N) a b, skipn a (repeat c b) = repeat c (b - a)).
        { intros c a. induction a as [|a IH]; intros b; [rewrite Nat.sub_0_r; reflexivity|]. destruct b; [reflexivity|]. cbn [repeat skipn]. rewrite IH. reflexivity. }
        rewrite !Sk in Er'. destruct (length ss - (length pre - length y)) eqn:Ed.
        - eexists. exact Er'.
        - exfalso. apply Hr. rewrite Er'. reflexivity. }
      destruct Fr as (m & Fr). exists n, (S k'), m. split; [rewrite Eline at 1; rewrite Fr; reflexivity|]. split; [lia|discriminate].
Qed.

Lemma rc_line_not_hides line level text keep : redcarpet_line line level text -> ~ hides Redcarpet keep line.
Proof.
  intros (k & j & m & -> & Hl & Ht & Hh & Ha & Hj) (l & k2 & m2 & E & Hl2 & Hk2).
  assert (G : repeat 32%N (S k) ++ text ++ repeat 32%N j ++ repeat 35%N m = repeat 32%N k2 ++ repeat 35%N m2).
  { assert (A : leading 35 (repeat 35%N level ++ repeat 32%N (S k) ++ text ++ repeat 32%N j ++ repeat 35%N m) = level) by (apply leading_unique; cbn; discriminate).
    assert (B : leading 35 (repeat 35%N l ++ repeat 32%N k2 ++ repeat 35%N m2) = l).
    { apply leading_unique. destruct k2; [rewrite Hk2 by reflexivity; cbn; discriminate|cbn; discriminate]. }
    rewrite E, B in A. subst l. apply app_inv_head in E. exact E. }
  assert (A : leading 32 (repeat 32%N (S k) ++ text ++ repeat 32%N j ++ repeat 35%N m) = S k).
  { apply leading_unique. destruct text; [congruence|]. cbn in *. congruence. }
  assert (B : leading 32 (repeat 32%N k2 ++ repeat 35%N m2) = k2) by (apply leading_unique; destruct m2; cbn; discriminate).
  rewrite G, B in A. subst k2. apply app_inv_head in G.
  assert (F : Forall (fun c => c = 35%N) (text ++ repeat 32%N j ++ repeat 35%N m)).
  { rewrite G. apply Forall_repeat. reflexivity. }
  apply Forall_app in F as (F1 & F2). apply Forall_app in F2 as (F2 & _).
  destruct j.
  - destruct (exists_last_str text Ht) as (r & x & ->). rewrite last_last in Hj. apply Forall_app in F1 as (_ & F1). inversion F1; subst. apply Hj; reflexivity.
  - inversion F2. discriminate.
Qed.

Lemma hides_rc_keep k1 k2 line : hides Redcarpet k1 line -> hides Redcarpet k2 line.
Proof. exact (fun H => H). Qed.

Lemma get_atx_rc keep no_links s k : (1 <= keep)%Z -> single_line s ->
  get_atx_heading Redcarpet keep no_links (s ++ repeat 10%N k) = Ok [fst (atx_redcarpet no_links true s)].
Proof.
  intros Hk Hs. unfold get_atx_heading. replace (keep <? 1)%Z with false by (symmetry; apply Z.ltb_ge; lia).
  pose proof (split_newlines_single s k Hs) as E. destruct (s ++ repeat 10%N k) as [|x l] eqn:El.
  - destruct s; [reflexivity|discriminate].
  - rewrite E. cbn [atx_lines cm_family]. destruct (atx_redcarpet no_links true s); reflexivity.
Qed.

Lemma rc_line_functional line l t l' t' : redcarpet_line line l t -> redcarpet_line line l' t' -> l = l' /\ t = t'.
Proof.
  intros H H'. pose proof (rc_heading line l t true true H) as A. rewrite (rc_heading line l' t' true true H') in A.
  injection A as -> B. auto.
Qed.

(** *** C54.  Redcarpet headings are exactly the lines described by [redcarpet_line]; the level
    limit plays no role.  With links a space is put after the text if the line ends with a
    backslash. *)
Theorem C54_redcarpet_heading_exact : forall keep no_links line k level text visible,
  (1 <= keep)%Z -> single_line line ->
  (get_atx_heading Redcarpet keep no_links (line ++ repeat 10%N k) = Ok [Some (mkHeading level text visible)]
   <-> visible = true /\ exists t, redcarpet_line line level t /\
         ((no_links = false /\ last line 0%N = 92%N /\ text = t ++ [32%N])
          \/ (~ (no_links = false /\ last line 0%N = 92%N) /\ text = t))).
Proof.
  intros keep no_links line k level text visible Hk Hs. rewrite get_atx_rc by assumption.
  assert (T : forall t, text = rc_text no_links line t <->
         ((no_links = false /\ last line 0%N = 92%N /\ text = t ++ [32%N])
          \/ (~ (no_links = false /\ last line 0%N = 92%N) /\ text = t))).
  { intros t. unfold rc_text. destruct no_links; cbn [negb andb].
    - split; [intros ->; right; split; [intros (X & _); discriminate|reflexivity]|]. intros [(X & _)|(_ & ->)]; [discriminate|reflexivity].
    - destruct (N.eqb_spec (last line 0%N) cBS) as [X|X].
      + split; [intros ->; left; auto|]. intros [(_ & _ & ->)|(Y & _)]; [reflexivity|]. exfalso. apply Y. auto.
      + split; [intros ->; right; split; [intros (_ & Y); auto|reflexivity]|]. intros [(_ & Y & _)|(_ & ->)]; [exfalso; auto|reflexivity]. }
  destruct (rc_cases line no_links true) as [(l & t & H)|(v & E & _)].
  - rewrite (rc_heading line l t no_links true H). cbn [fst]. split.
    + intros E. injection E as <- <- <-. split; [reflexivity|]. exists t. split; [exact H|]. apply T. reflexivity.
    + intros (-> & t' & H' & G). destruct (rc_line_functional _ _ _ _ _ H H') as (<- & <-). apply T in G. rewrite G. reflexivity.
  - rewrite E. cbn [fst]. split; [discriminate|]. intros (_ & t & H & _).
    rewrite (rc_heading line level t no_links true H) in E. discriminate.
Qed.
Print Assumptions C54_redcarpet_heading_exact.
Example C54_redcarpet_heading_exact_ex :
  redcarpet_line (lit "###  a # b# ##") 3 (lit "a # b#")
  /\ get_atx_heading Redcarpet 1 false (lit "###  a # b# ##" ++ [10%N]) = Ok [Some (mkHeading 3 (lit "a # b#") true)]
  /\ get_atx_heading Redcarpet 1 false (lit "# a\") = Ok [Some (mkHeading 1 (lit "a\ ") true)].
Proof.
  split; [|split; reflexivity]. exists 1, 1, 2. repeat split; try lia; cbn; discriminate.
Qed.

Theorem C54_other_lines_give_no_heading : forall keep no_links line k,
  (1 <= keep)%Z -> single_line line -> (forall level text, ~ redcarpet_line line level text) ->
  get_atx_heading Redcarpet keep no_links (line ++ repeat 10%N k) = Ok [None].
Proof.
  intros keep no_links line k Hk Hs H. rewrite get_atx_rc by assumption.
  destruct (rc_cases line no_links true) as [(l & t & G)|(v & E & _)]; [exfalso; exact (H l t G)|]. rewrite E. reflexivity.
Qed.
Print Assumptions C54_other_lines_give_no_heading.
Example C54_other_lines_give_no_heading_ex :
  (forall level text, ~ redcarpet_line (lit "# ##") level text) /\ (forall level text, ~ redcarpet_line (lit " # a") level text).
Proof.
  split; intros level text H.
  - revert H. intros H. apply (rc_line_not_hides _ _ _ 6 H). exists 1, 1, 2. repeat split; lia || discriminate.
  - pose proof (rc_heading _ _ _ true true H) as E. discriminate E.
Qed.

(** One might expect that the label of a redcarpet heading never ends with a backslash, which
    would escape the bracket that closes it: a space or a hash at the end of the line is enough. *)
Theorem C54_backslash_refuted :
  exists line h, get_atx_heading Redcarpet 6 false line = Ok [Some h] /\ last (h_text h) 0%N = 92%N
    /\ label_end false (h_text h ++ [93%N]) = None.
Proof.
  exists (lit "# a\ "), (mkHeading 1 (lit "a\") true). split; [reflexivity|]. split; reflexivity.
Qed.
Print Assumptions C54_backslash_refuted.

(** *** C55.  Strings of several lines. *)
Lemma cm_hides p : commonmark_parser p -> forall keep line,
  hides p keep line <-> exists ind level rest, line = repeat 32%N ind ++ repeat 35%N level ++ rest
        /\ ind <= 3 /\ 1 <= level <= 6 /\ hd 0%N rest <> 35%N /\ (keep < Z.of_nat level)%Z.
Proof. intros [<-|[<-|[<-|[<-|[<-|[]]]]]] keep line; reflexivity. Qed.

(** Visibility is only passed on. *)
Definition set_vis (v : bool) (h : option heading) : option heading :=
  match h with Some h => Some (mkHeading (h_level h) (h_text h) (v && h_visible h)) | None => None end.

Lemma cm_passes p keep nl vis s :
  atx_cm p keep nl vis s =
  match atx_cm p keep nl true s with Ok (h, v) => Ok (set_vis vis h, vis && v) | Err e => Err e end.
Proof.
  unfold atx_cm. destruct s as [|c0 s0]; [cbn; rewrite andb_true_r; reflexivity|].
  set (s := c0 :: s0). destruct (N.eqb c0 cBS); [cbn; rewrite andb_true_r; reflexivity|]. cbv zeta.
  destruct (3 <? leading cSP s); [cbn; rewrite andb_true_r; reflexivity|].
  set (after := skipn _ s). set (level := leading cHASH after).
  destruct ((6 <? level) || (level =? 0)); [cbn; rewrite andb_true_r; reflexivity|].
  set (b := (Z.of_nat level >? keep)%Z).
  assert (Hb : forall v, (if b then false else v) = v && negb b) by (intros []; destruct b; reflexivity).
  rewrite !Hb. cbn [andb].
  destruct (skipn level after) as [|c r].
  - destruct (if nl then _ else _); cbn; [|reflexivity]. reflexivity.
  - destruct (N.eqb c cSP || negb (gfm p) && N.eqb c cTAB); [|cbn; reflexivity].
    destruct (cut_closing _ _ _ _ _ _ _ _); cbn [bind]; [|reflexivity].
    destruct (if nl then _ else _); cbn; reflexivity.
Qed.

Lemma cm_hides_vis p keep nl s h v : commonmark_parser p -> atx_cm p keep nl true s = Ok (h, v) ->
  (v = true <-> ~ hides p keep s).
Proof.
  intros Hp. rewrite (cm_hides p Hp). unfold atx_cm. destruct s as [|c0 s0].
  { intros E. injection E as <- <-. split; [|reflexivity]. intros _ (ind & l & r & E & _ & H & _). destruct ind, l; try lia; discriminate. }
  remember (c0 :: s0) as s eqn:Es.
  destruct (N.eqb_spec c0 cBS) as [->|Hc0].
  { intros E. injection E as <- <-. split; [|reflexivity]. intros _ (ind & l & r & E & _ & H & _). rewrite Es in E. destruct ind, l; try lia; discriminate. }
  cbv zeta.
  destruct (leading_split cSP s) as (after & E1 & N1). set (ind := leading cSP s) in *.
  replace (skipn ind s) with after by (rewrite E1 at 1; symmetry; apply skipn_repeat_app).
  destruct (leading_split cHASH after) as (rest & E2 & N2). set (level := leading cHASH after) in *.
  replace (skipn level after) with rest by (rewrite E2 at 1; symmetry; apply skipn_repeat_app).
  assert (U : forall ind' l r, s = repeat 32%N ind' ++ repeat 35%N l ++ r -> 1 <= l -> hd 0%N r <> 35%N -> ind' = ind /\ l = level /\ r = rest).
  { intros ind' l r E Hl Hr.
    assert (Hr' : hd_error r <> Some 35%N) by (destruct r; cbn in *; congruence).
    destruct (leading_skip 32 s _ ind' E) as (A & B). { destruct l; [lia|]. cbn. discriminate. }
    fold cSP in A. fold ind in A. subst ind'. rewrite E1 in B. unfold cSP in B. rewrite skipn_repeat_app in B.
    destruct (leading_skip 35 after r l B Hr') as (C & D). fold cHASH in C. fold level in C. subst l. rewrite E2 in D. unfold cHASH in D. rewrite skipn_repeat_app in D. auto. }
  destruct (Nat.ltb_spec 3 ind) as [H3|H3].
  { intros E. injection E as <- <-. split; [|reflexivity]. intros _ (ind' & l & r & E & Hi & Hl & Hr & _). destruct (U ind' l r E ltac:(lia) Hr) as (-> & _). lia. }
  destruct ((6 <? level) || (level =? 0)) eqn:E4.
  { intros E. injection E as <- <-. split; [|reflexivity]. intros _ (ind' & l & r & E & Hi & Hl & Hr & _). destruct (U ind' l r E ltac:(lia) Hr) as (_ & -> & _).
    apply orb_true_iff in E4 as [E4|E4]; [apply Nat.ltb_lt in E4|apply Nat.eqb_eq in E4]; lia. }
  apply orb_false_iff in E4 as (E4 & E5). apply Nat.ltb_ge in E4. apply Nat.eqb_neq in E5.
  set (w := if (Z.of_nat level >? keep)%Z then false else true).
  assert (W : w = true <-> ~ exists ind level rest, s = repeat 32%N ind ++ repeat 35%N level ++ rest
        /\ ind <= 3 /\ 1 <= level <= 6 /\ hd 0%N rest <> 35%N /\ (keep < Z.of_nat level)%Z).
  { unfold w. destruct (Z.of_nat level >? keep)%Z eqn:Eg.
    - split; [discriminate|]. intros G. exfalso. apply G. exists ind, level, rest. apply Z.gtb_lt in Eg.
      split; [rewrite E1 at 1; rewrite E2 at 1; reflexivity|]. split; [exact H3|]. split; [lia|]. split; [|exact Eg].
      destruct rest; cbn; [discriminate|]. unfold cHASH in N2. cbn in N2. congruence.
    - split; [|reflexivity]. intros _ (ind' & l & r & E & Hi & Hl & Hr & Hk). destruct (U ind' l r E ltac:(lia) Hr) as (_ & -> & _).
      rewrite Z.gtb_ltb in Eg. apply Z.ltb_ge in Eg. lia. }
  intros E. rewrite <- W. clear W.
  assert (v = w) as ->; [|tauto].
  destruct rest as [|c r].
  - destruct (if nl then _ else _); cbn in E; [|discriminate]. congruence.
  - destruct (N.eqb c cSP || negb (gfm p) && N.eqb c cTAB); [|congruence].
    destruct (cut_closing _ _ _ _ _ _ _ _); cbn [bind] in E; [|discriminate].
    destruct (if nl then _ else _); cbn in E; [congruence|discriminate].
Qed.

Lemma rc_passes nl vis s :
  atx_redcarpet nl vis s = (set_vis vis (fst (atx_redcarpet nl true s)), vis && snd (atx_redcarpet nl true s)).
Proof.
  unfold atx_redcarpet. destruct (startswith _ _); [|cbn; rewrite andb_true_r; reflexivity]. cbv zeta.
  destruct (skipn _ s) as [|c r]; [cbn; rewrite andb_false_r; reflexivity|].
  destruct (negb (N.eqb c cSP)); [cbn; rewrite andb_true_r; reflexivity|].
  destruct (_ <? _); [|cbn; rewrite andb_false_r; reflexivity].
  destruct (negb nl && _); cbn; rewrite andb_true_r; reflexivity.
Qed.
Lemma rc_hides_vis nl keep s : snd (atx_redcarpet nl true s) = true <-> ~ hides Redcarpet keep s.
Proof.
  destruct (rc_cases s nl true) as [(l & t & H)|(v & E & G)].
  - rewrite (rc_heading s l t nl true H). cbn. split; [|reflexivity]. intros _. exact (rc_line_not_hides s l t keep H).
  - rewrite E. cbn [snd]. rewrite G. split; [intros (_ & X)|intros X; split; [reflexivity|]]; exact X.
Qed.

(** One line alone, whatever the parser. *)
Definition atx_one (p : parser) (keep : Z) (nl vis : bool) (s : str) : res (option heading * bool) :=
  if cm_family p then atx_cm p keep nl vis s else Ok (atx_redcarpet nl vis s).
Lemma known_cases p : p <> OtherParser -> commonmark_parser p \/ p = Redcarpet.
Proof. intros H. unfold commonmark_parser. destruct p; cbn; auto 8; congruence. Qed.
Lemma get_one p keep nl s : p <> OtherParser -> (1 <= keep)%Z -> single_line s ->
  get_atx_heading p keep nl s = bind (atx_one p keep nl true s) (fun r => Ok [fst r]).
Proof.
  intros Hp Hk Hs. unfold atx_one. destruct (known_cases p Hp) as [H| ->].
  - pose proof H as H'. apply cm_family_iff in H'. rewrite H'. pose proof (get_atx_single p keep nl s 0 H Hk Hs) as G. cbn [repeat] in G. rewrite app_nil_r in G. exact G.
  - pose proof (get_atx_rc keep nl s 0 Hk Hs) as G. cbn [repeat] in G. rewrite app_nil_r in G. exact G.
Qed.
Lemma one_passes p keep nl vis s :
  atx_one p keep nl vis s =
  match atx_one p keep nl true s with Ok (h, v) => Ok (set_vis vis h, vis && v) | Err e => Err e end.
Proof.
  unfold atx_one. destruct (cm_family p); [apply cm_passes|]. rewrite (rc_passes nl vis s). destruct (atx_redcarpet nl true s). reflexivity.
Qed.
Lemma one_hides p keep nl s h v : p <> OtherParser -> atx_one p keep nl true s = Ok (h, v) -> (v = true <-> ~ hides p keep s).
Proof.
  intros Hp. unfold atx_one. destruct (known_cases p Hp) as [H| ->].
  - pose proof H as H'. apply cm_family_iff in H'. rewrite H'. apply cm_hides_vis. exact H.
  - cbn [cm_family]. intros E. injection E as E. rewrite <- (rc_hides_vis nl keep s), E. reflexivity.
Qed.
Lemma lines_step p keep nl vis s rest : p <> OtherParser ->
  atx_lines p keep nl vis (s :: rest) =
  bind (atx_one p keep nl vis s) (fun '(h, v) => bind (atx_lines p keep nl v rest) (fun hs => Ok (h :: hs))).
Proof.
  intros Hp. cbn [atx_lines]. unfold atx_one. destruct (known_cases p Hp) as [H| ->].
  - apply cm_family_iff in H. rewrite H. reflexivity.
  - cbn [cm_family bind]. destruct (atx_redcarpet nl vis s). reflexivity.
Qed.

(** [per_line before lines hs]: each of [hs] is what the line alone gives, made invisible if one
    of the lines before it hides it. *)
Lemma lines_ok p keep nl : p <> OtherParser -> (1 <= keep)%Z -> forall lines before vis hs,
  Forall single_line lines -> (vis = true <-> forall l, In l before -> ~ hides p keep l) ->
  atx_lines p keep nl vis lines = Ok hs ->
  length hs = length lines /\
  forall i l, nth_error lines i = Some l -> exists h h', get_atx_heading p keep nl l = Ok [h] /\ nth_error hs i = Some h'
    /\ reported_after p keep (before ++ firstn i lines) h h'.
Proof.
  intros Hp Hk. induction lines as [|s rest IH]; intros before vis hs Hl Hv E.
  { cbn in E. injection E as <-. split; [reflexivity|]. intros [|i] l H; discriminate. }
  rewrite lines_step in E by exact Hp. inversion Hl as [|? ? Hs Hr]; subst.
  rewrite one_passes in E. destruct (atx_one p keep nl true s) as [[h0 v0]|e] eqn:E0; cbn [bind] in E; [|discriminate].
  destruct (atx_lines p keep nl (vis && v0) rest) as [hs'|e] eqn:E1; cbn [bind] in E; [|discriminate].
  injection E as <-. pose proof (one_hides p keep nl s h0 v0 Hp E0) as Hh.
  destruct (IH (before ++ [s]) (vis && v0) hs' Hr) as (L & G); [|exact E1|].
  { rewrite andb_true_iff, Hv, Hh. split.
    - intros (A & B) l H. apply in_app_iff in H as [H|[<-|[]]]; auto.
    - intros A. split; [intros l H; apply A|apply A]; apply in_app_iff; cbn; auto. }
  split; [cbn; congruence|]. intros [|i] l H.
  - cbn in H. injection H as <-. exists h0, (set_vis vis h0). split; [rewrite get_one, E0 by assumption; reflexivity|].
    split; [reflexivity|]. cbn [firstn]. rewrite app_nil_r. destruct h0 as [h0|]; cbn; [|exact I].
    split; [reflexivity|]. split; [reflexivity|]. rewrite andb_true_iff, Hv. tauto.
  - cbn in H. destruct (G i l H) as (h & h' & A & B & C). exists h, h'. split; [exact A|]. split; [exact B|].
    cbn [firstn]. rewrite <- app_assoc in C. exact C.
Qed.
Lemma lines_err p keep nl : p <> OtherParser -> (1 <= keep)%Z -> forall lines vis e,
  Forall single_line lines ->
  (atx_lines p keep nl vis lines = Err e <->
   exists pre l post, lines = pre ++ l :: post /\ get_atx_heading p keep nl l = Err e
     /\ forall l', In l' pre -> exists h, get_atx_heading p keep nl l' = Ok h).
Proof.
  intros Hp Hk. induction lines as [|s rest IH]; intros vis e Hl.
  { cbn. split; [discriminate|]. intros ([|x pre] & l & post & E & _); discriminate. }
  rewrite lines_step by exact Hp. inversion Hl as [|? ? Hs Hr]; subst. rewrite one_passes.
  pose proof (get_one p keep nl s Hp Hk Hs) as Gs.
  destruct (atx_one p keep nl true s) as [[h0 v0]|e0] eqn:E0; cbn [bind] in *.
  - split.
    + intros E. destruct (atx_lines p keep nl (vis && v0) rest) as [hs'|e1] eqn:E1; cbn [bind] in E; [discriminate|].
      injection E as ->. apply (IH _ _ Hr) in E1 as (pre & l & post & -> & A & B). exists (s :: pre), l, post.
      split; [reflexivity|]. split; [exact A|]. intros l' [<-|H]; eauto.
    + intros ([|x pre] & l & post & E & A & B); cbn in E; injection E as -> E.
      * rewrite Gs in A. discriminate.
      * replace (atx_lines p keep nl (vis && v0) rest) with (@Err (list (option heading)) e); [reflexivity|].
        symmetry. apply (IH _ _ Hr). exists pre, l, post. split; [exact E|]. split; [exact A|]. intros l' H. apply B. right. exact H.
  - split.
    + intros E. injection E as ->. exists [], s, rest. split; [reflexivity|]. split; [exact Gs|]. intros l' [].
    + intros ([|x pre] & l & post & E & A & B); cbn in E; injection E as -> E.
      * rewrite Gs in A. congruence.
      * destruct (B x (or_introl eq_refl)) as (h & G). rewrite Gs in G. discriminate.
Qed.

(** A string is cut into lines as C33 says.  If no line raises, each line gets its own heading;
    only its visibility depends on the lines before it. *)
Theorem C55_each_line_alone : forall p keep no_links s hs,
  p <> OtherParser -> s <> [] -> get_atx_heading p keep no_links s = Ok hs ->
  let lines := replace_and_split_newlines s in
  length hs = length lines /\
  forall i l, nth_error lines i = Some l ->
    exists h h', get_atx_heading p keep no_links l = Ok [h] /\ nth_error hs i = Some h'
      /\ reported_after p keep (firstn i lines) h h'.
Proof.
  intros p keep nl s hs Hp Hs E lines.
  assert (Hk : (1 <= keep)%Z).
  { destruct (Z_lt_le_dec keep 1) as [G|G]; [|exact G]. rewrite C01_invalid_limit in E by exact G. discriminate. }
  unfold get_atx_heading in E. replace (keep <? 1)%Z with false in E by (symmetry; apply Z.ltb_ge; lia).
  destruct s as [|x s0]; [congruence|]. fold lines in E.
  apply (lines_ok p keep nl Hp Hk lines [] true hs); [|split; [intros _ l []|reflexivity]|exact E].
  destruct (C33_newline_splitting (x :: s0)) as (_ & _ & _ & _ & _ & _ & _ & F & _). apply Forall_forall. exact F.
Qed.
Print Assumptions C55_each_line_alone.

(** An exception comes from the first line that raises one alone. *)
Theorem C55_first_exception : forall p keep no_links s e,
  p <> OtherParser -> s <> [] -> (1 <= keep)%Z ->
  (get_atx_heading p keep no_links s = Err e <->
   exists pre l post, replace_and_split_newlines s = pre ++ l :: post
     /\ get_atx_heading p keep no_links l = Err e
     /\ forall l', In l' pre -> exists h, get_atx_heading p keep no_links l' = Ok h).
Proof.
  intros p keep nl s e Hp Hs Hk. destruct s as [|x s0]; [congruence|].
  rewrite <- (lines_err p keep nl Hp Hk (replace_and_split_newlines (x :: s0)) true e).
  - unfold get_atx_heading at 1. replace (keep <? 1)%Z with false by (symmetry; apply Z.ltb_ge; lia). reflexivity.
  - destruct (C33_newline_splitting (x :: s0)) as (_ & _ & _ & _ & _ & _ & _ & F & _). apply Forall_forall. exact F.
Qed.
Print Assumptions C55_first_exception.

Example C55_ex :
  get_atx_heading Github 2 false (lit "# a" ++ [13; 10]%N ++ lit "b" ++ [10%N] ++ lit "###c" ++ [10%N] ++ lit "# d")
  = Ok [Some (mkHeading 1 (lit "a") true); None; None; Some (mkHeading 1 (lit "d") false)]
  /\ hides Github 2 (lit "###c")
  /\ get_atx_heading Redcarpet 2 false (lit "##" ++ [10%N] ++ lit "# d") = Ok [None; Some (mkHeading 1 (lit "d") false)]
  /\ hides Redcarpet 2 (lit "##")
  /\ get_atx_heading Github 2 false (lit "# a" ++ [10%N] ++ lit "#") = Err GithubEmptyLinkLabel
  /\ get_atx_heading Github 2 false (lit "#") = Err GithubEmptyLinkLabel.
Proof.
  split; [reflexivity|]. split; [exists 0, 3, (lit "c"); repeat split; try lia; cbn; discriminate|].
  split; [reflexivity|]. split; [exists 2, 0, 0; repeat split; lia|]. split; reflexivity.
Qed.
