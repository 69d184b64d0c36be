(** Where the scanner stands after an autolink or raw HTML. *)
From Coq Require Import String List NArith ZArith Bool Arith Lia.
From Verif Require Import Str StrFacts Spec EnvSpec Regex RegexSpec RegexProof HtmlRe Fence Atx Entity Inlines HelperSpec HtmlSpec HtmlProof EntityProof InlineProof.
Import ListNotations.
Local Open Scope list_scope.

Definition ret : option N -> str -> option str := fun _ t => Some t.
(** A greedy repetition at the end of an expression stops only where it cannot go on. *)
Definition stuck (a : re) (s : str) : Prop := exists pv, forall pv' s', M a pv s pv' s' -> length s' < length s -> False.
Lemma loop_some a : forall n pv s, star_loop a ret n pv s <> None.
Proof. destruct n; intros pv s; cbn [star_loop]; [discriminate|]. destruct (rmatch a pv s _); discriminate. Qed.
Lemma star_stuck a : forall n pv s rest, length s <= n -> star_loop a ret n pv s = Some rest -> stuck a rest.
Proof.
  induction n as [|n IH]; intros pv s rest Hn H; cbn [star_loop] in H.
  - injection H as <-. exists pv. intros pv' s' _ X. lia.
  - destruct (rmatch a pv s _) as [v|] eqn:R.
    + injection H as ->. apply rmatch_sound in R as (pv1 & s1 & A & R). cbv beta in R. destruct (Nat.ltb_spec (length s1) (length s)); [|discriminate]. eapply IH; [|exact R]. lia.
    + injection H as <-. exists pv. intros pv' s' A X.
      refine (rmatch_complete a pv s (fun pv s' => if length s' <? length s then star_loop a ret n pv s' else None) pv' s' A _ R).
      cbv beta. destruct (Nat.ltb_spec (length s') (length s)); [|lia]. apply loop_some.
Qed.
Lemma seq_star_stuck a b pv s rest : rmatch (RSeq a (RStar b)) pv s ret = Some rest -> stuck b rest /\ exists pv' s', M a pv s pv' s'.
Proof.
  cbn [rmatch]. intros H. apply rmatch_sound in H as (pv1 & s1 & A & H). cbv beta in H. split; [|eauto]. eapply star_stuck; [|exact H]. reflexivity.
Qed.
Lemma matchlen_split r s : 0 < matchlen r s -> exists rest, rmatch r None s ret = Some rest /\ matchlen r s = length s - length rest /\ exists u pv, s = u ++ rest /\ M r None s pv rest.
Proof.
  unfold matchlen. fold ret. destruct (rmatch r None s ret) as [rest|] eqn:R; [|lia]. intros _. exists rest. split; [reflexivity|]. split; [reflexivity|].
  pose proof R as R'. apply match_split in R as (pv & R). destruct (M_suffix _ _ _ _ _ R) as (u & E). eauto.
Qed.
(** The character right before [n]. *)
Definition ends_gt (s : str) (n : nat) : Prop := 1 <= n /\ nth_error s (pred n) = Some 62%N.
Lemma ends_of u v rest : u = v ++ [62%N] -> ends_gt (u ++ rest) (length (u ++ rest) - length rest).
Proof.
  intros ->. rewrite !app_length. cbn [length]. replace (length v + 1 + length rest - length rest) with (S (length v)) by lia. split; [lia|]. cbn [pred].
  rewrite <- app_assoc, nth_error_app2, Nat.sub_diag by lia. reflexivity.
Qed.
Lemma M_pref r pv s pv' s' : M r pv s pv' s' -> forall P : str -> Prop, (forall u, s = u ++ s' -> P u) -> exists u, s = u ++ s' /\ P u.
Proof. intros H P HP. destruct (M_suffix _ _ _ _ _ H) as (u & E). eauto. Qed.
Lemma seqs_gt l s : 0 < matchlen (RSeqs (l ++ [RChr 62])) s -> ends_gt s (matchlen (RSeqs (l ++ [RChr 62])) s).
Proof.
  intros H. apply matchlen_split in H as (rest & _ & E & _ & pv & _ & HM). rewrite E. apply M_seqs_last in HM as (u & pv1 & s1 & -> & HM).
  apply M_chr in HM as (-> & _). replace (u ++ 62%N :: rest) with ((u ++ [62%N]) ++ rest) by (rewrite <- app_assoc; reflexivity). apply (ends_of _ u). reflexivity.
Qed.
Lemma seqs_lit_gt l a s : M (RSeqs (l ++ [RLit (a ++ [62%N])])) None s = M (RSeqs (l ++ [RLit (a ++ [62%N])])) None s -> forall pv rest, M (RSeqs (l ++ [RLit (a ++ [62%N])])) None s pv rest -> exists u, s = (u ++ [62%N]) ++ rest.
Proof.
  intros _ pv rest HM. apply M_seqs_last in HM as (u & pv1 & s1 & -> & HM). apply M_lit in HM. subst s1. exists (u ++ a). rewrite <- !app_assoc. reflexivity.
Qed.
Lemma uri_gt s : 0 < matchlen re_scan_autolink_uri s -> ends_gt s (matchlen re_scan_autolink_uri s).
Proof. apply (seqs_gt [_; _]). Qed.
Lemma email_gt s : 0 < matchlen re_scan_autolink_email s -> ends_gt s (matchlen re_scan_autolink_email s).
Proof. apply (seqs_gt [_; _; _; _]). Qed.
Lemma htmltag_gt s : 0 < matchlen re_scan_htmltag s -> ends_gt s (matchlen re_scan_htmltag s).
Proof.
  intros H. apply matchlen_split in H as (rest & _ & E & _ & pv & _ & HM). rewrite E.
  assert (G : exists u, s = (u ++ [62%N]) ++ rest).
  { destruct HM as [HM|HM]; [apply (M_seqs_last [_; _; _; _]) in HM as (u & pv1 & s1 & -> & HM)|apply (M_seqs_last [_; _; _]) in HM as (u & pv1 & s1 & -> & HM)];
      apply M_chr in HM as (-> & _); exists u; rewrite <- app_assoc; reflexivity. }
  destruct G as (u & ->). apply (ends_of _ u). reflexivity.
Qed.
Lemma comment_gt s : 0 < matchlen re_scan_htmlcomment s -> ends_gt s (matchlen re_scan_htmlcomment s).
Proof.
  intros H. apply matchlen_split in H as (rest & _ & E & _ & pv & _ & HM). rewrite E.
  assert (G : exists u, s = (u ++ [62%N]) ++ rest).
  { destruct HM as [HM|HM]; [apply M_lit in HM; subst s; exists (lit "---"); reflexivity|].
    apply (seqs_lit_gt [_; _; _] (lit "--") s eq_refl) in HM. exact HM. }
  destruct G as (u & ->). apply (ends_of _ u). reflexivity.
Qed.
Lemma cin1 c d : negb (cin c [d; 0%N]) = true <-> c <> d /\ c <> 0%N.
Proof. cbn. rewrite orb_false_r. destruct (N.eqb_spec c d), (N.eqb_spec c 0); cbn; split; intros; try discriminate; tauto. Qed.
Lemma rest_at (s u rest : str) k : s = u ++ rest -> nth_error rest k = nth_error s (length s - length rest + k).
Proof. intros ->. rewrite app_length. replace (length u + length rest - length rest + k) with (length u + k) by lia. rewrite nth_error_app2 by lia. f_equal. lia. Qed.
Ltac M1 := cbn [M RPlus RAlts RSeqs RNotIn RChr]; try solve [eauto].
Lemma cdata_gt s : ~ In 0%N s -> 0 < matchlen re_scan_cdata s -> matchlen re_scan_cdata s + 3 <= length s -> nth_error s (matchlen re_scan_cdata s + 2) = Some 62%N.
Proof.
  intros H0 H L. apply matchlen_split in H as (rest & R & E & u & pv & Es & _). rewrite E in *. rewrite <- (rest_at _ _ _ _ Es).
  assert (R0 : ~ In 0%N rest) by (rewrite Es, in_app_iff in H0; tauto).
  assert (Ll : 3 <= length rest) by (rewrite Es, app_length in L; lia).
  apply seq_star_stuck in R as ((pv' & St) & _).
  destruct rest as [|a [|b [|c rest]]]; try (cbn in Ll; lia). cbn [nth_error]. f_equal. clear -St R0.
  assert (Na : a <> 0%N) by (intros ->; apply R0; left; reflexivity). assert (Nb : b <> 0%N) by (intros ->; apply R0; right; left; reflexivity).
  assert (Nc : c <> 0%N) by (intros ->; apply R0; right; right; left; reflexivity).
  destruct (N.eq_dec a 93) as [->|A].
  2:{ exfalso. apply (St (Some a) (b :: c :: rest)); [|cbn; lia]. apply M_alts. exists (RPlus (RNotIn [93%N; 0%N])). split; [left; reflexivity|].
      exists (Some a), (b :: c :: rest). split; [exists a; repeat split; apply cin1; auto|constructor]. }
  destruct (N.eq_dec b 93) as [->|B].
  2:{ exfalso. apply (St (Some b) (c :: rest)); [|cbn; lia]. apply M_alts. exists (RSeq (RChr 93) (RNotIn [93%N; 0%N])). split; [right; left; reflexivity|].
      exists (Some 93%N), (b :: c :: rest). split; [exists 93%N; auto|exists b; repeat split; apply cin1; auto]. }
  destruct (N.eq_dec c 62) as [->|C]; [reflexivity|]. exfalso. apply (St (Some c) rest); [|cbn; lia]. apply M_alts. exists (RSeqs [RChr 93; RChr 93; RNotIn [62%N; 0%N]]). split; [right; right; left; reflexivity|].
  apply M_seqs_cons. exists (Some 93%N), (93%N :: c :: rest). split; [exists 93%N; auto|]. apply M_seqs_cons. exists (Some 93%N), (c :: rest). split; [exists 93%N; auto|].
  apply M_seqs_cons. exists (Some c), rest. split; [exists c; repeat split; apply cin1; auto|]. apply M_seqs_nil. auto.
Qed.
Lemma declaration_gt s : ~ In 0%N s -> 0 < matchlen re_scan_declaration s -> matchlen re_scan_declaration s + 1 <= length s -> nth_error s (matchlen re_scan_declaration s) = Some 62%N.
Proof.
  intros H0 H L. apply matchlen_split in H as (rest & R & E & u & pv & Es & _). rewrite E in *. rewrite <- (Nat.add_0_r (length s - length rest)), <- (rest_at _ _ _ _ Es).
  assert (R0 : ~ In 0%N rest) by (rewrite Es, in_app_iff in H0; tauto).
  assert (Ll : 1 <= length rest) by (rewrite Es, app_length in L; lia).
  assert (St : stuck (RNotIn [62%N; 0%N]) rest).
  { apply (rmatch_sound (RPlus (RSet ascii_upper)) None s (fun pv s => rmatch (RPlus re_spacechar) pv s (fun pv s => rmatch (RStar (RNotIn [62%N; 0%N])) pv s ret))) in R as (pv1 & s1 & _ & R).
    apply rmatch_sound in R as (pv2 & s2 & _ & R). eapply star_stuck; [|exact R]. reflexivity. }
  destruct rest as [|a rest]; [cbn in Ll; lia|]. cbn [nth_error]. f_equal. destruct (N.eq_dec a 62) as [->|A]; [reflexivity|]. exfalso. destruct St as (pv' & St). apply (St (Some a) rest); [|cbn; lia].
  exists a. repeat split. apply cin1. split; [exact A|]. intros ->. apply R0. left. reflexivity.
Qed.
Lemma pi_gt s : ~ In 0%N s -> matchlen re_scan_pi s + 2 <= length s -> nth_error s (matchlen re_scan_pi s + 1) = Some 62%N.
Proof.
  set (A := RAlts [RPlus (RNotIn [63%N; 62%N; 0%N]); RSeq (RChr 63) (RNotIn [62%N; 0%N]); RChr 62]).
  intros H0 L.
  assert (G : exists u rest, s = u ++ rest /\ length u = matchlen re_scan_pi s /\ stuck A rest).
  { unfold matchlen. fold ret. destruct (rmatch re_scan_pi None s ret) as [rest|] eqn:R.
    - pose proof R as R'. apply match_split in R' as (pv & R'). destruct (M_suffix _ _ _ _ _ R') as (u & Es). apply seq_star_stuck in R as (St & _). exists u, rest. split; [exact Es|]. split; [|exact St].
      rewrite Es, app_length. lia.
    - exists [], s. split; [reflexivity|]. split; [reflexivity|]. exists None. intros pv' s' HM _. unfold re_scan_pi, RPlus in R. fold A in R.
      refine (rmatch_complete (RSeq A (RStar A)) None s ret pv' s' _ _ R); [exists pv', s'; split; [exact HM|constructor]|discriminate]. }
  destruct G as (u & rest & Es & Eu & (pv' & St)). rewrite <- Eu in *. rewrite Es, app_length in L. rewrite Es, in_app_iff in H0. rewrite Es, nth_error_app2 by lia. replace (length u + 1 - length u) with 1 by lia.
  destruct rest as [|a [|b rest]]; try (cbn in L; lia). cbn [nth_error]. f_equal.
  assert (Na : a <> 0%N) by (intros ->; apply H0; right; left; reflexivity). assert (Nb : b <> 0%N) by (intros ->; apply H0; right; right; left; reflexivity).
  destruct (N.eq_dec a 62) as [->|A62].
  { exfalso. apply (St (Some 62%N) (b :: rest)); [|cbn; lia]. apply M_alts. exists (RChr 62). split; [right; right; left; reflexivity|]. apply M_chr. auto. }
  destruct (N.eq_dec a 63) as [->|A63].
  2:{ exfalso. apply (St (Some a) (b :: rest)); [|cbn; lia]. apply M_alts. exists (RPlus (RNotIn [63%N; 62%N; 0%N])). split; [left; reflexivity|].
      exists (Some a), (b :: rest). split; [|constructor]. exists a. repeat split. cbn. destruct (N.eqb_spec a 63), (N.eqb_spec a 62), (N.eqb_spec a 0); try contradiction. reflexivity. }
  destruct (N.eq_dec b 62) as [->|B]; [reflexivity|]. exfalso. apply (St (Some b) rest); [|cbn; lia]. apply M_alts. exists (RSeq (RChr 63) (RNotIn [62%N; 0%N])). split; [right; left; reflexivity|].
  exists (Some 63%N), (b :: rest). split; [exists 63%N; auto|]. exists b. repeat split. apply cin1. auto.
Qed.

Lemma scan_at_pos r ch p : 0 < scan_at r ch p -> p <= c_len ch /\ scan_at r ch p = matchlen r (skipn p (c_data ch)).
Proof. unfold scan_at. destruct (Nat.ltb_spec (c_len ch) p); [lia|auto]. Qed.
Lemma ends_at ch p n : ends_gt (skipn p (c_data ch)) n -> nth_error (c_data ch) (pred (p + n)) = Some 62%N /\ 1 <= p + n.
Proof. intros (A & B). rewrite nth_skipn in B. replace (pred (p + n)) with (p + pred n) by lia. split; [exact B|lia]. Qed.
Lemma skipn_no0 (s : str) p : ~ In 0%N s -> ~ In 0%N (skipn p s).
Proof. intros H X. apply H. eapply skipn_in. exact X. Qed.
Lemma html_inline_end ch st p n f : html_inline ch st p = (n, f) -> ~ In 0%N (c_data ch) -> c_len ch <= length (c_data ch) -> n = 0 \/ (nth_error (c_data ch) (pred (p + n)) = Some 62%N /\ 1 <= p + n).
Proof.
  intros H H0 Hl. unfold html_inline in H. destruct (Nat.leb_spec (p + 2) (c_len ch)) as [Hp|]; [|injection H as <- _; auto].
  destruct (nth_error (c_data ch) p) as [c|]; [|injection H as <- _; auto]. destruct (nth_error (c_data ch) (S p)) as [d|]; [|injection H as <- _; auto].
  destruct (N.eqb c 33).
  - destruct (N.eqb d 45).
    + destruct (Nat.ltb_spec 0 (scan_at re_scan_htmlcomment ch (p + 2))) as [S|]; injection H as <- _; [|auto]. right. pose proof S as S'. apply scan_at_pos in S' as (_ & E). rewrite E in *.
      apply comment_gt, ends_at in S. replace (p + (matchlen re_scan_htmlcomment (skipn (p + 2) (c_data ch)) + 2)) with (p + 2 + matchlen re_scan_htmlcomment (skipn (p + 2) (c_data ch))) by lia. exact S.
    + destruct (N.eqb d cLB).
      * destruct (s_skip_cdata st); [injection H as <- _; auto|]. destruct (Nat.ltb_spec 0 (scan_at re_scan_cdata ch (p + 2))) as [S|]; [|injection H as <- _; auto].
        destruct (Nat.ltb_spec (c_len ch) (p + (scan_at re_scan_cdata ch (p + 2) + 5))) as [|L]; injection H as <- _; [auto|]. right. pose proof S as S'. apply scan_at_pos in S' as (_ & E). rewrite E in *.
        apply cdata_gt in S; [|apply skipn_no0; exact H0|rewrite skipn_length; lia]. rewrite nth_skipn in S. split; [|lia]. rewrite <- S. f_equal. lia.
      * destruct (s_skip_decl st); [injection H as <- _; auto|]. destruct (Nat.ltb_spec 0 (scan_at re_scan_declaration ch (p + 1))) as [S|]; [|injection H as <- _; auto].
        destruct (Nat.ltb_spec (c_len ch) (p + (scan_at re_scan_declaration ch (p + 1) + 2))) as [|L]; injection H as <- _; [auto|]. right. pose proof S as S'. apply scan_at_pos in S' as (_ & E). rewrite E in *.
        apply declaration_gt in S; [|apply skipn_no0; exact H0|rewrite skipn_length; lia]. rewrite nth_skipn in S. split; [|lia]. rewrite <- S. f_equal. lia.
  - destruct (N.eqb c 63).
    + destruct (s_skip_pi st); [injection H as <- _; auto|].
      destruct (Nat.ltb_spec (c_len ch) (p + (scan_at re_scan_pi ch (p + 1) + 3))) as [|L]; injection H as <- _; [auto|]. right.
      assert (E : scan_at re_scan_pi ch (p + 1) = matchlen re_scan_pi (skipn (p + 1) (c_data ch))) by (unfold scan_at; destruct (Nat.ltb_spec (c_len ch) (p + 1)); [lia|reflexivity]). rewrite E in *.
      assert (S : nth_error (skipn (p + 1) (c_data ch)) (matchlen re_scan_pi (skipn (p + 1) (c_data ch)) + 1) = Some 62%N) by (apply pi_gt; [apply skipn_no0; exact H0|rewrite skipn_length; lia]).
      rewrite nth_skipn in S. split; [|lia]. rewrite <- S. f_equal. lia.
    + injection H as <- _. destruct (Nat.eq_dec (scan_at re_scan_htmltag ch p) 0) as [Z|Z]; [auto|]. right. assert (S : 0 < scan_at re_scan_htmltag ch p) by lia. pose proof S as S'. apply scan_at_pos in S' as (_ & E). rewrite E in *.
      apply ends_at, htmltag_gt. exact S.
Qed.
(** After '<' the scanner stands behind a '<' or a '>'. *)
Lemma pointy_end E ch st st' : handle_pointy_brace E ch st = Ok st' -> nth_error (c_data ch) (s_pos st) = Some 60%N -> ~ In 0%N (c_data ch) -> c_len ch <= length (c_data ch) ->
  (nth_error (c_data ch) (pred (s_pos st')) = Some 60%N \/ nth_error (c_data ch) (pred (s_pos st')) = Some 62%N) /\ 1 <= s_pos st'.
Proof.
  intros H H60 H0 Hl. unfold handle_pointy_brace in H. cbn zeta in H. cbn [s_pos set_pos] in H.
  assert (A : forall r, (0 < matchlen r (skipn (S (s_pos st)) (c_data ch)) -> ends_gt (skipn (S (s_pos st)) (c_data ch)) (matchlen r (skipn (S (s_pos st)) (c_data ch)))) -> 0 < scan_at r ch (S (s_pos st)) ->
    autolink E ch (set_pos st (S (s_pos st))) (scan_at r ch (S (s_pos st))) = Ok st' -> (nth_error (c_data ch) (pred (s_pos st')) = Some 60%N \/ nth_error (c_data ch) (pred (s_pos st')) = Some 62%N) /\ 1 <= s_pos st').
  { intros r Hr Hs Ha. unfold autolink in Ha. destruct (unescape_html_f _ _); cbn [bind] in Ha; [|discriminate]. injection Ha as <-. cbn [s_pos set_pos]. pose proof Hs as Hs'. apply scan_at_pos in Hs' as (_ & X). rewrite X in *.
    apply Hr, ends_at in Hs as (B & C). auto. }
  destruct (Nat.ltb_spec 0 (scan_at re_scan_autolink_uri ch (S (s_pos st)))) as [S1|_]; [exact (A _ (uri_gt _) S1 H)|].
  destruct (Nat.ltb_spec 0 (scan_at re_scan_autolink_email ch (S (s_pos st)))) as [S1|_]; [exact (A _ (email_gt _) S1 H)|].
  destruct (html_inline ch _ _) as (n & ((x & y) & z)) eqn:I. injection H as <-. cbn [s_pos set_pos set_flags]. destruct (html_inline_end _ _ _ _ _ I H0 Hl) as [->|(B & C)].
  - rewrite Nat.add_0_r. cbn [pred]. split; [auto|lia].
  - auto.
Qed.
