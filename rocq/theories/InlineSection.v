(** What the scanners for processing instructions, declarations and CDATA sections consume. *)
From Coq Require Import String List NArith Bool Arith Lia.
From Verif Require Import Str StrFacts Spec EnvSpec Regex RegexSpec RegexProof HtmlRe HtmlProof Inlines InlineProof InlineHtml InlineRun InlineTarget.
From Verif Require HtmlSpec.
Import ListNotations.
Local Open Scope list_scope.

(** A repetition that keeps [P] and goes on wherever [P] holds, except at the end [t]. *)
Lemma star_keeps (P : str -> Prop) r pv s pv' s' : (forall pv s pv' s', P s -> M r pv s pv' s' -> P s') -> star (M r) pv s pv' s' -> P s -> P s'.
Proof. intros H. induction 1 as [|pv s pv1 s1 pv2 s2 A B IH]; intros Hs; [exact Hs|]. apply IH. eapply H; eassumption. Qed.
Lemma notin_iff c l : negb (cin c l) = true <-> ~ In c l.
Proof. rewrite negb_true_iff. split; intros H; [intros X; apply cin_In in X; congruence|destruct (cin c l) eqn:X; [apply cin_In in X; contradiction|reflexivity]]. Qed.
Lemma without_tail k c w : HtmlSpec.without k (c :: w) -> HtmlSpec.without k w.
Proof. intros H a b Eq. apply (H (c :: a) b). rewrite Eq. reflexivity. Qed.
Lemma last_tail (c d : N) w x : last (c :: d :: w) x = last (d :: w) x.
Proof. reflexivity. Qed.

(** ** Instructions *)
Inductive pi_text : str -> Prop :=
| pi_end : pi_text []
| pi_char : forall c w, c <> 63%N -> pi_text w -> pi_text (c :: w)
| pi_pair : forall c w, c <> 62%N -> pi_text w -> pi_text (63%N :: c :: w).
Lemma pi_of w : HtmlSpec.without (lit "?>") w -> last w 0%N <> 63%N -> pi_text w.
Proof.
  remember (length w) as n eqn:Hn. assert (L : length w <= n) by lia. clear Hn. revert w L. induction n as [|n IH]; intros [|c w] L H1 H2; try apply pi_end; try (cbn in L; lia).
  destruct (N.eq_dec c 63) as [->|C].
  - destruct w as [|d w]; [exfalso; apply H2; reflexivity|]. apply pi_pair.
    + intros ->. apply (H1 [] w). reflexivity.
    + apply IH; [cbn in L; lia|do 2 apply without_tail in H1; exact H1|]. destruct w; [discriminate|exact H2].
  - apply pi_char; [exact C|]. apply IH; [cbn in L; lia|apply without_tail in H1; exact H1|]. destruct w; [discriminate|exact H2].
Qed.
Definition pi_unit : re := RAlts [RPlus (RNotIn [63%N; 62%N; 0%N]); RSeq (RChr 63) (RNotIn [62%N; 0%N]); RChr 62].
Definition pi_rest (b s : str) : Prop := exists w, s = w ++ 63%N :: 62%N :: b /\ pi_text w.
Lemma pi_drop b c s : c <> 63%N -> pi_rest b (c :: s) -> pi_rest b s.
Proof.
  intros Hc (w & Eq & H). destruct H as [|x w Hx H|x w Hx H]; cbn in Eq; injection Eq as -> Eq; try contradiction. exists w. auto.
Qed.
Lemma pi_keeps b pv s pv' s' : pi_rest b s -> M pi_unit pv s pv' s' -> pi_rest b s'.
Proof.
  intros Hs Hm. apply M_alts in Hm as (r & [<-|[<-|[<-|[]]]] & Hm).
  - destruct Hm as (pv1 & s1 & (x & -> & Hx & ->) & Hm). apply notin_iff in Hx. assert (K : pi_rest b s1) by (eapply pi_drop; [|exact Hs]; intros ->; apply Hx; left; reflexivity).
    refine (star_keeps (pi_rest b) (RNotIn [63%N; 62%N; 0%N]) _ _ _ _ _ Hm K). clear. intros pv s pv' s' Hs (x & -> & Hx & _). apply notin_iff in Hx. eapply pi_drop; [|exact Hs]. intros ->. apply Hx. left. reflexivity.
  - destruct Hm as (pv1 & s1 & A & (x & -> & Hx & _)). apply M_chr in A as (-> & _). apply notin_iff in Hx. destruct Hs as (w & Eq & H). destruct H as [|y w Hy H|y w Hy H]; cbn in Eq.
    + injection Eq as -> _. exfalso. apply Hx. left. reflexivity.
    + injection Eq as <- _. contradiction.
    + injection Eq as <- Eq. exists w. auto.
  - apply M_chr in Hm as (-> & _). eapply pi_drop; [|exact Hs]. discriminate.
Qed.
Lemma pi_goes b s pv : ~ In 0%N s -> pi_rest b s -> s = 63%N :: 62%N :: b \/ exists pv' s', M pi_unit pv s pv' s' /\ length s' < length s.
Proof.
  intros H0 (w & -> & H). destruct H as [|c w Hc H|c w Hc H]; [left; reflexivity|right|right]; cbn [app] in *.
  - destruct (N.eq_dec c 62) as [->|C].
    + exists (Some 62%N). eexists. split; [apply M_alts; exists (RChr 62); split; [right; right; left; reflexivity|apply M_chr; auto]|cbn; lia].
    + exists (Some c). eexists. split; [|cbn [length]; apply Nat.lt_succ_diag_r]. apply M_alts. exists (RPlus (RNotIn [63%N; 62%N; 0%N])). split; [left; reflexivity|].
      exists (Some c). eexists. split; [exists c; split; [reflexivity|]; split; [apply notin_iff; intros [X|[X|[X|[]]]]; subst; [contradiction|contradiction|apply H0; left; reflexivity]|reflexivity]|constructor].
  - exists (Some c). eexists. split; [|cbn [length]; apply Nat.lt_lt_succ_r, Nat.lt_succ_diag_r]. apply M_alts. exists (RSeq (RChr 63) (RNotIn [62%N; 0%N])). split; [right; left; reflexivity|].
    exists (Some 63%N). eexists. split; [apply M_chr; auto|]. exists c. split; [reflexivity|]. split; [apply notin_iff; intros [X|[X|[]]]; subst; [contradiction|apply H0; right; left; reflexivity]|reflexivity].
Qed.
Lemma scan_instruction w b : ~ In 0%N (w ++ lit "?>" ++ b) -> HtmlSpec.without (lit "?>") w -> last w 0%N <> 63%N -> matchlen re_scan_pi (w ++ lit "?>" ++ b) = length w.
Proof.
  intros H0 H1 H2. assert (P : pi_rest b (w ++ lit "?>" ++ b)) by (exists w; split; [reflexivity|apply pi_of; assumption]).
  assert (G : exists u rest, w ++ lit "?>" ++ b = u ++ rest /\ length u = matchlen re_scan_pi (w ++ lit "?>" ++ b) /\ stuck pi_unit rest /\ pi_rest b rest).
  { unfold matchlen. fold ret. destruct (rmatch re_scan_pi None _ ret) as [rest|] eqn:R.
    - pose proof R as R'. apply match_split in R' as (pv & R'). destruct (M_suffix _ _ _ _ _ R') as (u & Es). apply seq_star_stuck in R as (St & _). exists u, rest. split; [exact Es|]. split; [rewrite Es, app_length; lia|]. split; [exact St|].
      destruct R' as (pv1 & s1 & A & B). eapply (star_keeps (pi_rest b) pi_unit); [apply pi_keeps|exact B|]. eapply pi_keeps; [exact P|exact A].
    - exists [], (w ++ lit "?>" ++ b). split; [reflexivity|]. split; [reflexivity|]. split; [|exact P]. exists None. intros pv' s' HM _. unfold re_scan_pi, RPlus in R. fold pi_unit in R.
      refine (rmatch_complete (RSeq pi_unit (RStar pi_unit)) None _ ret pv' s' _ _ R); [exists pv', s'; split; [exact HM|constructor]|discriminate]. }
  destruct G as (u & rest & Es & <- & (pv & St) & Pr). destruct (pi_goes b rest pv) as [->|(pv' & s' & A & B)]; [rewrite Es, in_app_iff in H0; tauto|exact Pr| |exfalso; exact (St _ _ A B)].
  change (lit "?>" ++ b) with (63%N :: 62%N :: b) in Es. apply (f_equal (@length N)) in Es. rewrite !app_length in Es. lia.
Qed.

(** Without an end the scan goes on to the end of the text. *)
Lemma without_part u w x : HtmlSpec.without x (u ++ w) -> HtmlSpec.without x w.
Proof. intros H a b ->. apply (H (u ++ a) b). rewrite <- app_assoc. reflexivity. Qed.
Lemma scan_instruction_open w : ~ In 0%N w -> HtmlSpec.without (lit "?>") w -> length w <= matchlen re_scan_pi w + 1.
Proof.
  intros H0 H1. assert (G : exists u rest, w = u ++ rest /\ length u = matchlen re_scan_pi w /\ stuck pi_unit rest).
  { unfold matchlen. fold ret. destruct (rmatch re_scan_pi None _ ret) as [rest|] eqn:R.
    - pose proof R as R'. apply match_split in R' as (pv & R'). destruct (M_suffix _ _ _ _ _ R') as (u & Es). apply seq_star_stuck in R as (St & _). exists u, rest. split; [exact Es|]. split; [rewrite Es, app_length; lia|exact St].
    - exists [], w. split; [reflexivity|]. split; [reflexivity|]. exists None. intros pv' s' HM _. unfold re_scan_pi, RPlus in R. fold pi_unit in R.
      refine (rmatch_complete (RSeq pi_unit (RStar pi_unit)) None _ ret pv' s' _ _ R); [exists pv', s'; split; [exact HM|constructor]|discriminate]. }
  destruct G as (u & rest & Es & <- & (pv & St)). rewrite Es, app_length. destruct rest as [|c [|d rest]]; cbn [length]; [lia|lia|exfalso]. rewrite Es in H0, H1. apply without_part in H1. rewrite in_app_iff in H0.
  destruct (N.eq_dec c 63) as [->|C]; [|destruct (N.eq_dec c 62) as [->|C']].
  - apply (St (Some d) rest); [|cbn; lia]. apply M_alts. exists (RSeq (RChr 63) (RNotIn [62%N; 0%N])). split; [right; left; reflexivity|].
    exists (Some 63%N). eexists. split; [apply M_chr; auto|]. exists d. split; [reflexivity|]. split; [apply notin_iff; intros [X|[X|[]]]; subst d; [apply (H1 [] rest); reflexivity|apply H0; right; right; left; reflexivity]|reflexivity].
  - apply (St (Some 62%N) (d :: rest)); [|cbn; lia]. apply M_alts. exists (RChr 62). split; [right; right; left; reflexivity|apply M_chr; auto].
  - apply (St (Some c) (d :: rest)); [|cbn; lia]. apply M_alts. exists (RPlus (RNotIn [63%N; 62%N; 0%N])). split; [left; reflexivity|].
    exists (Some c). eexists. split; [exists c; split; [reflexivity|]; split; [apply notin_iff; intros [X|[X|[X|[]]]]; subst; [contradiction|contradiction|apply H0; right; left; reflexivity]|reflexivity]|constructor].
Qed.

(** ** CDATA sections *)
Inductive cd_text : str -> Prop :=
| cd_end : cd_text []
| cd_char : forall c w, c <> 93%N -> cd_text w -> cd_text (c :: w)
| cd_one : forall c w, c <> 93%N -> cd_text w -> cd_text (93%N :: c :: w)
| cd_two : forall c w, c <> 62%N -> cd_text w -> cd_text (93%N :: 93%N :: c :: w).
Lemma cd_of w : HtmlSpec.without (lit "]]>") w -> last w 0%N <> 93%N -> cd_text w.
Proof.
  remember (length w) as n eqn:Hn. assert (L : length w <= n) by lia. clear Hn. revert w L. induction n as [|n IH]; intros [|c w] L H1 H2; try apply cd_end; try (cbn in L; lia).
  destruct (N.eq_dec c 93) as [->|C].
  - destruct w as [|d w]; [exfalso; apply H2; reflexivity|]. destruct (N.eq_dec d 93) as [->|D].
    + destruct w as [|e w]; [exfalso; apply H2; reflexivity|]. apply cd_two.
      * intros ->. apply (H1 [] w). reflexivity.
      * apply IH; [cbn in L; lia|do 3 apply without_tail in H1; exact H1|]. destruct w; [discriminate|exact H2].
    + apply cd_one; [exact D|]. apply IH; [cbn in L; lia|do 2 apply without_tail in H1; exact H1|]. destruct w; [discriminate|exact H2].
  - apply cd_char; [exact C|]. apply IH; [cbn in L; lia|apply without_tail in H1; exact H1|]. destruct w; [discriminate|exact H2].
Qed.
Definition cd_unit : re := RAlts [RPlus (RNotIn [93%N; 0%N]); RSeq (RChr 93) (RNotIn [93%N; 0%N]); RSeqs [RChr 93; RChr 93; RNotIn [62%N; 0%N]]].
Definition cd_rest (b s : str) : Prop := exists w, s = w ++ 93%N :: 93%N :: 62%N :: b /\ cd_text w.
Lemma cd_drop b c s : c <> 93%N -> cd_rest b (c :: s) -> cd_rest b s.
Proof. intros Hc (w & Eq & H). destruct H as [|x w Hx H|x w Hx H|x w Hx H]; cbn in Eq; injection Eq as -> Eq; try contradiction. exists w. auto. Qed.
Lemma cd_keeps b pv s pv' s' : cd_rest b s -> M cd_unit pv s pv' s' -> cd_rest b s'.
Proof.
  intros Hs Hm. apply M_alts in Hm as (r & [<-|[<-|[<-|[]]]] & Hm).
  - destruct Hm as (pv1 & s1 & (x & -> & Hx & ->) & Hm). apply notin_iff in Hx. assert (K : cd_rest b s1) by (eapply cd_drop; [|exact Hs]; intros ->; apply Hx; left; reflexivity).
    refine (star_keeps (cd_rest b) (RNotIn [93%N; 0%N]) _ _ _ _ _ Hm K). clear. intros pv s pv' s' Hs (x & -> & Hx & _). apply notin_iff in Hx. eapply cd_drop; [|exact Hs]. intros ->. apply Hx. left. reflexivity.
  - destruct Hm as (pv1 & s1 & A & (x & -> & Hx & _)). apply M_chr in A as (-> & _). apply notin_iff in Hx. assert (Hx' : x <> 93%N) by (intros ->; apply Hx; left; reflexivity). destruct Hs as (w & Eq & H). destruct H as [|y w Hy H|y w Hy H|y w Hy H]; cbn in Eq.
    + injection Eq as -> _. contradiction.
    + injection Eq as <- _. contradiction.
    + injection Eq as <- Eq. exists w. auto.
    + injection Eq as -> _. contradiction.
  - apply M_seqs_cons in Hm as (p1 & s1 & A & Hm). apply M_seqs_cons in Hm as (p2 & s2 & B & Hm). apply M_seqs_cons in Hm as (p3 & s3 & (x & -> & Hx & _) & Hm). apply M_seqs_nil in Hm as (-> & ->). apply M_chr in A as (-> & _). apply M_chr in B as (-> & _).
    apply notin_iff in Hx. destruct Hs as (w & Eq & H). destruct H as [|y w Hy H|y w Hy H|y w Hy H]; cbn in Eq.
    + injection Eq as -> _. exfalso. apply Hx. left. reflexivity.
    + injection Eq as <- _. contradiction.
    + injection Eq as <- _. contradiction.
    + injection Eq as <- Eq. exists w. auto.
Qed.
Lemma cd_goes b s pv : ~ In 0%N s -> cd_rest b s -> s = 93%N :: 93%N :: 62%N :: b \/ exists pv' s', M cd_unit pv s pv' s' /\ length s' < length s.
Proof.
  intros H0 (w & -> & H). destruct H as [|c w Hc H|c w Hc H|c w Hc H]; [left; reflexivity|right..]; cbn [app] in *.
  - exists (Some c). eexists. split; [|cbn [length]; apply Nat.lt_succ_diag_r]. apply M_alts. exists (RPlus (RNotIn [93%N; 0%N])). split; [left; reflexivity|].
    exists (Some c). eexists. split; [exists c; split; [reflexivity|]; split; [apply notin_iff; intros [X|[X|[]]]; subst; [contradiction|apply H0; left; reflexivity]|reflexivity]|constructor].
  - exists (Some c). eexists. split; [|cbn [length]; apply Nat.lt_lt_succ_r, Nat.lt_succ_diag_r]. apply M_alts. exists (RSeq (RChr 93) (RNotIn [93%N; 0%N])). split; [right; left; reflexivity|].
    exists (Some 93%N). eexists. split; [apply M_chr; auto|]. exists c. split; [reflexivity|]. split; [apply notin_iff; intros [X|[X|[]]]; subst; [contradiction|apply H0; right; left; reflexivity]|reflexivity].
  - exists (Some c). eexists. split; [|cbn [length]; apply Nat.lt_lt_succ_r, Nat.lt_lt_succ_r, Nat.lt_succ_diag_r]. apply M_alts. exists (RSeqs [RChr 93; RChr 93; RNotIn [62%N; 0%N]]). split; [right; right; left; reflexivity|].
    apply M_seqs_cons. exists (Some 93%N). eexists. split; [apply M_chr; auto|]. apply M_seqs_cons. exists (Some 93%N). eexists. split; [apply M_chr; auto|]. apply M_seqs_cons. exists (Some c). eexists.
    split; [exists c; split; [reflexivity|]; split; [apply notin_iff; intros [X|[X|[]]]; subst; [contradiction|apply H0; right; right; left; reflexivity]|reflexivity]|apply M_seqs_nil; auto].
Qed.
Lemma scan_section w b : ~ In 0%N (w ++ lit "]]>" ++ b) -> HtmlSpec.without (lit "]]>") w -> last w 0%N <> 93%N -> matchlen re_scan_cdata (lit "CDATA[" ++ w ++ lit "]]>" ++ b) = 6 + length w.
Proof.
  intros H0 H1 H2. set (t := w ++ lit "]]>" ++ b) in *. assert (P : cd_rest b t) by (exists w; split; [reflexivity|apply cd_of; assumption]).
  unfold matchlen. fold ret. destruct (rmatch re_scan_cdata None _ ret) as [rest|] eqn:R.
  - pose proof R as R'. apply match_split in R' as (pv & R'). apply seq_star_stuck in R as ((pv0 & St) & _). destruct R' as (pv1 & s1 & A & B). apply M_lit in A. apply app_inv_head in A. subst s1.
    assert (Pr : cd_rest b rest) by (eapply (star_keeps (cd_rest b) cd_unit); [apply cd_keeps|exact B|exact P]).
    assert (Su : exists u, t = u ++ rest) by (apply (M_suffix (RStar cd_unit) pv1 t pv rest); exact B). destruct Su as (u & Su).
    destruct (cd_goes b rest pv0) as [->|(pv' & s' & C & D)]; [rewrite Su, in_app_iff in H0; tauto|exact Pr| |exfalso; exact (St _ _ C D)].
    unfold t. rewrite !app_length. change (length (lit "]]>")) with 3. change (length (lit "CDATA[")) with 6. cbn [length]. lia.
  - exfalso. destruct (lit_make (lit "CDATA[") None t) as (pv' & A); [discriminate|]. refine (rmatch_complete re_scan_cdata None _ ret pv' t _ _ R); [exists pv', t; split; [exact A|constructor]|discriminate].
Qed.
Lemma scan_section_open w : ~ In 0%N w -> HtmlSpec.without (lit "]]>") w -> 4 + length w <= matchlen re_scan_cdata (lit "CDATA[" ++ w).
Proof.
  intros H0 H1. unfold matchlen. fold ret. destruct (rmatch re_scan_cdata None _ ret) as [rest|] eqn:R.
  - pose proof R as R'. apply match_split in R' as (pv & R'). apply seq_star_stuck in R as ((pv0 & St) & _). destruct R' as (pv1 & s1 & A & B). apply M_lit in A. apply app_inv_head in A. subst s1.
    assert (Su : exists u, w = u ++ rest) by (apply (M_suffix (RStar cd_unit) pv1 w pv rest); exact B). destruct Su as (u & Su). rewrite !app_length. change (length (lit "CDATA[")) with 6.
    enough (length rest <= 2) by lia. rewrite Su in H0, H1. apply without_part in H1. rewrite in_app_iff in H0. destruct rest as [|c [|d [|e rest]]]; cbn [length]; [lia..|exfalso].
    destruct (N.eq_dec c 93) as [->|C]; [destruct (N.eq_dec d 93) as [->|D]|].
    + apply (St (Some e) rest); [|cbn; lia]. apply M_alts. exists (RSeqs [RChr 93; RChr 93; RNotIn [62%N; 0%N]]). split; [right; right; left; reflexivity|].
      apply M_seqs_cons. exists (Some 93%N). eexists. split; [apply M_chr; auto|]. apply M_seqs_cons. exists (Some 93%N). eexists. split; [apply M_chr; auto|]. apply M_seqs_cons. exists (Some e). eexists.
      split; [exists e; split; [reflexivity|]; split; [apply notin_iff; intros [X|[X|[]]]; subst e; [apply (H1 [] rest); reflexivity|apply H0; right; right; right; left; reflexivity]|reflexivity]|apply M_seqs_nil; auto].
    + apply (St (Some d) (e :: rest)); [|cbn; lia]. apply M_alts. exists (RSeq (RChr 93) (RNotIn [93%N; 0%N])). split; [right; left; reflexivity|].
      exists (Some 93%N). eexists. split; [apply M_chr; auto|]. exists d. split; [reflexivity|]. split; [apply notin_iff; intros [X|[X|[]]]; subst d; [contradiction|apply H0; right; right; left; reflexivity]|reflexivity].
    + apply (St (Some c) (d :: e :: rest)); [|cbn; lia]. apply M_alts. exists (RPlus (RNotIn [93%N; 0%N])). split; [left; reflexivity|].
      exists (Some c). eexists. split; [exists c; split; [reflexivity|]; split; [apply notin_iff; intros [X|[X|[]]]; subst; [contradiction|apply H0; right; left; reflexivity]|reflexivity]|constructor].
  - exfalso. destruct (lit_make (lit "CDATA[") None w) as (pv' & A); [discriminate|]. refine (rmatch_complete re_scan_cdata None _ ret pv' w _ _ R); [exists pv', w; split; [exact A|constructor]|discriminate].
Qed.
Lemma no_section w : (forall v, w <> lit "CDATA[" ++ v) -> matchlen re_scan_cdata w = 0.
Proof.
  intros H. unfold matchlen. fold ret. destruct (rmatch re_scan_cdata None _ ret) as [rest|] eqn:R; [|reflexivity]. apply match_split in R as (pv & pv1 & s1 & A & _). apply M_lit in A. exfalso. exact (H _ A).
Qed.

(** ** Declarations *)
Lemma scan_declared n g w b : ~ In 0%N (n ++ g ++ w ++ 62%N :: b) -> n <> [] -> Forall (fun c => (65 <= c <= 90)%N) n -> g <> [] -> HtmlSpec.blanks g -> ~ In 62%N w ->
  matchlen re_scan_declaration (n ++ g ++ w ++ 62%N :: b) = length n + length g + length w.
Proof.
  intros H0 Hn Fn Hg Fg Hw. set (s := n ++ g ++ w ++ 62%N :: b) in *.
  assert (N62 : ~ In 62%N (n ++ g ++ w)).
  { rewrite !in_app_iff. intros [X|[X|X]]; [rewrite Forall_forall in Fn; apply Fn in X; lia|unfold HtmlSpec.blanks in Fg; rewrite Forall_forall in Fg; apply Fg in X; lia|contradiction]. }
  unfold matchlen. fold ret. destruct (rmatch re_scan_declaration None s ret) as [rest|] eqn:R.
  - assert (G : exists u, s = u ++ rest /\ ~ In 62%N u).
    { pose proof R as R'. apply match_split in R' as (pv & H). apply M_seqs_cons in H as (p1 & s1 & A & H). apply M_seqs_cons in H as (p2 & s2 & B & H). apply M_seqs_cons in H as (p3 & s3 & C & H). apply M_seqs_nil in H as (-> & ->).
      destruct A as (q1 & t1 & (x & A1 & Hx & _) & A2). apply star_set in A2 as (u1 & A2 & F1 & _). destruct B as (q2 & t2 & (y & B1 & Hy & _) & B2). apply star_set in B2 as (u2 & B2 & F2 & _). apply star_set in C as (u3 & C & F3 & _).
      exists (x :: u1 ++ y :: u2 ++ u3). split; [rewrite A1, A2, B1, B2, C; cbn [app]; rewrite <- !app_assoc; cbn [app]; rewrite <- !app_assoc; reflexivity|].
      intros [X|X]; [subst x; discriminate|]. apply in_app_or in X as [X|[X|X]]; [rewrite Forall_forall in F1; apply F1 in X; discriminate|subst y; discriminate|]. apply in_app_or in X as [X|X]; [rewrite Forall_forall in F2; apply F2 in X; discriminate|rewrite Forall_forall in F3; apply F3 in X; discriminate]. }
    destruct G as (u & Es & Nu).
    assert (St : stuck (RNotIn [62%N; 0%N]) rest).
    { apply (rmatch_sound (RPlus (RSet ascii_upper)) None s (fun pv s => rmatch (RPlus re_spacechar) pv s (fun pv s => rmatch (RStar (RNotIn [62%N; 0%N])) pv s ret))) in R as (pv1 & s1 & _ & R).
      apply rmatch_sound in R as (pv2 & s2 & _ & R). eapply star_stuck; [|exact R]. reflexivity. }
    assert (Es' : s = (n ++ g ++ w) ++ 62%N :: b) by (unfold s; rewrite <- !app_assoc; reflexivity).
    destruct rest as [|c rest]; [exfalso; rewrite app_nil_r in Es; apply Nu; rewrite <- Es, Es'; apply in_or_app; right; left; reflexivity|].
    assert (c = 62%N) as ->.
    { destruct (N.eq_dec c 62) as [->|C]; [reflexivity|]. exfalso. destruct St as (pv' & St). apply (St (Some c) rest); [|cbn; lia]. exists c. split; [reflexivity|]. split; [|reflexivity]. apply notin_iff. intros [X|[X|[]]]; subst; [contradiction|]. apply H0. rewrite Es. apply in_or_app. right. left. reflexivity. }
    rewrite Es' in Es. destruct (split_here 62%N (n ++ g ++ w) b u rest N62 Nu Es) as (Eu & Er). subst rest. rewrite Es'. rewrite !app_length. cbn [length]. lia.
  - exfalso. assert (G : exists pv', M re_scan_declaration None s pv' (62%N :: b)).
    { destruct n as [|x n]; [contradiction|]. destruct g as [|y g]; [contradiction|]. inversion Fn as [|? ? Hx Fn']; subst. inversion Fg as [|? ? Hy Fg']; subst. eexists. apply M_seqs_cons. eexists. exists ((y :: g) ++ w ++ 62%N :: b).
      assert (Up' : forall c, (65 <= c <= 90)%N -> ascii_upper c = true) by (intros c X; unfold ascii_upper; apply in_range_iff; exact X).
      split; [exists (Some x); eexists; split; [exists x; split; [reflexivity|]; split; [apply Up'; exact Hx|reflexivity]|apply star_set; exists n; split; [reflexivity|]; split; [eapply Forall_impl; [|exact Fn']; intros c; apply Up'|reflexivity]]|].
      apply M_seqs_cons. eexists. exists (w ++ 62%N :: b). split; [exists (Some y); eexists; split; [exists y; split; [reflexivity|]; split; [destruct Hy as [->| ->]; reflexivity|reflexivity]|apply star_set; exists g; split; [reflexivity|]; split; [eapply Forall_impl; [|exact Fg']; intros c [->| ->]; reflexivity|reflexivity]]|].
      apply M_seqs_cons. eexists. exists (62%N :: b). split; [|apply M_seqs_nil; split; reflexivity]. apply star_set. exists w. split; [reflexivity|]. split; [|reflexivity]. apply Forall_forall. intros c X. apply notin_iff. intros [Y|[Y|[]]]; subst; [contradiction|]. apply H0. unfold s. rewrite !in_app_iff. auto. }
    destruct G as (pv' & G). exact (rmatch_complete re_scan_declaration None s ret pv' _ G ltac:(discriminate) R).
Qed.
