(** An angle bracket after which neither raw HTML nor an autolink follows is text. *)
From Coq Require Import String List NArith ZArith Bool Arith Lia.
From Verif Require Import Str StrFacts Spec EnvSpec Regex RegexSpec RegexProof HtmlRe Fence Atx Entity Inlines HelperSpec EntityProof EmphSpec DelimSpec LinkSpec HtmlProof HtmlRaw AtxProof InlineProof InlineHtml InlineRun InlineOpaque InlineEmph InlineRead InlineTarget InlineSection InlineAngle.
From Verif Require HtmlSpec.
Import ListNotations.
Local Open Scope list_scope.

(** ** What the scanners match *)
Lemma matched r s : 0 < matchlen r s -> exists pv s', M r None s pv s'.
Proof.
  unfold matchlen. intros H. destruct (rmatch r None s (fun _ s' => Some s')) as [rest|] eqn:R; [|lia]. apply match_split in R as (pv & R). eauto.
Qed.
Lemma uri_mistaken b : 0 < matchlen re_scan_autolink_uri b -> mistaken b.
Proof.
  intros H. apply matched in H as (pv & s' & H). apply M_seqs_cons in H as (p1 & s1 & A & H). apply M_seqs_cons in H as (p2 & s2 & B & H). apply M_seqs_cons in H as (p3 & s3 & C & H). apply M_chr in A as (-> & _). apply M_chr in C as (-> & _).
  apply star_set in B as (u & -> & F & _). left. exists u, s3. split; [reflexivity|]. eapply Forall_impl; [|exact F]. intros c Hc. apply negb_true_iff, orb_false_iff in Hc as (Hc & H3). apply orb_false_iff in Hc as (H1 & H2).
  apply N.leb_gt in H1. apply N.eqb_neq in H2, H3. split; [lia|]. cbn. intuition congruence.
Qed.
(** Labels of domains. *)
Lemma upto_shape p n : forall pv s pv' s', M (RUpTo n (RSet p)) pv s pv' s' -> exists u, s = u ++ s' /\ length u <= n /\ Forall (fun c => p c = true) u.
Proof.
  induction n as [|n IH]; intros pv s pv' s' H; [destruct H as (-> & ->); exists []; repeat split; auto|].
  destruct H as [(p1 & s1 & (c & -> & Hc & _) & H)|(-> & ->)]; [|exists []; cbn; repeat split; auto; lia]. apply IH in H as (u & -> & L & F). exists (c :: u). cbn. repeat split; [lia|constructor; assumption].
Qed.
Lemma label_shape pv s pv' s' : M re_email_label pv s pv' s' -> exists l, s = l ++ s' /\ domain_label l.
Proof.
  assert (D : forall c, ascii_alnum c = true -> (is_letter c \/ is_digit c) /\ c <> 45%N) by (intros c H; apply alnum_iff in H; split; [exact H|unfold is_letter, is_digit in H; lia]).
  intros (p1 & s1 & (c & -> & Hc & _) & H). apply D in Hc as (Hc & Hc'). destruct H as [(p2 & s2 & H & (d & -> & Hd & _))|(-> & ->)].
  - apply D in Hd as (Hd & Hd'). apply upto_shape in H as (u & -> & L & F). exists (c :: u ++ [d]). split; [cbn; rewrite <- app_assoc; reflexivity|]. split; [cbn; rewrite app_length; cbn; lia|]. split; [|split; [exact Hc'|rewrite app_comm_cons, last_last; exact Hd']].
    constructor; [tauto|]. apply Forall_app. split; [|constructor; [tauto|constructor]]. eapply Forall_impl; [|exact F]. intros x Hx. apply orb_true_iff in Hx as [Hx|Hx]; [apply D in Hx; tauto|apply N.eqb_eq in Hx; auto].
  - exists [c]. split; [reflexivity|]. split; [cbn; lia|]. split; [constructor; [tauto|constructor]|]. split; exact Hc'.
Qed.
Lemma email_ahead b : 0 < matchlen re_scan_autolink_email b -> angle_ahead b.
Proof.
  intros H. apply matched in H as (pv & s' & H). apply M_seqs_cons in H as (p1 & s1 & A & H). apply M_seqs_cons in H as (p2 & s2 & B & H). apply M_seqs_cons in H as (p3 & s3 & C & H). apply M_seqs_cons in H as (p4 & s4 & D & H). apply M_seqs_cons in H as (p5 & s5 & G & H).
  apply (M_name mailb mailb) in A as (c & u & -> & Hc & Hu). apply M_chr in B as (-> & _). apply label_shape in C as (l & -> & Hl). apply M_chr in G as (-> & _).
  assert (X : exists ls, s3 = flat_map (fun l => 46%N :: l) ls ++ 62%N :: s5 /\ Forall domain_label ls).
  { remember (62%N :: s5) as e eqn:Ee. clear -D. change (star (M (RSeq (RChr 46) re_email_label)) p3 s3 p4 e) in D. induction D as [pv s|pv s pv1 s1 pv2 s2 A B (ls & -> & F)]; [exists []; split; [reflexivity|constructor]|].
    destruct A as (q & t & A1 & A2). apply M_chr in A1 as (-> & _). apply label_shape in A2 as (l & -> & Hl). exists (l :: ls). split; [cbn [flat_map]; rewrite <- app_assoc; reflexivity|constructor; assumption]. }
  destruct X as (ls & -> & F). exists (show_angle (Mail (c :: u) (l, ls))), s5. split; [cbn [show_angle]; rewrite <- !app_comm_cons, <- !app_assoc; cbn [app]; rewrite <- !app_assoc; reflexivity|]. right. eexists. split; [|reflexivity].
  split; [discriminate|]. split; [|constructor; assumption]. constructor; [apply mailb_iff; exact Hc|eapply Forall_impl; [|exact Hu]; intros x; apply mailb_iff].
Qed.

(** ** Tags *)
Lemma scan_attr_shape pv s pv' s' : M re_scan_attribute pv s pv' s' -> exists a, s = HtmlSpec.show_attr a ++ s' /\ hollow_attr a.
Proof.
  intros H. apply M_seqs_cons in H as (p1 & s1 & A & H). apply M_seqs_cons in H as (p2 & s2 & B & H). apply M_seqs_cons in H as (p3 & s3 & C & H). apply M_seqs_cons in H as (p4 & s4 & D & H). apply M_seqs_cons in H as (p5 & s5 & F & H). apply M_seqs_cons in H as (p6 & s6 & G & H). apply M_seqs_nil in H as (-> & ->).
  apply (white_plus (fun _ => True)) in A as (g & -> & G1 & G2). apply (M_name attr_first attr_rest) in B as (c & u & -> & Hc & Hu).
  assert (Hn : HtmlSpec.attr_name (c :: u)) by (exists c, u; split; [reflexivity|]; split; [apply attr_first_iff; exact Hc|eapply Forall_impl; [|exact Hu]; intros x; apply attr_rest_iff]).
  apply (white_star (fun _ => True)) in C as (b1 & -> & W1). apply M_chr in D as (-> & _). apply (white_star (fun _ => True)) in F as (b2 & -> & W2). destruct G as [G|(-> & ->)].
  - apply (value_raw (fun _ => True)) in G as (v & -> & Hv). exists (HtmlSpec.Attr g (c :: u) (Some (b1, b2, v))). split; [unfold HtmlSpec.show_attr; cbn [HtmlSpec.a_gap HtmlSpec.a_name HtmlSpec.a_value]; repeat (rewrite <- app_assoc; cbn [app]); reflexivity|]. left. repeat split; auto; apply Hn.
  - exists (HtmlSpec.Attr g (c :: u) (Some (b1, b2, HtmlSpec.Bare []))). split; [unfold HtmlSpec.show_attr; cbn [HtmlSpec.a_gap HtmlSpec.a_name HtmlSpec.a_value HtmlSpec.show_value]; repeat (rewrite <- app_assoc; cbn [app]); reflexivity|]. right. split; [repeat split; auto; apply Hn|]. exists b1, b2. auto.
Qed.
Lemma tag_shape b : 0 < matchlen re_scan_htmltag b -> angle_ahead b \/ mistaken b.
Proof.
  intros H. apply matched in H as (pv & s' & [H|H]).
  - apply M_seqs_cons in H as (p1 & s1 & A & H). apply M_seqs_cons in H as (p2 & s2 & B & H). apply M_seqs_cons in H as (p3 & s3 & C & H). apply M_seqs_cons in H as (p4 & s4 & D & H). apply M_seqs_cons in H as (p5 & s5 & G & H). apply M_seqs_nil in H as (-> & ->).
    apply (M_name tag_first tag_rest) in A as (c & u & -> & Hc & Hu). right. right. assert (X : exists l, s1 = concat (map HtmlSpec.show_attr l) ++ s2 /\ Forall hollow_attr l).
    { clear -B. change (star (M re_scan_attribute) p1 s1 p2 s2) in B. induction B as [pv s|pv s pv1 s1 pv2 s2 A B (l & -> & F)]; [exists []; split; [reflexivity|constructor]|]. apply scan_attr_shape in A as (a & -> & Ha). exists (a :: l). split; [cbn [map concat]; rewrite <- app_assoc; reflexivity|constructor; assumption]. }
    destruct X as (l & -> & F). apply (white_star (fun _ => True)) in C as (t & -> & W). apply M_chr in G as (-> & _).
    assert (S5 : exists sl : bool, s3 = (if sl then [47%N] else []) ++ 62%N :: s5) by (destruct D as [D|(_ & <-)]; [apply M_chr in D as (-> & _); exists true|exists false]; reflexivity). destruct S5 as (sl & ->).
    exists (c :: u), l, t, sl, s5. split; [cbn [HtmlSpec.show]; rewrite <- !app_comm_cons, <- !app_assoc; reflexivity|]. split; [|split; assumption]. exists c, u. split; [reflexivity|]. split; [apply alpha_iff; exact Hc|eapply Forall_impl; [|exact Hu]; intros x; apply tag_rest_iff].
  - apply M_seqs_cons in H as (p1 & s1 & A & H). apply M_seqs_cons in H as (p2 & s2 & B & H). apply M_seqs_cons in H as (p3 & s3 & C & H). apply M_seqs_cons in H as (p4 & s4 & D & H). apply M_seqs_nil in H as (-> & ->).
    apply M_chr in A as (-> & _). apply (M_name tag_first tag_rest) in B as (c & u & -> & Hc & Hu). apply (white_star (fun _ => True)) in C as (t & -> & W). apply M_chr in D as (-> & _). left. exists (HtmlSpec.show (HtmlSpec.Close (c :: u) t)), s4. split; [cbn [HtmlSpec.show app]; rewrite <- !app_assoc; reflexivity|]. left.
    apply HtmlSpec.raw_close; [|exact I|exact W]. exists c, u. split; [reflexivity|]. split; [apply alpha_iff; exact Hc|eapply Forall_impl; [|exact Hu]; intros x; apply tag_rest_iff].
Qed.

(** ** Comments, instructions, sections and declarations *)
Lemma first_occurrence (x : str) : x <> [] -> forall w, HtmlSpec.without x w \/ exists u v, w = u ++ x ++ v /\ HtmlSpec.without x u.
Proof.
  intros Hx. assert (Hn : HtmlSpec.without x []) by (intros [|y a] b E; [destruct x; [contradiction|discriminate]|discriminate]).
  assert (D : forall w, (exists v, w = x ++ v) \/ (forall v, w <> x ++ v)).
  { clear. induction x as [|c x IH]; intros w; [left; exists w; reflexivity|]. destruct w as [|d w]; [right; discriminate|]. destruct (N.eq_dec c d) as [<-|Hc]; [|right; intros v E; injection E as ? _; congruence].
    destruct (IH w) as [(v & ->)|H]; [left; exists v; reflexivity|right; intros v E; injection E as E; exact (H v E)]. }
  induction w as [|c w IH]; [left; exact Hn|]. destruct (D (c :: w)) as [(v & ->)|H]; [right; exists [], v; split; [reflexivity|exact Hn]|].
  destruct IH as [IH|(u & v & -> & Hu)]; [left|right; exists (c :: u), v; split; [reflexivity|]].
  - intros [|y a] b E; [exact (H b E)|]. injection E as _ E. exact (IH a b E).
  - intros [|y a] b E; [|injection E as _ E; exact (Hu a b E)]. apply (H (b ++ x ++ v)). rewrite app_comm_cons, E. cbn [app]. rewrite <- app_assoc. reflexivity.
Qed.
Lemma dashed_without u : dashed u -> HtmlSpec.without (lit "--") u /\ last u 0%N <> 45%N.
Proof.
  induction 1 as [|c v Hc Hv (IH1 & IH2)|c v Hc Hv (IH1 & IH2)].
  - split; [intros [|y a] b E; discriminate|discriminate].
  - split; [|destruct v; [exact Hc|exact IH2]]. intros [|y a] b E; injection E as E1 E2; [congruence|exact (IH1 a b E2)].
  - split; [|destruct v; [exact Hc|exact IH2]]. intros [|y [|z a]] b E; cbn in E; [injection E as E _; congruence|injection E as _ E _; congruence|injection E as _ _ E; exact (IH1 a b E)].
Qed.
Lemma comment_ahead w : 0 < matchlen re_scan_htmlcomment w -> angle_ahead (lit "!-" ++ w).
Proof.
  intros H. apply matched in H as (pv & s' & [H|H]).
  - apply M_lit in H as ->. exists (HtmlSpec.show (HtmlSpec.Comment [])), s'. split; [reflexivity|]. left. apply HtmlSpec.raw_comment; [discriminate|discriminate|intros [|y a] b E; discriminate|discriminate].
  - apply M_seqs_cons in H as (p1 & s1 & A & H). apply M_seqs_cons in H as (p2 & s2 & B & H). apply M_seqs_cons in H as (p3 & s3 & C & H). apply M_seqs_cons in H as (p4 & s4 & D & H). apply M_seqs_nil in H as (-> & ->). apply M_chr in A as (-> & _). apply M_lit in D as ->.
    apply (unit_cases (0%N :: lit ">-")) in B as (c & Hc & B). apply (units_dashed p2 s2 p3 _) in C as (u & -> & Hu). apply cin_not_In in Hc. cbn in Hc.
    assert (X : exists x, s1 = x ++ u ++ lit "-->" ++ s4 /\ dashed (x ++ u) /\ (forall t, x ++ u <> lit ">" ++ t) /\ (forall t, x ++ u <> lit "->" ++ t)).
    { destruct B as [->| ->]; [exists [c]|exists [45%N; c]]; (split; [reflexivity|]); (split; [constructor; [intuition congruence|exact Hu]|]); split; intros t E; cbn in E; try discriminate; injection E; intuition congruence. }
    destruct X as (x & -> & Dx & X1 & X2). exists (HtmlSpec.show (HtmlSpec.Comment (x ++ u))), s4. split; [cbn; rewrite <- !app_assoc; reflexivity|]. left. apply dashed_without in Dx as (Dx1 & Dx2). apply HtmlSpec.raw_comment; assumption.
Qed.
Lemma no_lower_declaration c w : ~ (65 <= c <= 90)%N -> matchlen re_scan_declaration (c :: w) = 0.
Proof.
  intros H. apply no_match. intros pv s' X. apply M_seqs_cons in X as (p1 & s1 & (p2 & s2 & (d & E & Hd & _) & _) & _). injection E as <- _. unfold ascii_upper in Hd. apply in_range_iff in Hd. lia.
Qed.
Lemma lone_html E ch st a b : scanned E ch -> ~ In 0%N (c_data ch) -> c_data ch = a ++ b -> In 62%N b -> ~ angle_ahead b -> ~ mistaken b ->
  exists f, html_inline ch st (length a) = (0, f) /\ (told (flags st) b -> told f b).
Proof.
  intros Hs H0 Hd Hgt Ha Hm. destruct (Nat.leb_spec (length a + 2) (c_len ch)) as [L|L].
  2: { exists (flags st). unfold html_inline. destruct (Nat.leb_spec (length a + 2) (c_len ch)); [lia|]. split; [reflexivity|auto]. }
  pose proof (proj1 Hs) as Hl. assert (Lb : 2 <= length b) by (apply (f_equal (@length N)) in Hd; rewrite app_length in Hd; lia). destruct b as [|c [|d b]]; cbn [length] in Lb; [lia..|].
  assert (A : nth_error (c_data ch) (length a) = Some c) by (rewrite Hd, nth_error_app2, Nat.sub_diag by lia; reflexivity).
  assert (B : nth_error (c_data ch) (S (length a)) = Some d) by (rewrite Hd, nth_error_app2 by lia; replace (S (length a) - length a) with 1 by lia; reflexivity).
  assert (Hd1 : c_data ch = (a ++ [c]) ++ d :: b) by (rewrite Hd, <- app_assoc; reflexivity). assert (L1 : length (a ++ [c]) = length a + 1) by (rewrite app_length; reflexivity).
  assert (Hd2 : c_data ch = (a ++ [c; d]) ++ b) by (rewrite Hd, <- app_assoc; reflexivity). assert (L2 : length (a ++ [c; d]) = length a + 2) by (rewrite app_length; reflexivity).
  pose proof (fun K => broken_html E ch st a (c :: d :: b) Hs H0 Hd K) as Off.
  assert (Raw : forall k r, 60%N :: c :: d :: b = k ++ r -> ~ HtmlSpec.raw (fun _ => True) k) by (intros k r Ek Kr; apply Ha; exists k, r; split; [exact Ek|left; exact Kr]).
  destruct (N.eq_dec c 63) as [->|H63].
  { destruct (first_occurrence (lit "?>") ltac:(discriminate) (d :: b)) as [W|(u & v & Ew & W)]; [apply Off; right; right; left; exists (d :: b); auto|].
    exfalso. apply (Raw (HtmlSpec.show (HtmlSpec.Instruction u)) v); [rewrite Ew; cbn; rewrite <- app_assoc; reflexivity|apply HtmlSpec.raw_instruction; exact W]. }
  destruct (N.eq_dec c 33) as [->|H33].
  2: { rewrite (html_inline_tag ch st a c d b Hd L H33 H63). rewrite zero_or; [eexists; split; [reflexivity|auto]|]. intros X. apply tag_shape in X as [X|X]; contradiction. }
  destruct (N.eq_dec d 45) as [->|H45].
  { unfold html_inline. destruct (Nat.leb_spec (length a + 2) (c_len ch)); [|lia]. rewrite A, B. change (N.eqb 33 33) with true. change (N.eqb 45 45) with true. cbv iota. rewrite <- L2, (scan_here _ ch _ _ Hd2) by lia.
    rewrite zero_or; [eexists; split; [reflexivity|auto]|]. intros X. apply comment_ahead in X. contradiction. }
  destruct (N.eq_dec d 91) as [->|H91].
  { destruct (first_occurrence (lit "]]>") ltac:(discriminate) b) as [W|(u & v & Ew & W)]; [apply Off; do 5 right; exists b; split; [reflexivity|right; exact W]|].
    apply Off. do 5 right. exists b. split; [reflexivity|]. left. intros t Et.
    destruct (first_occurrence (lit "]]>") ltac:(discriminate) t) as [W'|(u' & v' & Et' & W')].
    - rewrite Et in Ew. assert (Hw : HtmlSpec.without (lit "]]>") (lit "CDATA[" ++ t)); [|exact (Hw u v Ew)]. intros p q Ep. do 6 (destruct p as [|? p]; [discriminate|injection Ep as _ Ep]). exact (W' p q Ep).
    - apply (Raw (HtmlSpec.show (HtmlSpec.Cdata u')) v'); [rewrite Et, Et'; cbn; rewrite <- app_assoc; reflexivity|apply HtmlSpec.raw_section; exact W']. }
  destruct (N.leb_spec 65 d) as [D1|D1]; [destruct (N.leb_spec d 90) as [D2|D2]|].
  { exfalso. destruct (first_occurrence [62%N] ltac:(discriminate) b) as [W|(u & v & Ew & W)].
    - destruct Hgt as [X|[X|X]]; [discriminate|lia|]. apply in_split in X as (p & q & ->). exact (W p q eq_refl).
    - apply (Raw (lit "<!" ++ d :: u ++ lit ">") v); [rewrite Ew; cbn; rewrite <- app_assoc; reflexivity|]. apply HtmlSpec.raw_declaration; [lia|]. intros X. apply in_split in X as (p & q & ->). exact (W p q eq_refl). }
  all: unfold html_inline; destruct (Nat.leb_spec (length a + 2) (c_len ch)); [|lia]; rewrite A, B; change (N.eqb 33 33) with true; cbv iota; destruct (N.eqb_spec d 45); [contradiction|]; destruct (N.eqb_spec d cLB) as [X|_]; [exact (False_ind _ (H91 X))|];
    rewrite <- L1, (scan_here _ ch _ _ Hd1), no_lower_declaration by lia; destruct (s_skip_decl st) eqn:Fd; (eexists; split; [reflexivity|unfold flags; rewrite Fd; auto]).
Qed.
Lemma pointy_lone E ch st a b : scanned E ch -> zs_ascii E -> ~ In 0%N (c_data ch) -> c_data ch = a ++ 60%N :: b -> ~ angle_ahead b -> ~ mistaken b -> s_pos st = length a -> steps_to E ch st (S (length a)) b.
Proof.
  intros Hs Hz H0 Hd Ha Hm Hp. destruct (in_dec N.eq_dec 62%N b) as [Hgt|Hgt]; [|exact (pointy_less E ch st a b Hs Hz H0 Hd (or_introl Hgt) Hp)].
  unfold steps_to, handle_pointy_brace. cbn [s_pos set_pos]. rewrite Hp.
  pose proof (in_scan E ch a 60%N b Hs Hd ltac:(apply ascii_punct_not_space; [exact Hz|reflexivity])) as L.
  assert (Hd' : c_data ch = (a ++ [60%N]) ++ b) by (rewrite <- app_assoc; exact Hd). assert (La : length (a ++ [60%N]) = S (length a)) by (rewrite app_length; cbn; lia). rewrite <- La.
  rewrite !(scan_here _ ch (a ++ [60%N]) b Hd') by lia.
  rewrite (zero_or re_scan_autolink_uri) by (intros X; apply uri_mistaken in X; contradiction). rewrite (zero_or re_scan_autolink_email) by (intros X; apply email_ahead in X; contradiction). change (0 <? 0) with false. cbv iota.
  destruct (lone_html E ch (set_pos st (length (a ++ [60%N]))) (a ++ [60%N]) b Hs H0 Hd' Hgt Ha Hm) as (((x & y) & z) & -> & H). rewrite Nat.add_0_r. exists x, y, z. split; [reflexivity|right; exact H].
Qed.

(** ** Brackets that begin nothing *)
Lemma raw_closed named k : HtmlSpec.raw named k -> In 62%N k.
Proof. intros [n l t sl _ _ _ _|n t _ _ _|w _ _ _ _|w _|c w _ _|w _]; cbn; repeat (rewrite in_app_iff; cbn); tauto. Qed.
Lemma proper_raw x : HtmlSpec.proper x -> (forall w, x <> HtmlSpec.Text w) -> HtmlSpec.raw (fun _ => True) (HtmlSpec.show x).
Proof.
  assert (W : forall b, HtmlSpec.blanks b -> HtmlSpec.white b) by (intros b F; eapply Forall_impl; [|exact F]; intros c [->| ->]; cbn; tauto).
  destruct x as [w|n l t sl|n t|w|w|n g w|w]; intros H Hx; cbn [HtmlSpec.proper] in H.
  - destruct (Hx w eq_refl).
  - destruct H as (Hn & Hl & Ht). apply HtmlSpec.raw_open; [exact Hn|exact I| |apply W; exact Ht]. eapply Forall_impl; [|exact Hl]. intros a (A1 & A2 & A3 & A4). split; [exact A1|]. split; [apply W; exact A2|]. split; [exact A3|]. destruct (HtmlSpec.a_value a) as [((b1 & b2) & v)|]; [|exact I]. destruct A4 as (B1 & B2 & B3). auto.
  - destruct H as (Hn & Ht). apply HtmlSpec.raw_close; [exact Hn|exact I|apply W; exact Ht].
  - destruct H as (_ & _ & H1 & H2 & H3). apply HtmlSpec.raw_comment; [| |exact H2|exact H3]; intros t ->; apply H1; cbn; auto.
  - destruct H as (_ & H). apply HtmlSpec.raw_instruction. exact H.
  - destruct H as (H1 & H2 & _ & H3 & _ & _ & H4). destruct n as [|c n]; [contradiction|]. inversion H2 as [|? ? Hc Hn]; subst. cbn [HtmlSpec.show]. replace (lit "<!" ++ (c :: n) ++ g ++ w ++ lit ">") with (lit "<!" ++ c :: (n ++ g ++ w) ++ lit ">") by (cbn; rewrite <- !app_assoc; reflexivity).
    apply HtmlSpec.raw_declaration; [exact Hc|]. unfold HtmlSpec.blanks in H3. rewrite Forall_forall in H3, Hn. rewrite !in_app_iff. intros [X|[X|X]]; [apply Hn in X; lia|apply H3 in X; lia|contradiction].
  - destruct H as (_ & _ & H). apply HtmlSpec.raw_section. exact H.
Qed.
(** What can begin with an angle bracket, in one list. *)
Inductive start : str -> Prop :=
| start_raw k : HtmlSpec.raw (fun _ => True) k -> start k
| start_mail u l ls : u <> [] -> Forall mail_char u -> start (show_angle (Mail u (l, ls)))
| start_uri s r : is_letter (hd 0%N s) -> Forall (fun c => is_letter c \/ is_digit c \/ In c (lit "+.-")) s -> start (show_angle (Uri s r))
| start_bare u : start (60%N :: 58%N :: u ++ [62%N])
| start_hollow n l t sl : HtmlSpec.tag_name n -> Forall hollow_attr l -> HtmlSpec.white t -> start (HtmlSpec.show (HtmlSpec.Open n l t sl)).
Lemma starts w : angle_ahead w \/ mistaken w -> exists k rest, 60%N :: w = k ++ rest /\ start k.
Proof.
  intros [(k & rest & E & [H|(x & Hx & ->)])|[(u & rest & -> & _)|(n & l & t & sl & rest & E & H1 & H2 & H3)]].
  - exists k, rest. split; [exact E|constructor; exact H].
  - exists (show_angle x), rest. split; [exact E|]. destruct x as [x|u (l & ls)|s r].
    + destruct Hx as (Hx1 & Hx2). apply start_raw, proper_raw; assumption.
    + destruct Hx as (H1 & H2 & _). apply start_mail; assumption.
    + destruct Hx as (_ & H1 & H2 & _). apply start_uri; assumption.
  - exists (60%N :: 58%N :: u ++ [62%N]), rest. split; [cbn; rewrite <- app_assoc; reflexivity|apply start_bare].
  - eexists. exists rest. split; [exact E|apply start_hollow; assumption].
Qed.
Lemma start_gt k : start k -> In 62%N k.
Proof.
  intros [k' H|u l ls _ _|s r _ _|u|n l t sl _ _ _]; [exact (raw_closed _ _ H)|..]; cbn; repeat (rewrite in_app_iff; cbn); tauto.
Qed.
Lemma start_head k : start k -> exists c r, k = 60%N :: c :: r /\ (is_letter c \/ In c (lit "/!?:") \/ (mail_char c /\ In 64%N r) \/ False).
Proof.
  intros [k' H|u l ls H1 H2|s r H1 H2|u|n l t sl (c & r & -> & Hc & _) _ _].
  - apply raw_head in H as (c & r & -> & [Hc|Hc]); eexists; eexists; (split; [reflexivity|]); [auto|]. right. left. cbn in *. intuition.
  - destruct u as [|c u]; [contradiction|]. inversion H2; subst. cbn [show_angle app]. eexists. eexists. split; [reflexivity|]. right. right. left. split; [assumption|]. apply in_or_app. right. left. reflexivity.
  - destruct s as [|c s]; [exfalso; unfold is_letter in H1; cbn in H1; lia|]. eexists. eexists. split; [reflexivity|auto].
  - eexists. eexists. split; [reflexivity|]. right. left. cbn. auto.
  - eexists. eexists. split; [reflexivity|auto].
Qed.
Lemma clash (P Q : N -> Prop) (n : str) : forall c v m d s, Forall P n -> Forall Q m -> n ++ c :: v = m ++ d :: s -> ~ Q c -> ~ P d -> c = d.
Proof.
  induction n as [|x n IH]; intros c v m d s Hn Hm E Hc Hd; destruct m as [|y m]; cbn in E.
  - injection E as -> _. reflexivity.
  - injection E as <- _. inversion Hm; subst. contradiction.
  - injection E as -> _. inversion Hn; subst. contradiction.
  - injection E as _ E. inversion Hn; inversion Hm; subst. eapply IH; eassumption.
Qed.
Lemma hollow_stop l s : Forall hollow_attr l -> stop s -> stop (concat (map HtmlSpec.show_attr l) ++ s).
Proof.
  intros [|a l' Ha _] Hs; [exact Hs|]. assert (X : HtmlSpec.a_gap a <> [] /\ HtmlSpec.white (HtmlSpec.a_gap a)) by (destruct Ha as [(H1 & H2 & _)|((H1 & H2 & _) & _)]; auto). destruct X as (Hn & Hb). cbn [map concat]. unfold HtmlSpec.show_attr. rewrite <- !app_assoc. destruct (HtmlSpec.a_gap a) as [|c g]; [contradiction|]. inversion Hb as [|? ? Hc _]; subst.
  eexists. eexists. split; [reflexivity|]. cbn in Hc |- *. intuition.
Qed.
Lemma loose_hollow l : Forall HtmlSpec.loose_attr l -> Forall hollow_attr l.
Proof. intros H. eapply Forall_impl; [|exact H]. intros a Ha. left. exact Ha. Qed.
Lemma no_name n c w m s : HtmlSpec.tag_name n -> ~ (is_letter c \/ is_digit c \/ In c ([9; 10; 11; 12; 13; 32]%N ++ lit "-/>:.+")) -> HtmlSpec.tag_name m -> stop s -> n ++ c :: w <> m ++ s.
Proof.
  intros (x & r & -> & _ & Fr) Hc (y & q & -> & _ & Fq) (d & t & -> & Hd) E. injection E as _ E. set (P := fun z => is_letter z \/ is_digit z \/ z = 45%N). assert (c = d) as <-.
  { refine (clash P P r c w q d t Fr Fq E _ _); unfold P; [intros [X|[X|X]]; apply Hc; [auto|auto|subst; right; right; cbn; auto 20]|]. unfold is_letter, is_digit. cbn in Hd. intuition lia. }
  apply Hc. right. right. rewrite in_app_iff. cbn in *. intuition.
Qed.
Lemma broken_alone w : broken w -> ~ angle_ahead w /\ ~ mistaken w.
Proof.
  intros Hb. enough (Hs : forall k rest, 60%N :: w = k ++ rest -> start k -> False) by (split; intros X; [pose proof (starts w (or_introl X)) as (k & rest & E & K)|pose proof (starts w (or_intror X)) as (k & rest & E & K)]; exact (Hs k rest E K)).
  intros k rest E Hk. destruct Hb as [Hb|[(Hb1 & Hb2)|(Hb & Ha)]].
  - apply start_gt in Hk. assert (X : In 62%N (60%N :: w)) by (rewrite E; apply in_or_app; left; exact Hk). destruct X as [X|X]; [discriminate|contradiction].
  - apply start_head in Hk as (c & r & -> & Hc). injection E as ->. cbn [hd] in *. destruct Hc as [Hc|[Hc|[(Hc & Hr)|[]]]]; [tauto|tauto|]. destruct Hb2 as [Hb2|Hb2]; [|contradiction]. apply Hb2. right. apply in_or_app. left. exact Hr.
  - assert (Hu : forall u l ls, k <> show_angle (Mail u (l, ls))).
    { intros u l ls ->. apply Ha. assert (X : In 64%N (60%N :: w)) by (rewrite E; apply in_or_app; left; cbn [show_angle]; right; apply in_or_app; right; left; reflexivity). destruct X as [X|X]; [discriminate|exact X]. }
    assert (K : (exists n l t sl, k = HtmlSpec.show (HtmlSpec.Open n l t sl) /\ HtmlSpec.tag_name n /\ Forall hollow_attr l /\ HtmlSpec.white t) \/ (exists s r, k = show_angle (Uri s r) /\ is_letter (hd 0%N s) /\ Forall (fun c => is_letter c \/ is_digit c \/ In c (lit "+.-")) s) \/ (exists u, k = 60%N :: 58%N :: u) \/
      (exists n t, k = HtmlSpec.show (HtmlSpec.Close n t) /\ HtmlSpec.tag_name n) \/ (exists v, k = HtmlSpec.show (HtmlSpec.Instruction v)) \/ (exists v, k = HtmlSpec.show (HtmlSpec.Comment v)) \/ (exists v, k = HtmlSpec.show (HtmlSpec.Cdata v)) \/ (exists c v, k = lit "<!" ++ c :: v /\ (65 <= c <= 90)%N)).
    { destruct Hk as [k' [n l t sl H1 _ H2 H3|n t H1 _ H2|v _ _ _ _|v _|c v H1 _|v _]|u l ls H1 H2|s r H1 H2|u|n l t sl H1 H2 H3].
      - left. exists n, l, t, sl. auto using loose_hollow.
      - do 3 right. left. eauto.
      - do 5 right. left. eauto.
      - do 4 right. left. eauto.
      - do 7 right. eauto.
      - do 6 right. left. eauto.
      - destruct (Hu u l ls eq_refl).
      - right. left. eauto.
      - right. right. left. eauto.
      - left. exists n, l, t, sl. auto. }
    clear Hk Hu. assert (Lt : forall c : N, is_letter c -> c <> 47%N /\ c <> 63%N /\ c <> 33%N /\ c <> 58%N) by (intros c; unfold is_letter; lia).
    destruct K as [(n & l & t & sl & -> & Hn & Hl & Ht)|[(s & r & -> & Hs1 & Hs2)|[(u & ->)|[(n & t & -> & Hn)|[(v & ->)|[(v & ->)|[(v & ->)|(c & v & -> & Hc)]]]]]]].
    + cbn [HtmlSpec.show app] in E. injection E as E. rewrite <- !app_assoc in E. assert (St : stop (concat (map HtmlSpec.show_attr l) ++ t ++ (if sl then [47%N] else []) ++ [62%N] ++ rest)) by (apply hollow_stop; [exact Hl|]; apply (white_stop (fun _ => True)); [exact Ht|]; exact (fin_stop sl rest)).
      destruct Hb as [(x & -> & _)|[(m & c & x & -> & Hm & Hc)|[(x & -> & _)|[(x & -> & _)|[(x & -> & _)|(x & -> & _)]]]]]; try (destruct Hn as (y & q & -> & Hy & _); injection E as E _; apply Lt in Hy; intuition congruence).
      exact (no_name m c x n _ Hm Hc Hn St E).
    + destruct s as [|y s]; [unfold is_letter in Hs1; cbn in Hs1; lia|]. cbn [show_angle hd app] in *. injection E as E.
      destruct Hb as [(x & -> & _)|[(m & c & x & -> & (z & q & -> & Hz & Fq) & Hc)|[(x & -> & _)|[(x & -> & _)|[(x & -> & _)|(x & -> & _)]]]]]; try (injection E as E _; apply Lt in Hs1; intuition congruence).
      injection E as _ E. rewrite <- app_assoc in E. cbn [app] in E. inversion Hs2 as [|? ? _ Hs3]; subst. assert (c = 58%N) as ->; [|apply Hc; right; right; cbn; auto 20].
      refine (clash _ _ q c x s 58%N _ Fq Hs3 E _ _); [intros [X|[X|X]]; apply Hc; [auto|auto|right; right; rewrite in_app_iff; cbn in *; intuition]|unfold is_letter, is_digit; intuition lia].
    + injection E as E. destruct Hb as [(x & -> & _)|[(m & c & x & -> & (z & q & -> & Hz & Fq) & Hc)|[(x & -> & _)|[(x & -> & _)|[(x & -> & _)|(x & -> & _)]]]]]; try discriminate. injection E as -> _. apply Lt in Hz. intuition congruence.
    + destruct Hn as (y & q & -> & Hy & _). cbn [HtmlSpec.show app] in E. injection E as E. destruct Hb as [(x & -> & Hx)|[(m & c & x & -> & (z & q' & -> & Hz & Fq) & Hc)|[(x & -> & _)|[(x & -> & _)|[(x & -> & _)|(x & -> & _)]]]]]; try discriminate.
      * injection E as ->. exact (Hx Hy).
      * injection E as -> _. apply Lt in Hz. intuition congruence.
    + cbn in E. injection E as E. destruct Hb as [(x & -> & Hx)|[(m & c & x & -> & (z & q' & -> & Hz & Fq) & Hc)|[(x & -> & Hx)|[(x & -> & _)|[(x & -> & _)|(x & -> & _)]]]]]; try discriminate.
      * injection E as -> _. apply Lt in Hz. intuition congruence.
      * injection E as ->. apply (Hx v rest). rewrite <- app_assoc. reflexivity.
    + cbn in E. injection E as E. destruct Hb as [(x & -> & Hx)|[(m & c & x & -> & (z & q' & -> & Hz & Fq) & Hc)|[(x & -> & Hx)|[(x & -> & Hx1 & Hx2)|[(x & -> & Hx)|(x & -> & _)]]]]]; try discriminate.
      * injection E as -> _. apply Lt in Hz. intuition congruence.
      * injection E as ->. apply Hx2. cbn. auto.
      * injection E as ->. destruct Hx as [Hx|Hx]; [apply Hx; reflexivity|]. apply (Hx (lit "!--" ++ v) rest). cbn. rewrite <- app_assoc. reflexivity.
    + cbn in E. injection E as E. destruct Hb as [(x & -> & Hx)|[(m & c & x & -> & (z & q' & -> & Hz & Fq) & Hc)|[(x & -> & Hx)|[(x & -> & Hx1 & Hx2)|[(x & -> & Hx)|(x & -> & Hx)]]]]]; try discriminate.
      * injection E as -> _. apply Lt in Hz. intuition congruence.
      * injection E as ->. apply Hx2. cbn. auto.
      * injection E as ->. destruct Hx as [Hx|Hx]; [apply (Hx ((v ++ lit "]]>") ++ rest)); reflexivity|]. apply (Hx (lit "CDATA[" ++ v) rest). cbn. rewrite <- app_assoc. reflexivity.
    + cbn in E. injection E as E. destruct Hb as [(x & -> & Hx)|[(m & d & x & -> & (z & q' & -> & Hz & Fq) & _)|[(x & -> & Hx)|[(x & -> & Hx1 & Hx2)|[(x & -> & Hx)|(x & -> & Hx)]]]]]; try discriminate.
      * injection E as -> _. apply Lt in Hz. intuition congruence.
      * injection E as ->. apply Hx1. unfold is_letter. cbn. lia.
      * injection E as <- _. lia.
      * injection E as <- _. lia.
Qed.

(** A tag name, white space and a character that begins no attribute. *)
Lemma same_prefix (P : N -> Prop) (u : str) : forall v x y s t, Forall P u -> Forall P v -> u ++ x :: s = v ++ y :: t -> ~ P x -> ~ P y -> u = v /\ x = y /\ s = t.
Proof.
  induction u as [|a u IH]; intros v x y s t Hu Hv E Hx Hy; destruct v as [|b v]; cbn in E.
  - injection E as -> ->. auto.
  - injection E as <- _. inversion Hv; subst. contradiction.
  - injection E as -> _. inversion Hu; subst. contradiction.
  - injection E as -> E. inversion Hu; inversion Hv; subst. destruct (IH v x y s t) as (-> & -> & ->); auto.
Qed.
Lemma no_attribute n b d v : HtmlSpec.tag_name n -> b <> [] -> HtmlSpec.white b -> ~ (is_letter d \/ In d (lit "_:/>") \/ In d [9; 10; 11; 12; 13; 32]%N) ->
  ~ angle_ahead (n ++ b ++ d :: v) /\ ~ mistaken (n ++ b ++ d :: v).
Proof.
  intros Hn Hb Wb Hd. enough (Hs : forall k rest, 60%N :: n ++ b ++ d :: v = k ++ rest -> start k -> False) by (split; intros X; [pose proof (starts _ (or_introl X)) as (k & rest & E & K)|pose proof (starts _ (or_intror X)) as (k & rest & E & K)]; exact (Hs k rest E K)).
  destruct b as [|e b]; [contradiction|]. inversion Wb as [|? ? We Wb']; subst. set (P := fun z => is_letter z \/ is_digit z \/ z = 45%N). set (W := fun c : N => In c [9; 10; 11; 12; 13; 32]%N).
  assert (Pe : ~ P e) by (unfold P, is_letter, is_digit; cbn in We; intuition lia). destruct Hn as (x & r & -> & Hx & Fr).
  assert (Tag : forall m l t sl rest, HtmlSpec.tag_name m -> Forall hollow_attr l -> HtmlSpec.white t -> 60%N :: (x :: r) ++ (e :: b) ++ d :: v = HtmlSpec.show (HtmlSpec.Open m l t sl) ++ rest -> False).
  { intros m l t sl rest (y & q & -> & Hy & Fq) Hl Ht E. cbn [HtmlSpec.show app] in E. injection E as _ E. rewrite <- !app_assoc in E.
    assert (St : stop (concat (map HtmlSpec.show_attr l) ++ t ++ (if sl then [47%N] else []) ++ [62%N] ++ rest)) by (apply hollow_stop; [exact Hl|]; apply (white_stop (fun _ => True)); [exact Ht|]; exact (fin_stop sl rest)).
    destruct St as (f & s & Es & Hf). pose proof E as E1. rewrite Es in E1. destruct (same_prefix P r q e f (b ++ d :: v) s Fr Fq E1 Pe) as (-> & _ & _); [unfold P, is_letter, is_digit; cbn in Hf; intuition lia|]. apply app_inv_head in E.
    assert (Wd : ~ W d) by (unfold W; tauto). change (e :: b ++ d :: v) with ((e :: b) ++ d :: v) in E. destruct Hl as [|a l Ha Hl].
    - cbn [map concat] in E. destruct sl; [destruct (same_prefix W (e :: b) t d 47%N v (62%N :: rest) Wb Ht E Wd) as (_ & -> & _)|destruct (same_prefix W (e :: b) t d 62%N v rest Wb Ht E Wd) as (_ & -> & _)]; try (clear; unfold W; cbn; lia); apply Hd; right; left; cbn; auto.
    - assert (X : exists g c u z, HtmlSpec.show_attr a = g ++ (c :: u) ++ z /\ HtmlSpec.white g /\ (is_letter c \/ In c (lit "_:"))).
      { assert (Y : HtmlSpec.white (HtmlSpec.a_gap a) /\ HtmlSpec.attr_name (HtmlSpec.a_name a)) by (destruct Ha as [(H1 & H2 & H3 & _)|((H1 & H2 & H3 & _) & _)]; auto). destruct Y as (Y1 & (c & u & Y2 & Y3 & _)). unfold HtmlSpec.show_attr. rewrite Y2. eexists. exists c, u. eexists. split; [reflexivity|auto]. }
      destruct X as (g & c & u & z & Ea & Hg & Hc). cbn [map concat] in E. rewrite Ea, <- !app_assoc in E. rewrite <- app_comm_cons in E. destruct (same_prefix W (e :: b) g d c v _ Wb Hg E Wd) as (_ & -> & _); [clear -Hc; unfold W, is_letter in *; cbn in *; lia|].
      apply Hd. destruct Hc as [Hc|Hc]; [left; exact Hc|right; left; cbn in *; intuition]. }
  intros k rest E Hk. revert E. destruct Hk as [k' H|u l ls H1 H2|s q H1 H2|u|m l t sl H1 H2 H3]; intros E.
  - revert E. destruct H as [m l t sl H1 _ H2 H3|m t _ _ _|u _ _ _ _|u _|c u _ _|u _]; intros E; [exact (Tag m l t sl rest H1 (loose_hollow _ H2) H3 E)|..]; cbn in E; injection E as E _; unfold is_letter in Hx; lia.
  - cbn [show_angle] in E. rewrite <- !app_comm_cons in E. injection E as E. rewrite <- !app_assoc in E. cbn [app] in E. assert (e = 64%N) as ->; [|cbn in We; intuition discriminate].
    refine (clash P mail_char (x :: r) e _ u 64%N _ _ H2 E _ _); [constructor; [left; exact Hx|exact Fr]|clear -We; unfold mail_char, is_letter, is_digit; cbn; cbn in We; lia|clear; unfold P, is_letter, is_digit; lia].
  - cbn [show_angle] in E. rewrite <- !app_comm_cons in E. injection E as E. rewrite <- !app_assoc in E. cbn [app] in E. assert (e = 58%N) as ->; [|cbn in We; intuition discriminate].
    refine (clash P _ (x :: r) e _ s 58%N _ _ H2 E _ _); [constructor; [left; exact Hx|exact Fr]|clear -We; unfold is_letter, is_digit; cbn; cbn in We; lia|clear; unfold P, is_letter, is_digit; lia].
  - injection E as E _. unfold is_letter in Hx. lia.
  - exact (Tag m l t sl rest H1 H2 H3 E).
Qed.
(** No scheme. *)
Lemma no_scheme w : ~ angle_ahead (58%N :: w).
Proof.
  intros (k & rest & E & [H|(x & Hx & ->)]).
  - apply raw_head in H as (c & r & -> & H). injection E as <- _. unfold is_letter in H. cbn in H. clear -H. lia.
  - destruct x as [x|u (l & ls)|s r].
    + destruct Hx as (H1 & H2). apply proper_raw in H1; [|exact H2]. cbn [show_angle] in E. apply raw_head in H1 as (c & r & H1 & H). rewrite H1 in E. injection E as <- _. unfold is_letter in H. cbn in H. clear -H. lia.
    + destruct Hx as (H1 & H2 & _). destruct u as [|c u]; [contradiction|]. injection E as <- _. inversion H2 as [|? ? H _]; subst. unfold mail_char, is_letter, is_digit in H. cbn in H. clear -H. lia.
    + destruct Hx as (_ & H1 & _). destruct s as [|c s]; [unfold is_letter in H1; cbn in H1; lia|]. injection E as <- _. unfold is_letter in H1. cbn in H1. lia.
Qed.
