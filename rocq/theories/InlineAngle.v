(** Angle brackets in the inline scanner: tags, comments, e-mail addresses and brackets that begin nothing. *)
From Coq Require Import String List NArith ZArith Bool Arith Lia.
From Verif Require Import Str StrFacts Spec EnvSpec Regex RegexSpec RegexProof HtmlRe Fence Atx Entity Inlines HelperSpec EntityProof EmphSpec DelimSpec LinkSpec HtmlProof AtxProof InlineProof InlineHtml InlineRun InlineOpaque InlineEmph InlineRead InlineTarget InlineSection.
From Verif Require HtmlSpec.
Import ListNotations.
Local Open Scope list_scope.

(** An angle bracket that begins nothing: none closes it; or the next character cannot stand after it; or
    what it begins breaks off: an end tag without a name, a tag with a wrong character after its name, or a
    comment, an instruction or a section without its end. *)
Definition breaks_off (after : str) : Prop :=
  (exists w, after = 47%N :: w /\ ~ is_letter (hd 32%N w))
  \/ (exists n c w, after = n ++ c :: w /\ HtmlSpec.tag_name n /\ ~ (is_letter c \/ is_digit c \/ In c ([9; 10; 11; 12; 13; 32]%N ++ lit "-/>:.+")))
  \/ (exists w, after = 63%N :: w /\ HtmlSpec.without (lit "?>") w)
  \/ (exists w, after = 33%N :: w /\ ~ is_letter (hd 32%N w) /\ ~ In (hd 32%N w) (lit "-["))
  \/ (exists w, after = lit "!-" ++ w /\ (hd 32%N w <> 45%N \/ HtmlSpec.without (lit "-->") after))
  \/ (exists w, after = lit "![" ++ w /\ ((forall v, w <> lit "CDATA[" ++ v) \/ HtmlSpec.without (lit "]]>") w)).
Definition broken (after : str) : Prop :=
  ~ In 62%N after \/
  (~ (is_letter (hd 32%N after) \/ In (hd 32%N after) (lit "/!?:")) /\ (~ In 64%N after \/ ~ mail_char (hd 32%N after))) \/
  (breaks_off after /\ ~ In 64%N after).
(** ** No match *)
Lemma no_match r s : (forall pv s', ~ M r None s pv s') -> matchlen r s = 0.
Proof. intros H. unfold matchlen. rewrite rmatch_none by exact H. reflexivity. Qed.
Lemma match_is r s t : rmatch r None s (fun _ u => Some u) = Some t -> matchlen r s = length s - length t.
Proof. intros H. unfold matchlen. rewrite H. reflexivity. Qed.
Lemma no_uri c s : c <> 58%N -> matchlen re_scan_autolink_uri (c :: s) = 0.
Proof. intros H. apply no_match. intros pv s' Hm. apply M_seqs_cons in Hm as (pv1 & s1 & A & _). apply M_chr in A as (A & _). injection A as -> _. contradiction. Qed.
Definition mailb (c : N) : bool := (ascii_alnum c || cin c (lit ".!#$%&'*+/=?^_`{|}~-"))%bool.
Lemma mailb_iff c : mailb c = true <-> mail_char c.
Proof. unfold mailb, mail_char. rewrite orb_true_iff, alnum_iff, cin_In. tauto. Qed.
(** A match of the pattern for e-mail addresses: mail characters, '@', and a last character before '>' that is a
    letter or a digit. *)
Lemma label_last pv s pv' s' : M re_email_label pv s pv' s' -> exists v c, s = v ++ c :: s' /\ ascii_alnum c = true /\ ~ In 62%N (v ++ [c]) /\ ~ In 64%N (v ++ [c]).
Proof.
  assert (Al : forall c, ascii_alnum c = true -> c <> 62%N /\ c <> 64%N) by (intros c Hc; apply alnum_iff in Hc; unfold is_letter, is_digit in Hc; lia).
  intros (pv1 & s1 & (x & -> & Hx & ->) & H). destruct (Al _ Hx) as (Hx1 & Hx2). destruct H as [(pv2 & s2 & Hu & (y & -> & Hy & ->))|(-> & ->)].
  - assert (G : forall n pv s pv' s', M (RUpTo n (RSet (fun c => ascii_alnum c || N.eqb c 45)%bool)) pv s pv' s' -> exists v, s = v ++ s' /\ ~ In 62%N v /\ ~ In 64%N v).
    { clear - Al. induction n as [|n IH]; intros pv s pv' s' H; cbn [RUpTo M] in H; [destruct H as (_ & ->); exists []; auto|]. destruct H as [(pv1 & s1 & (x & -> & Hx & _) & H)|(_ & ->)]; [|exists []; auto].
      apply IH in H as (v & -> & H1 & H2). exists (x :: v). split; [reflexivity|]. apply orb_true_iff in Hx. assert (x <> 62%N /\ x <> 64%N) by (destruct Hx as [Hx|Hx]; [apply Al; exact Hx|apply N.eqb_eq in Hx; subst x; split; discriminate]). cbn. intuition. }
    apply G in Hu as (v & -> & H1 & H2). destruct (Al _ Hy) as (Hy1 & Hy2). exists (x :: v), y. split; [reflexivity|]. split; [exact Hy|]. cbn [app In]. rewrite !in_app_iff. cbn. intuition.
  - exists [], x. split; [reflexivity|]. split; [exact Hx|]. cbn. intuition.
Qed.
Lemma email_shape pv s pv' s' : M re_scan_autolink_email pv s pv' s' -> exists u v c, s = u ++ 64%N :: v ++ c :: 62%N :: s' /\ u <> [] /\ Forall mail_char u /\ ascii_alnum c = true /\ ~ In 62%N (v ++ [c]).
Proof.
  intros H. apply M_seqs_cons in H as (pv1 & s1 & A & H). apply M_seqs_cons in H as (pv2 & s2 & B & H). apply M_seqs_cons in H as (pv3 & s3 & C & H). apply M_seqs_cons in H as (pv4 & s4 & D & H). apply M_seqs_cons in H as (pv5 & s5 & F & H). apply M_seqs_nil in H as (-> & ->).
  destruct A as (pv0 & s0 & (x & -> & Hx & ->) & A). apply star_set in A as (u & -> & Fu & _). apply M_chr in B as (-> & _). apply M_chr in F as (-> & _). apply label_last in C as (v & c & -> & Hc & Hv & _).
  assert (G : forall pv v c s pv' s', ascii_alnum c = true -> ~ In 62%N (v ++ [c]) -> star (M (RSeq (RChr 46) re_email_label)) pv s pv' s' -> exists v' c', v ++ c :: s = v' ++ c' :: s' /\ ascii_alnum c' = true /\ ~ In 62%N (v' ++ [c'])).
  { clear. intros pv v c s pv' s' Hc Hv H. revert v c Hc Hv. induction H as [pv s|pv s pv1 s1 pv2 s2 (pv0 & s0 & A & B) H IH]; intros v c Hc Hv; [exists v, c; auto|]. apply M_chr in A as (-> & _). apply label_last in B as (w & d & -> & Hd & Hw & _).
    destruct (IH (v ++ c :: 46%N :: w) d Hd) as (v' & c' & Ev & Hc' & Hv').
    - rewrite <- app_assoc. cbn [app]. intros X. apply in_app_or in X as [X|X]; [apply Hv; apply in_or_app; left; exact X|]. destruct X as [X|[X|X]]; [apply Hv; apply in_or_app; right; left; exact X|discriminate|contradiction].
    - exists v', c'. split; [|auto]. rewrite <- Ev, <- app_assoc. reflexivity. }
  destruct (G _ v c _ _ _ Hc Hv D) as (v' & c' & Ev & Hc' & Hv'). exists (x :: u), v', c'. split; [cbn [app]; rewrite Ev; reflexivity|]. split; [discriminate|]. split; [|auto].
  constructor; [apply mailb_iff; exact Hx|]. eapply Forall_impl; [|exact Fu]. intros y Hy. apply mailb_iff. exact Hy.
Qed.
Lemma no_email k y t : ~ In 64%N k -> ~ mail_char y -> y <> 64%N -> matchlen re_scan_autolink_email (k ++ y :: t) = 0.
Proof.
  intros Hk Hy1 Hy2. apply no_match. intros pv s' H. apply email_shape in H as (u & v & c & Eq & _ & Hu & _). revert k Hk Eq. induction Hu as [|x u Hx Hu IH]; intros [|z k] Hk Eq; cbn in Eq.
  - injection Eq as -> _. contradiction.
  - injection Eq as -> _. apply Hk. left. reflexivity.
  - injection Eq as -> _. contradiction.
  - injection Eq as -> Eq. apply (IH k); [intros X; apply Hk; right; exact X|exact Eq].
Qed.
Lemma no_email_first y t : ~ mail_char y -> matchlen re_scan_autolink_email (y :: t) = 0.
Proof.
  intros Hy. apply no_match. intros pv s' H. apply email_shape in H as (u & v & c & Eq & Hn & Hu & _). destruct Hu as [|x u Hx Hu]; [contradiction|]. cbn in Eq. injection Eq as -> _. contradiction.
Qed.

(** ** Tags *)
Lemma quietly_scan_attr : quietly re_scan_attribute.
Proof.
  apply quietly_seqs. repeat apply Forall_cons; [apply quietly_seq; [|apply quietly_star]; apply quietly_ws|apply quietly_attrname|apply quietly_star, quietly_ws|apply quietly_chr; discriminate|apply quietly_star, quietly_ws|apply quietly_alt; [apply quietly_value|apply quietly_eps]|apply Forall_nil].
Qed.
Lemma scan_attr_make a pv t : HtmlSpec.good_attr a -> HtmlSpec.a_value a <> None -> exists pv', M re_scan_attribute pv (HtmlSpec.show_attr a ++ t) pv' t.
Proof.
  intros (Hn & Hg & (c & r & En & Hc & Hr) & Hv) Hval. unfold HtmlSpec.show_attr. destruct (HtmlSpec.a_value a) as [((b1 & b2) & v)|]; [|contradiction]. destruct Hv as (V1 & V2 & V3).
  replace ((HtmlSpec.a_gap a ++ HtmlSpec.a_name a ++ b1 ++ 61%N :: b2 ++ HtmlSpec.show_value v) ++ t) with (HtmlSpec.a_gap a ++ HtmlSpec.a_name a ++ b1 ++ 61%N :: b2 ++ HtmlSpec.show_value v ++ t) by (rewrite <- !app_assoc; cbn [app]; rewrite <- !app_assoc; reflexivity).
  destruct (oneof_plus_make space6 (HtmlSpec.a_gap a) pv (HtmlSpec.a_name a ++ b1 ++ 61%N :: b2 ++ HtmlSpec.show_value v ++ t) Hn (blanks_ws _ Hg)) as (pv1 & A).
  assert (B : exists pv2, M re_attrname pv1 (HtmlSpec.a_name a ++ b1 ++ 61%N :: b2 ++ HtmlSpec.show_value v ++ t) pv2 (b1 ++ 61%N :: b2 ++ HtmlSpec.show_value v ++ t)).
  { rewrite En. cbn [app]. apply (M_name_make attr_first attr_rest); [apply attr_first_iff; exact Hc|]. eapply Forall_impl; [|exact Hr]. intros x. apply attr_rest_iff. }
  destruct B as (pv2 & B). destruct (oneof_make space6 b1 pv2 (61%N :: b2 ++ HtmlSpec.show_value v ++ t) (blanks_ws _ V1)) as (pv3 & D1). destruct (oneof_make space6 b2 (Some 61%N) (HtmlSpec.show_value v ++ t) (blanks_ws _ V2)) as (pv4 & D2).
  destruct (value_make v pv4 t V3) as (pv5 & D3). exists pv5. apply M_seqs_cons. eexists. eexists. split; [exact A|]. apply M_seqs_cons. eexists. eexists. split; [exact B|]. apply M_seqs_cons. eexists. eexists. split; [exact D1|].
  apply M_seqs_cons. eexists. eexists. split; [apply M_chr; split; reflexivity|]. apply M_seqs_cons. eexists. eexists. split; [exact D2|]. apply M_seqs_cons. eexists. eexists. split; [left; exact D3|split; reflexivity].
Qed.
Lemma scan_attrs_make l : Forall HtmlSpec.good_attr l -> (forall a, In a l -> HtmlSpec.a_value a <> None) -> forall pv t, exists pv', M (RStar re_scan_attribute) pv (concat (map HtmlSpec.show_attr l) ++ t) pv' t.
Proof.
  induction 1 as [|a l Ha H IH]; intros Hv pv t; [exists pv; constructor|]. cbn [map concat]. rewrite <- app_assoc. destruct (scan_attr_make a pv (concat (map HtmlSpec.show_attr l) ++ t) Ha) as (pv1 & A); [apply Hv; left; reflexivity|].
  destruct (IH ltac:(intros x Hx; apply Hv; right; exact Hx) pv1 t) as (pv2 & B). exists pv2. eapply star_more; [exact A|exact B].
Qed.
Lemma M_tagname n pv t : HtmlSpec.tag_name n -> exists pv', M re_tagname pv (n ++ t) pv' t.
Proof.
  intros (c & r & -> & Hc & Hr). cbn [app]. apply (M_name_make tag_first tag_rest); [apply alpha_iff; exact Hc|]. eapply Forall_impl; [|exact Hr]. intros x. apply tag_rest_iff.
Qed.
Lemma scan_open n a b sl t : HtmlSpec.tag_name n -> Forall HtmlSpec.good_attr a -> (forall x, In x a -> HtmlSpec.a_value x <> None) -> HtmlSpec.blanks b ->
  rmatch re_scan_htmltag None (n ++ concat (map HtmlSpec.show_attr a) ++ b ++ fin sl t) (fun _ u => Some u) = Some t.
Proof.
  intros Hn Ha Hv Hb. set (s := n ++ concat (map HtmlSpec.show_attr a) ++ b ++ fin sl t).
  assert (R : rmatch (RSeqs [re_tagname; RStar re_scan_attribute; RStar re_spacechar; ROpt (RChr 47); RChr 62]) None s (fun _ u => Some u) = Some t).
  { unfold s. replace (n ++ concat (map HtmlSpec.show_attr a) ++ b ++ fin sl t) with ((n ++ concat (map HtmlSpec.show_attr a) ++ b ++ (if sl then [47%N] else [])) ++ 62%N :: t) by (unfold fin; rewrite <- !app_assoc; reflexivity).
    apply (quiet_once [re_tagname; RStar re_scan_attribute; RStar re_spacechar; ROpt (RChr 47)]).
    - repeat apply Forall_cons; [apply quietly_tagname|apply quietly_star, quietly_scan_attr|apply quietly_star, quietly_ws|apply quietly_alt; [apply quietly_chr; discriminate|apply quietly_eps]|apply Forall_nil].
    - apply quiet_app; [apply tag_name_quiet, Hn|]. apply quiet_app; [apply attrs_quiet, Ha|]. apply quiet_app; [apply blanks_quiet, Hb|]. destruct sl; [apply quiet_char; try discriminate; constructor|constructor].
    - replace ((n ++ concat (map HtmlSpec.show_attr a) ++ b ++ (if sl then [47%N] else [])) ++ 62%N :: t) with (n ++ concat (map HtmlSpec.show_attr a) ++ b ++ fin sl t) by (unfold fin; rewrite <- !app_assoc; reflexivity).
      destruct (M_tagname n None (concat (map HtmlSpec.show_attr a) ++ b ++ fin sl t) Hn) as (pv1 & A). destruct (scan_attrs_make a Ha Hv pv1 (b ++ fin sl t)) as (pv2 & B). destruct (oneof_make space6 b pv2 (fin sl t) (blanks_ws _ Hb)) as (pv3 & C).
      exists (Some 62%N). apply M_seqs_cons. eexists. eexists. split; [exact A|]. apply M_seqs_cons. eexists. eexists. split; [exact B|]. apply M_seqs_cons. eexists. eexists. split; [exact C|]. apply M_seqs_cons. destruct sl.
      + exists (Some 47%N), (62%N :: t). split; [left; apply M_chr; auto|]. apply M_seqs_cons. exists (Some 62%N), t. split; [apply M_chr; auto|split; reflexivity].
      + exists pv3, (62%N :: t). split; [right; split; reflexivity|]. apply M_seqs_cons. exists (Some 62%N), t. split; [apply M_chr; auto|split; reflexivity]. }
  apply rmatch_only.
  - intros pv' s' [H|H].
    + assert (Q : quietly (RSeqs [re_tagname; RStar re_scan_attribute; RStar re_spacechar; ROpt (RChr 47)])).
      { apply quietly_seqs. repeat apply Forall_cons; [apply quietly_tagname|apply quietly_star, quietly_scan_attr|apply quietly_star, quietly_ws|apply quietly_alt; [apply quietly_chr; discriminate|apply quietly_eps]|apply Forall_nil]. }
      assert (G : exists pv1 s1, M (RSeqs [re_tagname; RStar re_scan_attribute; RStar re_spacechar; ROpt (RChr 47)]) None s pv1 s1 /\ s1 = 62%N :: s').
      { apply M_seqs_cons in H as (p1 & s1 & A & H). apply M_seqs_cons in H as (p2 & s2 & B & H). apply M_seqs_cons in H as (p3 & s3 & C & H). apply M_seqs_cons in H as (p4 & s4 & D & H). apply M_seqs_cons in H as (p5 & s5 & F & H). apply M_seqs_nil in H as (-> & ->). apply M_chr in F as (-> & _).
        exists p4, (62%N :: s5). split; [|reflexivity]. apply M_seqs_cons. eexists. eexists. split; [exact A|]. apply M_seqs_cons. eexists. eexists. split; [exact B|]. apply M_seqs_cons. eexists. eexists. split; [exact C|]. apply M_seqs_cons. eexists. eexists. split; [exact D|split; reflexivity]. }
      destruct G as (pv1 & s1 & G & ->). apply Q in G as (u & Eu & Qu). unfold s in Eu.
      symmetry. refine (quiet_end (n ++ concat (map HtmlSpec.show_attr a) ++ b ++ (if sl then [47%N] else [])) _ u t s' Qu _).
      * apply quiet_app; [apply tag_name_quiet, Hn|]. apply quiet_app; [apply attrs_quiet, Ha|]. apply quiet_app; [apply blanks_quiet, Hb|]. destruct sl; [apply quiet_char; try discriminate; constructor|constructor].
      * rewrite <- Eu. unfold fin. rewrite <- !app_assoc. reflexivity.
    + exfalso. apply M_seqs_cons in H as (p1 & s1 & A & _). apply M_chr in A as (A & _). unfold s in A. destruct Hn as (c & r & -> & Hc & _). cbn in A. injection A as -> _. unfold is_letter in Hc. lia.
  - apply match_split in R as (pv' & R). exists pv'. left. exact R.
Qed.
Lemma scan_close n b t : HtmlSpec.tag_name n -> HtmlSpec.blanks b -> rmatch re_scan_htmltag None (47%N :: n ++ b ++ 62%N :: t) (fun _ u => Some u) = Some t.
Proof.
  intros Hn Hb. assert (Q : quietly (RSeqs [RChr 47; re_tagname; RStar re_spacechar])) by (apply quietly_seqs; repeat apply Forall_cons; [apply quietly_chr; discriminate|apply quietly_tagname|apply quietly_star, quietly_ws|apply Forall_nil]).
  apply rmatch_only.
  - intros pv' s' [H|H].
    + exfalso. apply M_seqs_cons in H as (p1 & s1 & A & _). apply M_name in A as (c & u & A & Hc & _). injection A as <- _. apply alpha_iff in Hc. unfold is_letter in Hc. lia.
    + assert (G : exists pv1, M (RSeqs [RChr 47; re_tagname; RStar re_spacechar]) None (47%N :: n ++ b ++ 62%N :: t) pv1 (62%N :: s')).
      { apply M_seqs_cons in H as (p1 & s1 & A & H). apply M_seqs_cons in H as (p2 & s2 & B & H). apply M_seqs_cons in H as (p3 & s3 & C & H). apply M_seqs_cons in H as (p4 & s4 & D & H). apply M_seqs_nil in H as (-> & ->). apply M_chr in D as (-> & _).
        exists p3. apply M_seqs_cons. eexists. eexists. split; [exact A|]. apply M_seqs_cons. eexists. eexists. split; [exact B|]. apply M_seqs_cons. eexists. eexists. split; [exact C|split; reflexivity]. }
      destruct G as (pv1 & G). apply Q in G as (u & Eu & Qu). symmetry. refine (quiet_end (47%N :: n ++ b) _ u t s' Qu _); [|rewrite <- Eu; cbn [app]; rewrite <- app_assoc; reflexivity].
      apply quiet_char; try discriminate. apply quiet_app; [apply tag_name_quiet, Hn|apply blanks_quiet, Hb].
  - destruct (M_tagname n (Some 47%N) (b ++ 62%N :: t) Hn) as (pv1 & A). destruct (oneof_make space6 b pv1 (62%N :: t) (blanks_ws _ Hb)) as (pv2 & B). exists (Some 62%N). right. apply M_seqs_cons. exists (Some 47%N). eexists. split; [apply M_chr; auto|]. apply M_seqs_cons. eexists. eexists. split; [exact A|]. apply M_seqs_cons. eexists. eexists. split; [exact B|].
    apply M_seqs_cons. eexists. eexists. split; [apply M_chr; split; reflexivity|split; reflexivity].
Qed.

(** ** Comments *)
Inductive dashed : str -> Prop :=
| dashed_end : dashed []
| dashed_char c v : c <> 45%N -> dashed v -> dashed (c :: v)
| dashed_pair c v : c <> 45%N -> dashed v -> dashed (45%N :: c :: v).
Lemma dashed_unique u : dashed u -> forall v s t, dashed v -> u ++ lit "--" ++ s = v ++ lit "--" ++ t -> s = t.
Proof.
  induction 1 as [|c u Hc Hu IH|c u Hc Hu IH]; intros v s t Hv Eq; destruct Hv as [|d v Hd Hv|d v Hd Hv]; cbn in Eq.
  - injection Eq as ->. reflexivity.
  - injection Eq as <- _. contradiction.
  - injection Eq as <- _. contradiction.
  - injection Eq as -> _. contradiction.
  - injection Eq as _ Eq. eapply IH; [exact Hv|exact Eq].
  - injection Eq as -> _. contradiction.
  - injection Eq as -> _. contradiction.
  - injection Eq as <- _. contradiction.
  - injection Eq as _ Eq. eapply IH; [exact Hv|exact Eq].
Qed.
Lemma without_dashed w : HtmlSpec.without (lit "--") w -> last w 0%N <> 45%N -> dashed w.
Proof.
  remember (length w) as n eqn:En. assert (L : length w <= n) by lia. clear En. revert w L. induction n as [|n IH]; intros w L Hw Hl; destruct w as [|c w]; cbn [length] in L; [apply dashed_end|lia|apply dashed_end|].
  assert (T : forall v, (exists x, c :: w = x ++ v) -> HtmlSpec.without (lit "--") v) by (intros v (x & Ex) p q ->; apply (Hw (x ++ p) q); rewrite Ex, <- app_assoc; reflexivity).
  destruct (N.eq_dec c 45) as [->|Hc].
  - destruct w as [|d w]; [exfalso; apply Hl; reflexivity|]. destruct (N.eq_dec d 45) as [->|Hd]; [exfalso; apply (Hw [] w); reflexivity|]. apply dashed_pair; [exact Hd|]. cbn [length] in L. apply IH; [lia|apply T; exists [45%N; d]; reflexivity|]. destruct w; [discriminate|exact Hl].
  - apply dashed_char; [exact Hc|]. apply IH; [lia|apply T; exists [c]; reflexivity|]. destruct w; [discriminate|exact Hl].
Qed.
Definition unit_re (l : str) : re := RSeq (ROpt (RChr 45)) (RNotIn l).
Lemma unit_cases l pv s pv' s' : M (unit_re l) pv s pv' s' -> exists c, cin c l = false /\ (s = c :: s' \/ s = 45%N :: c :: s').
Proof.
  intros (pv1 & s1 & [A|(-> & ->)] & (c & -> & Hc & _)); apply negb_true_iff in Hc; exists c; (split; [exact Hc|]).
  - right. apply M_chr in A as (-> & _). reflexivity.
  - left. reflexivity.
Qed.
Lemma not0dash c : cin c (0%N :: lit "-") = false -> c <> 45%N.
Proof. intros H ->. discriminate. Qed.
Lemma units_dashed pv s pv' s' : star (M (unit_re (0%N :: lit "-"))) pv s pv' s' -> exists u, s = u ++ s' /\ dashed u.
Proof.
  induction 1 as [pv s|pv s pv1 s1 pv2 s2 A H (u & -> & D)]; [exists []; split; [reflexivity|constructor]|]. apply unit_cases in A as (c & Hc & [->| ->]).
  - exists (c :: u). split; [reflexivity|]. apply dashed_char; [apply not0dash; exact Hc|exact D].
  - exists (45%N :: c :: u). split; [reflexivity|]. apply dashed_pair; [apply not0dash; exact Hc|exact D].
Qed.
Lemma unit_make l c pv s (b : bool) : ~ In c l -> exists pv', M (unit_re l) pv ((if b then [45%N] else []) ++ c :: s) pv' s.
Proof.
  intros Hc. exists (Some c). assert (K : forall pv, M (RNotIn l) pv (c :: s) (Some c) s) by (intros pv0; exists c; split; [reflexivity|]; split; [apply negb_true_iff; destruct (cin c l) eqn:X; [apply cin_In in X; contradiction|reflexivity]|reflexivity]).
  destruct b; cbn [app]; [exists (Some 45%N), (c :: s)|exists pv, (c :: s)]; (split; [|apply K]); [left; apply M_chr; auto|right; split; reflexivity].
Qed.
Lemma dashed_units u : dashed u -> ~ In 0%N u -> forall pv s, exists pv', star (M (unit_re (0%N :: lit "-"))) pv (u ++ s) pv' s.
Proof.
  induction 1 as [|c u Hc Hu IH|c u Hc Hu IH]; intros H0 pv s; [exists pv; constructor| |].
  - destruct (unit_make (0%N :: lit "-") c pv (u ++ s) false) as (pv1 & A); [cbn in *; intuition congruence|]. destruct (IH ltac:(cbn in H0; tauto) pv1 s) as (pv2 & B). exists pv2. eapply star_more; [exact A|exact B].
  - destruct (unit_make (0%N :: lit "-") c pv (u ++ s) true) as (pv1 & A); [cbn in *; intuition congruence|]. destruct (IH ltac:(cbn in H0; tauto) pv1 s) as (pv2 & B). exists pv2. eapply star_more; [exact A|exact B].
Qed.
Lemma scan_comment w t : 2 <= length w -> ~ In 0%N w -> ~ In 62%N w -> HtmlSpec.without (lit "--") w -> last w 0%N <> 45%N ->
  rmatch re_scan_htmlcomment None (45%N :: w ++ lit "-->" ++ t) (fun _ u => Some u) = Some t.
Proof.
  intros Hl H0 H62 Hw Hlast. pose proof (without_dashed w Hw Hlast) as D. apply rmatch_only.
  - intros pv' s' [H|H].
    + apply M_lit in H. exfalso. destruct w as [|c [|d w]]; cbn in Hl; try lia. cbn in H. injection H as -> -> _. apply (Hw [] w). reflexivity.
    + apply M_seqs_cons in H as (p1 & s1 & A & H). apply M_seqs_cons in H as (p2 & s2 & B & H). apply M_seqs_cons in H as (p3 & s3 & C & H). apply M_seqs_cons in H as (p4 & s4 & F & H). apply M_seqs_nil in H as (-> & ->). apply M_lit in F. apply M_chr in A as (A & _). injection A as A.
      apply units_dashed in C as (u & -> & Du). apply unit_cases in B as (c & Hc & B). assert (c <> 45%N) by (intros ->; discriminate). subst s3.
      assert (X : exists v, dashed v /\ v ++ lit "--" ++ 62%N :: s4 = w ++ lit "--" ++ 62%N :: t).
      { destruct B as [B|B]; [exists (c :: u)|exists (45%N :: c :: u)]; (split; [constructor; assumption|]); rewrite <- A in B; symmetry; exact B. }
      destruct X as (v & Dv & X). apply (dashed_unique v Dv w _ _ D) in X. injection X as ->. reflexivity.
  - assert (T : forall pv, exists pv', M (RLit (lit "-->")) pv (lit "-->" ++ t) pv' t) by (intros pv; apply lit_make; discriminate).
    assert (G : forall c (b : bool) u, w = (if b then [45%N] else []) ++ c :: u -> c <> 45%N -> dashed u -> exists pv', M re_scan_htmlcomment None (45%N :: w ++ lit "-->" ++ t) pv' t).
    { intros c b u Ew Hc Du. assert (Iw : forall x, In x (c :: u) -> In x w) by (intros x Hx; rewrite Ew; apply in_or_app; right; exact Hx).
      destruct (unit_make (0%N :: lit ">-") c (Some 45%N) (u ++ lit "-->" ++ t) b) as (pv1 & A).
      { cbn. intros [X|[X|[X|[]]]]; subst c; [apply H0|apply H62|apply Hc; reflexivity]; apply Iw; left; reflexivity. }
      destruct (dashed_units u Du ltac:(intros X; apply H0; apply Iw; right; exact X) pv1 (lit "-->" ++ t)) as (pv2 & B). destruct (T pv2) as (pv3 & C). exists pv3. right.
      apply M_seqs_cons. exists (Some 45%N), (w ++ lit "-->" ++ t). split; [apply M_chr; auto|]. apply M_seqs_cons. exists pv1, (u ++ lit "-->" ++ t). split; [rewrite Ew, <- app_assoc; exact A|].
      apply M_seqs_cons. exists pv2, (lit "-->" ++ t). split; [exact B|]. apply M_seqs_cons. exists pv3, t. split; [exact C|split; reflexivity]. }
    destruct D as [|c u Hc Du|c u Hc Du]; [cbn in Hl; lia|apply (G c false u); auto|apply (G c true u); auto].
Qed.

(** ** E-mail addresses *)
Lemma label_make l pv s : domain_label l -> exists pv', M re_email_label pv (l ++ s) pv' s.
Proof.
  intros ((L1 & L2) & Hl & Hf & Hlast). destruct l as [|c l]; [cbn in L1; lia|]. inversion Hl as [|? ? Hc Hl']; subst. cbn in Hf.
  assert (Al : forall x, is_letter x \/ is_digit x \/ x = 45%N -> x <> 45%N -> ascii_alnum x = true) by (intros x Hx Hn; apply alnum_iff; tauto).
  assert (A : M (RSet ascii_alnum) pv (c :: l ++ s) (Some c) (l ++ s)) by (exists c; split; [reflexivity|]; split; [apply Al; assumption|reflexivity]).
  destruct l as [|d l] using rev_ind; [exists (Some c), (Some c), s; split; [exact A|right; split; reflexivity]|]. clear IHl.
  assert (Ld : d <> 45%N) by (change (c :: l ++ [d]) with ((c :: l) ++ [d]) in Hlast; rewrite last_last in Hlast; exact Hlast). apply Forall_app in Hl' as (F1 & F2). inversion F2 as [|? ? Hd _]; subst.
  assert (U : forall n l pv s, length l <= n -> Forall (fun x => is_letter x \/ is_digit x \/ x = 45%N) l -> exists pv', M (RUpTo n (RSet (fun c => ascii_alnum c || N.eqb c 45)%bool)) pv (l ++ s) pv' s).
  { clear. induction n as [|n IH]; intros l pv s Hn Hl; destruct l as [|x l]; cbn [length] in Hn; try lia.
    - exists pv. split; reflexivity.
    - exists pv. right. split; reflexivity.
    - inversion Hl; subst. destruct (IH l (Some x) s) as (pv' & H); [lia|assumption|]. exists pv'. left. exists (Some x), (l ++ s). split; [|exact H]. exists x. split; [reflexivity|]. split; [|reflexivity]. apply orb_true_iff. rewrite alnum_iff, N.eqb_eq. tauto. }
  cbn [length] in L2. rewrite app_length in L2. cbn in L2. destruct (U 61 l (Some c) (d :: s)) as (pv1 & B); [lia|exact F1|]. exists (Some d), (Some c), ((l ++ [d]) ++ s). split; [exact A|]. left. exists pv1, (d :: s). rewrite <- app_assoc. split; [exact B|].
  exists d. split; [reflexivity|]. split; [apply Al; assumption|reflexivity].
Qed.
Lemma scan_mail u l ls t : u <> [] -> Forall mail_char u -> Forall domain_label (l :: ls) ->
  rmatch re_scan_autolink_email None (u ++ 64%N :: l ++ flat_map (fun l => 46%N :: l) ls ++ 62%N :: t) (fun _ x => Some x) = Some t.
Proof.
  intros Hu Fu Fl. apply rmatch_only.
  - intros pv' s' H. apply email_shape in H as (u' & v & c & Eq & _ & Fu' & _ & Hv).
    assert (Nm : forall x, Forall mail_char x -> ~ In 62%N x) by (intros x Fx Hx; rewrite Forall_forall in Fx; apply Fx in Hx; destruct Hx as [Hx|[Hx|Hx]]; [unfold is_letter in Hx; lia|unfold is_digit in Hx; lia|cbn in Hx; intuition discriminate]).
    assert (Nl : forall l, domain_label l -> ~ In 62%N l) by (intros x (_ & Fx & _) Hx; rewrite Forall_forall in Fx; apply Fx in Hx; unfold is_letter, is_digit in Hx; lia).
    symmetry. refine (proj2 (split_here 62%N (u ++ 64%N :: l ++ flat_map (fun l => 46%N :: l) ls) t (u' ++ 64%N :: v ++ [c]) s' _ _ _)).
    + intros X. apply in_app_or in X as [X|[X|X]]; [apply (Nm u Fu X)|discriminate|]. inversion Fl as [|? ? F1 F2]; subst. apply in_app_or in X as [X|X]; [apply (Nl l F1 X)|]. apply in_flat_map in X as (y & Hy & [X|X]); [discriminate|]. rewrite Forall_forall in F2. apply (Nl y (F2 y Hy) X).
    + intros X. apply in_app_or in X as [X|[X|X]]; [apply (Nm u' Fu' X)|discriminate|contradiction].
    + rewrite <- !app_assoc. cbn [app]. rewrite <- !app_assoc. cbn [app]. exact Eq.
  - inversion Fl as [|? ? F1 F2]; subst.
    assert (A : exists pv1, M (RPlus (RSet (fun c => ascii_alnum c || cin c (lit ".!#$%&'*+/=?^_`{|}~-"))%bool)) None (u ++ 64%N :: l ++ flat_map (fun l => 46%N :: l) ls ++ 62%N :: t) pv1 (64%N :: l ++ flat_map (fun l => 46%N :: l) ls ++ 62%N :: t)).
    { destruct u as [|c u]; [contradiction|]. inversion Fu as [|? ? Hc Fu']; subst. eexists. exists (Some c). eexists. split; [exists c; split; [reflexivity|]; split; [apply mailb_iff; exact Hc|reflexivity]|]. apply (star_set mailb). exists u. split; [reflexivity|]. split; [|reflexivity]. eapply Forall_impl; [|exact Fu']. intros x. apply mailb_iff. }
    destruct A as (pv1 & A). destruct (label_make l (Some 64%N) (flat_map (fun l => 46%N :: l) ls ++ 62%N :: t) F1) as (pv2 & B).
    assert (C : forall ls pv s, Forall domain_label ls -> exists pv', star (M (RSeq (RChr 46) re_email_label)) pv (flat_map (fun l => 46%N :: l) ls ++ s) pv' s).
    { clear. induction ls as [|l ls IH]; intros pv s F; [exists pv; constructor|]. inversion F; subst. cbn [flat_map]. rewrite <- app_assoc. destruct (label_make l (Some 46%N) (flat_map (fun l => 46%N :: l) ls ++ s)) as (pv1 & A); [assumption|]. destruct (IH pv1 s) as (pv2 & B); [assumption|].
      exists pv2. eapply star_more; [|exact B]. exists (Some 46%N). eexists. split; [apply M_chr; split; reflexivity|exact A]. }
    destruct (C ls pv2 (62%N :: t) F2) as (pv3 & D). exists (Some 62%N). apply M_seqs_cons. eexists. eexists. split; [exact A|]. apply M_seqs_cons. eexists. eexists. split; [apply M_chr; split; reflexivity|]. apply M_seqs_cons. eexists. eexists. split; [exact B|].
    apply M_seqs_cons. eexists. eexists. split; [exact D|]. apply M_seqs_cons. eexists. eexists. split; [apply M_chr; split; reflexivity|split; reflexivity].
Qed.

(** ** The handler *)
Lemma flags_same st : set_flags st (s_skip_cdata st) (s_skip_decl st) (s_skip_pi st) = st.
Proof. destruct st. reflexivity. Qed.
(** The flags that stop later scans: [told f b] if they are right about what follows. *)
Definition flags (st : subject) : bool * bool * bool := (s_skip_cdata st, s_skip_decl st, s_skip_pi st).
Definition told (f : bool * bool * bool) (b : str) : Prop :=
  (fst (fst f) = true -> HtmlSpec.without (lit "]]>") b) /\ (snd (fst f) = true -> ~ In 62%N b) /\ (snd f = true -> HtmlSpec.without (lit "?>") (tl b)).
Definition steps_to (E : env) (ch : chunk) (st : subject) (q : nat) (b : str) : Prop :=
  exists x y z, handle_pointy_brace E ch st = Ok (set_flags (set_pos st q) x y z) /\ ((x, y, z) = flags st \/ (told (flags st) b -> told (x, y, z) b)).
Lemma tl_part x u b : HtmlSpec.without x (tl (u ++ b)) -> HtmlSpec.without x (tl b).
Proof. destruct u as [|y u]; [auto|]. cbn [app tl]. intros H. apply without_part in H. destruct b as [|z b]; [exact H|exact (without_part [z] b x H)]. Qed.
Lemma told_part f u b : told f (u ++ b) -> told f b.
Proof. intros (A & B & C). split; [intros H; eapply without_part, A, H|]. split; [intros H X; apply (B H); apply in_or_app; right; exact X|intros H; eapply tl_part, C, H]. Qed.
Lemma told_none f b : ~ In 62%N b -> told f b.
Proof.
  intros H. split; [|split; [auto|]]; intros _ u v X; [subst b; apply H; rewrite !in_app_iff; right; left; cbn; auto|]. destruct b as [|y b]; [destruct u; discriminate|]. cbn [tl] in X. subst b. apply H. right. rewrite !in_app_iff. right. left. cbn. auto.
Qed.
Lemma no_comment w : hd 32%N w <> 45%N \/ HtmlSpec.without (lit "-->") w -> matchlen re_scan_htmlcomment w = 0.
Proof.
  intros H. apply no_match. intros pv s' X. assert (A : exists v, w = 45%N :: v /\ ~ HtmlSpec.without (lit "-->") w).
  { destruct X as [X|X].
    - apply M_lit in X. subst w. eexists. split; [reflexivity|]. intros N. apply (N [45%N] s'). reflexivity.
    - apply M_seqs_cons in X as (p1 & s1 & A & X). apply M_seqs_cons in X as (p2 & s2 & B & X). apply M_seqs_cons in X as (p3 & s3 & C & X). apply M_seqs_cons in X as (p4 & s4 & D & X). apply M_seqs_nil in X as (-> & ->).
      apply M_chr in A as (-> & _). exists s1. split; [reflexivity|]. apply M_suffix in B as (u & B). apply (M_suffix (RStar _)) in C as (v & C). apply M_lit in D. subst s1 s2 s3. intros N. apply (N (45%N :: u ++ v) s4). cbn [app]. rewrite <- app_assoc. reflexivity. }
  destruct A as (v & -> & A). destruct H as [H|H]; [apply H; reflexivity|contradiction].
Qed.
Lemma no_declaration w : ~ is_letter (hd 32%N w) -> matchlen re_scan_declaration w = 0.
Proof.
  intros H. apply no_match. intros pv s' X. apply M_seqs_cons in X as (p1 & s1 & (p2 & s2 & (c & -> & Hc & _) & _) & _). apply H. cbn. unfold ascii_upper in Hc. apply in_range_iff in Hc. unfold is_letter. lia.
Qed.
Lemma ends_in s n : ends_gt s n -> In 62%N s.
Proof. intros (_ & H). eapply nth_error_In. exact H. Qed.
Lemma zero_or r s : (0 < matchlen r s -> False) -> matchlen r s = 0.
Proof. lia. Qed.
Lemma html_inline_tag ch st a c d b : c_data ch = a ++ c :: d :: b -> length a + 2 <= c_len ch -> c <> 33%N -> c <> 63%N ->
  html_inline ch st (length a) = (matchlen re_scan_htmltag (c :: d :: b), (s_skip_cdata st, s_skip_decl st, s_skip_pi st)).
Proof.
  intros Hd Hl H1 H2. unfold html_inline. destruct (Nat.leb_spec (length a + 2) (c_len ch)); [|lia]. assert (A : nth_error (c_data ch) (length a) = Some c) by (rewrite Hd, nth_error_app2, Nat.sub_diag by lia; reflexivity).
  assert (B : nth_error (c_data ch) (S (length a)) = Some d) by (rewrite Hd, nth_error_app2 by lia; replace (S (length a) - length a) with 1 by lia; reflexivity).
  rewrite A, B. destruct (N.eqb_spec c 33); [contradiction|]. destruct (N.eqb_spec c 63); [contradiction|]. rewrite (scan_here re_scan_htmltag ch a (c :: d :: b) Hd) by lia. reflexivity.
Qed.
Lemma no_tag c s : ~ is_letter c -> c <> 47%N -> matchlen re_scan_htmltag (c :: s) = 0.
Proof.
  intros H1 H2. apply no_match. intros pv s' [H|H].
  - apply M_seqs_cons in H as (p1 & s1 & A & _). apply M_name in A as (x & u & A & Hx & _). injection A as -> _. apply alpha_iff in Hx. contradiction.
  - apply M_seqs_cons in H as (p1 & s1 & A & _). apply M_chr in A as (A & _). injection A as -> _. contradiction.
Qed.
Lemma no_end_tag w : ~ is_letter (hd 32%N w) -> matchlen re_scan_htmltag (47%N :: w) = 0.
Proof.
  intros H. apply no_match. intros pv s' [X|X].
  - apply M_seqs_cons in X as (p1 & s1 & A & _). apply M_name in A as (x & u & A & Hx & _). injection A as <- _. discriminate.
  - apply M_seqs_cons in X as (p1 & s1 & A & X). apply M_chr in A as (A & _). injection A as <-. apply M_seqs_cons in X as (p2 & s2 & B & _). apply M_name in B as (x & u & -> & Hx & _). apply alpha_iff in Hx. exact (H Hx).
Qed.
Lemma no_broken_tag n c w : HtmlSpec.tag_name n -> ~ (is_letter c \/ is_digit c \/ In c ([9; 10; 11; 12; 13; 32]%N ++ lit "-/>:.+")) -> matchlen re_scan_htmltag (n ++ c :: w) = 0.
Proof.
  intros (x & r & -> & Hx & Fr) Hc. apply no_match. intros pv s' [X|X].
  2: { apply M_seqs_cons in X as (p1 & s1 & A & _). apply M_chr in A as (A & _). injection A as -> _. unfold is_letter in Hx. lia. }
  apply M_seqs_cons in X as (p1 & s1 & A & X). apply M_name in A as (x' & u & A & _ & Fu). injection A as <- A.
  set (P := fun s : str => exists y v, s = y :: v /\ ~ In y ([9; 10; 11; 12; 13; 32]%N ++ lit "/>")).
  assert (Ps : P s1).
  { clear X. revert u Fu A. induction Fr as [|y r Hy Fr IH]; intros u Fu A.
    - destruct u as [|z u]; cbn in A; [|exfalso; injection A as <- _; inversion Fu as [|? ? Hz _]; subst; apply Hc; apply tag_rest_iff in Hz; destruct Hz as [Hz|[Hz|Hz]]; [auto|auto|subst; right; right; cbn; auto 10]].
      subst s1. exists c, w. split; [reflexivity|]. intros X. apply Hc. right. right. rewrite in_app_iff in *. cbn in *. intuition.
    - destruct u as [|z u]; cbn in A; [|injection A as <- A; inversion Fu; subst; apply (IH u); assumption].
      subst s1. exists y, (r ++ c :: w). split; [reflexivity|]. unfold is_letter, is_digit in Hy. intros X. cbn in X. intuition lia. }
  assert (Sp : forall pv s pv' s', P s -> M re_spacechar pv s pv' s' -> False).
  { intros q s q' t (y & v & -> & Hy) (z & Ez & Hz & _). injection Ez as <- _. apply Hy. apply in_or_app. left. clear -Hz. apply cin_In in Hz. cbn in *. intuition. }
  apply M_seqs_cons in X as (p2 & s2 & B & X). assert (P2 : P s2).
  { refine (star_keeps P re_scan_attribute _ _ _ _ _ B Ps). clear -Sp. intros pv s pv' s' Hs Hm. exfalso. apply M_seqs_cons in Hm as (p1 & s1 & (q & t & A & _) & _). exact (Sp _ _ _ _ Hs A). }
  apply M_seqs_cons in X as (p3 & s3 & C & X). assert (P3 : P s3).
  { refine (star_keeps P re_spacechar _ _ _ _ _ C P2). clear -Sp. intros pv s pv' s' Hs Hm. exfalso. exact (Sp _ _ _ _ Hs Hm). }
  destruct P3 as (y & v & -> & Hy). apply M_seqs_cons in X as (p4 & s4 & D & X). destruct D as [D|D].
  - apply M_chr in D as (D & _). injection D as -> _. apply Hy. cbn. auto 10.
  - destruct D as (-> & ->). apply M_seqs_cons in X as (p5 & s5 & F & _). apply M_chr in F as (F & _). injection F as -> _. apply Hy. cbn. auto 10.
Qed.
Lemma broken_html E ch st a b : scanned E ch -> ~ In 0%N (c_data ch) -> c_data ch = a ++ b -> breaks_off b ->
  exists f, html_inline ch st (length a) = (0, f) /\ (told (flags st) b -> told f b).
Proof.
  intros Hs H0 Hd Hb. unfold html_inline. destruct (Nat.leb_spec (length a + 2) (c_len ch)) as [L|L]; [|eexists; split; [reflexivity|auto]].
  pose proof (proj1 Hs) as Hl. assert (Lb : 2 <= length b) by (apply (f_equal (@length N)) in Hd; rewrite app_length in Hd; lia).
  destruct b as [|c [|d b]]; cbn [length] in Lb; [lia..|].
  assert (A : nth_error (c_data ch) (length a) = Some c) by (rewrite Hd, nth_error_app2, Nat.sub_diag by lia; reflexivity).
  assert (B : nth_error (c_data ch) (S (length a)) = Some d) by (rewrite Hd, nth_error_app2 by lia; replace (S (length a) - length a) with 1 by lia; reflexivity).
  assert (Hd1 : c_data ch = (a ++ [c]) ++ d :: b) by (rewrite Hd, <- app_assoc; reflexivity). assert (L1 : length (a ++ [c]) = length a + 1) by (rewrite app_length; reflexivity).
  assert (Hd2 : c_data ch = (a ++ [c; d]) ++ b) by (rewrite Hd, <- app_assoc; reflexivity). assert (L2 : length (a ++ [c; d]) = length a + 2) by (rewrite app_length; reflexivity).
  assert (Ln : length (c_data ch) = length a + 2 + length b) by (rewrite Hd, app_length; cbn [length]; lia).
  assert (Nb : ~ In 0%N b) by (intros X; apply H0; rewrite Hd2; apply in_or_app; right; exact X).
  rewrite A, B. rewrite <- L1, <- L2. rewrite !(scan_here _ ch _ _ Hd2), !(scan_here _ ch _ _ Hd1), !(scan_here _ ch _ _ Hd) by lia. rewrite ?L1, ?L2.
  destruct Hb as [(w & Eb & Hw)|[(n & x & w & Eb & Hn & Hx)|[(w & Eb & Hw)|[(w & Eb & Hw1 & Hw2)|[(w & Eb & Hw)|(w & Eb & Hw)]]]]].
  - injection Eb as -> <-. change (N.eqb 47 33) with false. change (N.eqb 47 63) with false. cbv iota. rewrite no_end_tag by exact Hw. eexists. split; [reflexivity|auto].
  - rewrite Eb, (no_broken_tag n x w Hn Hx). destruct Hn as (y & r & -> & Hy & _). injection Eb as -> _. destruct (N.eqb_spec y 33); [subst y; unfold is_letter in Hy; lia|]. destruct (N.eqb_spec y 63); [subst y; unfold is_letter in Hy; lia|]. eexists. split; [reflexivity|auto].
  - injection Eb as -> <-. change (N.eqb 63 33) with false. change (N.eqb 63 63) with true. cbv iota. destruct (s_skip_pi st) eqn:Fp; [eexists; split; [reflexivity|unfold flags; rewrite Fp; auto]|].
    pose proof (scan_instruction_open (d :: b) ltac:(intros X; apply H0; rewrite Hd1; apply in_or_app; right; exact X) Hw) as K. cbn [length] in K.
    destruct (Nat.ltb_spec (c_len ch) (length a + (matchlen re_scan_pi (d :: b) + 3))); [|lia]. eexists. split; [reflexivity|]. unfold flags. intros (T1 & T2 & _). split; [exact T1|]. split; [exact T2|]. intros _. exact Hw.
  - injection Eb as -> <-. change (N.eqb 33 33) with true. cbv iota. cbn [hd] in Hw1, Hw2. destruct (N.eqb_spec d 45); [subst; exfalso; apply Hw2; cbn; auto|]. destruct (N.eqb_spec d cLB) as [X|_]; [unfold cLB in X; subst d; exfalso; apply Hw2; cbn; auto|].
    rewrite no_declaration by exact Hw1. destruct (s_skip_decl st) eqn:Fd; (eexists; split; [reflexivity|unfold flags; rewrite Fd; auto]).
  - injection Eb as -> -> ->. change (N.eqb 33 33) with true. change (N.eqb 45 45) with true. cbv iota. rewrite no_comment; [eexists; split; [reflexivity|auto]|]. destruct Hw as [Hw|Hw]; [left; exact Hw|right; exact (without_part (lit "!-") w _ Hw)].
  - injection Eb as -> -> ->. change (N.eqb 33 33) with true. change (N.eqb 91 45) with false. change (N.eqb 91 cLB) with true. cbv iota. destruct (s_skip_cdata st) eqn:Fc; [eexists; split; [reflexivity|unfold flags; rewrite Fc; auto]|].
    destruct (matchlen re_scan_cdata w) as [|k] eqn:Ek; [eexists; split; [reflexivity|unfold flags; rewrite Fc; auto]|]. change (0 <? S k) with true. cbv iota.
    assert (Hc : exists v, w = lit "CDATA[" ++ v /\ HtmlSpec.without (lit "]]>") w).
    { destruct Hw as [Hw|Hw]; [rewrite (no_section w Hw) in Ek; discriminate|]. unfold matchlen in Ek. fold ret in Ek. destruct (rmatch re_scan_cdata None w ret) as [rest|] eqn:R; [|discriminate]. apply match_split in R as (pv & pv1 & s1 & X & _). apply M_lit in X. eauto. }
    destruct Hc as (v & -> & Hc). pose proof (scan_section_open v ltac:(intros X; apply Nb; apply in_or_app; right; exact X) (without_part _ _ _ Hc)) as K. rewrite app_length in Ln. change (length (lit "CDATA[")) with 6 in Ln.
    destruct (Nat.ltb_spec (c_len ch) (length a + (S k + 5))); [|lia]. eexists. split; [reflexivity|]. intros (_ & T2 & T3). split; [|split; [exact T2|exact T3]]. intros _ [|y [|z u]] t Ev; [discriminate|discriminate|]. injection Ev as <- <- Ev. exact (Hc u t Ev).
Qed.
Lemma pointy_less E ch st a b : scanned E ch -> zs_ascii E -> ~ In 0%N (c_data ch) -> c_data ch = a ++ 60%N :: b -> broken b -> s_pos st = length a -> steps_to E ch st (S (length a)) b.
Proof.
  intros Hs Hz H0 Hd Hl Hp. unfold steps_to, handle_pointy_brace. cbn [s_pos set_pos]. rewrite Hp.
  pose proof (in_scan E ch a 60%N b Hs Hd ltac:(apply ascii_punct_not_space; [exact Hz|reflexivity])) as L.
  assert (Hd' : c_data ch = (a ++ [60%N]) ++ b) by (rewrite <- app_assoc; exact Hd). assert (La : length (a ++ [60%N]) = S (length a)) by (rewrite app_length; cbn; lia). rewrite <- La.
  rewrite !(scan_here _ ch (a ++ [60%N]) b Hd') by lia.
  assert (U : matchlen re_scan_autolink_uri b = 0).
  { apply zero_or. intros X. destruct Hl as [Hl|[(Hl & _)|(Hl & _)]]; [apply uri_gt in X; apply ends_in in X; contradiction| |].
    - destruct b as [|c b]; [|rewrite no_uri in X; [lia|intros ->; apply Hl; right; cbn; auto]]. apply uri_gt, ends_in in X. destruct X.
    - destruct Hl as [(w & -> & _)|[(n & c & w & -> & (y & r & -> & Hy & _) & _)|[(w & -> & _)|[(w & -> & _)|[(w & -> & _)|(w & -> & _)]]]]]; try change (lit "!-" ++ w) with (33%N :: 45%N :: w) in X; try change (lit "![" ++ w) with (33%N :: 91%N :: w) in X; cbn [app] in X; rewrite no_uri in X by (discriminate || (intros ->; unfold is_letter in Hy; lia)); lia. }
  assert (M : matchlen re_scan_autolink_email b = 0).
  { assert (At : ~ In 64%N b -> matchlen re_scan_autolink_email b = 0) by (intros N; apply no_match; intros pv s' X; apply email_shape in X as (u & v & c & -> & _); apply N; apply in_or_app; right; left; reflexivity).
    destruct Hl as [Hl|[(_ & [Hl|Hl])|(_ & Hl)]]; [|apply At; exact Hl| |apply At; exact Hl].
    - apply zero_or. intros X. apply email_gt, ends_in in X. contradiction.
    - destruct b as [|c b]; [apply zero_or; intros X; apply email_gt, ends_in in X; destruct X|]. apply no_email_first. exact Hl. }
  rewrite U, M. change (0 <? 0) with false. cbv iota.
  assert (H : exists f, html_inline ch (set_pos st (length (a ++ [60%N]))) (length (a ++ [60%N])) = (0, f) /\ (f = flags st \/ (told (flags st) b -> told f b))).
  { destruct Hl as [Hl|[(Hl & _)|(Hl & _)]].
    3: { destruct (broken_html E ch (set_pos st (length (a ++ [60%N]))) (a ++ [60%N]) b Hs H0 Hd' Hl) as (f & A & B). exists f. split; [exact A|right; exact B]. }
    - destruct (html_inline ch (set_pos st (length (a ++ [60%N]))) (length (a ++ [60%N]))) as (n & f) eqn:Eh. exists f. enough (n = 0) as -> by (split; [reflexivity|right; intros _; apply told_none; exact Hl]).
      destruct n as [|n]; [reflexivity|exfalso]. destruct (html_inline_end _ _ _ _ _ Eh H0 (proj1 Hs)) as [X|(X & _)]; [discriminate|]. rewrite Hd' in X. rewrite nth_error_app2 in X by lia. apply nth_error_In in X. contradiction.
    - exists (flags st). split; [|left; reflexivity]. destruct b as [|c [|d b]].
      + unfold html_inline. assert (length (c_data ch) = length (a ++ [60%N])) by (rewrite Hd', app_nil_r; reflexivity). pose proof (proj1 Hs). destruct (Nat.leb_spec (length (a ++ [60%N]) + 2) (c_len ch)); [lia|reflexivity].
      + unfold html_inline. assert (length (c_data ch) = length (a ++ [60%N]) + 1) by (rewrite Hd', app_length; reflexivity). pose proof (proj1 Hs). destruct (Nat.leb_spec (length (a ++ [60%N]) + 2) (c_len ch)); [lia|reflexivity].
      + cbn [hd] in Hl. destruct (Nat.leb_spec (length (a ++ [60%N]) + 2) (c_len ch)) as [L2|L2]; [|unfold html_inline; destruct (Nat.leb_spec (length (a ++ [60%N]) + 2) (c_len ch)); [lia|reflexivity]].
        rewrite (html_inline_tag ch _ (a ++ [60%N]) c d b Hd'); [|exact L2|intros ->; apply Hl; right; cbn; auto..].
        rewrite no_tag; [reflexivity|intros X; apply Hl; left; exact X|intros ->; apply Hl; right; cbn; auto]. }
  destruct H as (((x & y) & z) & -> & H). rewrite Nat.add_0_r. exists x, y, z. split; [reflexivity|exact H].
Qed.
Lemma pointy_tag E ch st a k t : scanned E ch -> zs_ascii E -> c_data ch = a ++ 60%N :: k ++ 62%N :: t -> (is_letter (hd 0%N k) \/ hd 0%N k = 47%N) -> matchlen re_scan_autolink_email (k ++ 62%N :: t) = 0 ->
  rmatch re_scan_htmltag None (k ++ 62%N :: t) (fun _ u => Some u) = Some t -> s_pos st = length a -> exists x y z, handle_pointy_brace E ch st = Ok (set_flags (set_pos st (length a + length (60%N :: k ++ [62%N]))) x y z) /\ (x, y, z) = flags st.
Proof.
  intros Hs Hz Hd Hk Hm Hr Hp. unfold handle_pointy_brace. cbn [s_pos set_pos]. rewrite Hp.
  assert (L : length a + S (length k) < c_len ch).
  { pose proof (in_scan E ch (a ++ 60%N :: k) 62%N t Hs ltac:(rewrite Hd, <- app_assoc; reflexivity) ltac:(apply ascii_punct_not_space; [exact Hz|reflexivity])) as X. rewrite app_length in X. exact X. }
  assert (Hd' : c_data ch = (a ++ [60%N]) ++ k ++ 62%N :: t) by (rewrite <- app_assoc; exact Hd). assert (La : length (a ++ [60%N]) = S (length a)) by (rewrite app_length; cbn; lia). rewrite <- La.
  rewrite !(scan_here _ ch (a ++ [60%N]) _ Hd') by lia. destruct k as [|c k]; [destruct Hk as [X|X]; cbn in X; [unfold is_letter in X; lia|discriminate]|]. cbn [hd] in Hk. cbn [app] in *.
  rewrite no_uri by (destruct Hk as [X|X]; [unfold is_letter in X; lia|subst c; discriminate]). rewrite Hm. change (0 <? 0) with false. cbv iota.
  destruct (k ++ 62%N :: t) as [|d w] eqn:Ek; [destruct k; discriminate|].
  rewrite (html_inline_tag ch _ (a ++ [60%N]) c d w Hd'); [|rewrite La; cbn [length] in L; lia|destruct Hk as [X|X]; [unfold is_letter in X; lia|subst c; discriminate]..]. rewrite (match_is _ _ t Hr). rewrite set_pos_twice. eexists _, _, _. split; [|reflexivity]. f_equal. f_equal. f_equal. apply (f_equal (@length N)) in Ek. rewrite app_length in Ek. rewrite La. cbn [length] in *. rewrite app_length. cbn [length]. lia.
Qed.
Lemma pointy_angle E ch st a x b : scanned E ch -> zs_ascii E -> ~ In 0%N (c_data ch) -> c_data ch = a ++ show_angle x ++ b -> genuine x -> calm E (Raw x) -> told (flags st) (show_angle x ++ b) -> s_pos st = length a ->
  exists f1 f2 f3, handle_pointy_brace E ch st = Ok (set_flags (set_pos st (length a + length (show_angle x))) f1 f2 f3) /\ (f1, f2, f3) = flags st.
Proof.
  intros Hs Hz H0 Hd Hg Hc Hf Hp. destruct x as [[w|n attrs tl sl|n tl|w|w|n g w|w]|u (l & ls)|s r]; try (destruct Hc; fail); try (exfalso; apply (proj2 Hg w); reflexivity); cbn [show_angle HtmlSpec.show] in *.
  - destruct Hg as ((Hn & Ha & Hb) & _). cbn [calm] in Hc. set (k := n ++ concat (map HtmlSpec.show_attr attrs) ++ tl ++ (if sl then [47%N] else [])).
    replace (60%N :: n ++ concat (map HtmlSpec.show_attr attrs) ++ tl ++ (if sl then [47%N] else []) ++ [62%N]) with (60%N :: k ++ [62%N]) in * by (unfold k; rewrite <- !app_assoc; reflexivity).
    apply (pointy_tag E ch st a k b); try assumption.
    + rewrite Hd. cbn [app]. rewrite <- app_assoc. reflexivity.
    + left. unfold k. destruct Hn as (c & r & -> & X & _). exact X.
    + assert (N64 : ~ In 64%N n) by (destruct Hn as (c & r & -> & X & Y); intros [Z|Z]; [subst c; unfold is_letter in X; lia|rewrite Forall_forall in Y; apply Y in Z; unfold is_letter, is_digit in Z; lia]).
      assert (B : forall y, y = 32%N \/ y = 9%N \/ y = 62%N -> ~ mail_char y /\ y <> 64%N) by (intros y [->|[->| ->]]; (split; [|discriminate]); intros [X|[X|X]]; [unfold is_letter in X; lia|unfold is_digit in X; lia|cbn in X; intuition discriminate|unfold is_letter in X; lia|unfold is_digit in X; lia|cbn in X; intuition discriminate|unfold is_letter in X; lia|unfold is_digit in X; lia|cbn in X; intuition discriminate]).
      assert (C : forall v y t, v ++ (62%N :: b) = y :: t -> y = 32%N \/ y = 9%N \/ y = 62%N -> k ++ 62%N :: b = n ++ v ++ 62%N :: b -> matchlen re_scan_autolink_email (k ++ 62%N :: b) = 0).
      { intros v y t Ev Hy ->. rewrite Ev. apply no_email; [exact N64|apply B; exact Hy|apply B; exact Hy]. }
      destruct Ha as [|at1 attrs (G1 & G2 & _) Ha].
      * destruct tl as [|y tl].
        { destruct sl.
          - unfold k. cbn [map concat app]. rewrite <- app_assoc. cbn [app]. change (n ++ 47%N :: 62%N :: b) with (n ++ [47%N] ++ 62%N :: b). rewrite app_assoc. apply no_email; [|apply B; auto|apply B; auto]. intros X. apply in_app_or in X as [X|[X|[]]]; [contradiction|discriminate].
          - apply (C [] 62%N b); [reflexivity|auto|]. unfold k. cbn [map concat app]. rewrite app_nil_r. reflexivity. }
        inversion Hb as [|? ? Hy _]; subst. eapply (C (y :: tl ++ (if sl then [47%N] else [])) y); [reflexivity|tauto|]. unfold k. cbn [map concat app]. rewrite <- !app_assoc. cbn [app]. rewrite <- !app_assoc. reflexivity.
      * destruct at1 as [gap nm vl]. cbn [HtmlSpec.a_gap] in *. destruct gap as [|y gap]; [contradiction|]. inversion G2 as [|? ? Hy _]; subst.
        eapply (C (concat (map HtmlSpec.show_attr (HtmlSpec.Attr (y :: gap) nm vl :: attrs)) ++ tl ++ (if sl then [47%N] else [])) y); [reflexivity|tauto|]. unfold k. rewrite <- !app_assoc. reflexivity.
    + replace (k ++ 62%N :: b) with (n ++ concat (map HtmlSpec.show_attr attrs) ++ tl ++ fin sl b) by (unfold k, fin; rewrite <- !app_assoc; reflexivity). apply scan_open; assumption.
  - destruct Hg as ((Hn & Hb) & _). replace (60%N :: 47%N :: n ++ tl ++ [62%N]) with (60%N :: (47%N :: n ++ tl) ++ [62%N]) in * by (cbn [app]; rewrite <- app_assoc; reflexivity). apply (pointy_tag E ch st a (47%N :: n ++ tl) b); try assumption.
    + rewrite Hd. cbn [app]. rewrite <- app_assoc. reflexivity.
    + right. reflexivity.
    + assert (N64 : ~ In 64%N (47%N :: n)) by (destruct Hn as (c & r & -> & X & Y); intros [Z|[Z|Z]]; [discriminate|subst c; unfold is_letter in X; lia|rewrite Forall_forall in Y; apply Y in Z; unfold is_letter, is_digit in Z; lia]).
      assert (G : exists y t, tl ++ 62%N :: b = y :: t /\ (y = 32%N \/ y = 9%N \/ y = 62%N)) by (destruct Hb as [|y tl Hy _]; eexists _, _; (split; [reflexivity|tauto])). destruct G as (y & t & Et & Hy).
      replace ((47%N :: n ++ tl) ++ 62%N :: b) with ((47%N :: n) ++ y :: t) by (rewrite <- Et; cbn [app]; rewrite <- app_assoc; reflexivity). apply no_email; [exact N64| |destruct Hy as [->|[->| ->]]; discriminate].
      intros [X|[X|X]]; [unfold is_letter in X; lia|unfold is_digit in X; lia|destruct Hy as [->|[->| ->]]; cbn in X; intuition discriminate].
    + cbn [app]. rewrite <- app_assoc. apply scan_close; assumption.
  - destruct Hg as ((Hl & H60 & H62 & Hw & Hlast) & _). unfold handle_pointy_brace. cbn [s_pos set_pos]. rewrite Hp.
    assert (Hd' : c_data ch = (a ++ [60%N]) ++ 33%N :: 45%N :: 45%N :: w ++ lit "-->" ++ b) by (rewrite Hd, <- !app_assoc; reflexivity). assert (La : length (a ++ [60%N]) = S (length a)) by (rewrite app_length; cbn; lia). rewrite <- La.
    assert (L : length (a ++ [60%N]) + 3 + length w + 2 < c_len ch).
    { pose proof (in_scan E ch ((a ++ [60%N]) ++ 33%N :: 45%N :: 45%N :: w ++ lit "--") 62%N b Hs ltac:(rewrite Hd', <- !app_assoc; cbn [app]; rewrite <- !app_assoc; reflexivity) ltac:(apply ascii_punct_not_space; [exact Hz|reflexivity])) as X. rewrite app_length in X. cbn [length] in X. rewrite (app_length w) in X. change (length (lit "--")) with 2 in X. lia. }
    rewrite !(scan_here _ ch (a ++ [60%N]) _ Hd') by lia. rewrite no_uri by discriminate.
    assert (Hm : matchlen re_scan_autolink_email (33%N :: 45%N :: 45%N :: w ++ lit "-->" ++ b) = 0).
    { apply no_match. intros pv s' X. apply email_shape in X as (u & v & c & Eq & _ & Fu & Hc' & Hv).
      assert (Nu : ~ In 62%N u) by (intros X; rewrite Forall_forall in Fu; apply Fu in X; destruct X as [X|[X|X]]; [unfold is_letter in X; lia|unfold is_digit in X; lia|cbn in X; intuition discriminate]).
      destruct (split_here 62%N (33%N :: 45%N :: 45%N :: w ++ lit "--") b (u ++ 64%N :: v ++ [c]) s') as (Ew & _).
      - cbn. intros [X|[X|[X|X]]]; try discriminate. apply in_app_or in X as [X|X]; [contradiction|cbn in X; intuition discriminate].
      - intros X. apply in_app_or in X as [X|[X|X]]; [contradiction|discriminate|contradiction].
      - rewrite <- !app_assoc. cbn [app]. rewrite <- !app_assoc. cbn [app]. exact Eq.
      - apply (f_equal (fun l => last l 0%N)) in Ew. change (33%N :: 45%N :: 45%N :: w ++ lit "--") with ((33%N :: 45%N :: 45%N :: w) ++ [45%N; 45%N]) in Ew. rewrite last_app_ne in Ew by discriminate. replace (u ++ 64%N :: v ++ [c]) with ((u ++ 64%N :: v) ++ [c]) in Ew by (rewrite <- app_assoc; reflexivity). rewrite last_last in Ew. cbn in Ew. subst c. discriminate. }
    rewrite Hm. change (0 <? 0) with false. cbv iota. unfold html_inline. destruct (Nat.leb_spec (length (a ++ [60%N]) + 2) (c_len ch)); [|lia].
    assert (A : nth_error (c_data ch) (length (a ++ [60%N])) = Some 33%N) by (rewrite Hd', nth_error_app2, Nat.sub_diag by lia; reflexivity).
    assert (B : nth_error (c_data ch) (S (length (a ++ [60%N]))) = Some 45%N) by (rewrite Hd', nth_error_app2 by lia; replace (S (length (a ++ [60%N])) - length (a ++ [60%N])) with 1 by lia; reflexivity).
    rewrite A, B. change (N.eqb 33 33) with true. change (N.eqb 45 45) with true. cbv iota.
    assert (Hd2 : c_data ch = ((a ++ [60%N]) ++ [33%N; 45%N]) ++ 45%N :: w ++ lit "-->" ++ b) by (rewrite Hd', <- !app_assoc; reflexivity).
    assert (L2 : length ((a ++ [60%N]) ++ [33%N; 45%N]) = length (a ++ [60%N]) + 2) by (rewrite app_length; reflexivity). rewrite <- L2. rewrite (scan_here _ ch _ _ Hd2) by lia.
    rewrite (match_is _ _ b) by (apply scan_comment; try assumption; intros X; apply H0; rewrite Hd2; apply in_or_app; right; right; apply in_or_app; left; exact X).
    assert (Q : length (45%N :: w ++ lit "-->" ++ b) - length b = length w + 4) by (cbn [length]; rewrite !app_length; change (length (lit "-->")) with 3; lia). rewrite Q. destruct (Nat.ltb_spec 0 (length w + 4)); [|lia].
    rewrite set_pos_twice. eexists _, _, _. split; [|reflexivity]. f_equal. f_equal. f_equal. rewrite La, !app_length. change (length (lit "<!--")) with 4. change (length (lit "-->")) with 3. lia.
  - destruct Hg as ((H60 & Hw) & _). destruct Hc as (Hlast & Hat). unfold handle_pointy_brace. cbn [s_pos set_pos]. rewrite Hp.
    assert (Hd' : c_data ch = (a ++ [60%N]) ++ 63%N :: w ++ lit "?>" ++ b) by (rewrite Hd, <- !app_assoc; reflexivity). assert (La : length (a ++ [60%N]) = S (length a)) by (rewrite app_length; cbn; lia). rewrite <- La.
    assert (L : length (a ++ [60%N]) + 1 + length w + 1 < c_len ch).
    { pose proof (in_scan E ch ((a ++ [60%N]) ++ 63%N :: w ++ lit "?") 62%N b Hs ltac:(rewrite Hd', <- !app_assoc; cbn [app]; rewrite <- !app_assoc; reflexivity) ltac:(apply ascii_punct_not_space; [exact Hz|reflexivity])) as X. rewrite app_length in X. cbn [length] in X. rewrite (app_length w) in X. change (length (lit "?")) with 1 in X. lia. }
    rewrite !(scan_here _ ch (a ++ [60%N]) _ Hd') by lia. rewrite no_uri by discriminate.
    assert (Hm : matchlen re_scan_autolink_email (63%N :: w ++ lit "?>" ++ b) = 0).
    { destruct Hat as [Hat|Hat].
      - apply no_match. intros pv s' X. apply email_shape in X as (u & v & c & Eq & _ & Fu & Hc' & Hv).
        assert (Nu : ~ In 62%N u) by (intros X; rewrite Forall_forall in Fu; apply Fu in X; destruct X as [X|[X|X]]; [unfold is_letter in X; lia|unfold is_digit in X; lia|cbn in X; intuition discriminate]).
        destruct (split_here 62%N (63%N :: w ++ lit "?") b (u ++ 64%N :: v ++ [c]) s') as (Ew & _).
        + cbn. intros [X|X]; [discriminate|]. apply in_app_or in X as [X|X]; [contradiction|cbn in X; intuition discriminate].
        + intros X. apply in_app_or in X as [X|[X|X]]; [contradiction|discriminate|contradiction].
        + rewrite <- !app_assoc. cbn [app]. rewrite <- !app_assoc. cbn [app]. exact Eq.
        + apply (f_equal (fun l => last l 0%N)) in Ew. change (63%N :: w ++ lit "?") with ((63%N :: w) ++ [63%N]) in Ew. rewrite last_last in Ew. replace (u ++ 64%N :: v ++ [c]) with ((u ++ 64%N :: v) ++ [c]) in Ew by (rewrite <- app_assoc; reflexivity). rewrite last_last in Ew. subst c. discriminate.
      - change (63%N :: w ++ lit "?>" ++ b) with ((63%N :: w) ++ [63%N] ++ 62%N :: b). rewrite app_assoc. apply no_email; [|intros [X|[X|X]]; [unfold is_letter in X; lia|unfold is_digit in X; lia|cbn in X; intuition discriminate]|discriminate].
        rewrite in_app_iff. cbn. intros [[X|X]|[X|[]]]; [discriminate|contradiction|discriminate]. }
    rewrite Hm. change (0 <? 0) with false. cbv iota. unfold html_inline. destruct (Nat.leb_spec (length (a ++ [60%N]) + 2) (c_len ch)); [|lia].
    assert (A : nth_error (c_data ch) (length (a ++ [60%N])) = Some 63%N) by (rewrite Hd', nth_error_app2, Nat.sub_diag by lia; reflexivity).
    assert (B : exists d, nth_error (c_data ch) (S (length (a ++ [60%N]))) = Some d) by (rewrite Hd', nth_error_app2 by lia; replace (S (length (a ++ [60%N])) - length (a ++ [60%N])) with 1 by lia; destruct w; eexists; reflexivity). destruct B as (d & B).
    rewrite A, B. change (N.eqb 63 33) with false. change (N.eqb 63 63) with true. cbv iota. cbn [s_skip_cdata s_skip_decl s_skip_pi set_pos]. assert (F3 : s_skip_pi st = false) by (destruct (s_skip_pi st) eqn:F; [exfalso; apply (proj2 (proj2 Hf) F (63%N :: w) b); cbn [app tl]; rewrite <- !app_assoc; reflexivity|reflexivity]). rewrite F3.
    assert (Hd2 : c_data ch = ((a ++ [60%N]) ++ [63%N]) ++ w ++ lit "?>" ++ b) by (rewrite Hd', <- !app_assoc; reflexivity).
    assert (L2 : length ((a ++ [60%N]) ++ [63%N]) = length (a ++ [60%N]) + 1) by (rewrite app_length; reflexivity). rewrite <- L2. rewrite (scan_here _ ch _ _ Hd2) by lia.
    rewrite scan_instruction by (try assumption; intros X; apply H0; rewrite Hd2; apply in_or_app; right; exact X).
    destruct (Nat.ltb_spec (c_len ch) (length (a ++ [60%N]) + (length w + 3))); [lia|].
    rewrite set_pos_twice. exists (s_skip_cdata st), (s_skip_decl st), false. split; [|unfold flags; congruence]. f_equal. f_equal. f_equal. rewrite La, !app_length. change (length (lit "<?")) with 2. change (length (lit "?>")) with 2. lia.
  - destruct Hg as ((Hn & Fn & Hg1 & Hg2 & Hw0 & H60 & H62) & _). unfold handle_pointy_brace. cbn [s_pos set_pos]. rewrite Hp.
    assert (Hd' : c_data ch = (a ++ [60%N]) ++ 33%N :: n ++ g ++ w ++ 62%N :: b) by (rewrite Hd, <- !app_assoc; reflexivity). assert (La : length (a ++ [60%N]) = S (length a)) by (rewrite app_length; cbn; lia). rewrite <- La.
    assert (L : length (a ++ [60%N]) + 1 + length n + length g + length w < c_len ch).
    { pose proof (in_scan E ch ((a ++ [60%N]) ++ 33%N :: n ++ g ++ w) 62%N b Hs ltac:(rewrite Hd', <- !app_assoc; cbn [app]; rewrite <- !app_assoc; reflexivity) ltac:(apply ascii_punct_not_space; [exact Hz|reflexivity])) as X. rewrite app_length in X. cbn [length] in X. rewrite !(app_length n), !(app_length g) in X. lia. }
    rewrite !(scan_here _ ch (a ++ [60%N]) _ Hd') by lia. rewrite no_uri by discriminate.
    assert (Hm : matchlen re_scan_autolink_email (33%N :: n ++ g ++ w ++ 62%N :: b) = 0).
    { destruct g as [|y g]; [contradiction|]. inversion Hg2 as [|? ? Hy _]; subst. change (33%N :: n ++ (y :: g) ++ w ++ 62%N :: b) with ((33%N :: n) ++ y :: g ++ w ++ 62%N :: b). apply no_email.
      - intros [X|X]; [discriminate|]. rewrite Forall_forall in Fn. apply Fn in X. lia.
      - destruct Hy as [->| ->]; intros [X|[X|X]]; [unfold is_letter in X; lia|unfold is_digit in X; lia|cbn in X; intuition discriminate|unfold is_letter in X; lia|unfold is_digit in X; lia|cbn in X; intuition discriminate].
      - destruct Hy as [->| ->]; discriminate. }
    rewrite Hm. change (0 <? 0) with false. cbv iota. unfold html_inline. destruct (Nat.leb_spec (length (a ++ [60%N]) + 2) (c_len ch)); [|destruct n; [contradiction|cbn [length] in L; lia]].
    assert (A : nth_error (c_data ch) (length (a ++ [60%N])) = Some 33%N) by (rewrite Hd', nth_error_app2, Nat.sub_diag by lia; reflexivity).
    assert (B : exists d, nth_error (c_data ch) (S (length (a ++ [60%N]))) = Some d /\ (65 <= d <= 90)%N) by (rewrite Hd', nth_error_app2 by lia; replace (S (length (a ++ [60%N])) - length (a ++ [60%N])) with 1 by lia; destruct n as [|d n]; [contradiction|]; apply Forall_inv in Fn; exists d; split; [reflexivity|exact Fn]). destruct B as (d & B & Hd0).
    rewrite A, B. change (N.eqb 33 33) with true. cbv iota. destruct (N.eqb_spec d 45); [lia|]. destruct (N.eqb_spec d cLB) as [X|_]; [unfold cLB in X; lia|]. cbn [s_skip_cdata s_skip_decl s_skip_pi set_pos]. assert (F2 : s_skip_decl st = false) by (destruct (s_skip_decl st) eqn:F; [exfalso; apply (proj1 (proj2 Hf) F); rewrite !in_app_iff; left; right; right; right; right; left; reflexivity|reflexivity]). rewrite F2.
    assert (Hd2 : c_data ch = ((a ++ [60%N]) ++ [33%N]) ++ n ++ g ++ w ++ 62%N :: b) by (rewrite Hd', <- !app_assoc; reflexivity).
    assert (L2 : length ((a ++ [60%N]) ++ [33%N]) = length (a ++ [60%N]) + 1) by (rewrite app_length; reflexivity). rewrite <- L2. rewrite (scan_here _ ch _ _ Hd2) by lia.
    rewrite scan_declared by (try assumption; intros X; apply H0; rewrite Hd2; apply in_or_app; right; exact X).
    destruct (Nat.ltb_spec 0 (length n + length g + length w)); [|destruct n; [contradiction|cbn [length] in *; lia]].
    destruct (Nat.ltb_spec (c_len ch) (length (a ++ [60%N]) + (length n + length g + length w + 2))); [lia|].
    rewrite set_pos_twice. exists (s_skip_cdata st), false, (s_skip_pi st). split; [|unfold flags; congruence]. f_equal. f_equal. f_equal. rewrite La, !app_length. change (length (lit "<!")) with 2. change (length (lit ">")) with 1. lia.
  - destruct Hg as ((Hw0 & H60 & Hw) & _). cbn [calm] in Hc. unfold handle_pointy_brace. cbn [s_pos set_pos]. rewrite Hp.
    assert (Hd' : c_data ch = (a ++ [60%N]) ++ 33%N :: 91%N :: lit "CDATA[" ++ w ++ lit "]]>" ++ b) by (rewrite Hd, <- !app_assoc; reflexivity). assert (La : length (a ++ [60%N]) = S (length a)) by (rewrite app_length; cbn; lia). rewrite <- La.
    assert (L : length (a ++ [60%N]) + 8 + length w + 2 < c_len ch).
    { pose proof (in_scan E ch ((a ++ [60%N]) ++ 33%N :: 91%N :: lit "CDATA[" ++ w ++ lit "]]") 62%N b Hs ltac:(rewrite Hd', <- !app_assoc; cbn [app]; rewrite <- !app_assoc; reflexivity) ltac:(apply ascii_punct_not_space; [exact Hz|reflexivity])) as X. rewrite app_length in X. cbn [length] in X. rewrite !app_length in X. change (length (lit "CDATA[")) with 6 in X. change (length (lit "]]")) with 2 in X. rewrite app_length. cbn [length] in *. lia. }
    rewrite !(scan_here _ ch (a ++ [60%N]) _ Hd') by lia. rewrite no_uri by discriminate.
    assert (Hm : matchlen re_scan_autolink_email (33%N :: 91%N :: lit "CDATA[" ++ w ++ lit "]]>" ++ b) = 0).
    { apply (no_email [33%N]); [intros [X|[]]; discriminate|intros [X|[X|X]]; [unfold is_letter in X; lia|unfold is_digit in X; lia|cbn in X; intuition discriminate]|discriminate]. }
    rewrite Hm. change (0 <? 0) with false. cbv iota. unfold html_inline. destruct (Nat.leb_spec (length (a ++ [60%N]) + 2) (c_len ch)); [|lia].
    assert (A : nth_error (c_data ch) (length (a ++ [60%N])) = Some 33%N) by (rewrite Hd', nth_error_app2, Nat.sub_diag by lia; reflexivity).
    assert (B : nth_error (c_data ch) (S (length (a ++ [60%N]))) = Some 91%N) by (rewrite Hd', nth_error_app2 by lia; replace (S (length (a ++ [60%N])) - length (a ++ [60%N])) with 1 by lia; reflexivity).
    rewrite A, B. change (N.eqb 33 33) with true. change (N.eqb 91 45) with false. change (N.eqb 91 cLB) with true. cbv iota. cbn [s_skip_cdata s_skip_decl s_skip_pi set_pos]. assert (F1 : s_skip_cdata st = false) by (destruct (s_skip_cdata st) eqn:F; [exfalso; apply (proj1 Hf F (lit "<![CDATA[" ++ w) b); rewrite <- !app_assoc; reflexivity|reflexivity]). rewrite F1.
    assert (Hd2 : c_data ch = ((a ++ [60%N]) ++ [33%N; 91%N]) ++ lit "CDATA[" ++ w ++ lit "]]>" ++ b) by (rewrite Hd', <- !app_assoc; reflexivity).
    assert (L2 : length ((a ++ [60%N]) ++ [33%N; 91%N]) = length (a ++ [60%N]) + 2) by (rewrite app_length; reflexivity). rewrite <- L2. rewrite (scan_here _ ch _ _ Hd2) by lia.
    rewrite scan_section by (try assumption; intros X; apply H0; rewrite Hd2; apply in_or_app; right; apply in_or_app; right; exact X).
    destruct (Nat.ltb_spec 0 (6 + length w)); [|lia].
    destruct (Nat.ltb_spec (c_len ch) (length (a ++ [60%N]) + (6 + length w + 5))); [lia|].
    rewrite set_pos_twice. exists false, (s_skip_decl st), (s_skip_pi st). split; [|unfold flags; congruence]. f_equal. f_equal. f_equal. rewrite La, !app_length. change (length (lit "<![CDATA[")) with 9. change (length (lit "]]>")) with 3. lia.
  - destruct Hg as (Hu & Fu & Fl). unfold handle_pointy_brace. cbn [s_pos set_pos]. rewrite Hp.
    set (m := u ++ 64%N :: l ++ flat_map (fun l => 46%N :: l) ls). assert (Hd' : c_data ch = (a ++ [60%N]) ++ m ++ 62%N :: b) by (rewrite Hd; unfold m; rewrite <- !app_assoc; cbn [app]; rewrite <- !app_assoc; cbn [app]; rewrite <- !app_assoc; reflexivity).
    assert (La : length (a ++ [60%N]) = S (length a)) by (rewrite app_length; cbn; lia). rewrite <- La.
    assert (L : length (a ++ [60%N]) + length m < c_len ch) by (rewrite <- app_length; apply (in_scan E ch ((a ++ [60%N]) ++ m) 62%N b Hs); [rewrite Hd', <- !app_assoc; reflexivity|apply ascii_punct_not_space; [exact Hz|reflexivity]]).
    rewrite !(scan_here _ ch (a ++ [60%N]) _ Hd') by lia.
    assert (U : matchlen re_scan_autolink_uri (m ++ 62%N :: b) = 0).
    { unfold m. destruct u as [|c u]; [contradiction|]. cbn [app]. apply no_uri. intros ->. inversion Fu as [|? ? X _]; subst. destruct X as [X|[X|X]]; [unfold is_letter in X; lia|unfold is_digit in X; lia|cbn in X; intuition discriminate]. }
    rewrite U. change (0 <? 0) with false. cbv iota.
    assert (Em : matchlen re_scan_autolink_email (m ++ 62%N :: b) = S (length m)).
    { rewrite (match_is _ _ b); [rewrite app_length; cbn [length]; lia|]. replace (m ++ 62%N :: b) with (u ++ 64%N :: l ++ flat_map (fun l => 46%N :: l) ls ++ 62%N :: b) by (unfold m; rewrite <- !app_assoc; cbn [app]; rewrite <- !app_assoc; reflexivity). apply scan_mail; assumption. }
    rewrite Em. destruct (Nat.ltb_spec 0 (S (length m))); [|lia]. unfold autolink. cbn [s_pos set_pos]. rewrite unescape_plain.
    + cbn [bind]. exists (s_skip_cdata st), (s_skip_decl st), (s_skip_pi st). split; [|reflexivity]. f_equal. rewrite La. match goal with |- _ = set_flags ?X _ _ _ => change (set_flags X (s_skip_cdata st) (s_skip_decl st) (s_skip_pi st)) with (set_flags X (s_skip_cdata X) (s_skip_decl X) (s_skip_pi X)); rewrite (flags_same X) end.
      rewrite set_pos_twice. f_equal. unfold m. cbn [length app]. rewrite !app_length. cbn [length]. rewrite !app_length. cbn [length]. lia.
    + right. intros X. apply strip_in in X. replace (length (a ++ [60%N]) + S (length m) - 1) with (length (a ++ [60%N]) + length m) in X by lia. rewrite Hd', slice_mid in X.
      assert (Nl : forall l, domain_label l -> ~ In 59%N l) by (intros y (_ & Fx & _) Hx; rewrite Forall_forall in Fx; apply Fx in Hx; unfold is_letter, is_digit in Hx; lia). inversion Fl as [|? ? F1 F2]; subst.
      unfold m in X. apply in_app_or in X as [X|[X|X]]; [|discriminate|apply in_app_or in X as [X|X]; [apply (Nl l F1 X)|apply in_flat_map in X as (y & Hy & [X|X]); [discriminate|rewrite Forall_forall in F2; apply (Nl y (F2 y Hy) X)]]].
      rewrite Forall_forall in Fu. apply Fu in X. destruct X as [X|[X|X]]; [unfold is_letter in X; lia|unfold is_digit in X; lia|cbn in X; intuition discriminate].
Qed.
