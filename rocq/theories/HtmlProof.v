(** Proofs about the regular expressions of remove_html_tags. *)
From Coq Require Import String List NArith Bool Arith Lia.
From Verif Require Import Str StrFacts EnvSpec Atx Regex RegexSpec RegexProof HtmlRe HtmlSpec HelperSpec.
Import ListNotations.
Local Open Scope list_scope.

(** ** Substitution *)
Lemma resub_drop r : forall u pv s, exists pv', resub r pv (u ++ s) (length u) = resub r pv' s 0.
Proof.
  induction u as [|x u IH]; intros pv s; [exists pv; reflexivity|]. cbn [app length resub]. apply IH.
Qed.
Lemma match_split r pv s rest : rmatch r pv s (fun _ t => Some t) = Some rest -> exists pv', M r pv s pv' rest.
Proof. intros H. apply rmatch_sound in H as (pv' & s' & A & B). injection B as ->. eauto. Qed.
(** If every match begins with '<' and ends with '>', a substitution is a cut. *)
Definition bracketed (r : re) : Prop := forall pv s pv' s', M r pv s pv' s' -> exists v, s = 60%N :: v ++ 62%N :: s'.
Lemma cut_app_l a s t : cut_down s t -> cut_down (a ++ s) (a ++ t).
Proof. induction 1 as [s|x v b t H IH]; [constructor|]. rewrite app_assoc. apply cut_one. rewrite <- app_assoc. exact IH. Qed.
Lemma cut_trans s t u : cut_down s t -> cut_down t u -> cut_down s u.
Proof. induction 1 as [s|x v b t H IH]; intros Hu; [exact Hu|]. apply cut_one. apply IH. exact Hu. Qed.
Lemma resub_cut r : bracketed r -> forall n s pv, length s <= n -> cut_down s (resub r pv s 0).
Proof.
  intros Hr. induction n as [|n IH]; intros s pv Hn; [destruct s; [constructor|cbn in Hn; lia]|]. destruct s as [|x s]; [constructor|]. cbn [resub]. cbn [length] in Hn.
  destruct (rmatch r pv (x :: s) _) as [rest|] eqn:R.
  - apply match_split in R as (pv' & R). apply Hr in R as (v & E). rewrite E. injection E as -> ->. rewrite app_length in Hn. cbn [length] in Hn.
    replace (length (60%N :: v ++ 62%N :: rest) - length rest) with (S (length (v ++ [62%N]))) by (cbn [length]; rewrite !app_length; cbn [length]; lia). cbv iota.
    replace (v ++ 62%N :: rest) with ((v ++ [62%N]) ++ rest) by (rewrite <- app_assoc; reflexivity).
    destruct (resub_drop r (v ++ [62%N]) (Some 60%N) rest) as (pv2 & ->).
    replace (60%N :: (v ++ [62%N]) ++ rest) with ([] ++ 60%N :: v ++ 62%N :: rest) by (rewrite <- app_assoc; reflexivity). apply cut_one. apply IH. lia.
  - apply (cut_app_l [x]). apply IH. lia.
Qed.
Lemma re_delete_cut r s : bracketed r -> cut_down s (re_delete r s).
Proof. intros H. apply (resub_cut r H (length s)). lia. Qed.
Lemma M_lit : forall l pv s pv' s', M (RLit l) pv s pv' s' -> s = l ++ s'.
Proof.
  induction l as [|c l IH]; intros pv s pv' s' H; [destruct H as (_ & ->); reflexivity|]. destruct l as [|d l].
  - apply M_chr in H as (-> & _). reflexivity.
  - destruct H as (pv1 & s1 & A & B). apply M_chr in A as (-> & _). apply IH in B. rewrite B. reflexivity.
Qed.
Lemma M_seqs_cons a l pv s pv' s' : M (RSeqs (a :: l)) pv s pv' s' <-> exists pv1 s1, M a pv s pv1 s1 /\ M (RSeqs l) pv1 s1 pv' s'.
Proof. reflexivity. Qed.
Lemma M_seqs_nil pv s pv' s' : M (RSeqs []) pv s pv' s' <-> pv' = pv /\ s' = s.
Proof. reflexivity. Qed.
(** The last of a sequence. *)
Lemma M_seqs_last l a : forall pv s pv' s', M (RSeqs (l ++ [a])) pv s pv' s' -> exists u pv1 s1, s = u ++ s1 /\ M a pv1 s1 pv' s'.
Proof.
  induction l as [|b l IH]; cbn [app]; intros pv s pv' s' H; apply M_seqs_cons in H as (pv1 & s1 & A & B).
  - apply M_seqs_nil in B as (-> & ->). exists [], pv, s. auto.
  - apply IH in B as (u & pv2 & s2 & -> & B). apply M_suffix in A as (v & ->). exists (v ++ u), pv2, s2. rewrite <- app_assoc. auto.
Qed.
Lemma seqs_bracketed fst_ mid lst a b : RSeqs (fst_ :: mid ++ [lst]) = RSeqs (fst_ :: mid ++ [lst]) ->
  (forall pv s pv' s', M fst_ pv s pv' s' -> s = 60%N :: a ++ s') -> (forall pv s pv' s', M lst pv s pv' s' -> s = b ++ 62%N :: s') -> bracketed (RSeqs (fst_ :: mid ++ [lst])).
Proof.
  intros _ Hf Hl pv s pv' s' H. apply M_seqs_cons in H as (pv1 & s1 & A & B). apply Hf in A as ->. apply M_seqs_last in B as (u & pv2 & s2 & -> & B). apply Hl in B as ->.
  exists (a ++ u ++ b). rewrite <- !app_assoc. reflexivity.
Qed.
Lemma html_bracketed E p : Forall bracketed (html_regexes E p).
Proof.
  assert (C : forall c pv s pv' s', M (RChr c) pv s pv' s' -> s = c :: s') by (intros c pv s pv' s' H; apply M_chr in H; tauto).
  assert (G : forall E, Forall bracketed [re_OT_github E; re_CT_github E; re_CO; re_PI; re_DE_github; re_CD; re_OT_cmark; re_CT_cmark; re_DE_cmark]).
  { intros F. repeat apply Forall_cons; [..|apply Forall_nil].
    - apply (seqs_bracketed (RChr 60) [re_TN_github F; RStar re_AT_github; RStar re_WS; ROpt (RChr 47)] (RChr 62) [] []); [reflexivity|apply C|apply C].
    - apply (seqs_bracketed (RLit (lit "</")) [re_TN_github F; ROpt re_WS] (RChr 62) (lit "/") []); [reflexivity|apply M_lit|apply C].
    - apply (seqs_bracketed (RLit (lit "<!--")) [RPlus (RSeq (RNot (RAlt (RChr 62) (RLit (lit "->")))) (RSeq (RNot (RLit (lit "--"))) RAny)); RNot (RChr 45); ROpt RAny] (RLit (lit "-->")) (lit "!--") (lit "--")); [reflexivity|apply M_lit|apply M_lit].
    - apply (seqs_bracketed (RLit (lit "<?")) [RStar (RSeq (RNot (RLit (lit "?>"))) RAny)] (RLit (lit "?>")) (lit "?") (lit "?")); [reflexivity|apply M_lit|apply M_lit].
    - apply (seqs_bracketed (RLit (lit "<!")) [RPlus (RSet ascii_upper); RPlus re_WS; RPlus (RSeq (RNot (RChr 62)) RAny)] (RChr 62) (lit "!") []); [reflexivity|apply M_lit|apply C].
    - apply (seqs_bracketed (RLit (lit "<![CDATA[")) [RPlus (RSeq (RNot (RLit (lit "]]>"))) RAny)] (RLit (lit "]]>")) (lit "![CDATA[") (lit "]]")); [reflexivity|apply M_lit|apply M_lit].
    - apply (seqs_bracketed (RChr 60) [re_tagname; RStar re_AT_cmark; RAlt (RStar re_spacetab) (ROpt re_le); ROpt (RChr 47)] (RChr 62) [] []); [reflexivity|apply C|apply C].
    - apply (seqs_bracketed (RLit (lit "</")) [re_tagname; RAlt (RStar re_spacetab) (ROpt re_le)] (RChr 62) (lit "/") []); [reflexivity|apply M_lit|apply C].
    - apply (seqs_bracketed (RLit (lit "<!")) [RPlus (RSet ascii_upper); RPlus (RSeq (RNot (RChr 62)) RAny)] (RChr 62) (lit "!") []); [reflexivity|apply M_lit|apply C]. }
  specialize (G E). rewrite !Forall_cons_iff in G. unfold html_regexes. destruct (gfm p); rewrite !Forall_cons_iff; tauto.
Qed.
Lemma html_cut E p s : cut_down s (remove_html_tags E p s).
Proof.
  unfold remove_html_tags. destruct (cm_family p); [|constructor]. pose proof (html_bracketed E p) as H. revert s. induction H as [|r l Hr H IH]; intros s; cbn [fold_left]; [constructor|].
  eapply cut_trans; [apply re_delete_cut; exact Hr|apply IH].
Qed.

(** ** Tags *)
Definition ws (c : N) : Prop := In c space6.
Lemma ws_cases c : ws c <-> c = 32%N \/ c = 9%N \/ c = 11%N \/ c = 12%N \/ c = 13%N \/ c = 10%N.
Proof. unfold ws, space6. cbn. intuition congruence. Qed.
Lemma star_nil a pv s : M (RStar a) pv s pv s.
Proof. apply star_done. Qed.

(** Characters of names. *)
Lemma alpha_iff c : ascii_alpha c = true <-> is_letter c.
Proof. unfold ascii_alpha, ascii_upper, ascii_lower, in_range, is_letter. rewrite orb_true_iff, !andb_true_iff, !N.leb_le. lia. Qed.
Lemma alnum_iff c : ascii_alnum c = true <-> is_letter c \/ is_digit c.
Proof. unfold ascii_alnum, ascii_digit, in_range, is_digit. rewrite orb_true_iff, alpha_iff, andb_true_iff, !N.leb_le. tauto. Qed.
Lemma tag_rest_iff c : tag_rest c = true <-> is_letter c \/ is_digit c \/ c = 45%N.
Proof. unfold tag_rest. rewrite orb_true_iff, alnum_iff, N.eqb_eq. tauto. Qed.
Lemma attr_rest_iff c : attr_rest c = true <-> is_letter c \/ is_digit c \/ In c (lit ":._-").
Proof. unfold attr_rest. rewrite orb_true_iff, alnum_iff, cin_In. tauto. Qed.
Lemma attr_first_iff c : attr_first c = true <-> is_letter c \/ In c (lit "_:").
Proof. unfold attr_first. rewrite orb_true_iff, alpha_iff, cin_In. tauto. Qed.
Lemma M_name first rest pv s pv' s' : M (RSeq (RSet first) (RStar (RSet rest))) pv s pv' s' ->
  exists c u, s = c :: u ++ s' /\ first c = true /\ Forall (fun x => rest x = true) u.
Proof. intros (pv1 & s1 & (c & -> & Hc & ->) & B). apply star_set in B as (u & -> & F & _). exists c, u. auto. Qed.
Lemma M_name_make first rest pv c u s' : first c = true -> Forall (fun x => rest x = true) u -> exists pv', M (RSeq (RSet first) (RStar (RSet rest))) pv (c :: u ++ s') pv' s'.
Proof. intros Hc F. eexists. exists (Some c), (u ++ s'). split; [exists c; auto|]. apply star_set. exists u. split; [reflexivity|]. split; [exact F|reflexivity]. Qed.

(** *** Quiet text: any '>' is inside quotes *)
Inductive quiet : str -> Prop :=
| quiet_nil : quiet []
| quiet_char : forall c u, c <> 34%N -> c <> 39%N -> c <> 62%N -> quiet u -> quiet (c :: u)
| quiet_double : forall v u, ~ In 34%N v -> quiet u -> quiet (34%N :: v ++ 34%N :: u)
| quiet_single : forall v u, ~ In 39%N v -> quiet u -> quiet (39%N :: v ++ 39%N :: u).
Lemma quiet_app u v : quiet u -> quiet v -> quiet (u ++ v).
Proof.
  intros Hu Hv. induction Hu as [|c u H1 H2 H3 Hu IH|w u Hw Hu IH|w u Hw Hu IH]; cbn [app]; [exact Hv|..].
  - apply quiet_char; assumption.
  - rewrite <- app_assoc. cbn [app]. apply quiet_double; assumption.
  - rewrite <- app_assoc. cbn [app]. apply quiet_single; assumption.
Qed.
Lemma quiet_all u : Forall (fun c => c <> 34%N /\ c <> 39%N /\ c <> 62%N) u -> quiet u.
Proof. induction 1 as [|c u (A & B & C) F IH]; constructor; assumption. Qed.
Lemma split_first (c : N) u s v t : ~ In c u -> ~ In c v -> u ++ c :: s = v ++ c :: t -> u = v /\ s = t.
Proof.
  revert v. induction u as [|x u IH]; intros [|y v] Hu Hv E; cbn [app] in E.
  - injection E as E. auto.
  - injection E as E1 E2. destruct Hv. left. auto.
  - injection E as E1 E2. destruct Hu. left. auto.
  - injection E as E1 E2. subst y. destruct (IH v) as (-> & ->); auto; intros G; [apply Hu|apply Hv]; right; exact G.
Qed.
Lemma quiet_end u1 : quiet u1 -> forall u2 s1 s2, quiet u2 -> u1 ++ 62%N :: s1 = u2 ++ 62%N :: s2 -> s1 = s2.
Proof.
  induction 1 as [|c u H1 H2 H3 Hu IH|w u Hw Hu IH|w u Hw Hu IH]; intros u2 s1 s2 G2 E; destruct G2 as [|c2 v2 K1 K2 K3 K|w2 v2 K1 K|w2 v2 K1 K]; cbn [app] in E; try (rewrite <- ?app_assoc in E; cbn [app] in E); try (exfalso; injection E as E1 E2; congruence).
  - injection E as E. exact E.
  - injection E as _ E. eapply IH; eassumption.
  - injection E as E. apply split_first in E as (_ & E); [|assumption|assumption]. eapply IH; eassumption.
  - injection E as E. apply split_first in E as (_ & E); [|assumption|assumption]. eapply IH; eassumption.
Qed.
Definition quietly (r : re) : Prop := forall pv s pv' s', M r pv s pv' s' -> exists u, s = u ++ s' /\ quiet u.
Lemma quietly_set p : (forall c, p c = true -> c <> 34%N /\ c <> 39%N /\ c <> 62%N) -> quietly (RSet p).
Proof. intros H pv s pv' s' (c & -> & Hc & _). exists [c]. split; [reflexivity|]. apply H in Hc as (A & B & C). constructor; auto. constructor. Qed.
Lemma quietly_eps : quietly REps.
Proof. intros pv s pv' s' (_ & ->). exists []. split; [reflexivity|constructor]. Qed.
Lemma quietly_not r : quietly (RNot r).
Proof. intros pv s pv' s' (_ & -> & _). exists []. split; [reflexivity|constructor]. Qed.
Lemma quietly_seq a b : quietly a -> quietly b -> quietly (RSeq a b).
Proof. intros Ha Hb pv s pv' s' (pv1 & s1 & A & B). apply Ha in A as (u & -> & Hu). apply Hb in B as (v & -> & Hv). exists (u ++ v). rewrite <- app_assoc. split; [reflexivity|]. apply quiet_app; assumption. Qed.
Lemma quietly_alt a b : quietly a -> quietly b -> quietly (RAlt a b).
Proof. intros Ha Hb pv s pv' s' [A|B]; [apply Ha in A|apply Hb in B]; assumption. Qed.
Lemma quietly_star a : quietly a -> quietly (RStar a).
Proof.
  intros Ha pv s pv' s' H. change (star (M a) pv s pv' s') in H. induction H as [pv s|pv s pv1 s1 pv2 s2 A B (u & -> & Hu)]; [exists []; split; [reflexivity|constructor]|].
  apply Ha in A as (v & -> & Hv). exists (v ++ u). rewrite <- app_assoc. split; [reflexivity|]. apply quiet_app; assumption.
Qed.
Lemma quietly_chr c : c <> 34%N -> c <> 39%N -> c <> 62%N -> quietly (RChr c).
Proof. intros A B C. apply quietly_set. intros x Hx. apply N.eqb_eq in Hx. subst x. auto. Qed.
Lemma quietly_oneof l : ~ In 34%N l -> ~ In 39%N l -> ~ In 62%N l -> quietly (ROneOf l).
Proof. intros A B C. apply quietly_set. intros x Hx. apply cin_In in Hx. repeat split; intros ->; contradiction. Qed.
Lemma quietly_seqs l : Forall quietly l -> quietly (RSeqs l).
Proof. induction 1 as [|r l Hr H IH]; [apply quietly_eps|]. apply quietly_seq; assumption. Qed.
Lemma quietly_ws : quietly re_WS.
Proof. apply quietly_oneof; cbn; intuition discriminate. Qed.
Lemma quietly_tab : quietly re_spacetab.
Proof. apply quietly_oneof; cbn; intuition discriminate. Qed.
Lemma quietly_le : quietly re_le.
Proof. unfold re_le. cbn [RAlts]. repeat apply quietly_alt; try apply quietly_seq; apply quietly_chr; discriminate. Qed.
Lemma quietly_tagname : quietly re_tagname.
Proof.
  apply quietly_seq; [|apply quietly_star]; apply quietly_set; intros c Hc.
  - apply alpha_iff in Hc. unfold is_letter in Hc. lia.
  - apply tag_rest_iff in Hc. unfold is_letter, is_digit in Hc. lia.
Qed.
Lemma quietly_attrname : quietly re_attrname.
Proof.
  apply quietly_seq; [|apply quietly_star]; apply quietly_set; intros c Hc.
  - apply attr_first_iff in Hc. unfold is_letter in Hc. cbn in Hc. lia.
  - apply attr_rest_iff in Hc. unfold is_letter, is_digit in Hc. cbn in Hc. lia.
Qed.
Lemma star_notin l pv s pv' s' : M (RStar (RNotIn l)) pv s pv' s' -> exists u, s = u ++ s' /\ Forall (fun c => ~ In c l) u.
Proof.
  intros H. apply star_set in H as (u & -> & F & _). exists u. split; [reflexivity|]. eapply Forall_impl; [|exact F]. intros c Hc. apply negb_true_iff, cin_not_In in Hc. exact Hc.
Qed.
Lemma quietly_value : quietly re_attrvalue.
Proof.
  unfold re_attrvalue. cbn [RAlts]. apply quietly_alt; [|apply quietly_alt].
  - apply quietly_seq; [|apply quietly_star]; apply quietly_set; intros c Hc; apply negb_true_iff, cin_not_In in Hc; repeat split; intros ->; apply Hc; cbn; tauto.
  - intros pv s pv' s' H. apply M_seqs_cons in H as (pv1 & s1 & A & H). apply M_seqs_cons in H as (pv2 & s2 & B & H). apply M_seqs_cons in H as (pv3 & s3 & C & H). apply M_seqs_nil in H as (-> & ->).
      apply M_chr in A as (-> & _). apply star_notin in B as (u & -> & F). apply M_chr in C as (-> & _). exists (39%N :: u ++ [39%N]). split; [cbn [app]; rewrite <- app_assoc; reflexivity|].
      apply quiet_single; [|constructor]. intros G. rewrite Forall_forall in F. apply (F _ G). left. reflexivity.
  - intros pv s pv' s' H. apply M_seqs_cons in H as (pv1 & s1 & A & H). apply M_seqs_cons in H as (pv2 & s2 & B & H). apply M_seqs_cons in H as (pv3 & s3 & C & H). apply M_seqs_nil in H as (-> & ->).
      apply M_chr in A as (-> & _). apply star_notin in B as (u & -> & F). apply M_chr in C as (-> & _). exists (34%N :: u ++ [34%N]). split; [cbn [app]; rewrite <- app_assoc; reflexivity|].
      apply quiet_double; [|constructor]. intros G. rewrite Forall_forall in F. apply (F _ G). left. reflexivity.
Qed.
Lemma quietly_avs : quietly re_attrvaluespec.
Proof.
  apply quietly_seqs. repeat apply Forall_cons; [..|apply Forall_nil].
  - apply quietly_star, quietly_ws.
  - apply quietly_chr; discriminate.
  - apply quietly_star, quietly_ws.
  - apply quietly_value.
Qed.
(** A pattern of quiet parts between brackets has one end only. *)
Lemma rmatch_only r pv s t : (forall pv' s', M r pv s pv' s' -> s' = t) -> (exists pv', M r pv s pv' t) -> rmatch r pv s (fun _ u => Some u) = Some t.
Proof.
  intros A (pv' & B). destruct (rmatch r pv s _) as [u|] eqn:R.
  - apply match_split in R as (pv2 & R). apply A in R as ->. reflexivity.
  - exfalso. refine (rmatch_complete _ _ _ _ _ _ B _ R). discriminate.
Qed.
Lemma rmatch_none r pv s : (forall pv' s', ~ M r pv s pv' s') -> rmatch r pv s (fun _ u => Some u) = None.
Proof. intros A. destruct (rmatch r pv s _) as [u|] eqn:R; [|reflexivity]. apply match_split in R as (pv2 & R). exfalso. eapply A. exact R. Qed.
Lemma quiet_once l pv u t : Forall quietly l -> quiet u -> (exists pv', M (RSeqs (l ++ [RChr 62])) pv (u ++ 62%N :: t) pv' t) ->
  rmatch (RSeqs (l ++ [RChr 62])) pv (u ++ 62%N :: t) (fun _ x => Some x) = Some t.
Proof.
  intros Hl Hu Hm. apply rmatch_only; [|exact Hm]. intros pv' s' H. enough (G : exists v, u ++ 62%N :: t = v ++ 62%N :: s' /\ quiet v) by (destruct G as (v & E & Hv); symmetry; exact (quiet_end u Hu v t s' Hv E)).
  revert H. generalize (u ++ 62%N :: t) as s. clear Hm Hu u t. revert pv. induction Hl as [|r l Hr Hl IH]; intros pv s H.
  - apply M_seqs_cons in H as (pv1 & s1 & A & H). apply M_seqs_nil in H as (-> & ->). apply M_chr in A as (-> & _). exists []. split; [reflexivity|constructor].
  - cbn [app] in H. apply M_seqs_cons in H as (pv1 & s1 & A & H). apply Hr in A as (v & -> & Hv). apply IH in H as (w & -> & Hw). exists (v ++ w). rewrite <- app_assoc. split; [reflexivity|]. apply quiet_app; assumption.
Qed.

(** *** Making a match *)
Lemma oneof_make l b pv s : Forall (fun c => In c l) b -> exists pv', M (RStar (ROneOf l)) pv (b ++ s) pv' s.
Proof. intros H. eexists. apply star_set. exists b. split; [reflexivity|]. split; [|reflexivity]. eapply Forall_impl; [|exact H]. intros c Hc. apply cin_In. exact Hc. Qed.
Lemma oneof_plus_make l b pv s : b <> [] -> Forall (fun c => In c l) b -> exists pv', M (RPlus (ROneOf l)) pv (b ++ s) pv' s.
Proof.
  intros Hb H. destruct b as [|c b]; [contradiction|]. inversion H as [|? ? Hc Hr]; subst. destruct (oneof_make l b (Some c) s Hr) as (pv' & B). exists pv', (Some c), (b ++ s). split; [|exact B].
  exists c. split; [reflexivity|]. split; [apply cin_In; exact Hc|reflexivity].
Qed.
Lemma blanks_ws b : blanks b -> Forall (fun c => In c space6) b.
Proof. intros H. eapply Forall_impl; [|exact H]. intros c [->| ->]; cbn; auto. Qed.
Lemma blanks_tab b : blanks b -> Forall (fun c => In c [9%N; 32%N]) b.
Proof. intros H. eapply Forall_impl; [|exact H]. intros c [->| ->]; cbn; auto. Qed.
Lemma lit_make l : forall pv s, l <> [] -> exists pv', M (RLit l) pv (l ++ s) pv' s.
Proof.
  induction l as [|c l IH]; intros pv s H; [contradiction|]. destruct l as [|d l].
  - exists (Some c). apply M_chr. auto.
  - destruct (IH (Some c) s ltac:(discriminate)) as (pv' & A). exists pv', (Some c), ((d :: l) ++ s). split; [apply M_chr; auto|exact A].
Qed.
Definition tail_ok (r : re) : Prop := quietly r /\ forall b pv s, blanks b -> exists pv', M r pv (b ++ s) pv' s.
Definition gap_ok (r : re) : Prop := quietly r /\ forall b pv s, b <> [] -> blanks b -> exists pv', M r pv (b ++ s) pv' s.
Lemma tail_cmark : tail_ok (RAlt (RStar re_spacetab) (ROpt re_le)).
Proof.
  split; [apply quietly_alt; [apply quietly_star, quietly_tab|apply quietly_alt; [apply quietly_le|apply quietly_eps]]|].
  intros b pv s Hb. destruct (oneof_make [9%N; 32%N] b pv s (blanks_tab b Hb)) as (pv' & H). exists pv'. left. exact H.
Qed.
Lemma tail_github : tail_ok (RStar re_WS).
Proof. split; [apply quietly_star, quietly_ws|]. intros b pv s Hb. apply oneof_make, blanks_ws, Hb. Qed.
Lemma gap_cmark : gap_ok (RAlt (RPlus re_spacetab) re_le).
Proof.
  split; [apply quietly_alt; [apply quietly_seq; [|apply quietly_star]; apply quietly_tab|apply quietly_le]|].
  intros b pv s Hn Hb. destruct (oneof_plus_make [9%N; 32%N] b pv s Hn (blanks_tab b Hb)) as (pv' & H). exists pv'. left. exact H.
Qed.
Lemma gap_github : gap_ok (RPlus re_WS).
Proof. split; [apply quietly_seq; [|apply quietly_star]; apply quietly_ws|]. intros b pv s Hn Hb. apply oneof_plus_make; [exact Hn|apply blanks_ws, Hb]. Qed.

(** *** Attributes *)
Lemma blanks_quiet b : blanks b -> quiet b.
Proof. intros H. apply quiet_all. eapply Forall_impl; [|exact H]. intros c [->| ->]; repeat split; discriminate. Qed.
Lemma tag_name_quiet n : tag_name n -> quiet n.
Proof.
  intros (c & r & -> & Hc & Hr). apply quiet_all. constructor; [unfold is_letter in Hc; lia|]. eapply Forall_impl; [|exact Hr]. unfold is_letter, is_digit. intros x Hx. cbv beta in Hx. lia.
Qed.
Lemma attr_name_quiet n : attr_name n -> quiet n.
Proof.
  intros (c & r & -> & Hc & Hr). apply quiet_all. constructor; [unfold is_letter in Hc; cbn in Hc; lia|]. eapply Forall_impl; [|exact Hr]. unfold is_letter, is_digit. cbn. intros x Hx. lia.
Qed.
Lemma value_quiet v : good_value v -> quiet (show_value v).
Proof.
  destruct v as [v|v|v]; cbn [good_value show_value].
  - intros (_ & H). apply quiet_all. eapply Forall_impl; [|exact H]. intros c Hc. repeat split; intros ->; apply Hc; cbn; tauto.
  - intros (H & _). apply quiet_single; [exact H|constructor].
  - intros (H & _). apply quiet_double; [exact H|constructor].
Qed.
Lemma attr_quiet a : good_attr a -> quiet (show_attr a).
Proof.
  intros (_ & Hg & Hn & Hv). unfold show_attr. apply quiet_app; [apply blanks_quiet, Hg|]. apply quiet_app; [apply attr_name_quiet, Hn|]. destruct (a_value a) as [[[b1 b2] v]|]; [|constructor].
  destruct Hv as (H1 & H2 & H3). apply quiet_app; [apply blanks_quiet, H1|]. apply quiet_char; try discriminate. apply quiet_app; [apply blanks_quiet, H2|apply value_quiet, H3].
Qed.
Lemma attrs_quiet l : Forall good_attr l -> quiet (concat (map show_attr l)).
Proof. induction 1 as [|a l Ha H IH]; [constructor|]. cbn [map concat]. apply quiet_app; [apply attr_quiet, Ha|exact IH]. Qed.
Lemma value_make v pv t : good_value v -> exists pv', M re_attrvalue pv (show_value v ++ t) pv' t.
Proof.
  unfold re_attrvalue. destruct v as [v|v|v]; cbn [good_value show_value RAlts].
  - intros (Hn & H). assert (F : Forall (fun c => negb (cin c ([32%N; 9%N; 13%N; 10%N; 11%N; 12%N] ++ [34%N; 39%N] ++ lit "=<>`" ++ [0%N])) = true) v).
    { eapply Forall_impl; [|exact H]. intros c Hc. apply negb_true_iff, cin_not_In. cbn in Hc |- *. tauto. }
    destruct v as [|c v]; [contradiction|]. inversion F as [|? ? Fc Fr]; subst. eexists. left. exists (Some c), (v ++ t). split; [exists c; auto|]. apply star_set. exists v. split; [reflexivity|]. split; [exact Fr|reflexivity].
  - intros (H1 & H2). exists (Some 39%N). right. left. cbn [app]. rewrite <- app_assoc. apply M_seqs_cons. exists (Some 39%N), (v ++ [39%N] ++ t). split; [apply M_chr; auto|]. apply M_seqs_cons. exists (last (map Some v) (Some 39%N)), ([39%N] ++ t). split.
    + apply star_set. exists v. split; [reflexivity|]. split; [|reflexivity]. apply Forall_forall. intros c Hc. apply negb_true_iff, cin_not_In. intros [<-|[<-|[]]]; contradiction.
    + apply M_seqs_cons. exists (Some 39%N), t. split; [apply M_chr; auto|split; reflexivity].
  - intros (H1 & H2). exists (Some 34%N). right. right. cbn [app]. rewrite <- app_assoc. apply M_seqs_cons. exists (Some 34%N), (v ++ [34%N] ++ t). split; [apply M_chr; auto|]. apply M_seqs_cons. exists (last (map Some v) (Some 34%N)), ([34%N] ++ t). split.
    + apply star_set. exists v. split; [reflexivity|]. split; [|reflexivity]. apply Forall_forall. intros c Hc. apply negb_true_iff, cin_not_In. intros [<-|[<-|[]]]; contradiction.
    + apply M_seqs_cons. exists (Some 34%N), t. split; [apply M_chr; auto|split; reflexivity].
Qed.
Section Attributes.
Variable gap : re.
Hypothesis Hgap : gap_ok gap.
Definition AT : re := RSeqs [gap; re_attrname; ROpt re_attrvaluespec].
Lemma AT_quietly : quietly AT.
Proof.
  apply quietly_seqs. repeat apply Forall_cons; [apply Hgap|apply quietly_attrname|apply quietly_alt; [apply quietly_avs|apply quietly_eps]|apply Forall_nil].
Qed.
Lemma AT_make a pv t : good_attr a -> exists pv', M AT pv (show_attr a ++ t) pv' t.
Proof.
  intros (Hn & Hg & (c & r & En & Hc & Hr) & Hv). unfold show_attr. rewrite <- !app_assoc. set (rest := _ ++ t).
  destruct (proj2 Hgap (a_gap a) pv (a_name a ++ rest) Hn Hg) as (pv1 & A).
  assert (B : exists pv2, M re_attrname pv1 (a_name a ++ rest) pv2 rest).
  { rewrite En. cbn [app]. apply (M_name_make attr_first attr_rest); [apply attr_first_iff; exact Hc|]. eapply Forall_impl; [|exact Hr]. intros x. apply attr_rest_iff. }
  destruct B as (pv2 & B). assert (C : exists pv', M (ROpt re_attrvaluespec) pv2 rest pv' t).
  { subst rest. destruct (a_value a) as [[[b1 b2] v]|]; [|exists pv2; right; split; reflexivity]. destruct Hv as (V1 & V2 & V3). rewrite <- app_assoc. cbn [app]. rewrite <- app_assoc.
    destruct (oneof_make space6 b1 pv2 (61%N :: b2 ++ show_value v ++ t) (blanks_ws _ V1)) as (pv3 & D1). destruct (oneof_make space6 b2 (Some 61%N) (show_value v ++ t) (blanks_ws _ V2)) as (pv4 & D2).
    destruct (value_make v pv4 t V3) as (pv5 & D3). exists pv5. left. apply M_seqs_cons. exists pv3, (61%N :: b2 ++ show_value v ++ t). split; [exact D1|]. apply M_seqs_cons. exists (Some 61%N), (b2 ++ show_value v ++ t). split; [apply M_chr; auto|].
    apply M_seqs_cons. exists pv4, (show_value v ++ t). split; [exact D2|]. apply M_seqs_cons. exists pv5, t. split; [exact D3|split; reflexivity]. }
  destruct C as (pv' & C). exists pv'. apply M_seqs_cons. eexists. eexists. split; [exact A|]. apply M_seqs_cons. eexists. eexists. split; [exact B|]. apply M_seqs_cons. eexists. eexists. split; [exact C|split; reflexivity].
Qed.
Lemma ATs_make l : Forall good_attr l -> forall pv t, exists pv', M (RStar AT) pv (concat (map show_attr l) ++ t) pv' t.
Proof.
  induction 1 as [|a l Ha H IH]; intros pv t; [exists pv; constructor|]. cbn [map concat]. rewrite <- app_assoc. destruct (AT_make a pv (concat (map show_attr l) ++ t) Ha) as (pv1 & A). destruct (IH pv1 t) as (pv2 & B). exists pv2. eapply star_more; [exact A|exact B].
Qed.
End Attributes.

(** *** Names of tags *)
(** What can follow a name: a blank, slash, '>'. *)
Definition stop (s : str) : Prop := exists x t, s = x :: t /\ In x [32%N; 9%N; 47%N; 62%N; 10%N; 11%N; 12%N; 13%N].
Definition tn_ok (tn : re) (good : str -> Prop) : Prop :=
  (forall pv s pv' s', M tn pv s pv' s' -> M re_tagname pv s pv' s') /\
  (forall x n s, (x = 60%N \/ x = 47%N) -> tag_name n -> good n -> stop s -> exists pv', M tn (Some x) (n ++ s) pv' s).
Lemma tn_cmark : tn_ok re_tagname (fun _ => True).
Proof.
  split; [auto|]. intros x n s _ (c & r & -> & Hc & Hr) _ _. apply (M_name_make tag_first tag_rest); [apply alpha_iff; exact Hc|]. eapply Forall_impl; [|exact Hr]. intros y. apply tag_rest_iff.
Qed.
Lemma M_alts l : forall pv s pv' s', M (RAlts l) pv s pv' s' <-> exists r, In r l /\ M r pv s pv' s'.
Proof.
  induction l as [|a l IH]; intros pv s pv' s'.
  - split; [intros (x & _ & H & _); discriminate|intros (r & [] & _)].
  - destruct l as [|b l]; [split; [intros H; exists a; split; [left; reflexivity|exact H]|intros (r & [<-|[]] & H); exact H]|].
    change (M (RAlts (a :: b :: l)) pv s pv' s') with (M a pv s pv' s' \/ M (RAlts (b :: l)) pv s pv' s'). rewrite IH. split.
    + intros [H|(r & Hr & H)]; [exists a|exists r]; (split; [|exact H]); [left; reflexivity|right; exact Hr].
    + intros (r & [<-|Hr] & H); [left; exact H|right; eauto].
Qed.
Lemma M_word w : forall pv s pv' s', M (RWordCI w) pv s pv' s' <-> exists u, s = u ++ s' /\ Forall2 (fun c d => c = d \/ c = (d - 32)%N) u w /\ pv' = last (map Some u) pv.
Proof.
  induction w as [|d w IH]; intros pv s pv' s'.
  - split; [intros (-> & ->); exists []; repeat split; constructor|]. intros (u & -> & F & ->). inversion F. split; reflexivity.
  - split.
    + intros (pv1 & s1 & (x & -> & Hx & ->) & B). apply IH in B as (u & -> & F & ->). exists (x :: u). split; [reflexivity|]. split; [|cbn [map]; rewrite last_shift; reflexivity].
      constructor; [|exact F]. apply cin_In in Hx as [Hx|[Hx|[]]]; auto.
    + intros (u & -> & F & ->). inversion F as [|c ? u' ? Hc F']; subst. exists (Some c), (u' ++ s'). cbn [map app]. rewrite last_shift. split; [|apply IH; eauto].
      exists c. split; [reflexivity|]. split; [|reflexivity]. apply cin_In. cbn. intuition.
Qed.
Lemma forallb_Forall_low l : forallb (fun w : str => forallb (fun d => (97 <=? d) && (d <=? 122))%N w && match w with [] => false | _ => true end) l = true ->
  Forall (fun w : str => Forall (fun d => (97 <= d <= 122)%N) w /\ w <> []) l.
Proof.
  rewrite forallb_forall, Forall_forall. intros H w Hw. apply H in Hw. apply andb_true_iff in Hw as (A & B). split; [|intros ->; discriminate].
  rewrite forallb_forall in A. apply Forall_forall. intros d Hd. apply A in Hd. apply andb_true_iff in Hd as (X & Y). apply N.leb_le in X. apply N.leb_le in Y. lia.
Qed.
Lemma words_low w : In w disallowed_tags -> Forall (fun d => (97 <= d <= 122)%N) w /\ w <> [].
Proof.
  assert (G : Forall (fun w => Forall (fun d => (97 <= d <= 122)%N) w /\ w <> []) disallowed_tags); [|rewrite Forall_forall in G; apply G].
  apply forallb_Forall_low. vm_compute. reflexivity.
Qed.
Lemma word_case u w : Forall (fun d => (97 <= d <= 122)%N) w -> Forall2 (fun c d => c = d \/ c = (d - 32)%N) u w <-> Forall2 (fun c d => c = d \/ (c + 32)%N = d) u w.
Proof.
  intros Hw. split; intros F.
  - induction F as [|c d u w Hc F IH]; [constructor|]. inversion Hw; subst. constructor; [lia|auto].
  - induction F as [|c d u w Hc F IH]; [constructor|]. inversion Hw; subst. constructor; [lia|auto].
Qed.
Lemma word_letters u w : Forall (fun d => (97 <= d <= 122)%N) w -> Forall2 (fun c d => c = d \/ c = (d - 32)%N) u w -> Forall is_letter u.
Proof. intros Hw F. induction F as [|c d u w Hc F IH]; [constructor|]. inversion Hw; subst. constructor; [unfold is_letter; lia|auto]. Qed.
Lemma letter_word E c : word_ascii E -> is_letter c -> e_word E c = true.
Proof. intros W H. apply W; [unfold is_letter in H; lia|tauto]. Qed.
Lemma last_some (P : N -> Prop) u : u <> [] -> Forall P u -> forall d, exists c, last (map Some u) d = Some c /\ P c.
Proof.
  intros Hu F d. destruct (exists_last Hu) as (v & c & ->). exists c. rewrite map_app. cbn [map]. rewrite last_last. split; [reflexivity|]. apply Forall_app in F as (_ & F). inversion F. assumption.
Qed.
Lemma GDRH_iff E x n s : word_ascii E -> (x = 60%N \/ x = 47%N) -> tag_name n -> stop s -> (exists pv' s', M (re_GDRH E) (Some x) (n ++ s) pv' s') <-> forbidden n.
Proof.
  intros W Hx (c & r & -> & Hc & Hr) (y & t & -> & Hy).
  assert (Hwx : e_word E x = false).
  { destruct (e_word E x) eqn:X; [|reflexivity]. apply W in X; [|destruct Hx; subst; lia]. unfold is_letter, is_digit in X. destruct Hx; subst; lia. }
  assert (Hd : e_word E 45%N = false).
  { destruct (e_word E 45%N) eqn:X; [|reflexivity]. apply W in X; [|lia]. unfold is_letter, is_digit in X. lia. }
  assert (Hwy : e_word E y = false /\ ~ is_letter y).
  { assert (L : ~ is_letter y /\ ~ is_digit y /\ y <> 95%N /\ (y < 128)%N) by (unfold is_letter, is_digit; destruct Hy as [<-|[<-|[<-|[<-|[<-|[<-|[<-|[<-|[]]]]]]]]]; lia).
    split; [|tauto]. destruct (e_word E y) eqn:X; [|reflexivity]. apply W in X; tauto. }
  split.
  - intros (pv' & s' & H). apply M_alts in H as (q & Hq & H). apply in_map_iff in Hq as (w & <- & Hw). destruct (words_low w Hw) as (Lw & Nw).
    apply M_seqs_cons in H as (pv1 & s1 & (-> & -> & _) & H). apply M_seqs_cons in H as (pv2 & s2 & B & H). apply M_seqs_cons in H as (pv3 & s3 & (-> & -> & C) & _).
    apply M_word in B as (u & E1 & F & ->). apply (word_case u w Lw) in F as F'. pose proof (word_letters u w Lw F) as Lu.
    assert (Nu : u <> []) by (intros ->; inversion F; subst; contradiction).
    destruct (last_some _ u Nu Lu (Some x)) as (z & Ez & Hz). unfold at_boundary, is_word_at in C. rewrite Ez, (letter_word E z W Hz) in C.
    symmetry in E1. apply app_eq_app in E1 as (l & [(E1 & E2)|(E1 & E2)]).
    + destruct l as [|k l]; [rewrite app_nil_r in E1; subst u; exists w, (c :: r), []; rewrite app_nil_r; auto 6|]. exfalso. cbn in E2. injection E2 as <- _. rewrite E1 in Lu. apply Forall_app in Lu as (_ & Lu). inversion Lu; tauto.
    + exists w, u, l. split; [exact Hw|]. split; [exact E1|]. split; [exact F'|]. destruct l as [|k l]; [left; reflexivity|right]. subst s2. cbn [app hd_error] in C.
      assert (Hk : is_letter k \/ is_digit k \/ k = 45%N). { assert (K : Forall (fun x => is_letter x \/ is_digit x \/ x = 45%N) (c :: r)) by (constructor; auto). rewrite E1 in K. apply Forall_app in K as (_ & K). inversion K. assumption. }
      destruct (N.eq_dec k 45) as [->|Nk]; [eauto|]. exfalso. assert (Wk : e_word E k = true) by (apply W; [unfold is_letter, is_digit in Hk; lia|tauto]). rewrite Wk in C. discriminate.
  - intros (w & u & v & Hw & En & F & Hv). destruct (words_low w Hw) as (Lw & Nw). apply (word_case u w Lw) in F. pose proof (word_letters _ w Lw F) as Lu.
    destruct u as [|c' u]; [inversion F; subst; contradiction|]. cbn [app] in En. injection En as <- En.
    destruct (last_some _ (c :: u) ltac:(discriminate) Lu (Some x)) as (z & Ez & Hz).
    exists (last (map Some (c :: u)) (Some x)), (v ++ y :: t). apply M_alts. eexists. split; [apply in_map; exact Hw|]. apply M_seqs_cons. exists (Some x), ((c :: r) ++ y :: t).
    split; [split; [reflexivity|]; split; [reflexivity|]; unfold at_boundary, is_word_at; cbn [hd_error app]; rewrite Hwx, (letter_word E c W Hc); reflexivity|].
    apply M_seqs_cons. exists (last (map Some (c :: u)) (Some x)), (v ++ y :: t). split; [apply M_word; exists (c :: u); rewrite En; cbn [app]; rewrite <- app_assoc; auto|]. apply M_seqs_cons. eexists. eexists.
    split; [|split; reflexivity]. split; [reflexivity|]. split; [reflexivity|]. unfold at_boundary, is_word_at. rewrite Ez. destruct Hv as [->|(v' & ->)]; cbn [hd_error app]; rewrite (letter_word E z W Hz), ?(proj1 Hwy), ?Hd; reflexivity.
Qed.
Lemma tn_github E : word_ascii E -> tn_ok (re_TN_github E) (fun n => ~ forbidden n).
Proof.
  intros W. split.
  - intros pv s pv' s' (pv1 & s1 & (-> & -> & _) & B). exact B.
  - intros x n s Hx Hn Hf Hs. destruct (proj2 tn_cmark x n s Hx Hn I Hs) as (pv' & H). exists pv', (Some x), (n ++ s). split; [|exact H]. split; [reflexivity|]. split; [reflexivity|].
    intros pv1 s1 G. apply Hf. apply (GDRH_iff E x n s W Hx Hn Hs). eauto.
Qed.
Lemma TN_forbidden E x n s pv' s' : word_ascii E -> (x = 60%N \/ x = 47%N) -> tag_name n -> forbidden n -> stop s -> ~ M (re_TN_github E) (Some x) (n ++ s) pv' s'.
Proof.
  intros W Hx Hn Hf Hs (pv1 & s1 & (_ & _ & G) & _). apply (GDRH_iff E x n s W Hx Hn Hs) in Hf as (pv2 & s2 & H). eapply G. exact H.
Qed.
Lemma blank_stop b s : blanks b -> stop s -> stop (b ++ s).
Proof. intros H Hs. destruct H as [|c b Hc H]; [exact Hs|]. exists c, (b ++ s). split; [reflexivity|]. destruct Hc as [->| ->]; cbn; auto. Qed.
Definition fin (slash : bool) (t : str) : str := (if slash then [47%N] else []) ++ 62%N :: t.
Lemma fin_stop b t : stop (fin b t).
Proof. destruct b; [exists 47%N|exists 62%N]; eexists; (split; [reflexivity|cbn; auto]). Qed.
Lemma attrs_stop l s : Forall good_attr l -> stop s -> stop (concat (map show_attr l) ++ s).
Proof.
  intros H Hs. destruct H as [|a l (Hn & Hb & _) H]; [exact Hs|]. cbn [map concat]. unfold show_attr. rewrite <- !app_assoc. destruct (a_gap a) as [|c g]; [contradiction|]. inversion Hb as [|? ? Hc _]; subst.
  eexists. eexists. split; [reflexivity|]. destruct Hc as [->| ->]; cbn; auto.
Qed.

(** *** Tags *)
Definition OT (tn gap tail : re) : re := RSeqs [RChr 60; tn; RStar (AT gap); tail; ROpt (RChr 47); RChr 62].
Definition CT (tn tail : re) : re := RSeqs [RLit (lit "</"); tn; tail; RChr 62].
Lemma show_open n a b sl t : show (Open n a b sl) ++ t = 60%N :: n ++ concat (map show_attr a) ++ b ++ fin sl t.
Proof. cbn [show app]. unfold fin. rewrite <- !app_assoc. reflexivity. Qed.
Lemma show_close n b t : show (Close n b) ++ t = 60%N :: 47%N :: n ++ b ++ fin false t.
Proof. cbn [show app]. unfold fin. rewrite <- !app_assoc. reflexivity. Qed.
Lemma tn_quietly tn good : tn_ok tn good -> quietly tn.
Proof. intros (H & _) pv s pv' s' A. apply H, quietly_tagname in A. exact A. Qed.
Lemma OT_open tn gap tail good n a b sl pv t : tn_ok tn good -> gap_ok gap -> tail_ok tail -> tag_name n -> good n -> Forall good_attr a -> blanks b ->
  rmatch (OT tn gap tail) pv (show (Open n a b sl) ++ t) (fun _ u => Some u) = Some t.
Proof.
  intros Htn Hgap Htail Hn Hg Ha Hb. unfold OT. replace (show (Open n a b sl) ++ t) with ((60%N :: n ++ concat (map show_attr a) ++ b ++ (if sl then [47%N] else [])) ++ 62%N :: t) by (rewrite show_open; unfold fin; cbn [app]; rewrite <- !app_assoc; reflexivity).
  apply (quiet_once [RChr 60; tn; RStar (AT gap); tail; ROpt (RChr 47)]).
  - repeat apply Forall_cons; [apply quietly_chr; discriminate|eapply tn_quietly; exact Htn|apply quietly_star, AT_quietly, Hgap|apply Htail|apply quietly_alt; [apply quietly_chr; discriminate|apply quietly_eps]|apply Forall_nil].
  - apply quiet_char; try discriminate. apply quiet_app; [apply tag_name_quiet, Hn|]. apply quiet_app; [apply attrs_quiet, Ha|]. apply quiet_app; [apply blanks_quiet, Hb|]. destruct sl; [apply quiet_char; try discriminate; constructor|constructor].
  - replace ((60%N :: n ++ concat (map show_attr a) ++ b ++ (if sl then [47%N] else [])) ++ 62%N :: t) with (60%N :: n ++ concat (map show_attr a) ++ b ++ fin sl t) by (unfold fin; cbn [app]; rewrite <- !app_assoc; reflexivity).
    destruct (proj2 Htn 60%N n (concat (map show_attr a) ++ b ++ fin sl t) (or_introl eq_refl) Hn Hg) as (pv1 & A); [apply attrs_stop; [exact Ha|]; apply blank_stop; [exact Hb|apply fin_stop]|].
    destruct (ATs_make gap Hgap a Ha pv1 (b ++ fin sl t)) as (pv2 & B). destruct (proj2 Htail b pv2 (fin sl t) Hb) as (pv3 & C).
    exists (Some 62%N). apply M_seqs_cons. exists (Some 60%N), (n ++ concat (map show_attr a) ++ b ++ fin sl t). split; [apply M_chr; auto|]. apply M_seqs_cons. eexists. eexists. split; [exact A|]. apply M_seqs_cons. eexists. eexists. split; [exact B|].
    apply M_seqs_cons. eexists. eexists. split; [exact C|]. apply M_seqs_cons. destruct sl.
    + exists (Some 47%N), (62%N :: t). split; [left; apply M_chr; auto|]. apply M_seqs_cons. exists (Some 62%N), t. split; [apply M_chr; auto|split; reflexivity].
    + exists pv3, (62%N :: t). split; [right; split; reflexivity|]. apply M_seqs_cons. exists (Some 62%N), t. split; [apply M_chr; auto|split; reflexivity].
Qed.
Lemma CT_close tn ctail good n b pv t : tn_ok tn good -> quietly ctail -> (forall pv s, exists pv', M ctail pv (b ++ s) pv' s) -> tag_name n -> good n -> blanks b ->
  rmatch (CT tn ctail) pv (show (Close n b) ++ t) (fun _ u => Some u) = Some t.
Proof.
  intros Htn Hq Hctail Hn Hg Hb. unfold CT. replace (show (Close n b) ++ t) with ((60%N :: 47%N :: n ++ b) ++ 62%N :: t) by (rewrite show_close; unfold fin; cbn [app]; rewrite <- !app_assoc; reflexivity).
  apply (quiet_once [RLit (lit "</"); tn; ctail]).
  - repeat apply Forall_cons; [apply quietly_seq; apply quietly_chr; discriminate|eapply tn_quietly; exact Htn|exact Hq|apply Forall_nil].
  - apply quiet_char; try discriminate. apply quiet_char; try discriminate. apply quiet_app; [apply tag_name_quiet, Hn|apply blanks_quiet, Hb].
  - cbn [app]. rewrite <- app_assoc. destruct (proj2 Htn 47%N n (b ++ 62%N :: t) (or_intror eq_refl) Hn Hg) as (pv1 & A); [apply blank_stop; [exact Hb|apply (fin_stop false)]|].
    destruct (Hctail pv1 (62%N :: t)) as (pv2 & B). exists (Some 62%N). apply M_seqs_cons. exists (Some 47%N), (n ++ b ++ 62%N :: t). split.
    + exists (Some 60%N), (47%N :: n ++ b ++ 62%N :: t). split; [exists 60%N; auto|]. exists 47%N. auto.
    + apply M_seqs_cons. eexists. eexists. split; [exact A|]. apply M_seqs_cons. eexists. eexists. split; [exact B|]. apply M_seqs_cons. exists (Some 62%N), t. split; [apply M_chr; auto|split; reflexivity].
Qed.
Lemma OT_first tn gap tail good pv c s pv' s' : tn_ok tn good -> M (OT tn gap tail) pv (60%N :: c :: s) pv' s' -> is_letter c.
Proof.
  intros Htn H. apply M_seqs_cons in H as (pv1 & s1 & A & H). apply M_chr in A as (A & _). injection A as <-. apply M_seqs_cons in H as (pv2 & s2 & B & H).
  apply (proj1 Htn) in B. apply M_name in B as (d & u & E & Hc & _). injection E as <- _. apply alpha_iff in Hc. exact Hc.
Qed.

(** *** Comments, instructions, declarations, sections *)
(** No [L] begins inside [u] when [s] follows. *)
Definition clear (L u s : str) : Prop := forall a b x, u = a ++ b -> b <> [] -> b ++ s <> L ++ x.
Lemma first_end L w t u s : clear L w (L ++ t) -> clear L u (L ++ s) -> w ++ L ++ t = u ++ L ++ s -> w = u /\ t = s.
Proof.
  intros Hw Hu E. apply app_eq_app in E as (l & [(E1 & E2)|(E1 & E2)]); (destruct l as [|c l]; [rewrite app_nil_r in E1; cbn [app] in E2; apply app_inv_head in E2; auto|]).
  - destruct (Hw u (c :: l) s E1 ltac:(discriminate)). symmetry. exact E2.
  - destruct (Hu w (c :: l) t E1 ltac:(discriminate)). symmetry. exact E2.
Qed.
Definition guarded (q : re) : re := RSeq (RNot q) RAny.
Lemma guarded_one q pv s pv' s' : M (guarded q) pv s pv' s' <-> exists c, s = c :: s' /\ pv' = Some c /\ forall pv1 s1, ~ M q pv s pv1 s1.
Proof.
  split.
  - intros (pv1 & s1 & (-> & -> & H) & (c & -> & _ & ->)). exists c. auto.
  - intros (c & -> & -> & H). exists pv, (c :: s'). split; [split; [reflexivity|split; [reflexivity|exact H]]|]. exists c. auto.
Qed.
Lemma guarded_star q pv s pv' s' : star (M (guarded q)) pv s pv' s' -> exists u, s = u ++ s' /\ forall a b, u = a ++ b -> b <> [] -> exists pv0, forall pv1 s1, ~ M q pv0 (b ++ s') pv1 s1.
Proof.
  induction 1 as [pv s|pv s pv1 s1 pv2 s2 A B (u & -> & Hu)].
  - exists []. split; [reflexivity|]. intros [|? ?] b E Hb; [cbn in E; subst b; contradiction|discriminate].
  - apply guarded_one in A as (c & -> & -> & H). exists (c :: u). split; [reflexivity|]. intros a b E Hb. destruct a as [|x a]; cbn [app] in E; [subst b; exists pv; exact H|]. injection E as <- E. eapply Hu; eassumption.
Qed.
Lemma guarded_make q u s' : (forall a b, u = a ++ b -> b <> [] -> forall pv pv1 s1, ~ M q pv (b ++ s') pv1 s1) -> forall pv, exists pv', star (M (guarded q)) pv (u ++ s') pv' s'.
Proof.
  induction u as [|c u IH]; intros H pv; [exists pv; constructor|]. destruct (IH ltac:(intros a b E Hb; apply (H (c :: a) b); [cbn; f_equal; exact E|exact Hb]) (Some c)) as (pv' & B). exists pv'. eapply star_more; [|exact B].
  apply guarded_one. exists c. split; [reflexivity|]. split; [reflexivity|]. intros pv1 s1. apply (H [] (c :: u) eq_refl). discriminate.
Qed.
Lemma plus_star a pv s pv' s' : M (RPlus a) pv s pv' s' -> star (M a) pv s pv' s'.
Proof. intros (pv1 & s1 & A & B). eapply star_more; [exact A|exact B]. Qed.
Lemma star_plus a pv s pv' s' : star (M a) pv s pv' s' -> length s' < length s -> M (RPlus a) pv s pv' s'.
Proof. intros H Hl. destruct H as [|pv s pv1 s1 pv2 s2 A B]; [lia|]. exists pv1, s1. split; [exact A|exact B]. Qed.
Lemma guarded_plus_make q c u s' : (forall a b, c :: u = a ++ b -> b <> [] -> forall pv pv1 s1, ~ M q pv (b ++ s') pv1 s1) -> forall pv, exists pv', M (RPlus (guarded q)) pv ((c :: u) ++ s') pv' s'.
Proof.
  intros H pv. destruct (guarded_make q u s' ltac:(intros a b E Hb; apply (H (c :: a) b); [cbn; f_equal; exact E|exact Hb]) (Some c)) as (pv' & B). exists pv', (Some c), (u ++ s'). split; [|exact B].
  apply guarded_one. exists c. split; [reflexivity|]. split; [reflexivity|]. intros pv1 s1. apply (H [] (c :: u) eq_refl). discriminate.
Qed.
Lemma clear_star L pv s pv' s' : L <> [] -> star (M (guarded (RLit L))) pv s pv' s' -> exists u, s = u ++ s' /\ clear L u s'.
Proof.
  intros HL H. apply guarded_star in H as (u & -> & Hu). exists u. split; [reflexivity|]. intros a b x E Hb E2. destruct (Hu a b E Hb) as (pv0 & G). rewrite E2 in G. destruct (lit_make L pv0 x HL) as (pv1 & K). eapply G. exact K.
Qed.
Lemma clear_not L u s : clear L u s -> forall a b, u = a ++ b -> b <> [] -> forall pv pv1 s1, ~ M (RLit L) pv (b ++ s) pv1 s1.
Proof. intros H a b E Hb pv pv1 s1 G. apply M_lit in G. eapply H; eassumption. Qed.
Lemma without_pi w t : without (lit "?>") w -> clear (lit "?>") w (lit "?>" ++ t).
Proof.
  intros H a b x E Hb G. destruct b as [|c [|d b]]; [contradiction|discriminate|]. cbn in G. injection G as -> -> G. apply (H a b). rewrite E. reflexivity.
Qed.
Lemma without_cd w t : without (lit "]]>") w -> clear (lit "]]>") w (lit "]]>" ++ t).
Proof.
  intros H a b x E Hb G. destruct b as [|c [|d [|e b]]]; [contradiction|discriminate|discriminate|]. cbn in G. injection G as -> -> -> G. apply (H a b). rewrite E. reflexivity.
Qed.
Lemma without_co w t : without (lit "--") w -> last w 0%N <> 45%N -> clear (lit "--") w (lit "--" ++ t).
Proof.
  intros H Hl a b x E Hb G. destruct b as [|c [|d b]]; [contradiction| |].
  - cbn in G. injection G as -> _. apply Hl. rewrite E. apply last_last.
  - cbn in G. injection G as -> -> G. apply (H a b). rewrite E. reflexivity.
Qed.
Lemma PI_match w pv t : without (lit "?>") w -> rmatch re_PI pv (show (Instruction w) ++ t) (fun _ u => Some u) = Some t.
Proof.
  intros Hw. cbn [show]. rewrite <- !app_assoc. apply rmatch_only.
  - intros pv' s' H. apply M_seqs_cons in H as (pv1 & s1 & A & H). apply M_lit in A. apply app_inv_head in A. subst s1. apply M_seqs_cons in H as (pv2 & s2 & B & H). apply M_seqs_cons in H as (pv3 & s3 & C & H). apply M_seqs_nil in H as (-> & ->).
    apply M_lit in C. subst s2. apply (clear_star (lit "?>")) in B as (u & E & Hu); [|discriminate]. apply first_end in E as (_ & ->); [reflexivity|apply without_pi, Hw|exact Hu].
  - destruct (lit_make (lit "<?") pv (w ++ lit "?>" ++ t) ltac:(discriminate)) as (pv1 & A). destruct (guarded_make (RLit (lit "?>")) w (lit "?>" ++ t) (clear_not _ _ _ (without_pi w t Hw)) pv1) as (pv2 & B). destruct (lit_make (lit "?>") pv2 t ltac:(discriminate)) as (pv3 & C).
    exists pv3. apply M_seqs_cons. eexists. eexists. split; [exact A|]. apply M_seqs_cons. eexists. eexists. split; [exact B|]. apply M_seqs_cons. eexists. eexists. split; [exact C|split; reflexivity].
Qed.
Lemma CD_match w pv t : w <> [] -> without (lit "]]>") w -> rmatch re_CD pv (show (Cdata w) ++ t) (fun _ u => Some u) = Some t.
Proof.
  intros Hn Hw. cbn [show]. rewrite <- !app_assoc. apply rmatch_only.
  - intros pv' s' H. apply M_seqs_cons in H as (pv1 & s1 & A & H). apply M_lit in A. apply app_inv_head in A. subst s1. apply M_seqs_cons in H as (pv2 & s2 & B & H). apply M_seqs_cons in H as (pv3 & s3 & C & H). apply M_seqs_nil in H as (-> & ->).
    apply M_lit in C. subst s2. apply plus_star, (clear_star (lit "]]>")) in B as (u & E & Hu); [|discriminate]. apply first_end in E as (_ & ->); [reflexivity|apply without_cd, Hw|exact Hu].
  - destruct w as [|c w]; [contradiction|]. destruct (lit_make (lit "<![CDATA[") pv ((c :: w) ++ lit "]]>" ++ t) ltac:(discriminate)) as (pv1 & A). destruct (guarded_plus_make (RLit (lit "]]>")) c w (lit "]]>" ++ t) (clear_not _ _ _ (without_cd _ t Hw)) pv1) as (pv2 & B). destruct (lit_make (lit "]]>") pv2 t ltac:(discriminate)) as (pv3 & C).
    exists pv3. apply M_seqs_cons. eexists. eexists. split; [exact A|]. apply M_seqs_cons. eexists. eexists. split; [exact B|]. apply M_seqs_cons. eexists. eexists. split; [exact C|split; reflexivity].
Qed.
Definition co_guard : re := RSeq (RNot (RAlt (RChr 62) (RLit (lit "->")))) (RSeq (RNot (RLit (lit "--"))) RAny).
Lemma co_one pv s pv' s' : M co_guard pv s pv' s' <-> exists c, s = c :: s' /\ pv' = Some c /\ c <> 62%N /\ (forall x, s <> lit "->" ++ x) /\ forall x, s <> lit "--" ++ x.
Proof.
  split.
  - intros (pv1 & s1 & (-> & -> & H1) & (pv2 & s2 & (-> & -> & H2) & (c & -> & _ & ->))). exists c. split; [reflexivity|]. split; [reflexivity|]. split; [|split].
    + intros ->. eapply H1. left. apply M_chr. auto.
    + intros x E. destruct (lit_make (lit "->") pv x ltac:(discriminate)) as (pv1 & K). eapply H1. right. rewrite E. exact K.
    + intros x E. destruct (lit_make (lit "--") pv x ltac:(discriminate)) as (pv1 & K). eapply H2. rewrite E. exact K.
  - intros (c & -> & -> & H1 & H2 & H3). exists pv, (c :: s'). split; [split; [reflexivity|split; [reflexivity|]]|exists pv, (c :: s'); split; [split; [reflexivity|split; [reflexivity|]]|exists c; auto]].
    + intros pv1 s1 [G|G]; [apply M_chr in G as (G & _); congruence|apply M_lit in G; eapply H2; exact G].
    + intros pv1 s1 G. apply M_lit in G. eapply H3. exact G.
Qed.
Lemma co_star pv s pv' s' : star (M co_guard) pv s pv' s' -> exists u, s = u ++ s' /\ clear (lit "--") u s'.
Proof.
  induction 1 as [pv s|pv s pv1 s1 pv2 s2 A B (u & -> & Hu)].
  - exists []. split; [reflexivity|]. intros [|? ?] b x E Hb; [cbn in E; subst b; contradiction|discriminate].
  - apply co_one in A as (c & -> & -> & _ & _ & H). exists (c :: u). split; [reflexivity|]. intros a b x E Hb. destruct a as [|y a]; cbn [app] in E; [subst b; apply H|]. injection E as <- E. eapply Hu; eassumption.
Qed.
Lemma co_make u s' : ~ In 62%N u -> (forall x, s' <> 62%N :: x) -> clear (lit "--") u s' -> forall pv, exists pv', star (M co_guard) pv (u ++ s') pv' s'.
Proof.
  intros H1 H2 H3. induction u as [|c u IH]; intros pv; [exists pv; constructor|].
  destruct (IH (fun G => H1 (or_intror G)) ltac:(intros a b x E Hb; apply (H3 (c :: a) b); [cbn; f_equal; exact E|exact Hb]) (Some c)) as (pv' & B). exists pv'. eapply star_more; [|exact B].
  apply co_one. exists c. split; [reflexivity|]. split; [reflexivity|]. split; [intros ->; apply H1; left; reflexivity|]. split; [|intros x; apply (H3 [] (c :: u) x eq_refl); discriminate].
  intros x E. cbn in E. injection E as _ E. destruct u as [|d u]; cbn [app] in E; [eapply H2; exact E|]. injection E as -> _. apply H1. right. left. reflexivity.
Qed.
Lemma CO_match w pv t : 2 <= length w -> ~ In 62%N w -> without (lit "--") w -> last w 0%N <> 45%N -> rmatch re_CO pv (show (Comment w) ++ t) (fun _ u => Some u) = Some t.
Proof.
  intros Hl Hg Hw He. pose proof (without_co w (62%N :: t) Hw He) as Hc. cbn [show]. rewrite <- !app_assoc. apply rmatch_only.
  - intros pv' s' H. apply M_seqs_cons in H as (pv1 & s1 & A & H). apply M_lit in A. apply app_inv_head in A. subst s1. apply M_seqs_cons in H as (pv2 & s2 & B & H). apply M_seqs_cons in H as (pv3 & s3 & (-> & -> & C) & H).
    apply M_seqs_cons in H as (pv4 & s4 & D & H). apply M_seqs_cons in H as (pv5 & s5 & F & H). apply M_seqs_nil in H as (-> & ->). apply M_lit in F. subst s4. apply plus_star, co_star in B as (u & E & Hu).
    destruct D as [(x & -> & _ & _)|(_ & <-)]; [|exfalso; eapply (C (Some 45%N)); apply M_chr; split; reflexivity].
    assert (Hx : x <> 45%N) by (intros ->; eapply (C (Some 45%N)); apply M_chr; split; reflexivity).
    replace (u ++ x :: lit "-->" ++ s5) with ((u ++ [x]) ++ lit "--" ++ 62%N :: s5) in E by (rewrite <- app_assoc; reflexivity). change (lit "-->" ++ t) with (lit "--" ++ 62%N :: t) in E.
    apply first_end in E as (_ & E); [injection E as ->; reflexivity|exact Hc|].
    intros a b y Eb Hb G. destruct (exists_last Hb) as (b' & z & ->). rewrite app_assoc in Eb. apply app_inj_tail in Eb as (Eb & <-). destruct b' as [|c b']; [cbn in G; injection G as G _; contradiction|].
    apply (Hu a (c :: b') y Eb ltac:(discriminate)). rewrite <- app_assoc in G. exact G.
  - destruct (@exists_last _ w) as (u & z & ->); [destruct w; [cbn in Hl; lia|discriminate]|]. rewrite last_last in He. rewrite app_length in Hl. cbn [length] in Hl.
    destruct (lit_make (lit "<!--") pv ((u ++ [z]) ++ lit "-->" ++ t) ltac:(discriminate)) as (pv1 & A).
    assert (B : exists pv2, M (RPlus co_guard) pv1 ((u ++ [z]) ++ lit "-->" ++ t) pv2 (z :: lit "-->" ++ t)).
    { rewrite <- app_assoc. cbn [app]. assert (Hcu : clear (lit "--") u (z :: lit "-->" ++ t)).
      { intros a b x E Hb G. apply (Hc a (b ++ [z]) x); [rewrite E, <- app_assoc; reflexivity|destruct b; discriminate|]. rewrite <- app_assoc. exact G. }
      assert (Hz : forall x, z :: lit "-->" ++ t <> 62%N :: x) by (intros x E; injection E as -> _; apply Hg; apply in_app_iff; right; left; reflexivity).
      assert (Hgu : ~ In 62%N u) by (intros G; apply Hg; apply in_app_iff; left; exact G). destruct u as [|c u]; [cbn in Hl; lia|].
      destruct (co_make (c :: u) (z :: lit "-->" ++ t) Hgu Hz Hcu pv1) as (pv2 & S). exists pv2. apply star_plus; [exact S|]. rewrite app_length. cbn [length]. lia. }
    destruct B as (pv2 & B). destruct (lit_make (lit "-->") (Some z) t ltac:(discriminate)) as (pv3 & C). exists pv3. apply M_seqs_cons. eexists. eexists. split; [exact A|]. apply M_seqs_cons. eexists. eexists. split; [exact B|].
    apply M_seqs_cons. exists pv2, (z :: lit "-->" ++ t). split; [split; [reflexivity|split; [reflexivity|]]; intros pv4 s4 G; apply M_chr in G as (G & _); congruence|].
    apply M_seqs_cons. exists (Some z), (lit "-->" ++ t). split; [left; exists z; auto|]. apply M_seqs_cons. eexists. eexists. split; [exact C|split; reflexivity].
Qed.
Lemma gt_star pv s pv' s' : star (M (guarded (RChr 62))) pv s pv' s' -> exists u, s = u ++ s' /\ ~ In 62%N u.
Proof.
  intros H. apply guarded_star in H as (u & -> & Hu). exists u. split; [reflexivity|]. intros G. apply in_split in G as (a & b & E). destruct (Hu a (62%N :: b) E ltac:(discriminate)) as (pv0 & K). apply (K (Some 62%N) (b ++ s')). apply M_chr. auto.
Qed.
Lemma gt_make c u s pv : ~ In 62%N (c :: u) -> exists pv', M (RPlus (guarded (RChr 62))) pv ((c :: u) ++ s) pv' s.
Proof.
  intros H. apply guarded_plus_make. intros a b E Hb pv0 pv1 s1 G. apply M_chr in G as (G & _). destruct b as [|d b]; [contradiction|]. cbn in G. injection G as -> _. apply H. rewrite E. apply in_app_iff. right. left. reflexivity.
Qed.
Lemma upper_plus pv s pv' s' : M (RPlus (RSet ascii_upper)) pv s pv' s' -> exists u, s = u ++ s' /\ ~ In 62%N u.
Proof.
  intros H. apply plus_star in H. apply star_set in H as (u & -> & F & _). exists u. split; [reflexivity|]. intros G. rewrite Forall_forall in F. apply F in G. discriminate.
Qed.
Lemma upper_make c u pv s : Forall (fun c => (65 <= c <= 90)%N) (c :: u) -> exists pv', M (RPlus (RSet ascii_upper)) pv ((c :: u) ++ s) pv' s.
Proof.
  intros F. assert (F' : Forall (fun x => ascii_upper x = true) (c :: u)) by (eapply Forall_impl; [|exact F]; intros x Hx; unfold ascii_upper, in_range; apply andb_true_iff; rewrite !N.leb_le; exact Hx).
  inversion F' as [|? ? Hc Hr]; subst. eexists. exists (Some c), (u ++ s). split; [exists c; auto|]. apply star_set. exists u. split; [reflexivity|]. split; [exact Hr|reflexivity].
Qed.
Lemma DE_end name gap w t s' u : Forall (fun c => (65 <= c <= 90)%N) name -> blanks gap -> ~ In 62%N w -> ~ In 62%N u -> name ++ gap ++ w ++ 62%N :: t = u ++ 62%N :: s' -> s' = t.
Proof.
  intros Hn Hb Hw Hu E. replace (name ++ gap ++ w ++ 62%N :: t) with ((name ++ gap ++ w) ++ 62%N :: t) in E by (rewrite <- !app_assoc; reflexivity). apply split_first in E as (_ & E); [symmetry; exact E| |exact Hu].
  rewrite !in_app_iff. intros [G|[G|G]]; [rewrite Forall_forall in Hn; apply Hn in G; lia|unfold blanks in Hb; rewrite Forall_forall in Hb; apply Hb in G; destruct G; discriminate|contradiction].
Qed.
Lemma DE_cmark_match name gap w pv t : name <> [] -> Forall (fun c => (65 <= c <= 90)%N) name -> blanks gap -> w <> [] -> ~ In 62%N w -> rmatch re_DE_cmark pv (show (Declaration name gap w) ++ t) (fun _ u => Some u) = Some t.
Proof.
  intros Hn Hu Hb Hw Hg. cbn [show]. rewrite <- !app_assoc. change (lit ">" ++ t) with (62%N :: t). apply rmatch_only.
  - intros pv' s' H. apply M_seqs_cons in H as (pv1 & s1 & A & H). apply M_lit in A. apply app_inv_head in A. subst s1. apply M_seqs_cons in H as (pv2 & s2 & B & H). apply M_seqs_cons in H as (pv3 & s3 & C & H). apply M_seqs_cons in H as (pv4 & s4 & D & H). apply M_seqs_nil in H as (-> & ->).
    apply M_chr in D as (-> & _). apply upper_plus in B as (u & E & F). apply plus_star, gt_star in C as (v & -> & G). rewrite (app_assoc u) in E. apply DE_end in E; auto. rewrite in_app_iff. tauto.
  - destruct name as [|c name]; [contradiction|]. destruct (lit_make (lit "<!") pv ((c :: name) ++ gap ++ w ++ 62%N :: t) ltac:(discriminate)) as (pv1 & A). destruct (upper_make c name pv1 (gap ++ w ++ 62%N :: t) Hu) as (pv2 & B).
    assert (C : exists pv3, M (RPlus (guarded (RChr 62))) pv2 (gap ++ w ++ 62%N :: t) pv3 (62%N :: t)).
    { rewrite app_assoc. destruct (gap ++ w) as [|d v] eqn:E; [apply app_eq_nil in E; tauto|]. apply gt_make. rewrite <- E, in_app_iff. intros [G|G]; [|contradiction]. unfold blanks in Hb; rewrite Forall_forall in Hb; apply Hb in G; destruct G; discriminate. }
    destruct C as (pv3 & C). exists (Some 62%N). apply M_seqs_cons. eexists. eexists. split; [exact A|]. apply M_seqs_cons. eexists. eexists. split; [exact B|]. apply M_seqs_cons. eexists. eexists. split; [exact C|]. apply M_seqs_cons. exists (Some 62%N), t. split; [apply M_chr; auto|split; reflexivity].
Qed.
Lemma DE_github_match name gap w pv t : name <> [] -> Forall (fun c => (65 <= c <= 90)%N) name -> gap <> [] -> blanks gap -> w <> [] -> ~ In 62%N w -> rmatch re_DE_github pv (show (Declaration name gap w) ++ t) (fun _ u => Some u) = Some t.
Proof.
  intros Hn Hu Hb0 Hb Hw Hg. cbn [show]. rewrite <- !app_assoc. change (lit ">" ++ t) with (62%N :: t). apply rmatch_only.
  - intros pv' s' H. apply M_seqs_cons in H as (pv1 & s1 & A & H). apply M_lit in A. apply app_inv_head in A. subst s1. apply M_seqs_cons in H as (pv2 & s2 & B & H). apply M_seqs_cons in H as (pv3 & s3 & W & H). apply M_seqs_cons in H as (pv4 & s4 & C & H). apply M_seqs_cons in H as (pv5 & s5 & D & H). apply M_seqs_nil in H as (-> & ->).
    apply M_chr in D as (-> & _). apply upper_plus in B as (u & E & F). apply plus_star, gt_star in C as (v & -> & G). apply plus_star in W. apply star_set in W as (b & -> & K & _).
    replace (u ++ b ++ v ++ 62%N :: s5) with ((u ++ b ++ v) ++ 62%N :: s5) in E by (rewrite <- !app_assoc; reflexivity). apply DE_end in E; auto. rewrite !in_app_iff. intros [X|[X|X]]; try contradiction. rewrite Forall_forall in K. apply K in X. discriminate.
  - destruct name as [|c name]; [contradiction|]. destruct (lit_make (lit "<!") pv ((c :: name) ++ gap ++ w ++ 62%N :: t) ltac:(discriminate)) as (pv1 & A). destruct (upper_make c name pv1 (gap ++ w ++ 62%N :: t) Hu) as (pv2 & B).
    destruct (oneof_plus_make space6 gap pv2 (w ++ 62%N :: t) Hb0 (blanks_ws _ Hb)) as (pv3 & W). destruct w as [|d w]; [contradiction|]. destruct (gt_make d w (62%N :: t) pv3 Hg) as (pv4 & C).
    exists (Some 62%N). apply M_seqs_cons. eexists. eexists. split; [exact A|]. apply M_seqs_cons. eexists. eexists. split; [exact B|]. apply M_seqs_cons. eexists. eexists. split; [exact W|]. apply M_seqs_cons. eexists. eexists. split; [exact C|]. apply M_seqs_cons. exists (Some 62%N), t. split; [apply M_chr; auto|split; reflexivity].
Qed.
Lemma no_bracket r pv c s : bracketed r -> c <> 60%N -> rmatch r pv (c :: s) (fun _ u => Some u) = None.
Proof. intros Hr Hc. apply rmatch_none. intros pv' s' H. apply Hr in H as (v & E). congruence. Qed.

(** *** Substitution in a list of pieces *)
Lemma resub_kept r w t : (forall u c v, w = u ++ c :: v -> forall pv, rmatch r pv (c :: v ++ t) (fun _ x => Some x) = None) -> forall pv, exists pv', resub r pv (w ++ t) 0 = w ++ resub r pv' t 0.
Proof.
  induction w as [|c w IH]; intros H pv; [exists pv; reflexivity|]. cbn [app resub]. rewrite (H [] c w eq_refl). destruct (IH (fun u d v E => H (c :: u) d v (f_equal (cons c) E)) (Some c)) as (pv' & ->). exists pv'. reflexivity.
Qed.
Lemma resub_gone r c w t pv : rmatch r pv ((c :: w) ++ t) (fun _ x => Some x) = Some t -> exists pv', resub r pv ((c :: w) ++ t) 0 = resub r pv' t 0.
Proof.
  intros H. cbn [app resub] in *. rewrite H. replace (length (c :: w ++ t) - length t) with (S (length w)) by (cbn [length]; rewrite app_length; lia). cbv iota. apply resub_drop.
Qed.
Definition dropped (del : piece -> bool) (l : list piece) : list piece := filter (fun x => negb (del x)) l.
(** Either no '<' at all, or only at the beginning and [r] does not match there. *)
Definition safe_from (r : re) (x : piece) : Prop :=
  ~ In 60%N (show x) \/ exists w, show x = 60%N :: w /\ ~ In 60%N w /\ forall pv t, rmatch r pv (show x ++ t) (fun _ u => Some u) = None.
Lemma resub_pieces r del (l : list piece) : bracketed r ->
  (forall x, In x l -> del x = true -> show x <> [] /\ forall pv t, rmatch r pv (show x ++ t) (fun _ u => Some u) = Some t) ->
  (forall x, In x l -> del x = false -> safe_from r x) ->
  re_delete r (html l) = html (dropped del l).
Proof.
  intros Hr A B. unfold re_delete, html. generalize (@None N) as pv. induction l as [|x l IH]; intros pv; [reflexivity|]. cbn [map concat dropped filter].
  assert (IH' : forall pv, resub r pv (concat (map show l)) 0 = concat (map show (dropped del l))) by (apply IH; intros y Hy; [apply A|apply B]; right; exact Hy). clear IH. destruct (del x) eqn:D; cbn [negb].
  - destruct (A x (or_introl eq_refl) D) as (N' & A'). specialize (A' pv (concat (map show l))). destruct (show x) as [|c w]; [contradiction|].
    destruct (resub_gone r c w _ pv A') as (pv' & ->). apply IH'.
  - destruct (resub_kept r (show x) (concat (map show l))) with (pv := pv) as (pv' & ->); [|cbn [map concat]; f_equal; apply IH'].
    intros u c v E pv1. destruct (B x (or_introl eq_refl) D) as [G|(w & Ew & Hw & G)].
    + apply no_bracket; [exact Hr|]. intros ->. apply G. rewrite E. apply in_app_iff. right. left. reflexivity.
    + destruct u as [|d u].
      * specialize (G pv1 (concat (map show l))). rewrite E in G. exact G.
      * apply no_bracket; [exact Hr|]. intros ->. apply Hw. rewrite Ew in E. cbn [app] in E. injection E as _ E. rewrite E. apply in_app_iff. right. left. reflexivity.
Qed.
(** No '<' in a piece but at its beginning. *)
Lemma in_tag_name n : tag_name n -> ~ In 60%N n.
Proof. intros (x & r & -> & Hx & Hr) H. assert (F : Forall (fun x => is_letter x \/ is_digit x \/ x = 45%N) (x :: r)) by (constructor; auto). rewrite Forall_forall in F. apply F in H. unfold is_letter, is_digit in H. lia. Qed.
Lemma in_blanks b : blanks b -> ~ In 60%N b.
Proof. unfold blanks. rewrite Forall_forall. intros H G. apply H in G as [G|G]; discriminate. Qed.
Definition plain_tag (x : piece) : Prop := match x with Open _ a _ _ => ~ In 60%N (concat (map show_attr a)) | _ => True end.
Ltac in_parts := repeat match goal with
  | G : _ \/ _ |- _ => destruct G as [G|G]
  | G : In 60%N (_ ++ _) |- _ => apply in_app_iff in G
  | G : In 60%N (_ :: _) |- _ => destruct G as [G|G]
  | G : In 60%N [] |- _ => destruct G
  | G : In 60%N (lit _) |- _ => cbn in G
  | G : _ = 60%N |- _ => discriminate
  | G : False |- _ => destruct G
  end; try contradiction.
Lemma show_first x : proper x -> (forall w, x <> Text w) -> plain_tag x -> exists w, show x = 60%N :: w /\ ~ In 60%N w.
Proof.
  intros Hp Ht Ha. destruct x as [w|n a b sl|n b|w|w|n g w|w]; [destruct (Ht w eq_refl)|..]; cbn [proper] in Hp.
  - destruct Hp as (P1 & P2 & P3). apply in_tag_name in P1. apply in_blanks in P3. cbn in Ha. eexists. split; [reflexivity|]. intros G. in_parts. destruct sl; in_parts.
  - destruct Hp as (P1 & P2). apply in_tag_name in P1. apply in_blanks in P2. eexists. split; [reflexivity|]. intros G. in_parts.
  - destruct Hp as (_ & P & _). exists (lit "!--" ++ w ++ lit "-->"). split; [reflexivity|]. intros G. in_parts.
  - destruct Hp as (P & _). exists (lit "?" ++ w ++ lit "?>"). split; [reflexivity|]. intros G. in_parts.
  - destruct Hp as (_ & P1 & _ & P2 & _ & P3 & _). apply in_blanks in P2. exists (lit "!" ++ n ++ g ++ w ++ lit ">"). split; [reflexivity|]. intros G. in_parts.
    rewrite Forall_forall in P1. apply P1 in G. lia.
  - destruct Hp as (_ & P & _). exists (lit "![CDATA[" ++ w ++ lit "]]>"). split; [reflexivity|]. intros G. in_parts.
Qed.
Definition is_text (x : piece) : bool := match x with Text _ => true | _ => false end.
Lemma safe_piece r x : proper x -> plain_tag x -> (is_text x = false -> forall pv t pv' s', ~ M r pv (show x ++ t) pv' s') -> safe_from r x.
Proof.
  intros Hp Ha H. destruct (is_text x) eqn:X; [destruct x; try discriminate; left; exact Hp|]. right. destruct (show_first x Hp) as (w & E & Hw); [intros w ->; discriminate|exact Ha|].
  exists w. split; [exact E|]. split; [exact Hw|]. intros pv t. apply rmatch_none. apply (H eq_refl).
Qed.

(** ** The forbidden tags of GitHub Flavored Markdown *)
Fixpoint same (n w : str) : bool :=
  match n, w with
  | [], [] => true
  | c :: n', [] => N.eqb c 45
  | c :: n', d :: w' => (N.eqb c d || N.eqb (c + 32) d) && same n' w'
  | _, _ => false
  end.
Lemma same_iff n w : same n w = true <-> exists u v, n = u ++ v /\ Forall2 (fun c d => c = d \/ (c + 32)%N = d) u w /\ (v = [] \/ exists v', v = 45%N :: v').
Proof.
  revert n. induction w as [|d w IH]; intros [|c n]; cbn [same].
  - split; [|reflexivity]. intros _. exists [], []. auto.
  - rewrite N.eqb_eq. split; [intros ->; exists [], (45%N :: n); split; [reflexivity|]; split; [constructor|eauto]|]. intros (u & v & E & F & H). inversion F; subst u. cbn in E. subst v. destruct H as [H|(v' & H)]; [discriminate|injection H as -> _; reflexivity].
  - split; [discriminate|]. intros (u & v & E & F & H). symmetry in E. apply app_eq_nil in E as (-> & ->). inversion F.
  - rewrite andb_true_iff, orb_true_iff, !N.eqb_eq, IH. split.
    + intros (A & u & v & -> & F & H). exists (c :: u), v. split; [reflexivity|]. split; [constructor; assumption|exact H].
    + intros (u & v & E & F & H). inversion F as [|c' ? u' ? Hc F']; subst. cbn in E. injection E as -> ->. split; [exact Hc|]. eauto 6.
Qed.
Definition forb (n : str) : bool := existsb (same n) disallowed_tags.
Lemma forb_iff n : forb n = true <-> forbidden n.
Proof.
  unfold forb. rewrite existsb_exists. split.
  - intros (w & A & B). apply same_iff in B as (u & v & B). exists w, u, v. split; [exact A|exact B].
  - intros (w & u & v & A & B). exists w. split; [exact A|]. apply same_iff. eauto.
Qed.
Lemma forb_not n : forb n = false <-> ~ forbidden n.
Proof. rewrite <- forb_iff. destruct (forb n); split; intros; easy. Qed.
(** What each of the six patterns removes. *)
Definition is_open (x : piece) : bool := match x with Open _ _ _ _ => true | _ => false end.
Definition is_close (x : piece) : bool := match x with Close _ _ => true | _ => false end.
Definition is_comment (x : piece) : bool := match x with Comment _ => true | _ => false end.
Definition is_pi (x : piece) : bool := match x with Instruction _ => true | _ => false end.
Definition is_decl (x : piece) : bool := match x with Declaration _ _ _ => true | _ => false end.
Definition is_cdata (x : piece) : bool := match x with Cdata _ => true | _ => false end.
Definition del_open (x : piece) : bool := match x with Open n _ _ _ => negb (forb n) | _ => false end.
Definition del_close (x : piece) : bool := match x with Close n b => negb (forb n) && (length b <=? 1) | _ => false end.
Lemma lit_differs a l rest pv s pv' s' : (forall x, s <> l ++ x) -> a = RLit l -> ~ M (RSeqs (a :: rest)) pv s pv' s'.
Proof. intros H -> G. apply M_seqs_cons in G as (pv1 & s1 & A & _). apply M_lit in A. eapply H. exact A. Qed.
Lemma show_begins x t : proper x -> (forall w, x <> Text w) -> exists c s, show x ++ t = 60%N :: c :: s /\
  match x with
  | Open _ _ _ _ => is_letter c
  | Close _ _ => c = 47%N
  | Instruction _ => c = 63%N
  | Comment _ => c = 33%N /\ exists s', s = lit "--" ++ s'
  | Declaration _ _ _ => c = 33%N /\ exists d s', s = d :: s' /\ (65 <= d <= 90)%N
  | Cdata _ => c = 33%N /\ exists s', s = lit "[CDATA[" ++ s'
  | Text _ => True
  end.
Proof.
  intros Hp Ht. destruct x as [w|n a b sl|n b|w|w|n g w|w]; [destruct (Ht w eq_refl)|..]; cbn [proper] in Hp.
  - destruct Hp as ((c & r & -> & Hc & _) & _). rewrite show_open. eexists. eexists. split; [reflexivity|exact Hc].
  - rewrite show_close. eexists. eexists. split; [reflexivity|reflexivity].
  - cbn [show]. rewrite <- !app_assoc. eexists. eexists. split; [reflexivity|]. split; [reflexivity|]. eexists. reflexivity.
  - cbn [show]. rewrite <- !app_assoc. eexists. eexists. split; [reflexivity|]. reflexivity.
  - destruct Hp as (Hn & Hu & _). destruct n as [|d n]; [contradiction|]. inversion Hu; subst. cbn [show]. rewrite <- !app_assoc. eexists. eexists. split; [reflexivity|]. split; [reflexivity|]. eexists. eexists. split; [reflexivity|assumption].
  - cbn [show]. rewrite <- !app_assoc. eexists. eexists. split; [reflexivity|]. split; [reflexivity|]. eexists. reflexivity.
Qed.
Lemma M_CO_first pv s pv' s' : M re_CO pv s pv' s' -> exists x, s = lit "<!--" ++ x.
Proof. intros H. apply M_seqs_cons in H as (pv1 & s1 & A & _). apply M_lit in A. eauto. Qed.
Lemma M_PI_first pv s pv' s' : M re_PI pv s pv' s' -> exists x, s = lit "<?" ++ x.
Proof. intros H. apply M_seqs_cons in H as (pv1 & s1 & A & _). apply M_lit in A. eauto. Qed.
Lemma M_CD_first pv s pv' s' : M re_CD pv s pv' s' -> exists x, s = lit "<![CDATA[" ++ x.
Proof. intros H. apply M_seqs_cons in H as (pv1 & s1 & A & _). apply M_lit in A. eauto. Qed.
Lemma M_DE_first rest pv s pv' s' : M (RSeqs (RLit (lit "<!") :: RPlus (RSet ascii_upper) :: rest)) pv s pv' s' -> exists d x, s = lit "<!" ++ d :: x /\ (65 <= d <= 90)%N.
Proof.
  intros H. apply M_seqs_cons in H as (pv1 & s1 & A & H). apply M_lit in A. apply M_seqs_cons in H as (pv2 & s2 & (pv3 & s3 & (d & -> & Hd & _) & _) & _). exists d, s3. split; [exact A|]. unfold ascii_upper, in_range in Hd. apply andb_true_iff in Hd. rewrite !N.leb_le in Hd. exact Hd.
Qed.
Lemma M_CT_first tn ctail pv s pv' s' : M (CT tn ctail) pv s pv' s' -> exists x, s = lit "</" ++ x.
Proof. intros H. apply M_seqs_cons in H as (pv1 & s1 & A & _). apply M_lit in A. eauto. Qed.

Section Removal.
Variables (ot ct de : re) (dopen dclose : piece -> bool) (l : list piece).
Hypothesis Bot : bracketed ot.
Hypothesis Bct : bracketed ct.
Hypothesis Bco : bracketed re_CO.
Hypothesis Bpi : bracketed re_PI.
Hypothesis Bde : bracketed de.
Hypothesis Bcd : bracketed re_CD.
Hypothesis Hp : forall x, In x l -> proper x.
Hypothesis Dopen : forall x, dopen x = true -> is_open x = true.
Hypothesis Dclose : forall x, dclose x = true -> is_close x = true.
Hypothesis Hplain : forall x, In x l -> dopen x = false -> plain_tag x.
Hypothesis Otrue : forall x, In x l -> dopen x = true -> forall pv t, rmatch ot pv (show x ++ t) (fun _ u => Some u) = Some t.
Hypothesis Ofalse : forall x, In x l -> is_open x = true -> dopen x = false -> forall pv t pv' s', ~ M ot pv (show x ++ t) pv' s'.
Hypothesis Ofirst : forall pv c s pv' s', M ot pv (60%N :: c :: s) pv' s' -> is_letter c.
Hypothesis Ctrue : forall x, In x l -> dclose x = true -> forall pv t, rmatch ct pv (show x ++ t) (fun _ u => Some u) = Some t.
Hypothesis Cfalse : forall x, In x l -> is_close x = true -> dclose x = false -> forall pv t pv' s', ~ M ct pv (show x ++ t) pv' s'.
Hypothesis Cfirst : forall pv s pv' s', M ct pv s pv' s' -> exists x, s = lit "</" ++ x.
Hypothesis Detrue : forall n g w, In (Declaration n g w) l -> forall pv t, rmatch de pv (show (Declaration n g w) ++ t) (fun _ u => Some u) = Some t.
Hypothesis Defirst : forall pv s pv' s', M de pv s pv' s' -> exists d x, s = lit "<!" ++ d :: x /\ (65 <= d <= 90)%N.
Definition after1 := dropped dopen l.
Definition after2 := dropped dclose after1.
Definition after3 := dropped is_comment after2.
Definition after4 := dropped is_pi after3.
Definition after5 := dropped is_decl after4.
Definition after6 := dropped is_cdata after5.
Lemma in_dropped del (k : list piece) x : In x (dropped del k) -> In x k /\ del x = false.
Proof. intros H. apply filter_In in H as (H & D). split; [exact H|]. destruct (del x); [discriminate|reflexivity]. Qed.
Lemma in1 x : In x after1 -> In x l /\ proper x /\ plain_tag x.
Proof. intros H. apply in_dropped in H as (H & D). split; [exact H|]. split; [apply Hp, H|apply Hplain; assumption]. Qed.
Lemma in2 x : In x after2 -> In x l /\ proper x /\ plain_tag x.
Proof. intros H. apply in_dropped in H as (H & _). apply in1, H. Qed.
Lemma in3 x : In x after3 -> In x l /\ proper x /\ plain_tag x.
Proof. intros H. apply in_dropped in H as (H & _). apply in2, H. Qed.
Lemma in4 x : In x after4 -> In x l /\ proper x /\ plain_tag x.
Proof. intros H. apply in_dropped in H as (H & _). apply in3, H. Qed.
Lemma in5 x : In x after5 -> In x l /\ proper x /\ plain_tag x.
Proof. intros H. apply in_dropped in H as (H & _). apply in4, H. Qed.
Lemma begins x t : In x l -> is_text x = false -> exists c s, show x ++ t = 60%N :: c :: s /\
  match x with
  | Open _ _ _ _ => is_letter c
  | Close _ _ => c = 47%N
  | Instruction _ => c = 63%N
  | Comment _ => c = 33%N /\ exists s', s = lit "--" ++ s'
  | Declaration _ _ _ => c = 33%N /\ exists d s', s = d :: s' /\ (65 <= d <= 90)%N
  | Cdata _ => c = 33%N /\ exists s', s = lit "[CDATA[" ++ s'
  | Text _ => True
  end.
Proof. intros Hx Ht. apply show_begins; [apply Hp, Hx|]. intros w ->. discriminate. Qed.
Lemma all_removed : fold_left (fun s r => re_delete r s) [ot; ct; re_CO; re_PI; de; re_CD] (html l) = html after6.
Proof.
  cbn [fold_left].
  rewrite (resub_pieces ot dopen l Bot); fold after1.
  2:{ intros x Hx Hd. split; [|apply Otrue; assumption]. apply Dopen in Hd. destruct x; discriminate. }
  2:{ intros x Hx Hd. apply safe_piece; [apply Hp, Hx|apply Hplain; assumption|]. intros T pv t pv' s' G. destruct (is_open x) eqn:O; [eapply Ofalse; eassumption|].
      destruct (begins x t Hx T) as (c & s & Es & K). rewrite Es in G. apply Ofirst in G. unfold is_letter in G. destruct x; try discriminate; lia. }
  rewrite (resub_pieces ct dclose after1 Bct); fold after2.
  2:{ intros x Hx Hd. apply in1 in Hx as (Hx & _). split; [|apply Ctrue; assumption]. apply Dclose in Hd. destruct x; discriminate. }
  2:{ intros x Hx Hd. apply in1 in Hx as (Hx & P & Q). apply safe_piece; [exact P|exact Q|]. intros T pv t pv' s' G. destruct (is_close x) eqn:O; [eapply Cfalse; eassumption|].
      destruct (begins x t Hx T) as (c & s & Es & K). rewrite Es in G. apply Cfirst in G as (y & G). injection G as G _. unfold is_letter in K. destruct x; try discriminate; lia. }
  rewrite (resub_pieces re_CO is_comment after2 Bco); fold after3.
  2:{ intros x Hx Hd. apply in2 in Hx as (_ & P & _). destruct x as [w|n a b sl|n b|w|w|n g w|w]; try discriminate. split; [discriminate|]. intros pv t. destruct P as (P1 & _ & P2 & P3 & P4). apply CO_match; assumption. }
  2:{ intros x Hx Hd. apply in2 in Hx as (Hx & P & Q). apply safe_piece; [exact P|exact Q|]. intros T pv t pv' s' G. apply M_CO_first in G as (y & G).
      destruct (begins x t Hx T) as (c & s & Es & K). rewrite Es in G. injection G as G1 G2. unfold is_letter in K. destruct x; try discriminate; try lia; destruct K as (_ & K); [destruct K as (d & s2 & -> & K); injection G2 as -> _; lia|destruct K as (s2 & ->); discriminate]. }
  rewrite (resub_pieces re_PI is_pi after3 Bpi); fold after4.
  2:{ intros x Hx Hd. apply in3 in Hx as (_ & P & _). destruct x as [w|n a b sl|n b|w|w|n g w|w]; try discriminate. split; [discriminate|]. intros pv t. destruct P as (_ & P). apply PI_match; assumption. }
  2:{ intros x Hx Hd. apply in3 in Hx as (Hx & P & Q). apply safe_piece; [exact P|exact Q|]. intros T pv t pv' s' G. apply M_PI_first in G as (y & G).
      destruct (begins x t Hx T) as (c & s & Es & K). rewrite Es in G. injection G as G1 G2. unfold is_letter in K. destruct x; try discriminate; lia. }
  rewrite (resub_pieces de is_decl after4 Bde); fold after5.
  2:{ intros x Hx Hd. apply in4 in Hx as (Hx & _ & _). destruct x as [w|n a b sl|n b|w|w|n g w|w]; try discriminate. split; [discriminate|]. apply Detrue, Hx. }
  2:{ intros x Hx Hd. apply in4 in Hx as (Hx & P & Q). apply safe_piece; [exact P|exact Q|]. intros T pv t pv' s' G. apply Defirst in G as (d & y & G & Hd').
      destruct (begins x t Hx T) as (c & s & Es & K). rewrite Es in G. injection G as G1 G2. unfold is_letter in K. destruct x; try discriminate; try lia; destruct K as (_ & s2 & K); rewrite K in G2; cbn in G2; injection G2 as <- _; lia. }
  rewrite (resub_pieces re_CD is_cdata after5 Bcd); fold after6; [reflexivity|..].
  - intros x Hx Hd. apply in5 in Hx as (_ & P & _). destruct x as [w|n a b sl|n b|w|w|n g w|w]; try discriminate. split; [discriminate|]. intros pv t. destruct P as (P1 & _ & P). apply CD_match; assumption.
  - intros x Hx Hd. apply in5 in Hx as (Hx & P & Q). apply safe_piece; [exact P|exact Q|]. intros T pv t pv' s' G. apply M_CD_first in G as (y & G).
    destruct (begins x t Hx T) as (c & s & Es & K). rewrite Es in G. injection G as G1 G2. unfold is_letter in K. destruct x; try discriminate; try lia; destruct K as (_ & K); [destruct K as (s2 & ->); discriminate|destruct K as (d & s2 & -> & K); injection G2 as -> _; lia].
Qed.
End Removal.
Lemma cmark_removed (E : env) l : Forall proper l ->
  fold_left (fun s r => re_delete r s) [re_OT_cmark; re_CT_cmark; re_CO; re_PI; re_DE_cmark; re_CD] (html l) = texts l.
Proof.
  intros Hp. rewrite Forall_forall in Hp. pose proof (html_bracketed E Cmark) as B. unfold html_regexes in B. cbn [gfm] in B. rewrite !Forall_cons_iff in B. destruct B as (B1 & B2 & B3 & B4 & B5 & B6 & _).
  rewrite (all_removed re_OT_cmark re_CT_cmark re_DE_cmark is_open is_close l); auto.
  - unfold after6, after5, after4, after3, after2, after1, html, texts, dropped. clear. induction l as [|x l IH]; [reflexivity|]. destruct x; cbn [map concat filter negb is_open is_close is_comment is_pi is_decl is_cdata]; [f_equal; exact IH|exact IH..].
  - intros x Hx Ho. destruct x; try discriminate; exact I.
  - intros x Hx Ho pv t. destruct x as [w|n a b sl|n b|w|w|n g w|w]; try discriminate. destruct (Hp _ Hx) as (P1 & P2 & P3). apply (OT_open _ _ _ (fun _ => True)); auto using tn_cmark, gap_cmark, tail_cmark.
  - intros x Hx Ho Ho'. congruence.
  - intros pv c s pv' s' G. eapply (OT_first _ _ _ _ _ _ _ _ _ tn_cmark). exact G.
  - intros x Hx Ho pv t. destruct x as [w|n a b sl|n b|w|w|n g w|w]; try discriminate. destruct (Hp _ Hx) as (P1 & P2). apply (CT_close _ _ (fun _ => True)); auto using tn_cmark; [apply tail_cmark|]. intros pv1 s. apply tail_cmark, P2.
  - intros x Hx Ho Ho'. congruence.
  - intros pv s pv' s' G. eapply (M_CT_first re_tagname). exact G.
  - intros n g w Hx pv t. destruct (Hp _ Hx) as (P1 & P2 & P3 & P4 & P5 & P6 & P7). apply DE_cmark_match; assumption.
  - intros pv s pv' s' G. apply (M_DE_first [RPlus (RSeq (RNot (RChr 62)) RAny); RChr 62]) in G. exact G.
Qed.
(** The parts of github's closing tag. *)
Lemma opt_ws b pv s : length b <= 1 -> blanks b -> exists pv', M (ROpt re_WS) pv (b ++ s) pv' s.
Proof.
  intros Hl Hb. destruct b as [|c [|d b]]; [exists pv; right; split; reflexivity| |cbn in Hl; lia]. exists (Some c). left. exists c. split; [reflexivity|]. split; [|reflexivity]. apply cin_In. inversion Hb as [|? ? Hc _]; subst. destruct Hc as [->| ->]; cbn; auto.
Qed.
Lemma two_blanks E n b pv t pv' s' : tag_name n -> blanks b -> 2 <= length b -> ~ M (re_CT_github E) pv (show (Close n b) ++ t) pv' s'.
Proof.
  intros (c & r & -> & Hc & Hr) Hb Hl H. rewrite show_close in H. apply M_seqs_cons in H as (pv1 & s1 & A & H). destruct A as (pv3 & s3 & A1 & A2). apply M_chr in A1 as (A1 & _). injection A1 as <-. apply M_chr in A2 as (A2 & _). injection A2 as <-.
  apply M_seqs_cons in H as (pv2 & s2 & A & H). destruct A as (pv4 & s4 & (-> & -> & _) & A). apply M_name in A as (c' & u & E1 & _ & Hu). cbn [app] in E1. injection E1 as _ E1.
  apply M_seqs_cons in H as (pv5 & s5 & W & H). apply M_seqs_cons in H as (pv6 & s6 & G & _). apply M_chr in G as (-> & _).
  destruct b as [|x [|y b]]; [cbn in Hl; lia|cbn in Hl; lia|]. inversion Hb as [|? ? Hx Hb1]; subst. inversion Hb1 as [|? ? Hy Hb2]; subst.
  assert (Fr : Forall (fun x => tag_rest x = true) r) by (eapply Forall_impl; [|exact Hr]; intros z; apply tag_rest_iff).
  assert (Bx : forall z, z = 32%N \/ z = 9%N -> tag_rest z = false) by (intros z [->| ->]; reflexivity).
  assert (Eu : u = r /\ s2 = x :: y :: b ++ fin false t).
  { revert u E1 Hu. clear - Fr Bx Hx W. induction Fr as [|z r Hz Fr IH]; intros [|k u] E1 Hu; cbn [app] in E1.
    - auto.
    - injection E1 as -> _. inversion Hu; subst. rewrite (Bx _ Hx) in *. discriminate.
    - exfalso. destruct W as [(q & -> & Hq & _)|(_ & <-)].
      + injection E1 as -> _. apply cin_In in Hq. cbn in Hq. unfold tag_rest, ascii_alnum in Hz. repeat (destruct Hq as [<-|Hq]; [discriminate|]). destruct Hq.
      + injection E1 as -> _. discriminate.
    - injection E1 as -> E1. inversion Hu; subst. destruct (IH u E1) as (-> & ->); auto. }
  destruct Eu as (-> & ->). destruct W as [(q & E2 & _ & _)|(_ & E2)]; [injection E2 as _ E2 _; subst y; destruct Hy; discriminate|injection E2 as E2 _; subst x; destruct Hx; discriminate].
Qed.
Lemma stripped_spec l k : stripped l k -> k = dropped is_cdata (dropped is_decl (dropped is_pi (dropped is_comment (dropped del_close (dropped del_open l))))) /\
  forall x, In x l -> is_text x = true \/ kept_tag x \/ allowed x.
Proof.
  unfold dropped. induction 1 as [|w l k H (IH & G)|x l k Hx Ha H (IH & G)|x l k Hx H (IH & G)].
  - split; [reflexivity|intros x []].
  - split; [cbn; f_equal; exact IH|]. intros x [<-|Hx]; auto.
  - split; [|intros y [<-|Hy]; auto]. destruct x as [w|n a b sl|n b|w|w|n g w|w]; [destruct (Hx w eq_refl)|..]; cbn [allowed] in Ha; try exact IH.
    + apply forb_not in Ha. cbn [filter del_open]. rewrite Ha. exact IH.
    + destruct Ha as (Ha & Hl). apply forb_not in Ha. apply Nat.leb_le in Hl. cbn [filter del_open negb del_close]. rewrite Ha, Hl. exact IH.
  - split; [|intros y [<-|Hy]; auto]. destruct x as [w|n a b sl|n b|w|w|n g w|w]; cbn [kept_tag] in Hx; try contradiction.
    + destruct Hx as (Hx & _). apply forb_iff in Hx. cbn [filter del_open]. rewrite Hx. cbn [filter negb del_close is_comment is_pi is_decl is_cdata]. f_equal. exact IH.
    + assert (D : negb (forb n) && (length b <=? 1) = false). { destruct Hx as [Hx|Hx]; [apply forb_iff in Hx; rewrite Hx; reflexivity|]. apply andb_false_iff. right. apply Nat.leb_gt. lia. }
      cbn [filter del_open negb del_close]. rewrite D. cbn [filter negb is_comment is_pi is_decl is_cdata]. f_equal. exact IH.
Qed.
Lemma github_removed E l k : word_ascii E -> Forall proper l -> stripped l k ->
  fold_left (fun s r => re_delete r s) [re_OT_github E; re_CT_github E; re_CO; re_PI; re_DE_github; re_CD] (html l) = html k.
Proof.
  intros W Hp Hs. rewrite Forall_forall in Hp. apply stripped_spec in Hs as (-> & K). pose proof (html_bracketed E Github) as B. unfold html_regexes in B. cbn [gfm] in B. rewrite !Forall_cons_iff in B. destruct B as (B1 & B2 & B3 & B4 & B5 & B6 & _).
  pose proof (tn_github E W) as T. apply (all_removed (re_OT_github E) (re_CT_github E) re_DE_github del_open del_close l); auto.
  - intros x D. destruct x; try discriminate; reflexivity.
  - intros x D. destruct x; try discriminate; reflexivity.
  - intros x Hx D. destruct x as [w|n a b sl|n b|w|w|n g w|w]; try exact I. cbn [del_open] in D. apply negb_false_iff, forb_iff in D. destruct (K _ Hx) as [X|[(_ & X)|X]]; [discriminate|exact X|contradiction].
  - intros x Hx D pv t. destruct x as [w|n a b sl|n b|w|w|n g w|w]; try discriminate. cbn [del_open] in D. apply negb_true_iff, forb_not in D. destruct (Hp _ Hx) as (P1 & P2 & P3). apply (OT_open _ _ _ _ _ _ _ _ _ _ T gap_github tail_github); assumption.
  - intros x Hx O D pv t pv' s' G. destruct x as [w|n a b sl|n b|w|w|n g w|w]; try discriminate. cbn [del_open] in D. apply negb_false_iff, forb_iff in D. destruct (Hp _ Hx) as (P1 & P2 & P3). rewrite show_open in G.
    apply M_seqs_cons in G as (pv1 & s1 & A & G). apply M_chr in A as (A & ->). injection A as <-. apply M_seqs_cons in G as (pv2 & s2 & A & _).
    eapply (TN_forbidden E 60%N n); [exact W|auto|exact P1|exact D| |exact A]. apply attrs_stop; [exact P2|]. apply blank_stop; [exact P3|apply fin_stop].
  - intros pv c s pv' s' G. eapply (OT_first _ _ _ _ _ _ _ _ _ T). exact G.
  - intros x Hx D pv t. destruct x as [w|n a b sl|n b|w|w|n g w|w]; try discriminate. cbn [del_close] in D. apply andb_true_iff in D as (D & Dl). apply negb_true_iff, forb_not in D. apply Nat.leb_le in Dl. destruct (Hp _ Hx) as (P1 & P2).
    apply (CT_close _ _ _ _ _ _ _ T); auto; [apply quietly_alt; [apply quietly_ws|apply quietly_eps]|]. intros pv1 s. apply opt_ws; assumption.
  - intros x Hx O D pv t pv' s' G. destruct x as [w|n a b sl|n b|w|w|n g w|w]; try discriminate. cbn [del_close] in D. destruct (Hp _ Hx) as (P1 & P2). apply andb_false_iff in D as [D|D].
    + apply negb_false_iff, forb_iff in D. rewrite show_close in G. apply M_seqs_cons in G as (pv1 & s1 & A & G). destruct A as (pv3 & s3 & A1 & A2). apply M_chr in A1 as (A1 & _). injection A1 as <-. apply M_chr in A2 as (A2 & ->). injection A2 as <-. apply M_seqs_cons in G as (pv2 & s2 & A & _).
      eapply (TN_forbidden E 47%N n); [exact W|auto|exact P1|exact D| |exact A]. apply blank_stop; [exact P2|apply fin_stop].
    + apply Nat.leb_gt in D. eapply two_blanks; [exact P1|exact P2| |exact G]. lia.
  - intros pv s pv' s' G. eapply M_CT_first. exact G.
  - intros n g w Hx pv t. destruct (Hp _ Hx) as (P1 & P2 & P3 & P4 & P5 & P6 & P7). apply DE_github_match; assumption.
  - intros pv s pv' s' G. apply (M_DE_first [RPlus re_WS; RPlus (RSeq (RNot (RChr 62)) RAny); RChr 62]) in G. exact G.
Qed.
