(** Anchors of headings with escaped brackets never raise. *)
From Coq Require Import String List NArith ZArith Bool Arith Lia.
From Verif Require Import Str StrFacts Spec EnvSpec Regex HtmlRe Fence Atx Entity Inlines Anchor AnchorSpec HtmlSpec HtmlProof EmphSpec InlineProof InlineTotal PropEmphasis TameSpec LinkTotal PropTame SafeSpec.
Import ListNotations.
Local Open Scope list_scope.

(** Every ']' is escaped; [esc]: the text before ends in an odd number of backslashes. *)
Fixpoint closed_b (esc : bool) (s : str) : bool :=
  match s with [] => true | c :: s' => implb (N.eqb c 93) esc && closed_b (N.eqb c 92 && negb esc) s' end.
Fixpoint after_b (esc : bool) (s : str) : bool :=
  match s with [] => esc | c :: s' => after_b (N.eqb c 92 && negb esc) s' end.
(** No backslash comes right before '<'. *)
Fixpoint bsl_b (p : bool) (s : str) : bool :=
  match s with [] => true | c :: s' => implb (N.eqb c 60) (negb p) && bsl_b (N.eqb c 92) s' end.

Lemma closed_link s : forall e, closed_b e s = true -> no_link_b e s = true.
Proof.
  induction s as [|c s IH]; intros e H; [reflexivity|]. cbn [closed_b no_link_b] in *. apply andb_true_iff in H as (A & B). rewrite (IH _ B), andb_true_r.
  destruct (N.eqb c 93), e; cbn in *; try discriminate; reflexivity.
Qed.
Lemma escapes_closed b s t : Spec.escapes b s t -> closed_b b t = true.
Proof.
  induction 1 as [b|c s t Hc _ IH|c s t Hc _ IH|b s t _ IH|b c s t Hc Hb _ IH]; cbn [closed_b]; [reflexivity| | | |].
  - change (N.eqb 92 93) with false. change (N.eqb 92 92) with true. cbn [implb andb negb]. replace (implb (N.eqb c 93) true) with true by (destruct (N.eqb c 93); reflexivity).
    cbn [andb]. rewrite andb_false_r. exact IH.
  - replace (implb (N.eqb c 93) true) with true by (destruct (N.eqb c 93); reflexivity). cbn [andb negb]. rewrite andb_false_r. exact IH.
  - cbn. exact IH.
  - destruct (N.eqb_spec c 93) as [->|_]; [exfalso; apply Hc; right; reflexivity|]. destruct (N.eqb_spec c 92); [contradiction|]. cbn. exact IH.
Qed.
Lemma escapes_bsl b s t : Spec.escapes b s t -> forall p, bsl_b p s = true -> bsl_b p t = true.
Proof.
  induction 1 as [b|c s t Hc _ IH|c s t Hc _ IH|b s t _ IH|b c s t Hc Hb _ IH]; intros p H; cbn [bsl_b] in *; [reflexivity| | | |].
  - change (N.eqb 92 60) with false. change (N.eqb 92 92) with true. cbn [implb andb]. destruct Hc as [->| ->]; cbn in *; apply IH; exact H.
  - apply andb_true_iff in H as (A & B). rewrite A. cbn [andb]. apply IH. exact B.
  - cbn in *. apply IH. exact H.
  - apply andb_true_iff in H as (A & B). rewrite A. cbn [andb]. apply IH. exact B.
Qed.
Lemma last_default (s : str) : forall x d d', last (x :: s) d = last (x :: s) d'.
Proof. induction s as [|y s IH]; intros x d d'; [reflexivity|]. cbn [last] in *. apply (IH y). Qed.
Lemma bsl_app_eq a : forall p b, bsl_b p (a ++ b) = bsl_b p a && bsl_b (N.eqb (last a (if p then 92%N else 0%N)) 92) b.
Proof.
  induction a as [|c a IH]; intros p b; [destruct p; reflexivity|]. cbn [app bsl_b]. rewrite IH, andb_assoc. f_equal. f_equal.
  destruct a as [|d a]; [cbn [last]; destruct (N.eqb c 92) eqn:X; [reflexivity|reflexivity]|f_equal; apply (last_default a d)].
Qed.
Lemma bsl_app a p b : bsl_b p (a ++ b) = true -> bsl_b p a = true /\ bsl_b (N.eqb (last a (if p then 92%N else 0%N)) 92) b = true.
Proof. rewrite bsl_app_eq. apply andb_true_iff. Qed.
Lemma bsl_weaken s : forall p, bsl_b p s = true -> bsl_b false s = true.
Proof. destruct s as [|c s]; intros p H; [reflexivity|]. cbn [bsl_b] in *. apply andb_true_iff in H as (A & ->). destruct (N.eqb c 60); reflexivity. Qed.
Lemma bsl_mid a m b : bsl_b false (a ++ m ++ b) = true -> bsl_b false m = true.
Proof. intros H. apply bsl_app in H as (_ & H). apply bsl_app in H as (H & _). eapply bsl_weaken. exact H. Qed.
Lemma bsl_iff s : forall p, (forall a b, s <> a ++ 92%N :: 60%N :: b) -> (p = true -> hd_error s <> Some 60%N) -> bsl_b p s = true.
Proof.
  induction s as [|c s IH]; intros p H Hp; [reflexivity|]. cbn [bsl_b]. apply andb_true_iff. split.
  - destruct (N.eqb_spec c 60) as [->|_]; [|reflexivity]. destruct p; [exfalso; apply Hp; reflexivity|reflexivity].
  - apply IH; [intros a b ->; apply (H (c :: a) b); reflexivity|]. destruct (N.eqb_spec c 92) as [->|_]; [|discriminate]. intros _ X. destruct s as [|d s]; [discriminate|]. injection X as ->. apply (H [] s). reflexivity.
Qed.

(** ** Lower case *)
Lemma lowered_low E c w : (c < 128)%N -> lowered E c w -> exists d, w = [d] /\ (d < 128)%N /\ (c = d \/ ((65 <= c <= 90)%N /\ d = (c + 32)%N)).
Proof.
  intros Hc (A & B & _). destruct (N.le_gt_cases 65 c) as [H1|H1]; [destruct (N.le_gt_cases c 90) as [H2|H2]|].
  - exists (c + 32)%N. rewrite A by lia. repeat split; [lia|auto].
  - exists c. rewrite B by lia. auto.
  - exists c. rewrite B by lia. auto.
Qed.
Definition safe_char (E : env) (c : N) : Prop := c <> 0%N /\ c <> 13%N /\ c <> 10%N /\ (e_digit E c = true -> (48 <= c <= 57)%N).
Lemma lowered_high_step E c w r : (128 <= c)%N -> lowered E c w -> forall e, closed_b e (w ++ r) = closed_b false r.
Proof.
  intros Hc (_ & _ & H). destruct (H Hc) as (Hn & Hw). clear H. destruct w as [|d w]; [congruence|]. clear Hn. revert d Hw. induction w as [|x w IH]; intros d Hw e; inversion Hw as [|? ? (Hd & _) Hw']; subst.
  - cbn. destruct (N.eqb_spec d 93) as [->|_]; [exfalso; destruct Hd as [[?|?]|?]; lia|]. destruct (N.eqb_spec d 92) as [->|_]; [exfalso; destruct Hd as [[?|?]|?]; lia|]. reflexivity.
  - cbn [app closed_b]. destruct (N.eqb_spec d 93) as [->|_]; [exfalso; destruct Hd as [[?|?]|?]; lia|]. destruct (N.eqb_spec d 92) as [->|_]; [exfalso; destruct Hd as [[?|?]|?]; lia|]. cbn [implb andb]. apply IH. exact Hw'.
Qed.
Lemma lowered_high_bsl E c w r : (128 <= c)%N -> lowered E c w -> forall e, bsl_b e (w ++ r) = bsl_b false r.
Proof.
  intros Hc (_ & _ & H). destruct (H Hc) as (Hn & Hw). clear H. destruct w as [|d w]; [congruence|]. clear Hn. revert d Hw. induction w as [|x w IH]; intros d Hw e; inversion Hw as [|? ? (Hd & _) Hw']; subst.
  - cbn. destruct (N.eqb_spec d 60) as [->|_]; [exfalso; destruct Hd as [[?|?]|?]; lia|]. destruct (N.eqb_spec d 92) as [->|_]; [exfalso; destruct Hd as [[?|?]|?]; lia|]. reflexivity.
  - cbn [app bsl_b]. destruct (N.eqb_spec d 60) as [->|_]; [exfalso; destruct Hd as [[?|?]|?]; lia|]. destruct (N.eqb_spec d 92) as [->|_]; [exfalso; destruct Hd as [[?|?]|?]; lia|]. cbn [implb andb]. apply IH. exact Hw'.
Qed.
Lemma eqb_low c d k : (c = d \/ ((65 <= c <= 90)%N /\ d = (c + 32)%N)) -> (k < 65)%N \/ (90 < k < 97)%N -> N.eqb d k = N.eqb c k.
Proof. intros [->|(A & ->)] H; [reflexivity|]. destruct (N.eqb_spec (c + 32) k), (N.eqb_spec c k); try reflexivity; lia. Qed.
Lemma lower_closed E s ws : Forall2 (lowered E) s ws -> forall e, closed_b e s = true -> closed_b e (concat ws) = true.
Proof.
  induction 1 as [|c w s ws Hw _ IH]; intros e H; [reflexivity|]. cbn [concat closed_b] in *. apply andb_true_iff in H as (A & B). destruct (N.lt_ge_cases c 128) as [L|L].
  - destruct (lowered_low _ _ _ L Hw) as (d & -> & _ & Hd). cbn [app closed_b]. rewrite !(eqb_low c d) by (auto; lia). rewrite A. apply IH. exact B.
  - rewrite (lowered_high_step _ _ _ _ L Hw). apply IH. destruct (N.eqb_spec c 92) as [->|_]; [lia|]. exact B.
Qed.
Lemma lower_bsl E s ws : Forall2 (lowered E) s ws -> forall e, bsl_b e s = true -> bsl_b e (concat ws) = true.
Proof.
  induction 1 as [|c w s ws Hw _ IH]; intros e H; [reflexivity|]. cbn [concat bsl_b] in *. apply andb_true_iff in H as (A & B). destruct (N.lt_ge_cases c 128) as [L|L].
  - destruct (lowered_low _ _ _ L Hw) as (d & -> & _ & Hd). cbn [app bsl_b]. rewrite !(eqb_low c d) by (auto; lia). rewrite A. apply IH. exact B.
  - rewrite (lowered_high_bsl _ _ _ _ L Hw). apply IH. destruct (N.eqb_spec c 92) as [->|_]; [lia|]. exact B.
Qed.
Lemma lower_safe E s ws : digit_ascii E -> Forall2 (lowered E) s ws -> Forall (safe_char E) s -> Forall (fun d => safe_char E d /\ d <> 256%N) (concat ws).
Proof.
  intros Hda. induction 1 as [|c w s ws Hw _ IH]; intros H; [constructor|]. inversion H as [|? ? (H0 & H13 & H10 & Hdg) H']; subst. cbn [concat]. apply Forall_app. split; [|apply IH; exact H'].
  destruct (N.lt_ge_cases c 128) as [L|L].
  - destruct (lowered_low _ _ _ L Hw) as (d & -> & Ld & Hd). constructor; [|constructor]. split; [|lia]. split; [destruct Hd as [<-|(? & ->)]; [exact H0|lia]|]. split; [destruct Hd as [<-|(? & ->)]; [exact H13|lia]|].
    split; [destruct Hd as [<-|(? & ->)]; [exact H10|lia]|]. intros X. apply Hda in X; [exact X|exact Ld].
  - destruct Hw as (_ & _ & Hw). destruct (Hw L) as (_ & W). eapply Forall_impl; [|exact W]. cbv beta. intros d (Hd & H256 & Hdd). split; [|exact H256].
    split; [destruct Hd as [[?|?]|?]; lia|]. split; [destruct Hd as [[?|?]|?]; lia|]. split; [destruct Hd as [[?|?]|?]; lia|].
    intros X. apply Hdd in X as Xc. subst d. apply Hdg. exact X.
Qed.

(** ** Removal of HTML *)
Lemma after_other_b a : forall e c, c <> 92%N -> after_b e (a ++ [c]) = false.
Proof. induction a as [|x a IH]; intros e c H; cbn [app after_b]; [destruct (N.eqb_spec c 92); [contradiction|reflexivity]|apply IH; exact H]. Qed.
Lemma closed_app a : forall e b, closed_b e (a ++ b) = closed_b e a && closed_b (after_b e a) b.
Proof. induction a as [|c a IH]; intros e b; [reflexivity|]. cbn [app closed_b after_b]. rewrite IH, andb_assoc. reflexivity. Qed.
Lemma cut_keeps s t : cut_down s t -> closed_b false s = true -> bsl_b false s = true -> closed_b false t = true /\ bsl_b false t = true.
Proof.
  induction 1 as [s|a v b t _ IH]; intros H1 H2; [auto|].
  assert (La : last a 0%N <> 92%N).
  { apply bsl_app in H2 as (_ & H2). cbn [bsl_b] in H2. apply andb_true_iff in H2 as (H2 & _). change (N.eqb 60 60) with true in H2. cbn [implb] in H2. intros X. rewrite X in H2. discriminate. }
  assert (Af : after_b false a = false) by (destruct a as [|x a _] using rev_ind; [reflexivity|rewrite last_last in La; apply after_other_b; exact La]).
  apply IH.
  - rewrite closed_app, Af in *. apply andb_true_iff in H1 as (A & B). rewrite A. cbn [andb].
    replace (60%N :: v ++ 62%N :: b) with ((60%N :: v ++ [62%N]) ++ b) in B by (cbn; rewrite <- app_assoc; reflexivity). rewrite closed_app in B. apply andb_true_iff in B as (_ & B).
    replace (60%N :: v ++ [62%N]) with ((60%N :: v) ++ [62%N]) in B by reflexivity. rewrite after_other_b in B by discriminate. exact B.
  - clear IH H1. replace (a ++ 60%N :: v ++ 62%N :: b) with (a ++ (60%N :: v ++ [62%N]) ++ b) in H2 by (cbn; rewrite <- app_assoc; reflexivity).
    apply bsl_app in H2 as (A & B). apply bsl_app in B as (_ & B). apply bsl_weaken in B.
    rewrite bsl_app_eq, A. cbn [andb]. destruct (N.eqb_spec (last a 0%N) 92); [contradiction|exact B].
Qed.
Lemma cut_in s t : cut_down s t -> forall c, In c t -> In c s.
Proof. induction 1 as [s|a v b t _ IH]; intros c Hc; [exact Hc|]. apply IH in Hc. rewrite in_app_iff in *. cbn. rewrite in_app_iff. cbn. tauto. Qed.

(** ** The anchor *)
Lemma slug_total E p text : python_tables E -> cm_family p = true -> Forall (safe_char E) text -> closed_b false text = true -> bsl_b false text = true -> exists s, slug E p text = Ok s.
Proof.
  intros (Hlow & Hda & He) Hp Hs Hc Hb. unfold slug. destruct (Hlow text) as (ws & Hw & ->).
  pose proof (lower_closed _ _ _ Hw _ Hc) as C1. pose proof (lower_bsl _ _ _ Hw _ Hb) as B1. pose proof (lower_safe _ _ _ Hda Hw Hs) as S1.
  destruct (cut_keeps _ _ (html_cut E p (concat ws)) C1 B1) as (C2 & _). pose proof (cut_in _ _ (html_cut E p (concat ws))) as I2. set (t := remove_html_tags E p (concat ws)) in *. clearbody t.
  rewrite Forall_forall in S1.
  destruct (C28_harmless_text_never_raises E p t He) as (u & ->).
  - intros X. destruct (S1 _ (I2 _ X)) as ((A & _) & _). congruence.
  - split; [intros X; destruct (S1 _ (I2 _ X)) as ((_ & A & _) & _); congruence|]. split; [intros X; destruct (S1 _ (I2 _ X)) as (_ & A); congruence|].
    split; [intros c X; destruct (S1 _ (I2 _ X)) as ((_ & _ & _ & A) & _); exact A|]. apply no_link_yes, closed_link. exact C2.
  - cbn [bind]. unfold anchor_link_punctuation_filter. rewrite Hp. cbn [bind]. eauto.
Qed.

(** ** Ordinary links *)
Fixpoint nref_b (p : bool) (s : str) : bool :=
  match s with [] => true | c :: s' => implb (N.eqb c 91) (negb p) && nref_b (N.eqb c 93) s' end.
Lemma nref_iff s : forall p, nref_b p s = true <-> (forall a b, s <> a ++ 93%N :: 91%N :: b) /\ (p = true -> hd_error s <> Some 91%N).
Proof.
  induction s as [|c s IH]; intros p; cbn [nref_b].
  - split; [intros _; split; [intros a b; destruct a; discriminate|discriminate]|reflexivity].
  - rewrite andb_true_iff, IH. split.
    + intros (A & B & C). split.
      * intros a b X. destruct a as [|x a]; cbn in X; injection X as -> X; [|exact (B a b X)]. apply C; [reflexivity|]. rewrite X. reflexivity.
      * intros -> X. injection X as ->. discriminate A.
    + intros (A & B). split; [|split].
      * destruct (N.eqb_spec c 91) as [->|_]; [|reflexivity]. destruct p; [exfalso; apply B; reflexivity|reflexivity].
      * intros a b ->. apply (A (c :: a) b). reflexivity.
      * intros X Y. apply N.eqb_eq in X. subst c. destruct s as [|d s]; [discriminate|]. injection Y as ->. apply (A [] s). reflexivity.
Qed.
Lemma lowered_high_ref E c w r : (128 <= c)%N -> lowered E c w -> forall e, nref_b e (w ++ r) = nref_b false r.
Proof.
  intros Hc (_ & _ & H). destruct (H Hc) as (Hn & Hw). clear H. destruct w as [|d w]; [congruence|]. clear Hn. revert d Hw. induction w as [|x w IH]; intros d Hw e; inversion Hw as [|? ? (Hd & _) Hw']; subst.
  - cbn. destruct (N.eqb_spec d 91) as [->|_]; [exfalso; destruct Hd as [[?|?]|?]; lia|]. destruct (N.eqb_spec d 93) as [->|_]; [exfalso; destruct Hd as [[?|?]|?]; lia|]. reflexivity.
  - cbn [app nref_b]. destruct (N.eqb_spec d 91) as [->|_]; [exfalso; destruct Hd as [[?|?]|?]; lia|]. destruct (N.eqb_spec d 93) as [->|_]; [exfalso; destruct Hd as [[?|?]|?]; lia|]. cbn [implb andb]. apply IH. exact Hw'.
Qed.
Lemma lower_ref E s ws : Forall2 (lowered E) s ws -> forall e, nref_b e s = true -> nref_b e (concat ws) = true.
Proof.
  induction 1 as [|c w s ws Hw _ IH]; intros e H; [reflexivity|]. cbn [concat nref_b] in *. apply andb_true_iff in H as (A & B). destruct (N.lt_ge_cases c 128) as [L|L].
  - destruct (lowered_low _ _ _ L Hw) as (d & -> & _ & Hd). cbn [app nref_b]. rewrite !(eqb_low c d) by (auto; lia). rewrite A. apply IH. exact B.
  - rewrite (lowered_high_ref _ _ _ _ L Hw). apply IH. destruct (N.eqb_spec c 93) as [->|_]; [lia|]. exact B.
Qed.
(** Lower case makes no character below '@' or between '[' and '`'. *)
Lemma lower_in E s ws k : Forall2 (lowered E) s ws -> (k < 65)%N \/ (90 < k < 97)%N -> In k (concat ws) -> In k s.
Proof.
  intros H Hk. induction H as [|c w s ws Hw _ IH]; [intros []|]. cbn [concat]. intros X. apply in_app_or in X as [X|X]; [|right; apply IH; exact X]. left. destruct (N.lt_ge_cases c 128) as [L|L].
  - destruct (lowered_low _ _ _ L Hw) as (d & -> & _ & Hd). destruct X as [<-|[]]. destruct Hd as [->|(? & ->)]; [reflexivity|lia].
  - exfalso. destruct Hw as (_ & _ & Hw). destruct (Hw L) as (_ & W). rewrite Forall_forall in W. destruct (W k X) as (Hd & _). destruct Hd as [[?|?]|?]; lia.
Qed.
Lemma cut_none s t : cut_down s t -> ~ In 60%N s -> t = s.
Proof. destruct 1 as [s|a v b t H]; intros X; [reflexivity|]. exfalso. apply X. apply in_or_app. right. left. reflexivity. Qed.
Lemma slug_links E p text : python_tables E -> zs_ascii E -> cm_family p = true -> Forall (safe_char E) text -> plain_links text -> exists s, slug E p text = Ok s.
Proof.
  intros (Hlow & Hda & He) Hz Hp Hs (Hc & Hent & Hr). unfold slug. destruct (Hlow text) as (ws & Hw & ->). pose proof (lower_safe _ _ _ Hda Hw Hs) as S1.
  assert (In1 : forall k, In k [60; 92; 34; 39; 11]%N -> ~ In k (concat ws)).
  { intros k Hk X. apply (lower_in E text ws k Hw) in X; [exact (Hc k X Hk)|]. cbn in Hk. lia. }
  assert (En1 : ~ In 38%N (concat ws) \/ ~ In 59%N (concat ws)) by (destruct Hent as [X|X]; [left|right]; intros Y; apply X; apply (lower_in E text ws _ Hw); [lia|exact Y|lia|exact Y]).
  assert (R1 : forall a b, concat ws <> a ++ 93%N :: 91%N :: b) by (apply (nref_iff (concat ws) false); apply (lower_ref E text ws Hw); apply nref_iff; split; [exact Hr|discriminate]).
  rewrite (cut_none _ _ (html_cut E p (concat ws)) (In1 60%N ltac:(cbn; auto))). set (t := concat ws) in *. clearbody t. rewrite Forall_forall in S1.
  destruct (C28_links_never_raise E p t He Hz) as (u & ->).
  - intros X. destruct (S1 _ X) as ((A & _) & _). congruence.
  - split; [intros X; destruct (S1 _ X) as ((_ & A & _) & _); congruence|]. split; [intros X; destruct (S1 _ X) as (_ & A); congruence|].
    split; [intros c X; destruct (S1 _ X) as ((_ & _ & _ & A) & _); exact A|]. split; [intros a b X; exfalso; exact (R1 a b X)|].
    intros a b Et. right. assert (Sub : forall c, In c b -> In c t) by (intros c Hx; rewrite Et; apply in_or_app; right; right; right; exact Hx).
    split; [intros X; apply (In1 92%N); [cbn; auto|apply Sub; exact X]|]. split; [destruct En1 as [X|X]; [left|right]; intros Y; apply X, Sub, Y|].
    intros b1 c b2 Eb _ _ X. apply (In1 c); [cbn in *; tauto|]. apply Sub. rewrite Eb. apply in_or_app. right. left. reflexivity.
  - cbn [bind]. unfold anchor_link_punctuation_filter. rewrite Hp. cbn [bind]. eauto.
Qed.
