(** Everything that remove_html_tags removes is raw HTML. *)
From Coq Require Import String List NArith Bool Arith Lia.
From Verif Require Import Str StrFacts EnvSpec Atx Regex RegexSpec RegexProof HtmlRe HtmlSpec HelperSpec HtmlProof.
Import ListNotations.
Local Open Scope list_scope.

Section Named.
Context (named : str -> Prop).
Definition rawly (r : re) : Prop := forall pv s pv' s', M r pv s pv' s' -> exists k, s = k ++ s' /\ raw named k.
Lemma raw_head k : raw named k -> exists c r, k = 60%N :: c :: r /\ (is_letter c \/ In c (lit "/!?")).
Proof.
  intros [name attrs tail slash (c & r & -> & Hc & _) _ _ _|name tail _ _ _|w _ _ _ _|w _|c w _ _|w _]; eexists _, _; (split; [reflexivity|]); try (right; vm_compute; tauto).
  left. exact Hc.
Qed.
Lemma cut_raw_app a s t : cut_raw named s t -> cut_raw named (a ++ s) (a ++ t).
Proof. induction 1 as [s|x k b t Hk H IH]; [constructor|]. rewrite app_assoc. apply cut_raw_one; [exact Hk|]. rewrite <- app_assoc. exact IH. Qed.
Lemma cut_raw_trans s t u : cut_raw named s t -> cut_raw named t u -> cut_raw named s u.
Proof. induction 1 as [s|x k b t Hk H IH]; intros Hu; [exact Hu|]. apply cut_raw_one; [exact Hk|]. apply IH. exact Hu. Qed.
Lemma resub_raw r : rawly r -> forall n s pv, length s <= n -> cut_raw named s (resub r pv s 0).
Proof.
  intros Hr. induction n as [|n IH]; intros s pv Hn; [destruct s; [constructor|cbn in Hn; lia]|]. destruct s as [|x s]; [constructor|]. cbn [resub]. cbn [length] in Hn.
  destruct (rmatch r pv (x :: s) _) as [rest|] eqn:R.
  - apply match_split in R as (pv' & R). apply Hr in R as (k & E & Hk). destruct (raw_head k Hk) as (c & v & Ek & _). pose proof E as E0. rewrite Ek in E. cbn [app] in E. injection E as -> ->. cbn [length] in Hn. rewrite app_length in Hn.
    replace (length (60%N :: c :: v ++ rest) - length rest) with (S (length (c :: v))) by (cbn [length]; rewrite !app_length; lia). cbv iota.
    destruct (resub_drop r (c :: v) (Some 60%N) rest) as (pv2 & X). cbn [app] in X. rewrite X. rewrite E0. apply (cut_raw_one named [] k rest); [exact Hk|]. apply IH. cbn. lia.
  - apply (cut_raw_app [x]). apply IH. lia.
Qed.
Lemma re_delete_raw r s : rawly r -> cut_raw named s (re_delete r s).
Proof. intros H. apply (resub_raw r H (length s)). lia. Qed.

(** ** Repetitions of a guarded character *)
Lemma guarded r (P : str -> Prop) : (forall pv s pv' s', M r pv s pv' s' -> exists c, s = c :: s' /\ P s) ->
  forall pv s pv' s', M (RStar r) pv s pv' s' -> exists w, s = w ++ s' /\ forall x y, w = x ++ y -> y <> [] -> P (y ++ s').
Proof.
  intros H pv s pv' s' Hm. change (star (M r) pv s pv' s') in Hm. induction Hm as [pv s|pv s pv1 s1 pv2 s2 A B (w & -> & IH)].
  - exists []. split; [reflexivity|]. intros x y Hy Hn. destruct x; [|discriminate]. cbn in Hy. congruence.
  - destruct (H _ _ _ _ A) as (c & -> & Hp). exists (c :: w). split; [reflexivity|]. intros [|z x] y Hy Hn; cbn in Hy; [subst y; exact Hp|]. injection Hy as _ Hy. eapply IH; eassumption.
Qed.
Lemma guarded_plus r (P : str -> Prop) : (forall pv s pv' s', M r pv s pv' s' -> exists c, s = c :: s' /\ P s) ->
  forall pv s pv' s', M (RPlus r) pv s pv' s' -> exists w, s = w ++ s' /\ w <> [] /\ forall x y, w = x ++ y -> y <> [] -> P (y ++ s').
Proof.
  intros H pv s pv' s' (pv1 & s1 & A & B). apply (guarded r P H) in B as (w & -> & IH). destruct (H _ _ _ _ A) as (c & -> & Hp). exists (c :: w). split; [reflexivity|]. split; [discriminate|].
  intros [|z x] y Hy Hn; cbn in Hy; [subst y; exact Hp|]. injection Hy as _ Hy. eapply IH; eassumption.
Qed.
Lemma not_lit k pv s t : k <> [] -> (forall pv1 s1, ~ M (RLit k) pv s pv1 s1) -> s <> k ++ t.
Proof. intros Hk H ->. destruct (lit_make k pv t Hk) as (pv' & A). exact (H _ _ A). Qed.
Lemma unit_guard k : k <> [] -> forall pv s pv' s', M (RSeq (RNot (RLit k)) RAny) pv s pv' s' -> exists c, s = c :: s' /\ forall t, s <> k ++ t.
Proof. intros Hk pv s pv' s' (pv1 & s1 & (-> & -> & H) & (c & -> & _)). exists c. split; [reflexivity|]. intros t. apply (not_lit k pv _ t Hk H). Qed.
Lemma guard_without k w s : k <> [] -> (forall x y, w = x ++ y -> y <> [] -> forall t, y ++ s <> k ++ t) -> without k w.
Proof.
  intros Hk H a b Hw. apply (H a (k ++ b) Hw) with (t := b ++ s); [destruct k; [contradiction|discriminate]|]. rewrite <- app_assoc. reflexivity.
Qed.

(** ** The six kinds *)
Lemma raw_PI : rawly re_PI.
Proof.
  intros pv s pv' s' H. apply M_seqs_cons in H as (p1 & s1 & A & H). apply M_seqs_cons in H as (p2 & s2 & B & H). apply M_seqs_cons in H as (p3 & s3 & C & H). apply M_seqs_nil in H as (-> & ->). apply M_lit in A. apply M_lit in C.
  apply (guarded _ _ (unit_guard (lit "?>") ltac:(discriminate))) in B as (w & -> & Hw). exists (show (Instruction w)). split; [rewrite A, C; cbn [show]; rewrite <- !app_assoc; reflexivity|]. apply raw_instruction. eapply guard_without; [discriminate|exact Hw].
Qed.
Lemma raw_CD : rawly re_CD.
Proof.
  intros pv s pv' s' H. apply M_seqs_cons in H as (p1 & s1 & A & H). apply M_seqs_cons in H as (p2 & s2 & B & H). apply M_seqs_cons in H as (p3 & s3 & C & H). apply M_seqs_nil in H as (-> & ->). apply M_lit in A. apply M_lit in C.
  apply (guarded_plus _ _ (unit_guard (lit "]]>") ltac:(discriminate))) in B as (w & -> & _ & Hw). exists (show (Cdata w)). split; [rewrite A, C; cbn [show]; rewrite <- !app_assoc; reflexivity|]. apply raw_section. eapply guard_without; [discriminate|exact Hw].
Qed.
Lemma raw_CO : rawly re_CO.
Proof.
  intros pv s pv' s' H. apply M_seqs_cons in H as (p1 & s1 & A & H). apply M_seqs_cons in H as (p2 & s2 & B & H). apply M_seqs_cons in H as (p3 & s3 & (-> & -> & C) & H). apply M_seqs_cons in H as (p4 & s4 & D & H). apply M_seqs_cons in H as (p5 & s5 & F & H).
  apply M_seqs_nil in H as (-> & ->). apply M_lit in A. apply M_lit in F.
  apply (guarded_plus _ (fun s => (forall t, s <> lit ">" ++ t) /\ (forall t, s <> lit "->" ++ t) /\ forall t, s <> lit "--" ++ t)) in B as (w & -> & Hn & Hw).
  2:{ intros q1 t1 q2 t2 (q3 & t3 & (-> & -> & G) & (q4 & t4 & (-> & -> & K) & (c & -> & _))). exists c. split; [reflexivity|]. split; [|split]; intros t.
      - intros X. injection X as -> ->. apply (G (Some 62%N) t). left. apply M_chr. auto.
      - apply (not_lit (lit "->") q1); [discriminate|]. intros u1 u2 X. apply (G u1 u2). right. exact X.
      - apply (not_lit (lit "--") q1); [discriminate|exact K]. }
  destruct D as [(c & -> & _ & ->)|(-> & ->)]; [|exfalso; apply (C (Some 45%N) (lit "->" ++ s5)); rewrite F; apply M_chr; auto].
  assert (Hc : c <> 45%N) by (intros ->; apply (C (Some 45%N) s4); apply M_chr; auto). exists (show (Comment (w ++ [c]))). split; [rewrite A, F; cbn [show]; rewrite <- !app_assoc; reflexivity|].
  assert (G : forall k t, (forall t, w ++ c :: s4 <> k ++ t) -> w ++ [c] <> k ++ t) by (intros k t X Y; apply (X (t ++ s4)); rewrite app_assoc, <- Y, <- app_assoc; reflexivity).
  destruct (Hw [] w eq_refl Hn) as (W1 & W2 & _). apply raw_comment.
  - intros t. apply G. exact W1.
  - intros t. apply G. exact W2.
  - intros a b Eq. destruct (Nat.lt_ge_cases (length a) (length w)) as [L|L].
    + assert (X : exists y, w = a ++ y /\ y <> []).
      { exists (skipn (length a) w). assert (Y : firstn (length a) w = a) by (apply (f_equal (firstn (length a))) in Eq; rewrite firstn_app in Eq; replace (length a - length w) with 0 in Eq by lia; rewrite app_nil_r in Eq; rewrite Eq, firstn_app, Nat.sub_diag, firstn_all, app_nil_r; reflexivity).
        split; [rewrite <- Y at 1; symmetry; apply firstn_skipn|]. intros Z. apply (f_equal (@length N)) in Z. rewrite skipn_length in Z. cbn in Z. lia. }
      destruct X as (y & Ew & Hy). destruct (Hw a y Ew Hy) as (_ & _ & X). apply (X (b ++ s4)). rewrite Ew, <- !app_assoc in Eq. apply app_inv_head in Eq. change (c :: s4) with ([c] ++ s4). rewrite app_assoc, Eq, <- app_assoc. reflexivity.
    + apply (f_equal (@length N)) in Eq. rewrite !app_length in Eq. cbn in Eq. lia.
  - rewrite last_last. exact Hc.
Qed.
Lemma upper_plus pv s pv' s' : M (RPlus (RSet ascii_upper)) pv s pv' s' -> exists c w, s = c :: w ++ s' /\ (65 <= c <= 90)%N /\ ~ In 62%N w.
Proof.
  intros H. apply (M_name ascii_upper ascii_upper) in H as (c & w & -> & Hc & Hw). assert (U : forall x, ascii_upper x = true -> (65 <= x <= 90)%N) by (intros x; unfold ascii_upper, in_range; rewrite andb_true_iff, !N.leb_le; auto).
  exists c, w. split; [reflexivity|]. split; [apply U; exact Hc|]. intros X. rewrite Forall_forall in Hw. apply Hw, U in X. lia.
Qed.
Lemma no_gt pv s pv' s' : M (RPlus (RSeq (RNot (RChr 62)) RAny)) pv s pv' s' -> exists w, s = w ++ s' /\ ~ In 62%N w.
Proof.
  intros H. apply (guarded_plus _ (fun s => forall t, s <> 62%N :: t)) in H as (w & -> & _ & Hw).
  - exists w. split; [reflexivity|]. intros X. apply in_split in X as (x & y & ->). apply (Hw x (62%N :: y) eq_refl ltac:(discriminate) (y ++ s')). reflexivity.
  - intros q1 t1 q2 t2 (q3 & t3 & (-> & -> & G) & (c & -> & _)). exists c. split; [reflexivity|]. intros t X. injection X as -> ->. apply (G (Some 62%N) t). apply M_chr. auto.
Qed.
Lemma raw_DE_cmark : rawly re_DE_cmark.
Proof.
  intros pv s pv' s' H. apply M_seqs_cons in H as (p1 & s1 & A & H). apply M_seqs_cons in H as (p2 & s2 & B & H). apply M_seqs_cons in H as (p3 & s3 & C & H). apply M_seqs_cons in H as (p4 & s4 & D & H). apply M_seqs_nil in H as (-> & ->). apply M_lit in A. apply M_chr in D as (D & _).
  apply upper_plus in B as (c & u & B & Hc & Hu). apply no_gt in C as (w & C & Hw). exists (lit "<!" ++ c :: (u ++ w) ++ lit ">"). split; [rewrite A, B, C, D; cbn; rewrite <- !app_assoc; reflexivity|]. apply raw_declaration; [exact Hc|]. rewrite in_app_iff. tauto.
Qed.
Lemma white_star pv s pv' s' : M (RStar re_WS) pv s pv' s' -> exists b, s = b ++ s' /\ white b.
Proof. intros H. apply star_set in H as (b & -> & F & _). exists b. split; [reflexivity|]. eapply Forall_impl; [|exact F]. intros c Hc. apply cin_In in Hc. cbn in Hc |- *. intuition. Qed.
Lemma white_plus pv s pv' s' : M (RPlus re_WS) pv s pv' s' -> exists b, s = b ++ s' /\ b <> [] /\ white b.
Proof.
  intros (pv1 & s1 & (c & -> & Hc & _) & B). apply white_star in B as (b & -> & F). exists (c :: b). split; [reflexivity|]. split; [discriminate|]. constructor; [|exact F]. apply cin_In in Hc. cbn in Hc |- *. intuition.
Qed.
Lemma raw_DE_github : rawly re_DE_github.
Proof.
  intros pv s pv' s' H. apply M_seqs_cons in H as (p1 & s1 & A & H). apply M_seqs_cons in H as (p2 & s2 & B & H). apply M_seqs_cons in H as (p3 & s3 & G & H). apply M_seqs_cons in H as (p4 & s4 & C & H). apply M_seqs_cons in H as (p5 & s5 & D & H). apply M_seqs_nil in H as (-> & ->). apply M_lit in A. apply M_chr in D as (D & _).
  apply upper_plus in B as (c & u & B & Hc & Hu). apply white_plus in G as (b & G & _ & Hb). apply no_gt in C as (w & C & Hw). exists (lit "<!" ++ c :: (u ++ b ++ w) ++ lit ">"). split; [rewrite A, B, G, C, D; cbn; rewrite <- !app_assoc; reflexivity|]. apply raw_declaration; [exact Hc|]. rewrite !in_app_iff. intros [X|[X|X]]; try tauto.
  unfold white in Hb. rewrite Forall_forall in Hb. apply Hb in X. cbn in X. intuition discriminate.
Qed.

(** ** Tags *)
Definition gap_raw (r : re) : Prop := forall pv s pv' s', M r pv s pv' s' -> exists b, s = b ++ s' /\ b <> [] /\ white b.
Definition tail_raw (r : re) : Prop := forall pv s pv' s', M r pv s pv' s' -> exists b, s = b ++ s' /\ white b.
Lemma tab_white pv s pv' s' : M (RStar re_spacetab) pv s pv' s' -> exists b, s = b ++ s' /\ white b.
Proof. intros H. apply star_set in H as (b & -> & F & _). exists b. split; [reflexivity|]. eapply Forall_impl; [|exact F]. intros c Hc. apply cin_In in Hc. cbn in Hc |- *. intuition. Qed.
Lemma le_white pv s pv' s' : M re_le pv s pv' s' -> exists b, s = b ++ s' /\ b <> [] /\ white b.
Proof.
  intros [H|[H|(pv1 & s1 & H & K)]]; [apply M_chr in H as (-> & _); exists [10%N]|apply M_chr in H as (-> & _); exists [13%N]|apply M_chr in H as (-> & _); apply M_chr in K as (-> & _); exists [13%N; 10%N]];
    (split; [reflexivity|]; split; [discriminate|]; repeat apply Forall_cons; try apply Forall_nil; cbn; tauto).
Qed.
Lemma gap_raw_cmark : gap_raw (RAlt (RPlus re_spacetab) re_le).
Proof.
  intros pv s pv' s' [(pv1 & s1 & (c & -> & Hc & _) & B)|H]; [|exact (le_white _ _ _ _ H)]. apply tab_white in B as (b & -> & F). exists (c :: b). split; [reflexivity|]. split; [discriminate|]. constructor; [|exact F]. apply cin_In in Hc. cbn in Hc |- *. intuition.
Qed.
Lemma tail_raw_cmark : tail_raw (RAlt (RStar re_spacetab) (ROpt re_le)).
Proof. intros pv s pv' s' [H|[H|(-> & ->)]]; [exact (tab_white _ _ _ _ H)|apply le_white in H as (b & -> & _ & F); eauto|exists []; split; [reflexivity|constructor]]. Qed.
Lemma tail_raw_opt : tail_raw (ROpt re_WS).
Proof.
  intros pv s pv' s' [(c & -> & Hc & _)|(-> & ->)]; [exists [c]|exists []]; (split; [reflexivity|]); [|apply Forall_nil].
  apply Forall_cons; [|apply Forall_nil]. apply cin_In in Hc. cbn in Hc |- *. intuition.
Qed.
Lemma value_raw pv s pv' s' : M re_attrvalue pv s pv' s' -> exists v, s = show_value v ++ s' /\ good_value v.
Proof.
  intros [H|[H|H]].
  - destruct H as (pv1 & s1 & (c & -> & Hc & _) & B). apply star_notin in B as (u & -> & F). apply negb_true_iff, cin_not_In in Hc. exists (Bare (c :: u)). split; [reflexivity|]. split; [discriminate|]. constructor; [cbn in *; tauto|]. eapply Forall_impl; [|exact F]. intros x Hx. cbn in *. tauto.
  - apply M_seqs_cons in H as (pv1 & s1 & A & H). apply M_seqs_cons in H as (pv2 & s2 & B & H). apply M_seqs_cons in H as (pv3 & s3 & C & H). apply M_seqs_nil in H as (-> & ->).
    apply M_chr in A as (-> & _). apply star_notin in B as (u & -> & F). apply M_chr in C as (-> & _). exists (Single u). split; [cbn; rewrite <- app_assoc; reflexivity|]. rewrite Forall_forall in F. split; intros X; apply (F _ X); cbn; auto.
  - apply M_seqs_cons in H as (pv1 & s1 & A & H). apply M_seqs_cons in H as (pv2 & s2 & B & H). apply M_seqs_cons in H as (pv3 & s3 & C & H). apply M_seqs_nil in H as (-> & ->).
    apply M_chr in A as (-> & _). apply star_notin in B as (u & -> & F). apply M_chr in C as (-> & _). exists (Double u). split; [cbn; rewrite <- app_assoc; reflexivity|]. rewrite Forall_forall in F. split; intros X; apply (F _ X); cbn; auto.
Qed.
Lemma AT_raw gap pv s pv' s' : gap_raw gap -> M (AT gap) pv s pv' s' -> exists a, s = show_attr a ++ s' /\ loose_attr a.
Proof.
  intros Hg H. apply M_seqs_cons in H as (pv1 & s1 & A & H). apply M_seqs_cons in H as (pv2 & s2 & B & H). apply M_seqs_cons in H as (pv3 & s3 & C & H). apply M_seqs_nil in H as (-> & ->). apply Hg in A as (g & -> & G1 & G2).
  apply (M_name attr_first attr_rest) in B as (c & u & -> & Hc & Hu). assert (Hn : attr_name (c :: u)) by (exists c, u; split; [reflexivity|]; split; [apply attr_first_iff; exact Hc|eapply Forall_impl; [|exact Hu]; intros x; apply attr_rest_iff]).
  destruct C as [C|(-> & ->)].
  - apply M_seqs_cons in C as (q1 & t1 & C1 & C). apply M_seqs_cons in C as (q2 & t2 & C2 & C). apply M_seqs_cons in C as (q3 & t3 & C3 & C). apply M_seqs_cons in C as (q4 & t4 & C4 & C). apply M_seqs_nil in C as (-> & ->).
    apply (white_star _ _ _ _) in C1 as (b1 & -> & W1). apply M_chr in C2 as (-> & _). apply (white_star _ _ _ _) in C3 as (b2 & -> & W2). apply value_raw in C4 as (v & -> & Hv).
    exists (Attr g (c :: u) (Some (b1, b2, v))). split; [unfold show_attr; cbn [a_gap a_name a_value]; repeat (rewrite <- app_assoc; cbn [app]); reflexivity|]. repeat split; auto; apply Hn.
  - exists (Attr g (c :: u) None). split; [unfold show_attr; cbn [a_gap a_name a_value]; rewrite app_nil_r, <- app_assoc; reflexivity|]. repeat split; auto; apply Hn.
Qed.
Lemma ATs_raw gap pv s pv' s' : gap_raw gap -> M (RStar (AT gap)) pv s pv' s' -> exists l, s = concat (map show_attr l) ++ s' /\ Forall loose_attr l.
Proof.
  intros Hg H. change (star (M (AT gap)) pv s pv' s') in H. induction H as [pv s|pv s pv1 s1 pv2 s2 A B (l & -> & F)]; [exists []; split; [reflexivity|constructor]|].
  apply (AT_raw gap _ _ _ _ Hg) in A as (a & -> & Ha). exists (a :: l). split; [cbn [map concat]; rewrite <- app_assoc; reflexivity|constructor; assumption].
Qed.
Definition tn_raw (tn : re) : Prop := forall x s pv' s', x = 60%N \/ x = 47%N -> M tn (Some x) s pv' s' -> stop s' -> exists n, s = n ++ s' /\ tag_name n /\ named n.
Lemma white_stop b s : white b -> stop s -> stop (b ++ s).
Proof. intros [|c b' Hc _] Hs; [exact Hs|]. exists c, (b' ++ s). split; [reflexivity|]. cbn in Hc |- *. intuition. Qed.
Lemma attrs_white_stop l s : Forall loose_attr l -> stop s -> stop (concat (map show_attr l) ++ s).
Proof.
  intros [|a l' (Hn & Hb & _) _] Hs; [exact Hs|]. cbn [map concat]. unfold show_attr. rewrite <- !app_assoc. destruct (a_gap a) as [|c g]; [contradiction|]. inversion Hb as [|? ? Hc _]; subst.
  eexists. eexists. split; [reflexivity|]. cbn in Hc |- *. intuition.
Qed.
Lemma OT_raw tn gap tail : tn_raw tn -> gap_raw gap -> tail_raw tail -> rawly (OT tn gap tail).
Proof.
  intros Ht Hg Hl pv s pv' s' H. apply M_seqs_cons in H as (p1 & s1 & A & H). apply M_seqs_cons in H as (p2 & s2 & B & H). apply M_seqs_cons in H as (p3 & s3 & C & H). apply M_seqs_cons in H as (p4 & s4 & D & H). apply M_seqs_cons in H as (p5 & s5 & F & H). apply M_seqs_cons in H as (p6 & s6 & G & H). apply M_seqs_nil in H as (-> & ->).
  apply M_chr in A as (-> & ->). apply (ATs_raw gap _ _ _ _ Hg) in C as (attrs & -> & Ha). apply Hl in D as (tl & -> & Htl). apply M_chr in G as (-> & _).
  assert (S5 : exists b, s4 = fin b s6) by (destruct F as [F|(_ & <-)]; [apply M_chr in F as (-> & _); exists true|exists false]; reflexivity). destruct S5 as (b & ->).
  destruct (Ht 60%N _ _ _ (or_introl eq_refl) B) as (n & -> & Hn & Hm); [apply attrs_white_stop; [exact Ha|apply white_stop; [exact Htl|apply fin_stop]]|].
  exists (show (Open n attrs tl b)). split; [|apply raw_open; assumption]. unfold fin. cbn [show app]. rewrite <- !app_assoc. destruct b; cbn [app]; reflexivity.
Qed.
Lemma CT_raw tn tail : tn_raw tn -> tail_raw tail -> rawly (RSeqs [RLit (lit "</"); tn; tail; RChr 62]).
Proof.
  intros Ht Hl pv s pv' s' H. apply M_seqs_cons in H as (p1 & s1 & A & H). apply M_seqs_cons in H as (p2 & s2 & B & H). apply M_seqs_cons in H as (p3 & s3 & C & H). apply M_seqs_cons in H as (p4 & s4 & D & H). apply M_seqs_nil in H as (-> & ->).
  destruct A as (q & t & A1 & A2). apply M_chr in A1 as (-> & _). apply M_chr in A2 as (-> & ->). apply Hl in C as (tl & -> & Htl). apply M_chr in D as (-> & _).
  destruct (Ht 47%N _ _ _ (or_intror eq_refl) B) as (n & -> & Hn & Hm); [apply white_stop; [exact Htl|apply (fin_stop false)]|]. exists (show (Close n tl)). split; [cbn [show app]; rewrite <- !app_assoc; reflexivity|apply raw_close; assumption].
Qed.
End Named.

Lemma tn_raw_cmark (named : str -> Prop) : (forall n, named n) -> tn_raw named re_tagname.
Proof.
  intros Hm x s pv' s' _ H _. apply (M_name tag_first tag_rest) in H as (c & u & -> & Hc & Hu). exists (c :: u). split; [reflexivity|]. split; [|apply Hm]. exists c, u. split; [reflexivity|]. split; [apply alpha_iff; exact Hc|eapply Forall_impl; [|exact Hu]; intros y; apply tag_rest_iff].
Qed.
Lemma tn_raw_github E (named : str -> Prop) : word_ascii E -> (forall n, ~ forbidden n -> named n) -> tn_raw named (re_TN_github E).
Proof.
  intros W Hm x s pv' s' Hx H Hs. pose proof H as H0. destruct H as (pv1 & s1 & (-> & -> & _) & B). destruct (tn_raw_cmark (fun _ => True) (fun _ => I) x s pv' s' Hx B Hs) as (n & -> & Hn & _).
  exists n. split; [reflexivity|]. split; [exact Hn|]. apply Hm. intros F. exact (TN_forbidden E x n s' pv' s' W Hx Hn F Hs H0).
Qed.
Lemma html_raw E p s : word_ascii E -> cut_raw (fun n => gfm p = true -> ~ forbidden n) s (remove_html_tags E p s).
Proof.
  intros W. unfold remove_html_tags. destruct (cm_family p); [|constructor]. set (named := fun n : str => gfm p = true -> ~ forbidden n).
  assert (H : Forall (rawly named) (html_regexes E p)).
  { unfold html_regexes. destruct (gfm p) eqn:G; repeat apply Forall_cons; try apply Forall_nil; try apply raw_CO; try apply raw_PI; try apply raw_CD; try apply raw_DE_github; try apply raw_DE_cmark.
    - apply (OT_raw named (re_TN_github E) (RPlus re_WS) (RStar re_WS)); [apply tn_raw_github; [exact W|unfold named; auto]|intros pv0 s0 pv1 s1; apply (white_plus named)|intros pv0 s0 pv1 s1; apply (white_star named)].
    - apply (CT_raw named (re_TN_github E) (ROpt re_WS)); [apply tn_raw_github; [exact W|unfold named; auto]|apply (tail_raw_opt named)].
    - apply (OT_raw named re_tagname (RAlt (RPlus re_spacetab) re_le) (RAlt (RStar re_spacetab) (ROpt re_le))); [apply tn_raw_cmark; unfold named; congruence|apply (gap_raw_cmark named)|apply (tail_raw_cmark named)].
    - apply (CT_raw named re_tagname (RAlt (RStar re_spacetab) (ROpt re_le))); [apply tn_raw_cmark; unfold named; congruence|apply (tail_raw_cmark named)]. }
  revert s. induction H as [|r l Hr H IH]; intros s; cbn [fold_left]; [constructor|]. eapply cut_raw_trans; [apply re_delete_raw; exact Hr|apply IH].
Qed.
