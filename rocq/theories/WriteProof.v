(** Facts about the functions that look for and write tables in files. *)
From Coq Require Import String List NArith ZArith Bool Arith Lia.
From Verif Require Import Str Regex HtmlRe RegexSpec Spec Write WriteSpec StrFacts RegexProof.
Import ListNotations.
Local Open Scope list_scope.

(** ** Lines *)
Lemma text_tail l ls : text_lines (l :: ls) -> text_lines ls.
Proof. intros H. inversion H; subst; [constructor|assumption]. Qed.
Lemma text_app_r a : forall b, text_lines (a ++ b) -> text_lines b.
Proof. induction a as [|x a IH]; intros b H; [exact H|]. apply IH. eapply text_tail. exact H. Qed.
Lemma text_app_l a : forall b, text_lines (a ++ b) -> text_lines a.
Proof.
  induction a as [|x a IH]; intros b H; [constructor|]. cbn in H. inversion H as [|s Hs Hn|s ls Hs Hl]; subst.
  - match goal with A : [] = a ++ b |- _ => symmetry in A; apply app_eq_nil in A as (-> & ->) end. constructor; assumption.
  - constructor; [assumption|]. apply (IH b). assumption.
Qed.
Definition full_lines (ls : list str) : Prop := Forall (fun l => exists s, single_line s /\ l = s ++ [10%N]) ls.
Lemma text_full a x b : text_lines (a ++ x :: b) -> full_lines a.
Proof.
  induction a as [|y a IH]; intros H; [constructor|]. cbn in H. inversion H as [|s Hs Hn|s ls Hs Hl]; subst.
  - destruct a; discriminate.
  - constructor; [eauto|]. apply IH. assumption.
Qed.
Lemma full_text a b : full_lines a -> text_lines b -> text_lines (a ++ b).
Proof. induction 1 as [|x a (s & Hs & ->) F IH]; intros H; [exact H|]. cbn. constructor; auto. Qed.

Lemma lines_of_line s : ~ In 10%N s -> forall t, lines_of ((s ++ [10%N]) ++ t) = (s ++ [10%N]) :: lines_of t.
Proof.
  induction s as [|c s IH]; intros H t; [reflexivity|]. cbn [app lines_of].
  replace (N.eqb c cLF) with false by (symmetry; apply N.eqb_neq; intros ->; apply H; left; reflexivity).
  change ((s ++ [10%N]) ++ t) with ((s ++ [10%N]) ++ t). rewrite IH; [reflexivity|]. intros X. apply H. right. exact X.
Qed.
Lemma lines_of_last s : ~ In 10%N s -> s <> [] -> lines_of s = [s].
Proof.
  induction s as [|c s IH]; intros H Hn; [congruence|]. cbn [lines_of].
  replace (N.eqb c cLF) with false by (symmetry; apply N.eqb_neq; intros ->; apply H; left; reflexivity).
  destruct s as [|d s]; [reflexivity|]. rewrite IH; [reflexivity| |discriminate]. intros X. apply H. right. exact X.
Qed.
Lemma lines_of_full a : full_lines a -> forall t, lines_of (concat a ++ t) = a ++ lines_of t.
Proof.
  induction 1 as [|x a (s & Hs & ->) F IH]; intros t; [reflexivity|]. cbn [concat]. rewrite <- app_assoc, lines_of_line by apply Hs.
  rewrite IH. reflexivity.
Qed.
Lemma lines_of_concat ls : text_lines ls -> lines_of (concat ls) = ls.
Proof.
  induction 1 as [|s Hs Hn|s ls Hs Hl IH]; [reflexivity| |].
  - cbn. rewrite app_nil_r. apply lines_of_last; [apply Hs|exact Hn].
  - cbn [concat]. rewrite lines_of_line by apply Hs. rewrite IH. reflexivity.
Qed.
Lemma concat_lines_of t : concat (lines_of t) = t.
Proof.
  induction t as [|c t IH]; [reflexivity|]. cbn [lines_of]. destruct (N.eqb c cLF).
  - cbn. rewrite IH. reflexivity.
  - destruct (lines_of t) as [|l ls]; cbn in *; [rewrite <- IH; reflexivity|]. rewrite IH. reflexivity.
Qed.
(** Splitting at the end of a line. *)
Lemma lines_of_split t : forall u, lines_of (t ++ [10%N] ++ u) = lines_of (t ++ [10%N]) ++ lines_of u.
Proof.
  induction t as [|c t IH]; intros u; [reflexivity|]. cbn [app lines_of] in *. destruct (N.eqb c cLF).
  - rewrite IH. reflexivity.
  - rewrite IH. destruct (lines_of (t ++ [10%N])) eqn:E; [|reflexivity].
    exfalso. pose proof (concat_lines_of (t ++ [10%N])) as G. rewrite E in G. cbn in G. destruct t; discriminate.
Qed.

Lemma chomp_full s : ~ In 10%N s -> chomp (s ++ [10%N]) = s.
Proof.
  intros H. unfold chomp, delete_char. rewrite filter_app. cbn. rewrite app_nil_r.
  induction s as [|c s IH]; [reflexivity|]. cbn. replace (N.eqb c 10) with false by (symmetry; apply N.eqb_neq; intros ->; apply H; left; reflexivity).
  cbn. rewrite IH; [reflexivity|]. intros X. apply H. right. exact X.
Qed.
Lemma chomp_id s : ~ In 10%N s -> chomp s = s.
Proof.
  intros H. unfold chomp, delete_char.
  induction s as [|c s IH]; [reflexivity|]. cbn. replace (N.eqb c 10) with false by (symmetry; apply N.eqb_neq; intros ->; apply H; left; reflexivity).
  cbn. rewrite IH; [reflexivity|]. intros X. apply H. right. exact X.
Qed.
Lemma chomp_no_lf s : ~ In 10%N (chomp s).
Proof. unfold chomp, delete_char. rewrite filter_In. intros (_ & H). discriminate. Qed.
Lemma joined_no_lf ls : ~ In 10%N (joined ls).
Proof.
  unfold joined. intros H. apply in_concat in H as (x & Hx & H). apply in_map_iff in Hx as (l & <- & _). exact (chomp_no_lf l H).
Qed.
Lemma text_no_cr ls : text_lines ls -> ~ In 13%N (concat ls).
Proof.
  induction 1 as [|s Hs Hn|s ls Hs Hl IH]; cbn; [tauto| |].
  - rewrite app_nil_r. apply Hs.
  - rewrite !in_app_iff. cbn. intros [[H|[H|[]]]|H]; [apply Hs; exact H|discriminate|auto].
Qed.

(** ** read_line_interval *)
Fixpoint sel (a b n : Z) (s : str) : str :=
  match s with
  | [] => []
  | c :: s' => if N.eqb c 10 then sel a b (n + 1) s'
               else (if (a <=? n)%Z && (n <=? b)%Z then [c] else []) ++ sel a b n s'
  end.
Lemma skip_lfcr_id s : ~ In 13%N s -> skip_lfcr s = (s, false).
Proof.
  destruct s as [|x [|y s]]; intros H; try reflexivity. cbn [skip_lfcr].
  replace (N.eqb y cCR) with false; [rewrite andb_false_r; reflexivity|]. symmetry. apply N.eqb_neq. intros ->. apply H. right. left. reflexivity.
Qed.
Lemma skip_crlf_id s n : ~ In 13%N s -> skip_crlf s n = (s, n).
Proof.
  destruct s as [|x [|y s]]; intros H; try reflexivity. cbn [skip_crlf].
  replace (N.eqb x cCR) with false; [reflexivity|]. symmetry. apply N.eqb_neq. intros ->. apply H. left. reflexivity.
Qed.
Lemma skip_nl_sel a b s : ~ In 13%N s -> forall n, let '(s', n') := skip_nl s n in
  sel a b n s = sel a b n' s' /\ length s' <= length s /\ ~ In 13%N s' /\ hd_error s' <> Some 10%N.
Proof.
  induction s as [|c s IH]; intros H n; [cbn; repeat split; auto; discriminate|]. cbn [skip_nl].
  replace (N.eqb c cCR) with false by (symmetry; apply N.eqb_neq; intros ->; apply H; left; reflexivity). rewrite orb_false_r.
  change cLF with 10%N. destruct (N.eqb c 10) eqn:E.
  - specialize (IH (fun X => H (or_intror X)) (n + 1)%Z). destruct (skip_nl s (n + 1)) as (s', n'). cbn [sel length]. rewrite E.
    intuition lia.
  - repeat split; auto. cbn. intros X. injection X as ->. discriminate.
Qed.
Lemma rli_sel a b : forall fuel s n, ~ In 13%N s -> length s < fuel -> rli_loop fuel s n a b = sel a b n s.
Proof.
  induction fuel as [|fuel IH]; intros s n H Hf; [lia|]. cbn [rli_loop]. rewrite skip_lfcr_id, skip_crlf_id by exact H.
  pose proof (skip_nl_sel a b s H n) as G. destruct (skip_nl s n) as (s' & n'). destruct G as (-> & Hl & Hc & Hh).
  destruct s' as [|c s']; [reflexivity|]. cbn [sel hd_error length] in *.
  replace (N.eqb c 10) with false by (symmetry; apply N.eqb_neq; congruence). rewrite IH; [reflexivity| |lia].
  intros X. apply Hc. right. exact X.
Qed.
Lemma sel_line a b s : ~ In 10%N s -> forall n t, sel a b n (s ++ t) = (if (a <=? n)%Z && (n <=? b)%Z then s else []) ++ sel a b n t.
Proof.
  induction s as [|c s IH]; intros H n t; [destruct (_ && _); reflexivity|]. cbn [app sel].
  replace (N.eqb c 10) with false by (symmetry; apply N.eqb_neq; intros ->; apply H; left; reflexivity).
  rewrite IH by (intros X; apply H; right; exact X). destruct (_ && _); reflexivity.
Qed.
Lemma sel_lines a b ls : text_lines ls -> forall n, (1 <= n)%Z -> (1 <= a)%Z ->
  sel a b n (concat ls) = joined (firstn (Z.to_nat (b - Z.max a n + 1)) (skipn (Z.to_nat (a - n)) ls)).
Proof.
  induction 1 as [|s Hs Hn|s ls Hs Hl IH]; intros n Hn1 Ha.
  - cbn. rewrite skipn_nil, firstn_nil. reflexivity.
  - cbn [concat]. rewrite sel_line by apply Hs. cbn [sel]. rewrite app_nil_r.
    destruct (Z.leb_spec a n) as [H1|H1].
    + replace (Z.to_nat (a - n)) with 0 by lia. cbn [skipn]. rewrite Z.max_r by lia. destruct (Z.leb_spec n b) as [H2|H2]; cbn [andb].
      * replace (Z.to_nat (b - n + 1)) with (S (Z.to_nat (b - n))) by lia. cbn [firstn]. rewrite firstn_nil. unfold joined. cbn. rewrite chomp_id by apply Hs. rewrite app_nil_r. reflexivity.
      * replace (Z.to_nat (b - n + 1)) with 0 by lia. reflexivity.
    + cbn [andb]. replace (Z.to_nat (a - n)) with (S (Z.to_nat (a - n - 1))) by lia. cbn [skipn]. rewrite skipn_nil, firstn_nil. reflexivity.
  - cbn [concat]. rewrite <- app_assoc, sel_line by apply Hs. cbn [app sel]. cbn [N.eqb Pos.eqb]. rewrite IH by lia.
    destruct (Z.leb_spec a n) as [H1|H1].
    + replace (Z.to_nat (a - n)) with 0 by lia. replace (Z.to_nat (a - (n + 1))) with 0 by lia. cbn [skipn]. rewrite !Z.max_r by lia.
      destruct (Z.leb_spec n b) as [H2|H2]; cbn [andb].
      * replace (Z.to_nat (b - n + 1)) with (S (Z.to_nat (b - (n + 1) + 1))) by lia. cbn [firstn]. unfold joined. cbn [map concat].
        rewrite chomp_full by apply Hs. reflexivity.
      * replace (Z.to_nat (b - n + 1)) with 0 by lia. replace (Z.to_nat (b - (n + 1) + 1)) with 0 by lia. reflexivity.
    + cbn [andb app]. replace (Z.to_nat (a - n)) with (S (Z.to_nat (a - (n + 1)))) by lia. cbn [skipn]. rewrite !Z.max_l by lia. reflexivity.
Qed.
Lemma read_line_interval_spec ls a b : text_lines ls -> (1 <= a)%Z ->
  read_line_interval (concat ls) a b = joined (firstn (Z.to_nat (b - a + 1)) (skipn (Z.to_nat (a - 1)) ls)).
Proof.
  intros H Ha. unfold read_line_interval.
  replace (a <? 1)%Z with false by (symmetry; apply Z.ltb_ge; lia). rewrite orb_false_r.
  destruct (Z.ltb_spec b a) as [Hb|Hb].
  - replace (Z.to_nat (b - a + 1)) with 0 by lia. reflexivity.
  - rewrite rli_sel by (lia || apply text_no_cr; exact H). rewrite sel_lines by (auto; lia). rewrite Z.max_l by lia. reflexivity.
Qed.

(** ** Regular expressions *)
Lemma in_cin c s : cin c s = true <-> In c s.
Proof. apply cin_In. Qed.
Lemma M_upto_chr c n : forall pv s pv' s', M (RUpTo n (RChr c)) pv s pv' s' ->
  exists k, k <= n /\ s = repeat c k ++ s'.
Proof.
  induction n as [|n IH]; intros pv s pv' s' H; cbn [RUpTo M] in H.
  - destruct H as (_ & ->). exists 0. auto.
  - destruct H as [(pv1 & s1 & A & B)|(_ & ->)].
    + apply M_chr in A as (-> & _). apply IH in B as (k & Hk & ->). exists (S k). split; [lia|reflexivity].
    + exists 0. split; [lia|reflexivity].
Qed.
Lemma upto_chr_M c n : forall k pv s', k <= n -> exists pv', M (RUpTo n (RChr c)) pv (repeat c k ++ s') pv' s'.
Proof.
  induction n as [|n IH]; intros k pv s' Hk; cbn [RUpTo M].
  - assert (k = 0) by lia. subst. exists pv. auto.
  - destruct k as [|k].
    + exists pv. right. auto.
    + destruct (IH k (Some c) s') as (pv' & G); [lia|]. exists pv'. left. exists (Some c), (repeat c k ++ s'). split; [apply M_chr; auto|exact G].
Qed.
Lemma detect_iff E s : detect_toc_list E s = true <-> list_item E s.
Proof.
  unfold detect_toc_list. rewrite fullmatch_iff. unfold re_toc_list, list_item. split.
  - intros (pv' & pv1 & s1 & A & pv2 & s2 & B & pv3 & s3 & C & pv4 & s4 & D & F).
    apply M_upto_chr in A as (ind & Hi & ->).
    assert (Hmk : exists mk, s1 = mk ++ s2 /\ (In mk [lit "-"; lit "+"; lit "*"]
        \/ exists ds c, mk = ds ++ [c] /\ ds <> [] /\ Forall (fun d => e_digit E d = true) ds /\ In c (lit ".)"))).
    { destruct B as [(x & -> & Hx & _)|(pv5 & s5 & (pv6 & s6 & G1 & G2) & x & -> & Hx & _)].
      - exists [x]. split; [reflexivity|]. left. apply in_cin in Hx. cbn in Hx. destruct Hx as [<-|[<-|[<-|[]]]]; cbn; auto.
      - cbn in G1. destruct G1 as (d & -> & Hd & ->). apply star_set in G2 as (u & -> & Fu & _).
        exists ((d :: u) ++ [x]). split; [cbn; rewrite <- app_assoc; reflexivity|]. right. exists (d :: u), x.
        split; [reflexivity|]. split; [discriminate|]. split; [constructor; assumption|]. apply in_cin. exact Hx. }
    destruct Hmk as (mk & -> & Hmk). apply M_chr in C as (-> & _). destruct D as (-> & -> & Hno).
    cbn [fold_right M] in F. destruct F as (pv7 & s7 & F & _ & <-). apply star_set in F as (u & Hu & Fu & _). rewrite app_nil_r in Hu.
    exists ind, mk, s3. split; [reflexivity|]. split; [exact Hi|]. split; [exact Hmk|]. split.
    + intros c Hc Hin. destruct s3 as [|d s3]; [discriminate|]. injection Hc as ->.
      apply (Hno (Some c) s3). cbn [RPlus M]. exists (Some c), s3. split; [|constructor]. exists c. split; [reflexivity|]. split; [apply in_cin; exact Hin|reflexivity].
    + intros Hin. subst s3. rewrite Forall_forall in Fu. apply Fu in Hin. discriminate.
  - intros (ind & mk & rest & -> & Hi & Hmk & Hno & Hlf).
    destruct (upto_chr_M 32%N 3 ind None (mk ++ 32%N :: rest) Hi) as (pv1 & A).
    assert (B : exists pv2, M (RAlt (ROneOf (lit "-+*")) (RSeq (RPlus (RSet (e_digit E))) (ROneOf (lit ".)")))) pv1 (mk ++ 32%N :: rest) pv2 (32%N :: rest)).
    { destruct Hmk as [Hmk|(ds & c & -> & Hn & Fd & Hc)].
      - cbn in Hmk. destruct Hmk as [<-|[<-|[<-|[]]]]; eexists; left; eexists; (split; [reflexivity|]); (split; [reflexivity|reflexivity]).
      - destruct ds as [|d ds]; [congruence|]. inversion Fd as [|? ? Hd Fd']; subst. exists (Some c). right.
        exists (last (map Some ds) (Some d)), (c :: 32%N :: rest). split.
        + exists (Some d), (ds ++ c :: 32%N :: rest). split.
          * exists d. split; [|split; [exact Hd|reflexivity]]. cbn. rewrite <- app_assoc. reflexivity.
          * apply star_set. exists ds. auto.
        + exists c. split; [reflexivity|]. split; [apply in_cin; exact Hc|reflexivity]. }
    destruct B as (pv2 & B).
    exists (last (map Some rest) (Some 32%N)). exists pv1, (mk ++ 32%N :: rest). split; [exact A|]. exists pv2, (32%N :: rest). split; [exact B|].
    exists (Some 32%N), rest. split; [apply M_chr; auto|]. exists (Some 32%N), rest. split.
    + split; [reflexivity|]. split; [reflexivity|]. intros pv5 s5 (pv6 & s6 & (x & -> & Hx & _) & _). apply (Hno x eq_refl). apply in_cin. exact Hx.
    + cbn [fold_right M]. eexists. exists []. split; [|split; reflexivity]. apply star_set. exists rest. rewrite app_nil_r. split; [reflexivity|]. split; [|reflexivity].
      apply Forall_forall. intros x Hx. apply negb_true_iff, cin_not_In. intros [<-|[]]. contradiction.
Qed.

Definition blank_char (c : N) : Prop := In c [32; 9; 11; 10; 13]%N.
(** Every LF CR pair is preceded by CR. *)
Definition lfcr_ok (s : str) : Prop := forall a b, s = a ++ 10%N :: 13%N :: b -> exists a', a = a' ++ [13%N].

Lemma not_lfcr_M pv s pv' s' : M (RNot (RSeq (RChr 10) (RChr 13))) pv s pv' s' <-> pv' = pv /\ s' = s /\ (forall t, s <> 10%N :: 13%N :: t).
Proof.
  cbn [M]. split.
  - intros (-> & -> & H). split; [reflexivity|]. split; [reflexivity|]. intros t ->. apply (H (Some 13%N) t). exists (Some 10%N), (13%N :: t).
    split; apply M_chr; auto.
  - intros (-> & -> & H). split; [reflexivity|]. split; [reflexivity|]. intros pv1 s1 (pv2 & s2 & A & B).
    apply M_chr in A as (-> & _). apply M_chr in B as (-> & _). apply (H s1). reflexivity.
Qed.
Definition token_re : re :=
  let not_lfcr := RNot (RSeq (RChr 10) (RChr 13)) in
  RAlts [not_lfcr; RSeq not_lfcr (RSeq (RChr 13) (RChr 10)); RSeq not_lfcr (RChr 13); RSeq not_lfcr (RChr 10);
         RSeq not_lfcr (RChr 11); RSeq not_lfcr (RChr 32); RSeq not_lfcr (RChr 9)].
Lemma token_M pv s pv' s' : M token_re pv s pv' s' ->
  (forall t, s <> 10%N :: 13%N :: t) /\
  (s' = s \/ s = 13%N :: 10%N :: s' \/ exists c, blank_char c /\ s = c :: s').
Proof.
  intros H.
  assert (C : forall r, M (RSeq (RNot (RSeq (RChr 10) (RChr 13))) r) pv s pv' s' -> (forall t, s <> 10%N :: 13%N :: t) /\ exists pv1, M r pv1 s pv' s').
  { intros r (pv1 & s1 & A & B). apply not_lfcr_M in A as (-> & -> & A). eauto. }
  unfold token_re in H. cbn [RAlts] in H.
  destruct H as [H|[H|[H|[H|[H|[H|H]]]]]].
  - apply not_lfcr_M in H as (-> & -> & H). auto.
  - apply C in H as (A & pv1 & pv2 & s2 & B & D). apply M_chr in B as (-> & _). apply M_chr in D as (-> & _). auto.
  - apply C in H as (A & pv1 & B). apply M_chr in B as (-> & _). split; [exact A|]. right. right. exists 13%N. unfold blank_char. cbn. auto 10.
  - apply C in H as (A & pv1 & B). apply M_chr in B as (-> & _). split; [exact A|]. right. right. exists 10%N. unfold blank_char. cbn. auto 10.
  - apply C in H as (A & pv1 & B). apply M_chr in B as (-> & _). split; [exact A|]. right. right. exists 11%N. unfold blank_char. cbn. auto 10.
  - apply C in H as (A & pv1 & B). apply M_chr in B as (-> & _). split; [exact A|]. right. right. exists 32%N. unfold blank_char. cbn. auto 10.
  - apply C in H as (A & pv1 & B). apply M_chr in B as (-> & _). split; [exact A|]. right. right. exists 9%N. unfold blank_char. cbn. auto 10.
Qed.
Lemma M_token pv s s' : (forall t, s <> 10%N :: 13%N :: t) ->
  (s' = s \/ s = 13%N :: 10%N :: s' \/ exists c, blank_char c /\ s = c :: s') -> exists pv', M token_re pv s pv' s'.
Proof.
  intros Hno H.
  assert (C : forall r pv', M r pv s pv' s' -> M (RSeq (RNot (RSeq (RChr 10) (RChr 13))) r) pv s pv' s').
  { intros r pv' B. exists pv, s. split; [apply not_lfcr_M; auto|exact B]. }
  unfold token_re. cbn [RAlts]. destruct H as [->|[H|(c & Hc & H)]].
  - exists pv. left. apply not_lfcr_M. auto.
  - exists (Some 10%N). right. left. apply C. exists (Some 13%N), (10%N :: s'). split; apply M_chr; auto.
  - exists (Some c). unfold blank_char in Hc. cbn in Hc.
    destruct Hc as [<-|[<-|[<-|[<-|[<-|[]]]]]].
    + right. right. right. right. right. left. apply C, M_chr. auto.
    + right. right. right. right. right. right. apply C, M_chr. auto.
    + right. right. right. right. left. apply C, M_chr. auto.
    + right. right. right. left. apply C, M_chr. auto.
    + right. right. left. apply C, M_chr. auto.
Qed.

Lemma lfcr_tail c s : lfcr_ok (c :: s) -> c <> 13%N -> (forall t, c :: s <> 10%N :: 13%N :: t) -> lfcr_ok s.
Proof.
  intros H Hc Hno a b ->. destruct (H (c :: a) b eq_refl) as (a' & Ha'). destruct a' as [|y a'].
  - injection Ha' as -> ->. congruence.
  - injection Ha' as -> ->. eauto.
Qed.
Lemma string_empty_iff s : string_empty s = true <-> Forall blank_char s /\ lfcr_ok s.
Proof.
  unfold string_empty. rewrite fullmatch_iff. change re_string_empty with (RPlus token_re). split.
  - intros (pv' & H).
    assert (G : star (M token_re) None s pv' []).
    { destruct H as (pv1 & s1 & A & B). eapply star_more; eauto. }
    clear H. remember (@nil N) as e eqn:He. induction G as [pv s|pv s pv1 s1 pv2 s2 A B IH]; subst.
    + split; [constructor|]. intros [|x a] b; discriminate.
    + destruct (IH eq_refl) as (F & Ok). apply token_M in A as (Hno & [->|[->|(c & Hc & ->)]]).
      * auto.
      * split.
        -- constructor; [unfold blank_char; cbn; auto 10|]. constructor; [unfold blank_char; cbn; auto 10|exact F].
        -- intros a b E. destruct a as [|x [|y a]]; try discriminate.
           ++ injection E as <- E. exists []. reflexivity.
           ++ injection E as <- <- E. destruct (Ok a b E) as (a' & ->). exists (13%N :: 10%N :: a'). reflexivity.
      * split; [constructor; assumption|]. intros a b E. destruct a as [|x a]; [destruct (Hno b E)|].
        injection E as <- E. destruct (Ok a b E) as (a' & ->). exists (c :: a'). reflexivity.
  - intros (F & Hok).
    assert (G : forall n s pv, length s <= n -> Forall blank_char s -> lfcr_ok s -> (forall t, s <> 10%N :: 13%N :: t) /\ exists pv', star (M token_re) pv s pv' []).
    { clear. induction n as [|n IH]; intros s pv Hl F Hok.
      - destruct s; [|cbn in Hl; lia]. split; [discriminate|]. exists pv. constructor.
      - assert (Hno : forall t, s <> 10%N :: 13%N :: t).
        { intros t ->. destruct (Hok [] t eq_refl) as ([|] & X); discriminate. }
        split; [exact Hno|]. destruct s as [|c s]; [exists pv; constructor|]. inversion F as [|? ? Hc F']; subst. cbn in Hl.
        destruct (N.eq_dec c 13) as [->|Hc13].
        + destruct s as [|d s].
          * destruct (M_token pv [13%N] [] Hno) as (pv1 & A); [eauto 6|]. exists pv1. eapply star_more; [exact A|constructor].
          * destruct (N.eq_dec d 10) as [->|Hd].
            -- inversion F' as [|? ? _ F'']; subst.
               destruct (M_token pv (13%N :: 10%N :: s) s Hno) as (pv1 & A); [auto|].
               destruct (IH s pv1) as (_ & pv2 & B); [cbn in Hl; lia|assumption| |exists pv2; eapply star_more; eauto].
               intros a b ->. destruct (Hok (13%N :: 10%N :: a) b eq_refl) as (a' & E).
               destruct a' as [|x [|y a']]; try discriminate E. injection E as <- <- ->. eauto.
            -- destruct (M_token pv (13%N :: d :: s) (d :: s) Hno) as (pv1 & A); [eauto 6|].
               destruct (IH (d :: s) pv1) as (_ & pv2 & B); [lia|assumption| |exists pv2; eapply star_more; eauto].
               intros a b E. destruct (Hok (13%N :: a) b) as (a' & E'); [rewrite E; reflexivity|].
               destruct a' as [|x a']; [injection E' as ->; cbn in E; injection E as ->; congruence|]. injection E' as -> ->. eauto.
        + destruct (M_token pv (c :: s) s Hno) as (pv1 & A); [eauto 6|].
          destruct (IH s pv1) as (_ & pv2 & B); [lia|assumption|eapply lfcr_tail; eauto|]. exists pv2. eapply star_more; eauto. }
    destruct (G (length s) s None (le_n _) F Hok) as (Hno & pv' & H). exists pv'. cbn [RPlus M].
    destruct (M_token None s s Hno (or_introl eq_refl)) as (pv1 & A).
    pose proof (M_progress _ _ _ _ _ A) as [(-> & _)|X]; [|lia]. eauto.
Qed.
