(** Backslashes, backticks and ampersands that do nothing. *)
From Coq Require Import String List NArith ZArith Bool Arith Lia.
From Verif Require Import Str StrFacts Spec EnvSpec Regex RegexSpec RegexProof HtmlRe Fence Atx Entity Inlines HelperSpec EntityProof EmphSpec DelimSpec LinkSpec HtmlProof AtxProof InlineProof InlineHtml InlineRun InlineOpaque InlineEmph InlineRead InlineTarget.
Import ListNotations.
Local Open Scope list_scope.

(** ** Backslashes *)
Lemma still_slash E ch st a b : scanned E ch -> zs_ascii E -> c_data ch = a ++ 92%N :: b -> ~ punctuation (hd 0%N b) -> hd 0%N b <> 10%N -> hd 0%N b <> 13%N -> s_pos st = length a ->
  handle_backslash ch st = set_pos st (S (length a)).
Proof.
  intros Hs Hz Hd Hp H10 H13 Hpos. unfold handle_backslash. rewrite Hpos. assert (Hd' : c_data ch = (a ++ [92%N]) ++ b) by (rewrite <- app_assoc; exact Hd). assert (La : length (a ++ [92%N]) = S (length a)) by (rewrite app_length; cbn; lia). rewrite <- La.
  destruct (peek ch (length (a ++ [92%N]))) as [c|] eqn:P; [|reflexivity]. pose proof P as P'. apply peek_some in P as (_ & P). rewrite Hd', nth_error_app2, Nat.sub_diag in P by lia. destruct b as [|x b]; [discriminate|]. cbn in P. injection P as ->. cbn [hd] in *.
  destruct (ascii_punct c) eqn:Pc; [apply punctuation_iff in Pc; contradiction|]. f_equal. unfold skip_line_end, peek_is. rewrite P'. destruct (N.eqb_spec c cCR); [contradiction|]. rewrite P'. destruct (N.eqb_spec c cLF); [contradiction|]. reflexivity.
Qed.

(** ** Backticks *)
Lemma close_none n : 1 <= n -> forall w pos run bt, no_ticks_of n (repeat 96%N run ++ w) -> exists bt', close_ticks w pos run n bt = (None, bt').
Proof.
  intros H1. induction w as [|c w IH]; intros pos run bt Hn; cbn [close_ticks].
  - destruct (Nat.eqb_spec run 0); [eauto|]. destruct (Nat.eqb_spec run n) as [->|_]; [|eauto]. exfalso. destruct (Hn [] []) as [X|X]; [reflexivity|discriminate X|discriminate X].
  - destruct (N.eqb_spec c cTICK) as [->|Hc].
    + apply IH. change cTICK with 96%N in Hn. replace (repeat 96%N (S run) ++ w) with (repeat 96%N run ++ 96%N :: w); [exact Hn|]. rewrite <- repeat_snoc, <- app_assoc. reflexivity.
    + assert (G : no_ticks_of n (repeat 96%N 0 ++ w)) by (apply (no_ticks_drop n _ c) in Hn; [exact Hn|exact H1|exact Hc]). destruct (Nat.eqb_spec run 0); [apply IH; exact G|].
      destruct (Nat.eqb_spec run n) as [->|_]; [|apply IH; exact G]. exfalso. destruct (Hn [] (c :: w) eq_refl) as [X|X]; [discriminate|]. cbn in X. contradiction.
Qed.
Lemma data_inp E ch : scanned E ch -> exists sp, c_data ch = c_inp ch ++ sp /\ Forall (fun c => cm_space E c = true) sp.
Proof.
  intros (Hl & Hs). exists (skipn (c_len ch) (c_data ch)). split; [symmetry; apply firstn_skipn|]. apply Forall_forall. intros x Hx. apply In_nth_error in Hx as (k & Hk). rewrite nth_skipn in Hk. eapply Hs; [exact Hk|lia].
Qed.
Lemma inp_run E ch a c n b : scanned E ch -> cm_space E c = false -> c_data ch = a ++ repeat c n ++ b -> 1 <= n -> exists b' sp, c_inp ch = a ++ repeat c n ++ b' /\ b = b' ++ sp /\ Forall (fun c => cm_space E c = true) sp.
Proof.
  intros Hs Hc Hd Hn. destruct n as [|n]; [lia|]. destruct (data_inp E ch Hs) as (sp & Es & Fs).
  assert (L : length (a ++ repeat c (S n)) <= length (c_inp ch)).
  { pose proof (in_scan E ch (a ++ repeat c n) c b Hs ltac:(rewrite Hd, <- app_assoc; f_equal; rewrite <- repeat_snoc, <- app_assoc; reflexivity) Hc) as X. rewrite inp_length by apply Hs. rewrite app_length, repeat_length in *. lia. }
  rewrite Hd, app_assoc in Es. apply app_eq_app in Es as (l & [(E1 & E2)|(E1 & E2)]).
  - assert (l = []) as ->. { destruct l as [|x l]; [reflexivity|]. rewrite E1, !app_length in L. cbn in L. lia. } rewrite app_nil_r in E1. cbn in E2. subst sp. exists [], b. rewrite <- E1, app_nil_r. auto.
  - exists l, sp. rewrite E1, <- app_assoc. auto.
Qed.
Lemma span_repeat c n b : hd 0%N b <> c -> c <> 0%N -> span_len (N.eqb c) (repeat c n ++ b) = n.
Proof.
  intros Hb Hc. induction n as [|n IH]; cbn [repeat app span_len].
  - destruct b as [|x b]; [reflexivity|]. cbn in *. destruct (N.eqb_spec c x); [congruence|reflexivity].
  - rewrite N.eqb_refl, IH. reflexivity.
Qed.
Lemma still_ticks E ch st a n b : scanned E ch -> zs_ascii E -> c_data ch = a ++ repeat 96%N n ++ b -> 1 <= n -> hd 0%N b <> 96%N -> 1000 < n \/ no_ticks_of n b -> s_pos st = length a ->
  length a + n <= c_len ch /\ (handle_backticks ch st = Ok (set_pos st (length a + n)) \/ exists bt, handle_backticks ch st = Ok (set_ticks (set_pos st (length a + n)) bt true)).
Proof.
  intros Hs Hz Hd Hn Hb Hno Hpos. assert (S96 : cm_space E 96%N = false) by (apply ascii_punct_not_space; [exact Hz|reflexivity]). destruct (inp_run E ch a 96%N n b Hs S96 Hd Hn) as (b' & sp & Ei & Eb & Fs).
  assert (Hb' : hd 0%N b' <> 96%N) by (destruct b' as [|x b']; [discriminate|]; rewrite Eb in Hb; exact Hb).
  assert (L : length (c_inp ch) = c_len ch) by (apply inp_length, Hs). split; [rewrite <- L, Ei, !app_length, repeat_length; lia|].
  unfold handle_backticks. rewrite Hpos, Ei, skip_app by reflexivity. change cTICK with 96%N. rewrite span_repeat by (assumption || discriminate). destruct (Nat.ltb_spec MAXBACKTICKS n) as [X|X]; [left; reflexivity|]. change MAXBACKTICKS with 1000 in X. destruct Hno as [Y|Hno]; [lia|].
  destruct (s_scanned st && (bt_get (s_backticks st) n <=? length a + n)); [left; reflexivity|right]. rewrite app_assoc, skip_app by (rewrite app_length, repeat_length; reflexivity).
  destruct (close_none n Hn b' (length a + n) 0 (s_backticks st)) as (bt & ->); [|exists bt; reflexivity].
  cbn [repeat app]. intros x y Exy. destruct (Hno x (y ++ sp)) as [Z|Z]; [rewrite Eb, Exy, <- !app_assoc; reflexivity|left; exact Z|]. destruct y as [|z y]; [|right; exact Z]. destruct Fs as [|z sp Hz' _]; [discriminate|]. cbn in Z. subst z. congruence.
Qed.

(** ** Ampersands *)
Definition name_char (c : N) : Prop := is_letter c \/ is_digit c \/ c = 59%N.
Lemma str_cmp_eq a : forall b, length a = length b -> str_cmp a b = Eq -> a = b.
Proof. induction a as [|x a IH]; intros [|y b] L H; try discriminate; [reflexivity|]. cbn in H. destruct (N.compare_spec x y) as [->|X|X]; try discriminate. f_equal. apply IH; [injection L; auto|exact H]. Qed.
Lemma lookup_name tbl s n r : forall fuel i low hi, s_lookup fuel tbl i low hi s n = Ok (Some r) -> exists e, In e tbl /\ length (fst e) = n /\ firstn n s = fst e.
Proof.
  induction fuel as [|fuel IH]; intros i low hi H; cbn [s_lookup] in H; [discriminate|]. destruct (nth_error tbl i) as [(name & (bytes & k))|] eqn:N; [|discriminate]. destruct (strncmp s name n) eqn:C.
  - destruct (Nat.eqb_spec n (length name)) as [->|]; [|discriminate]. exists (name, (bytes, k)). split; [eapply nth_error_In; exact N|]. split; [reflexivity|]. cbn [fst]. unfold strncmp in C. destruct (Nat.compare_spec (length (firstn (length name) s)) (length (firstn (length name) name))) as [X|X|X]; try discriminate. rewrite firstn_all in *. apply str_cmp_eq; assumption.
  - destruct (low <? i); [|discriminate]. eapply IH. exact H.
  - destruct (i <? hi); [|discriminate]. eapply IH. exact H.
Qed.
Lemma named_chars E src t : Forall (fun e => Forall name_char (fst e)) (e_entities E) -> forall i b n, named_entity E src t i = Ok (Some (b, n)) -> Forall name_char (firstn (pred n) src) /\ pred n <= length src.
Proof.
  intros Ht. induction t as [|c t IH]; intros i b n H; cbn [named_entity] in H; [discriminate|]. destruct (N.eqb c cSP); [discriminate|]. destruct (N.eqb c 59); [|eapply IH; exact H]. destruct (lookup_entity E src i) as [[r|]|] eqn:L; cbn [bind] in H; try discriminate. injection H as _ <-. cbn [pred].
  apply lookup_name in L as (e & He & Hl & Hf). rewrite Hf. rewrite Forall_forall in Ht. split; [apply Ht; exact He|]. rewrite <- Hf, firstn_length in Hl. lia.
Qed.
Lemma dec_stop E u c v : e_digit E c = false -> forall cp n, exists r, dec_digits E (u ++ c :: v) cp n = (fst (fst (dec_digits E u cp n)), snd (fst (dec_digits E u cp n)), r ++ c :: v) /\ snd (fst (dec_digits E u cp n)) + length r = n + length u.
Proof.
  intros Hc. induction u as [|x u IH]; intros cp n; cbn [app dec_digits]; [rewrite Hc; exists []; split; [reflexivity|cbn; lia]|]. destruct (e_digit E x); [|exists (x :: u); split; [reflexivity|cbn; lia]].
  match goal with |- context [dec_digits E u ?cp' (S n)] => destruct (IH cp' (S n)) as (r & Er & L) end. exists r. split; [exact Er|]. rewrite L. cbn [length]. lia.
Qed.
Lemma hex_stop E u c v : hex_class E c = false -> forall cp n, exists r, hex_digits E (u ++ c :: v) cp n = (fst (fst (hex_digits E u cp n)), snd (fst (hex_digits E u cp n)), r ++ c :: v) /\ snd (fst (hex_digits E u cp n)) + length r = n + length u.
Proof.
  intros Hc. induction u as [|x u IH]; intros cp n; cbn [app hex_digits]; [rewrite Hc; exists []; split; [reflexivity|cbn; lia]|]. destruct (hex_class E x); [|exists (x :: u); split; [reflexivity|cbn; lia]].
  match goal with |- context [hex_digits E u ?cp' (S n)] => destruct (IH cp' (S n)) as (r & Er & L) end. exists r. split; [exact Er|]. rewrite L. cbn [length]. lia.
Qed.
Lemma special_cases x : special_char x = true -> (x < 128)%N /\ ~ is_digit x /\ ~ is_letter x /\ x <> 59%N /\ x <> 35%N.
Proof. intros H. apply cin_In in H. unfold is_digit, is_letter. cbn in H. lia. Qed.
Lemma entity_within E w b : entity_tables E -> plain_digits E w -> (forall x b', b = x :: b' -> special_char x = true) ->
  exists r, unescape_ent E (w ++ b) = Ok r /\ forall t n, r = Some (t, n) -> n <= length w.
Proof.
  intros (Hd & He & Ht) Hp Hb. destruct b as [|x b].
  { rewrite app_nil_r. destruct (unescape_ent_ok E w He) as (r & Er); [exact Hp|]. exists r. split; [exact Er|]. intros t n ->. apply entity_semi in Er as (k & -> & K). assert (k < length w) by (apply nth_error_Some; congruence). lia. }
  destruct (special_cases x (Hb x b eq_refl)) as (X1 & X2 & X3 & X4 & X5). assert (Dx : e_digit E x = false) by (destruct (e_digit E x) eqn:D; [apply Hd in D; [contradiction|exact X1]|reflexivity]).
  assert (Hx : hex_class E x = false).
  { unfold hex_class. rewrite Dx. cbn [orb]. apply orb_false_iff. split; apply not_true_iff_false; intros Y; apply in_range_iff in Y; apply X3; unfold is_letter; lia. }
  assert (Nx : N.eqb x 120 || N.eqb x 88 = false) by (apply orb_false_iff; split; apply N.eqb_neq; intros ->; apply X3; unfold is_letter; lia).
  unfold unescape_ent. destruct ((3 <=? length (w ++ x :: b)) && N.eqb (hd 0%N (w ++ x :: b)) cHASH) eqn:G.
  - apply andb_true_iff in G as (_ & G). apply N.eqb_eq in G. destruct w as [|y w]; [cbn in G; contradiction|]. cbn [app hd tl] in *. assert (Hp' : plain_digits E w) by (intros c Hc; apply Hp; right; exact Hc).
    assert (Rest : forall r : str, N.eqb (hd 0%N (r ++ x :: b)) 59 = true -> 1 <= length r) by (intros [|z r] Z; [cbn in Z; apply N.eqb_eq in Z; contradiction|cbn; lia]).
    destruct w as [|c1 w]; cbn [app].
    + rewrite Dx, Nx. eexists. split; [reflexivity|discriminate].
    + destruct (e_digit E c1) eqn:D1.
      * destruct (dec_stop E (c1 :: w) x b Dx 0%Z 0) as (r & Er & L). change (c1 :: w ++ x :: b) with ((c1 :: w) ++ x :: b). rewrite Er. destruct (_ && _ && _) eqn:C; [|eexists; split; [reflexivity|discriminate]].
        apply andb_true_iff in C as (_ & C). apply Rest in C. destruct (encode_ok (fst (fst (dec_digits E (c1 :: w) 0 0)))) as (bb & Eb); [apply dec_digits_nonneg; [exact Hp'|lia]|]. rewrite Eb. cbn [bind]. eexists. split; [reflexivity|]. intros t n Q. assert (Qn : 1 + snd (fst (dec_digits E (c1 :: w) 0%Z 0)) + 1 = n) by congruence. cbn [length] in *. lia.
      * destruct (N.eqb c1 120 || N.eqb c1 88) eqn:D2; [|eexists; split; [reflexivity|discriminate]].
        destruct (hex_stop E w x b Hx 0%Z 0) as (r & Er & L). rewrite Er. destruct (_ && _ && _) eqn:C; [|eexists; split; [reflexivity|discriminate]].
        apply andb_true_iff in C as (_ & C). apply Rest in C. destruct (encode_ok (fst (fst (hex_digits E w 0 0)))) as (bb & Eb); [apply hex_digits_nonneg; [intros c Hc; apply Hp'; right; exact Hc|lia]|]. rewrite Eb. cbn [bind]. eexists. split; [reflexivity|]. intros t n Q. assert (Qn : 2 + snd (fst (hex_digits E w 0%Z 0)) + 1 = n) by congruence. cbn [length] in *. lia.
  - destruct (named_ok E (w ++ x :: b) (skipn 2 (firstn 32 (w ++ x :: b))) He 2) as (r & Er). exists r. split; [exact Er|]. intros t n ->. pose proof Er as Es. apply named_semi in Es as (k & -> & K). apply (named_chars E _ _ Ht) in Er as (F & L). cbn [pred] in *.
    assert (K' : nth_error (w ++ x :: b) (2 + k) = Some 59%N).
    { rewrite nth_skipn in K. rewrite <- (firstn_skipn 32 (w ++ x :: b)). rewrite nth_error_app1; [exact K|]. apply nth_error_Some. rewrite K. discriminate. }
    destruct (Nat.lt_trichotomy (2 + k) (length w)) as [Z|[Z|Z]]; [lia| |].
    + exfalso. rewrite Z, nth_error_app2, Nat.sub_diag in K' by lia. cbn in K'. injection K' as ->. contradiction.
    + exfalso. rewrite Forall_forall in F. assert (In x (firstn (2 + k) (w ++ x :: b))) as I.
      { rewrite firstn_app. apply in_or_app. right. destruct (2 + k - length w) as [|m] eqn:M; [lia|]. left. reflexivity. }
      apply F in I. destruct I as [I|[I|I]]; contradiction.
Qed.
Lemma still_amp E ch st a w b : scanned E ch -> zs_ascii E -> entity_tables E -> c_data ch = a ++ 38%N :: w ++ b -> plain_digits E w -> (forall x b', b = x :: b' -> special_char x = true /\ cm_space E x = false) -> s_pos st = length a ->
  exists u v, w = u ++ v /\ length (a ++ 38%N :: u) <= c_len ch /\ handle_entity E ch st = Ok (set_pos st (length (a ++ 38%N :: u))).
Proof.
  intros Hs Hz Ht Hd Hp Hb Hpos. assert (S38 : cm_space E 38%N = false) by (apply ascii_punct_not_space; [exact Hz|reflexivity]). destruct (inp_pre E a 38%N (w ++ b) ch Hs Hd S38) as (s' & Ei).
  destruct (data_inp E ch Hs) as (sp & Es & Fs). rewrite Hd, Ei, <- app_assoc in Es. apply app_inv_head in Es. cbn [app] in Es. injection Es as Es.
  assert (L : c_len ch = length a + S (length s')) by (rewrite <- (inp_length ch) by apply Hs; rewrite Ei, app_length; reflexivity).
  assert (K : exists w' b', s' = w' ++ b' /\ (exists v, w = w' ++ v) /\ forall x b'', b' = x :: b'' -> special_char x = true).
  { destruct b as [|x b].
    - exists s', []. rewrite app_nil_r in Es. split; [rewrite app_nil_r; reflexivity|]. split; [exists sp; exact Es|discriminate].
    - destruct (Hb x b eq_refl) as (B1 & B2). apply app_eq_app in Es as (l & [(E1 & E2)|(E1 & E2)]).
      + destruct l as [|y l]; cbn [app] in E2.
        * exists s', []. rewrite app_nil_r in *. split; [reflexivity|]. split; [exists []; rewrite app_nil_r; exact E1|discriminate].
        * exfalso. rewrite E2 in Fs. inversion Fs as [|? ? _ Fs']; subst. apply Forall_app in Fs' as (_ & Fs'). inversion Fs'; congruence.
      + destruct l as [|y l]; cbn [app] in E2; [exfalso; rewrite <- E2 in Fs; inversion Fs; congruence|]. injection E2 as <- E2. exists w, (x :: l). split; [exact E1|]. split; [exists []; rewrite app_nil_r; reflexivity|]. intros z b'' Q. injection Q as <- _. exact B1. }
  destruct K as (w' & b' & -> & (v & ->) & Hb'). unfold handle_entity. rewrite Hpos, Ei. replace (skipn (S (length a)) (a ++ 38%N :: w' ++ b')) with (w' ++ b') by (symmetry; change (a ++ 38%N :: w' ++ b') with (a ++ [38%N] ++ w' ++ b'); rewrite app_assoc; apply skip_app; rewrite app_length; cbn; lia).
  destruct (entity_within E w' b' Ht) as (r & -> & Hr); [intros c Hc; apply Hp; apply in_or_app; left; exact Hc|exact Hb'|]. cbn [bind]. rewrite app_length in L. destruct r as [(t & n)|].
  - specialize (Hr t n eq_refl). exists (firstn n w'), (skipn n w' ++ v). split; [rewrite app_assoc, firstn_skipn; reflexivity|]. assert (Q : length (a ++ 38%N :: firstn n w') = S (length a) + n) by (rewrite app_length; cbn [length]; rewrite firstn_length; lia). rewrite Q. split; [lia|reflexivity].
  - exists [], (w' ++ v). split; [reflexivity|]. assert (Q : length (a ++ [38%N]) = S (length a)) by (rewrite app_length; cbn; lia). rewrite Q. split; [lia|reflexivity].
Qed.
