(** Where the runs of delimiters cannot lie: behind a backslash, in a code span. *)
From Coq Require Import String List NArith ZArith Bool Arith Lia.
From Verif Require Import Str StrFacts Spec EnvSpec Regex HtmlRe Fence Atx Entity Inlines HelperSpec EntityProof EmphSpec InlineProof InlineHtml InlineRun.
Import ListNotations.
Local Open Scope list_scope.

(** ** Backslashes *)
(** The number of backslashes right before position [i]. *)
Definition nbs (data : str) (i : nat) : nat := span_len (N.eqb 92) (rev (firstn i data)).
Lemma firstn_succ {A} (l : list A) i c : nth_error l i = Some c -> firstn (S i) l = firstn i l ++ [c].
Proof. revert i. induction l as [|x l IH]; intros [|i] H; cbn in H; try discriminate; [injection H as ->; reflexivity|]. cbn. f_equal. apply IH. exact H. Qed.
Lemma nbs_other data i c : nth_error data i = Some c -> c <> 92%N -> nbs data (S i) = 0.
Proof. intros H Hc. unfold nbs. rewrite (firstn_succ _ _ _ H), rev_app_distr. cbn. destruct (N.eqb_spec 92 c); [congruence|reflexivity]. Qed.
Lemma nbs_bs data i : nth_error data i = Some 92%N -> nbs data (S i) = S (nbs data i).
Proof. intros H. unfold nbs. rewrite (firstn_succ _ _ _ H), rev_app_distr. reflexivity. Qed.
Definition free (data : str) (i : nat) : Prop := Nat.even (nbs data i) = true.
Definition not_escaped (ch : chunk) (i : nat) : Prop := free (c_data ch) i \/ forall c, peek ch i = Some c -> ascii_punct c = false.
Lemma after_other ch q c : nth_error (c_data ch) (pred q) = Some c -> c <> 92%N -> 1 <= q -> not_escaped ch q.
Proof. intros H Hc Hq. left. destruct q as [|q]; [lia|]. cbn in H. unfold free. rewrite (nbs_other _ _ _ H Hc). reflexivity. Qed.
Lemma named_semi E src t : forall i b n, named_entity E src t i = Ok (Some (b, n)) -> exists k, n = S (i + k) /\ nth_error t k = Some 59%N.
Proof.
  induction t as [|c t IH]; intros i b n; cbn [named_entity]; [discriminate|]. destruct (N.eqb c cSP); [discriminate|]. destruct (N.eqb_spec c 59) as [->|_].
  - destruct (lookup_entity E src i) as [[x|]|]; cbn [bind]; try discriminate. intros H. injection H as <- <-. exists 0. split; [lia|reflexivity].
  - intros H. destruct (IH _ _ _ H) as (k & -> & Hk). exists (S k). split; [lia|exact Hk].
Qed.
Lemma dec_rest E s : forall cp n cp' n' rest, dec_digits E s cp n = (cp', n', rest) -> n <= n' /\ rest = skipn (n' - n) s.
Proof.
  induction s as [|c s IH]; intros cp n cp' n' rest; cbn [dec_digits]; [intros H; injection H as _ <- <-; split; [lia|rewrite skipn_nil; reflexivity]|]. destruct (e_digit E c).
  - intros H. apply IH in H as (A & ->). split; [lia|]. replace (n' - n) with (S (n' - S n)) by lia. reflexivity.
  - intros H. injection H as _ <- <-. split; [lia|]. rewrite Nat.sub_diag. reflexivity.
Qed.
Lemma hex_rest E s : forall cp n cp' n' rest, hex_digits E s cp n = (cp', n', rest) -> n <= n' /\ rest = skipn (n' - n) s.
Proof.
  induction s as [|c s IH]; intros cp n cp' n' rest; cbn [hex_digits]; [intros H; injection H as _ <- <-; split; [lia|rewrite skipn_nil; reflexivity]|]. destruct (hex_class E c).
  - intros H. apply IH in H as (A & ->). split; [lia|]. replace (n' - n) with (S (n' - S n)) by lia. reflexivity.
  - intros H. injection H as _ <- <-. split; [lia|]. rewrite Nat.sub_diag. reflexivity.
Qed.
Lemma hd_semi (s : str) : N.eqb (hd 0%N s) 59 = true -> nth_error s 0 = Some 59%N.
Proof. destruct s as [|c s]; [discriminate|]. cbn. intros H. apply N.eqb_eq in H. congruence. Qed.
Lemma entity_semi E s b n : unescape_ent E s = Ok (Some (b, n)) -> exists k, n = S k /\ nth_error s k = Some 59%N.
Proof.
  unfold unescape_ent. destruct (_ && _) eqn:G.
  - destruct s as [|h s]; [discriminate|]. cbn [tl]. destruct s as [|c1 s1]; [discriminate|]. destruct (e_digit E c1).
    + destruct (dec_digits E (c1 :: s1) 0%Z 0) as ((cp & num) & rest) eqn:D. apply dec_rest in D as (_ & ->). destruct ((1 <=? num) && (num <=? 7) && _) eqn:C; [|discriminate].
      apply andb_true_iff in C as (_ & C). apply hd_semi in C. rewrite nth_skipn in C. destruct (encode_char _); cbn [bind]; [|discriminate]. intros H. injection H as _ <-.
      exists (S num). split; [lia|]. replace (num - 0 + 0) with num in C by lia. exact C.
    + destruct (N.eqb c1 120 || N.eqb c1 88); [|discriminate].
      destruct (hex_digits E s1 0%Z 0) as ((cp & num) & rest) eqn:D. apply hex_rest in D as (_ & ->). destruct ((1 <=? num) && (num <=? 6) && _) eqn:C; [|discriminate].
      apply andb_true_iff in C as (_ & C). apply hd_semi in C. rewrite nth_skipn in C. destruct (encode_char _); cbn [bind]; [|discriminate]. intros H. injection H as _ <-.
      exists (S (S num)). split; [lia|]. replace (num - 0 + 0) with num in C by lia. exact C.
  - intros H. apply named_semi in H as (k & -> & Hk). exists (2 + k). split; [reflexivity|]. rewrite nth_skipn in Hk. rewrite nth_firstn in Hk. destruct (2 + k <? 32); [exact Hk|discriminate].
Qed.
Lemma skipn_next {A} (l : list A) : forall n c rest, c :: rest = skipn n l -> rest = skipn (S n) l /\ nth_error l n = Some c.
Proof.
  induction l as [|x l IH]; intros n c rest H; [rewrite skipn_nil in H; discriminate|]. destruct n as [|n]; cbn in H; [injection H as -> ->; auto|]. apply IH. exact H.
Qed.
Lemma close_ticks_end inp : forall rest pos run opn bt e bt', close_ticks rest pos run opn bt = (Some e, bt') -> rest = skipn pos inp -> 1 <= opn ->
  (1 <= run -> nth_error inp (pred pos) = Some cTICK) -> nth_error inp (pred e) = Some cTICK.
Proof.
  induction rest as [|c rest IH]; intros pos run opn bt e bt'; cbn [close_ticks]; intros H Hr Ho Hp.
  - destruct (Nat.eqb_spec run 0); [discriminate|]. destruct (run =? opn); [|discriminate]. injection H as <- _. apply Hp. lia.
  - destruct (skipn_next _ _ _ _ Hr) as (Hr' & Hn).
    destruct (N.eqb_spec c cTICK) as [->|_].
    + eapply IH; [exact H|exact Hr'|exact Ho|]. intros _. exact Hn.
    + destruct (Nat.eqb_spec run 0); [eapply IH; [exact H|exact Hr'|exact Ho|lia]|]. destruct (run =? opn); [injection H as <- _; apply Hp; lia|].
      eapply IH; [exact H|exact Hr'|exact Ho|lia].
Qed.
Lemma find_special_end rest : forall n m, find_special rest n = Ok m -> m = n \/ exists k c, m = S (n + k) /\ nth_error rest k = Some c /\ special_char c = false.
Proof.
  induction rest as [|c rest IH]; intros n m; cbn [find_special]; [intros H; injection H as <-; auto|]. destruct (N.ltb 256 c); [intros H; injection H as <-; auto|].
  destruct (N.eqb c 256); [discriminate|]. destruct (special_char c) eqn:S; [intros H; injection H as <-; auto|]. intros H. right.
  destruct (IH _ _ H) as [->|(k & x & -> & Hk & Hx)]; [exists 0, c; repeat split; [lia|exact S]|]. exists (Datatypes.S k), x. repeat split; [lia|exact Hk|exact Hx].
Qed.
Lemma span_prev (p : N -> bool) inp q : 1 <= span_len p (skipn q inp) -> exists c, nth_error inp (pred (q + span_len p (skipn q inp))) = Some c /\ p c = true.
Proof.
  intros H. destruct (span_len_spec p (skipn q inp) (pred (span_len p (skipn q inp)))) as (c & Hc & Pc); [lia|]. exists c. split; [|exact Pc].
  rewrite nth_skipn in Hc. replace (pred (q + span_len p (skipn q inp))) with (q + pred (span_len p (skipn q inp))) by lia. exact Hc.
Qed.
Lemma skip_line_end_cases ch p : skip_line_end ch p = p \/ (exists c, (c = 10%N \/ c = 13%N) /\ nth_error (c_data ch) (pred (skip_line_end ch p)) = Some c).
Proof.
  unfold skip_line_end, peek_is. destruct (peek ch p) as [c|] eqn:P.
  - apply peek_some in P as (_ & P). destruct (N.eqb_spec c cCR) as [->|_].
    + right. destruct (peek ch (S p)) as [d|] eqn:P2; [|exists 13%N; split; [auto|exact P]]. apply peek_some in P2 as (_ & P2). destruct (N.eqb_spec d cLF) as [->|_]; [exists 10%N|exists 13%N]; (split; [auto|]); [exact P2|exact P].
    + destruct (peek ch p) as [d|] eqn:P2; [|left; reflexivity]. apply peek_some in P2 as (_ & P2). destruct (N.eqb_spec d cLF) as [->|_]; [right; exists 10%N; split; [auto|exact P2]|left; reflexivity].
  - rewrite P. left. reflexivity.
Qed.
Lemma inline_link_end E ch p e : inline_link E ch p = Ok (Some e) -> nth_error (c_data ch) (pred e) = Some 41%N /\ 1 <= e.
Proof.
  unfold inline_link. destruct (peek_is ch p 40); [|discriminate]. destruct (scan_url E ch _) as [(n & url)|]; [|discriminate]. cbn zeta.
  match goal with |- context[peek_at ch ?x] => set (ea := x) end. unfold peek_at. destruct (nth_error (c_data ch) ea) as [c|] eqn:N; cbn [bind]; [|discriminate].
  destruct (N.eqb_spec c 41) as [->|_]; [|discriminate]. destruct (clean_url E url) as [[]|]; cbn [bind]; [|discriminate]. destruct (clean_title E _) as [[]|]; cbn [bind]; [|discriminate].
  intros H. injection H as <-. split; [exact N|lia].
Qed.
Lemma process_pos st b st' : process_emphasis st b = Ok st' -> s_pos st' = s_pos st.
Proof.
  unfold process_emphasis. destruct (match b with None => _ | Some _ => _ end) as (above & below). destruct (pe_loop _ _ _ _ _) as [(stack & ign)|]; cbn [bind]; [|discriminate].
  intros H. injection H as <-. reflexivity.
Qed.
Lemma escape_step E ch st c st' : not_escaped ch (s_pos st) -> peek ch (s_pos st) = Some c -> ~ In 0%N (c_data ch) -> c_len ch <= length (c_data ch) -> parse_inline E ch st c = Ok st' -> not_escaped ch (s_pos st').
Proof.
  intros Hj Hp H0 Hln H. pose proof Hp as Hp'. apply peek_some in Hp' as (Hlen & Hd). pose proof Hp as Hi. rewrite peek_inp in Hi.
  assert (Next : c <> 92%N -> not_escaped ch (S (s_pos st))) by (intros Hc; apply (after_other ch _ c); [exact Hd|exact Hc|lia]).
  unfold parse_inline in H.
  destruct (N.eqb c cCR || N.eqb c cLF) eqn:Ec.
  { assert (Hc : c = 13%N \/ c = 10%N) by (apply orb_true_iff in Ec as [Ec|Ec]; apply N.eqb_eq in Ec; auto).
    unfold handle_newline, peek_at in H. rewrite Hd in H. cbn [bind] in H. set (p1 := if N.eqb c cCR then S (s_pos st) else s_pos st) in *.
    destruct (nth_error (c_data ch) p1) as [d|] eqn:D; cbn [bind] in H; [|discriminate]. injection H as <-. cbn [s_pos set_pos].
    set (p2 := if N.eqb d cLF then S p1 else p1).
    assert (Hp2 : exists x, nth_error (c_data ch) (pred p2) = Some x /\ x <> 92%N /\ 1 <= p2).
    { unfold p2. destruct (N.eqb_spec d cLF) as [->|Hd10]; [exists 10%N; repeat split; [exact D|discriminate|lia]|]. unfold p1 in *. destruct (N.eqb_spec c cCR) as [->|Hc13].
      - exists 13%N. repeat split; [exact Hd|discriminate|lia].
      - rewrite Hd in D. injection D as <-. destruct Hc as [->| ->]; [exfalso; apply Hc13; reflexivity|exfalso; apply Hd10; reflexivity]. }
    destruct Hp2 as (x & X1 & X2 & X3). destruct (Nat.eq_dec (span_len (fun x => N.eqb x cSP || N.eqb x cTAB) (skipn p2 (c_inp ch))) 0) as [Z|Z].
    - rewrite Z, Nat.add_0_r. apply (after_other ch _ x); assumption.
    - destruct (span_prev (fun x => N.eqb x cSP || N.eqb x cTAB) (c_inp ch) p2 ltac:(lia)) as (y & Y1 & Y2). apply inp_data in Y1.
      apply (after_other ch _ y); [exact Y1| |lia]. intros ->. discriminate. }
  destruct (N.eqb_spec c cTICK) as [->|_].
  { unfold handle_backticks in H. set (n := span_len (N.eqb cTICK) (skipn (s_pos st) (c_inp ch))) in *.
    assert (Hn : 1 <= n) by (apply (span_len_pos _ _ cTICK); [rewrite nth_skipn, Nat.add_0_r; exact Hi|apply N.eqb_refl]).
    assert (A : not_escaped ch (s_pos st + n)).
    { destruct (span_prev (N.eqb cTICK) (c_inp ch) (s_pos st) Hn) as (y & Y1 & Y2). apply inp_data in Y1. apply (after_other ch _ y); [exact Y1| |lia]. intros ->. discriminate. }
    destruct (MAXBACKTICKS <? n); [injection H as <-; exact A|]. destruct (s_scanned st && (bt_get (s_backticks st) n <=? s_pos st + n)); [injection H as <-; exact A|].
    destruct (close_ticks _ _ _ _ _) as ([e|] & bt) eqn:C; [|injection H as <-; exact A]. clear Ec. destruct (N.eqb _ cCR); [discriminate|]. injection H as <-. cbn [s_pos set_pos set_ticks].
    pose proof (close_ticks_pos _ _ _ _ _ _ _ C) as Le. pose proof (close_ticks_end (c_inp ch) _ _ _ _ _ _ _ C eq_refl Hn ltac:(lia)) as T. apply inp_data in T. apply (after_other ch _ _ T); [discriminate|lia]. }
  destruct (N.eqb_spec c cBS) as [->|Hbs].
  { injection H as <-. assert (Fr : free (c_data ch) (s_pos st)) by (destruct Hj as [Hj|Hj]; [exact Hj|specialize (Hj _ Hp); discriminate]).
    unfold handle_backslash. destruct (peek ch (S (s_pos st))) as [x|] eqn:Px; [|right; cbn [s_pos set_pos]; rewrite Px; discriminate].
    destruct (ascii_punct x) eqn:Pu; cbn [s_pos set_pos].
    - apply peek_some in Px as (_ & Px). destruct (N.eq_dec x 92) as [->|Hx]; [|apply (after_other ch _ x); [exact Px|exact Hx|lia]].
      left. unfold free in *. rewrite (nbs_bs _ _ Px), (nbs_bs _ _ Hd). exact Fr.
    - destruct (skip_line_end_cases ch (S (s_pos st))) as [->|(y & Hy & Y)].
      + right. intros z Hz. congruence.
      + apply (after_other ch _ y); [exact Y|destruct Hy as [->| ->]; discriminate|]. pose proof (skip_line_end_le ch (S (s_pos st))). lia. }
  destruct (N.eqb_spec c 38) as [->|_].
  { unfold handle_entity in H. destruct (unescape_ent E (skipn (S (s_pos st)) (c_inp ch))) as [[(b & n)|]|] eqn:U; cbn [bind] in H; [|injection H as <-; apply Next; discriminate|discriminate].
    injection H as <-. cbn [s_pos set_pos]. apply entity_semi in U as (k & -> & Hk). rewrite nth_skipn in Hk. apply inp_data in Hk. apply (after_other ch _ 59%N); [|discriminate|lia].
    rewrite <- Hk. f_equal. lia. }
  destruct (N.eqb_spec c 60) as [->|_].
  { destruct (pointy_end E ch st st' H Hd H0 Hln) as ([X|X] & Y); apply (after_other ch _ _ X); first [discriminate|exact Y]. }
  destruct (N.eqb c cSTAR || N.eqb c cUND).
  { injection H as <-. pose proof (scan_delims_len E ch (s_pos st) c) as L. unfold handle_delim. destruct (scan_delims E ch (s_pos st) c) as ((k & op) & cl). cbn [fst] in L. subst k.
    assert (A : not_escaped ch (s_pos st + span_len (N.eqb c) (skipn (s_pos st) (c_inp ch)))).
    { destruct (span_prev (N.eqb c) (c_inp ch) (s_pos st)) as (y & Y1 & Y2); [apply (span_len_pos _ _ c); [rewrite nth_skipn, Nat.add_0_r; exact Hi|apply N.eqb_refl]|].
      apply N.eqb_eq in Y2. subst y. apply inp_data in Y1. apply (after_other ch _ c); [exact Y1|exact Hbs|].
      pose proof (span_len_pos (N.eqb c) (skipn (s_pos st) (c_inp ch)) c ltac:(rewrite nth_skipn, Nat.add_0_r; exact Hi) (N.eqb_refl c)). lia. }
    destruct (op || cl); exact A. }
  destruct (cin c _); [injection H as <-; apply Next; exact Hbs|]. destruct (N.eqb c cLB); [injection H as <-; apply Next; exact Hbs|].
  destruct (N.eqb c cRB).
  { unfold handle_close_bracket in H. cbn zeta in H. destruct (s_brackets _) as [|b bs]; [injection H as <-; apply Next; exact Hbs|]. destruct (negb _); [injection H as <-; apply Next; exact Hbs|].
    destruct (inline_link E ch _) as [[e|]|] eqn:L; cbn [bind] in H; [| |discriminate].
    - destruct (process_emphasis _ _) as [st2|] eqn:Pe; cbn [bind] in H; [|discriminate]. injection H as <-. apply process_pos in Pe. cbn [s_pos set_pos set_brackets] in *. rewrite Pe.
      apply inline_link_end in L as (L1 & L2). apply (after_other ch _ _ L1); [discriminate|exact L2].
    - destruct (ref_label _ _) as [[]|]; cbn [bind] in H; [|discriminate]. injection H as <-. apply Next. exact Hbs. }
  destruct (find_special _ _) as [m|] eqn:F; cbn [bind] in H; [|discriminate]. injection H as <-. cbn [s_pos set_pos].
  apply find_special_end in F as [->|(k & x & -> & Hk & Hx)]; [apply Next; exact Hbs|]. rewrite nth_skipn in Hk. apply inp_data in Hk.
  apply (after_other ch _ x); [exact Hk| |lia]. intros ->. discriminate.
Qed.
Lemma escape_ranges E s : ~ In 0%N s -> match parse_inlines E s with
  | Ok ign => Forall (good_range (free s) s) ign
  | Err e => known_error e
  end.
Proof.
  intros Hlt. apply (parse_inlines_inv (free s) E s (fun st => not_escaped (trimmed E s) (s_pos st))).
  - left. reflexivity.
  - intros st c Hj Hp Hc i Hi. destruct (Nat.eq_dec i (s_pos st)) as [->|Hne].
    + destruct Hj as [Hj|Hj]; [exact Hj|]. specialize (Hj _ Hp). destruct Hc as [->| ->]; discriminate.
    + destruct (span_len_spec (N.eqb c) (skipn (s_pos st) (c_inp (trimmed E s))) (pred i - s_pos st)) as (x & X1 & X2); [lia|]. apply N.eqb_eq in X2. subst x.
      rewrite nth_skipn in X1. replace (s_pos st + (pred i - s_pos st)) with (pred i) in X1 by lia. apply inp_data in X1. cbn [c_data trimmed] in X1.
      unfold free. destruct i as [|i]; [lia|]. cbn [pred] in X1. rewrite (nbs_other _ _ _ X1); [reflexivity|]. destruct Hc as [->| ->]; discriminate.
  - intros st c st' Hj Hp H. eapply escape_step; [exact Hj|exact Hp|exact Hlt|apply trimmed_len|exact H].
Qed.
Lemma escapes_not_free a b : escapes a -> ~ free (a ++ b) (length a).
Proof.
  intros (a' & n & -> & Hl). unfold free, nbs. rewrite firstn_app, firstn_all, Nat.sub_diag. cbn [firstn]. rewrite app_nil_r, rev_app_distr, rev_repeat, span_unique.
  - rewrite repeat_length, Nat.even_succ. rewrite <- Nat.negb_even, Nat.even_mul. cbn. discriminate.
  - apply Forall_repeat. reflexivity.
  - destruct a' as [|x a'] using rev_ind; [exact I|]. rewrite last_last in Hl. rewrite rev_app_distr. cbn. apply N.eqb_neq. congruence.
Qed.
Lemma nth_error_pre {A} (a b : list A) k c : nth_error a k = Some c -> nth_error (a ++ b) k = Some c.
Proof. intros H. rewrite nth_error_app1; [exact H|]. apply nth_error_Some. congruence. Qed.
(** Removing ranges from [a ++ m ++ b] when none of them meets [m]. *)
Lemma filter_middle Q a m b ign : Forall (good_range Q (a ++ m ++ b)) ign -> (forall i, length a <= i < length a + length m -> ~ Q i) ->
  exists a' b', filter_indices_from_line (a ++ m ++ b) ign = a' ++ m ++ b' /\ deletes delimiter a a' /\ deletes delimiter b b'.
Proof.
  intros Hg Hm. unfold filter_indices_from_line. rewrite !filter_from_app, (filter_from_keeps Q (a ++ m ++ b) m _ _ Hg).
  - eexists. eexists. split; [reflexivity|]. split.
    + apply (filter_from_deletes Q (a ++ m ++ b)); [|exact Hg]. intros k c Hk. apply nth_error_pre. exact Hk.
    + apply (filter_from_deletes Q (a ++ m ++ b)); [|exact Hg]. intros k c Hk. rewrite app_assoc, nth_error_app2 by (rewrite app_length; lia). rewrite app_length.
      replace (0 + length a + length m + k - (length a + length m)) with k by lia. exact Hk.
  - intros k Hk. apply Hm. lia.
Qed.

(** ** Code spans *)
Lemma close_run n : forall k rest pos run bt, run + k = n -> 1 <= n -> hd 0%N rest <> 96%N -> exists bt', close_ticks (repeat 96%N k ++ rest) pos run n bt = (Some (pos + k), bt').
Proof.
  induction k as [|k IH]; intros rest pos run bt Hn H1 Hr.
  - cbn [repeat app]. replace run with n by lia. rewrite Nat.add_0_r. destruct rest as [|c rest]; cbn [close_ticks].
    + destruct (Nat.eqb_spec n 0); [lia|]. rewrite Nat.eqb_refl. eauto.
    + cbn in Hr. destruct (N.eqb_spec c cTICK); [contradiction|]. destruct (Nat.eqb_spec n 0); [lia|]. rewrite Nat.eqb_refl. eauto.
  - cbn [repeat app close_ticks]. change (N.eqb 96 cTICK) with true. cbv iota. destruct (IH rest (S pos) (S run) bt) as (bt' & ->); [lia|exact H1|exact Hr|]. exists bt'. f_equal. f_equal. lia.
Qed.
Lemma no_ticks_drop n x c w : 1 <= n -> c <> 96%N -> no_ticks_of n (x ++ c :: w) -> no_ticks_of n w.
Proof.
  intros H1 Hc H a b ->. destruct (H (x ++ c :: a) b) as [L|L]; [rewrite <- app_assoc; reflexivity| |auto]. left.
  rewrite last_app_ne in L by discriminate. destruct a as [|y a]; [cbn in L; contradiction|exact L].
Qed.
Lemma close_span n post : 1 <= n -> hd 0%N post <> 96%N -> forall w pos run bt, no_ticks_of n (repeat 96%N run ++ w) -> (w = [] -> run = 0) -> last w 0%N <> 96%N ->
  exists bt', close_ticks (w ++ repeat 96%N n ++ post) pos run n bt = (Some (pos + length w + n), bt').
Proof.
  intros H1 Hp. induction w as [|c w IH]; intros pos run bt Hn Hr Hl.
  - rewrite (Hr eq_refl). cbn [app length]. rewrite Nat.add_0_r. apply close_run; [lia|exact H1|exact Hp].
  - cbn [app close_ticks length]. replace (pos + S (length w) + n) with (S pos + length w + n) by lia. destruct (N.eqb_spec c cTICK) as [->|Hc].
    + apply IH.
      * change cTICK with 96%N in Hn. replace (repeat 96%N (S run) ++ w) with (repeat 96%N run ++ 96%N :: w); [exact Hn|]. rewrite <- repeat_snoc, <- app_assoc. reflexivity.
      * intros ->. exfalso. apply Hl. reflexivity.
      * destruct w; [discriminate|exact Hl].
    + assert (G : no_ticks_of n (repeat 96%N 0 ++ w)) by (apply (no_ticks_drop n _ c) in Hn; [exact Hn|exact H1|exact Hc]).
      assert (Hl' : last w 0%N <> 96%N) by (destruct w; [discriminate|exact Hl]).
      destruct (Nat.eqb_spec run 0); [apply IH; auto|]. destruct (Nat.eqb_spec run n) as [->|_]; [|apply IH; auto].
      exfalso. destruct (Hn [] (c :: w) eq_refl) as [X|X]; [discriminate|]. cbn in X. contradiction.
Qed.
Definition in_text (P e : nat) (i : nat) : Prop := i < P \/ e <= i.
Section CodeSpan.
Variables (E : env) (pre w post : str) (n : nat).
Let ticks := repeat 96%N n.
Let s := pre ++ ticks ++ w ++ ticks ++ post.
Let e := length pre + (n + length w + n).
Hypothesis Hz : zs_ascii E.
Hypothesis Hpre : Forall (fun c => inert c \/ delimiter c) pre.
Hypothesis Hn : 1 <= n <= 1000.
Hypothesis Hw1 : hd 96%N w <> 96%N.
Hypothesis Hw2 : last w 0%N <> 96%N.
Hypothesis Hw3 : no_ticks_of n w.
Hypothesis Hpost : hd 0%N post <> 96%N.
Let ch := trimmed E s.
Let Ltick : length ticks = n.
Proof. apply repeat_length. Qed.
Lemma code_len : e <= c_len ch.
Proof.
  destruct (scanned_trimmed E s) as (_ & H). destruct (Nat.le_gt_cases e (c_len ch)) as [L|L]; [exact L|exfalso].
  assert (N : nth_error (c_data ch) (pred e) = Some 96%N).
  { cbn [ch trimmed c_data]. unfold s. rewrite !app_assoc. rewrite <- app_assoc. rewrite nth_error_app2; rewrite !app_length, Ltick; unfold e; [|lia].
    rewrite nth_error_app1 by (rewrite Ltick; lia). apply nth_error_repeat. lia. }
  specialize (H _ _ N ltac:(fold ch; lia)). apply space_iff in H as [H|H]; [apply Hz in H; [discriminate|reflexivity]|]. cbn in H. repeat (destruct H as [H|H]; [discriminate|]). exact H.
Qed.
Lemma code_inp : exists post', c_inp ch = pre ++ ticks ++ w ++ ticks ++ post' /\ hd 0%N post' <> 96%N.
Proof.
  exists (firstn (c_len ch - e) post). split.
  - pose proof code_len as L. unfold c_inp. change (c_data ch) with s. unfold s. rewrite !firstn_app, !Ltick.
    unfold e in *. rewrite (firstn_all2 pre) by lia. rewrite (firstn_all2 ticks (n := c_len ch - length pre)) by lia. rewrite (firstn_all2 w) by lia. rewrite (firstn_all2 ticks) by lia.
    do 5 f_equal. lia.
  - destruct post as [|x p]; [rewrite firstn_nil; discriminate|]. destruct (c_len ch - e); [discriminate|exact Hpost].
Qed.
Definition code_inv (st : subject) : Prop :=
  inv anywhere ch st /\ ((s_pos st <= length pre /\ s_scanned st = false) \/ e <= s_pos st).
Lemma at_tick : nth_error (c_inp ch) (length pre) = Some 96%N.
Proof.
  destruct code_inp as (post' & -> & _). rewrite nth_error_app2, Nat.sub_diag by lia. unfold ticks. destruct n; [lia|reflexivity].
Qed.
Lemma pre_char i c : i < length pre -> nth_error (c_inp ch) i = Some c -> inert c \/ delimiter c.
Proof.
  intros Hi Hc. apply inp_data in Hc. change (c_data ch) with s in Hc. unfold s in Hc. rewrite nth_error_app1 in Hc by exact Hi. rewrite Forall_forall in Hpre. apply Hpre. eapply nth_error_In. exact Hc.
Qed.
Lemma run_stops st c : s_pos st <= length pre -> c <> 96%N -> s_pos st + span_len (N.eqb c) (skipn (s_pos st) (c_inp ch)) <= length pre.
Proof.
  intros Hp Hc. destruct (Nat.le_gt_cases (s_pos st + span_len (N.eqb c) (skipn (s_pos st) (c_inp ch))) (length pre)) as [L|L]; [exact L|exfalso].
  destruct (span_len_spec (N.eqb c) (skipn (s_pos st) (c_inp ch)) (length pre - s_pos st)) as (x & X1 & X2); [lia|]. rewrite nth_skipn in X1.
  replace (s_pos st + (length pre - s_pos st)) with (length pre) in X1 by lia. rewrite at_tick in X1. injection X1 as <-. apply N.eqb_eq in X2. contradiction.
Qed.
Lemma special_stops st m : s_pos st < length pre -> find_special (skipn (S (s_pos st)) (c_inp ch)) (S (s_pos st)) = Ok m -> m <= length pre.
Proof.
  intros Hp. assert (G : forall rest k n0 m0, find_special rest n0 = Ok m0 -> nth_error rest k = Some 96%N -> m0 <= n0 + k).
  { induction rest as [|x rest IH]; intros k n0 m0; cbn [find_special]; [destruct k; discriminate|]. destruct (N.ltb 256 x); [intros H; injection H as <-; lia|]. destruct (N.eqb x 256); [discriminate|].
    destruct (special_char x) eqn:Sx; [intros H; injection H as <-; lia|]. destruct k as [|k]; cbn [nth_error]; [intros _ X; injection X as ->; discriminate|]. intros H K. specialize (IH _ _ _ H K). lia. }
  intros H. apply (G _ (length pre - S (s_pos st))) in H; [lia|]. rewrite nth_skipn. replace (S (s_pos st) + (length pre - S (s_pos st))) with (length pre) by lia. apply at_tick.
Qed.
Lemma code_step st c st' : code_inv st -> peek ch (s_pos st) = Some c -> parse_inline E ch st c = Ok st' -> code_inv st'.
Proof.
  intros (Hi & Hj) Hp H. pose proof (parse_inline_ok anywhere E ch st c Hi Hp (fun _ _ _ => I)) as K. rewrite H in K. destruct K as (Hi' & Hlt). split; [exact Hi'|].
  destruct Hj as [(Hj & Hsc)|Hj]; [|right; lia]. pose proof Hp as Hc. rewrite peek_inp in Hc.
  destruct (Nat.eq_dec (s_pos st) (length pre)) as [Ep|Np].
  - right. rewrite Ep, at_tick in Hc. injection Hc as <-. change (parse_inline E ch st 96%N) with (handle_backticks ch st) in H. unfold handle_backticks in H.
    destruct code_inp as (post' & Ei & Hp').
    assert (Sp : span_len (N.eqb cTICK) (skipn (s_pos st) (c_inp ch)) = n).
    { rewrite Ep, Ei, skipn_app_len. rewrite span_unique; [exact Ltick|apply Forall_repeat; reflexivity|]. destruct w as [|x w']; [cbn in Hw1; congruence|]. cbn in Hw1 |- *. apply N.eqb_neq. intros X. apply Hw1. symmetry. exact X. }
    rewrite Sp, Hsc in H. cbn [andb] in H. destruct (Nat.ltb_spec MAXBACKTICKS n) as [L|_]; [unfold MAXBACKTICKS in L; lia|].
    assert (Sk : skipn (s_pos st + n) (c_inp ch) = w ++ ticks ++ post').
    { rewrite Ep, Ei, app_assoc. rewrite <- Ltick at 1. rewrite <- app_length, skipn_app_len. reflexivity. }
    rewrite Sk in H. destruct (close_span n post' ltac:(lia) Hp' w (s_pos st + n) 0 (s_backticks st)) as (bt & Ct); [exact Hw3|reflexivity|exact Hw2|]. fold ticks in Ct. rewrite Ct in H.
    destruct (N.eqb _ cCR); [discriminate|]. injection H as <-. cbn [s_pos set_pos set_ticks]. unfold e. lia.
  - left. assert (Hlt' : s_pos st < length pre) by lia. destruct (pre_char _ _ Hlt' Hc) as [In|De].
    + unfold parse_inline in H. destruct (inert_cases c In) as (R1 & R2 & R3 & R4 & R5 & R6 & R7 & R8 & R9 & R10 & _). rewrite R1, R2, R3, R4, R5, R6, R7, R8, R9, R10 in H. cbn [orb] in H.
      destruct (cin c _); [injection H as <-; cbn [s_pos set_pos s_scanned]; split; [lia|exact Hsc]|].
      destruct (find_special _ _) as [m|] eqn:F; cbn [bind] in H; [|discriminate]. injection H as <-. cbn [s_pos set_pos s_scanned]. split; [eapply special_stops; [exact Hlt'|exact F]|exact Hsc].
    + rewrite (parse_delim E ch st c De) in H. injection H as <-. unfold handle_delim. pose proof (scan_delims_len E ch (s_pos st) c) as L. destruct (scan_delims E ch (s_pos st) c) as ((k & op) & cl). cbn [fst] in L. subst k.
      assert (Hc96 : c <> 96%N) by (destruct De as [->| ->]; discriminate). pose proof (run_stops st c Hj Hc96).
      destruct (op || cl); cbn [s_pos set_pos set_delims s_scanned]; auto.
Qed.
Lemma code_ranges : match parse_inlines E s with
  | Ok ign => Forall (good_range (in_text (length pre) e) s) ign
  | Err x => known_error x
  end.
Proof.
  apply (parse_inlines_inv (in_text (length pre) e) E s code_inv).
  - split; [apply inv_init|]. left. cbn. split; [lia|reflexivity].
  - intros st c (_ & Hj) Hp Hc i Hi. destruct Hj as [(Hj & _)|Hj]; [|right; lia].
    pose proof Hp as Hd. rewrite peek_inp in Hd. assert (Hc96 : c <> 96%N) by (destruct Hc as [->| ->]; discriminate).
    pose proof (run_stops st c Hj Hc96) as R. fold ch in Hi. left. lia.
  - apply code_step.
Qed.
End CodeSpan.
