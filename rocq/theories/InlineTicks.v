(** What the table of the runs of backticks holds (inlines_c.py:525-564). *)
From Coq Require Import String List NArith ZArith Bool Arith Lia.
From Verif Require Import Str StrFacts Spec EnvSpec Regex RegexSpec RegexProof HtmlRe Fence Atx Entity Inlines HelperSpec EntityProof EmphSpec DelimSpec LinkSpec HtmlProof AtxProof InlineProof InlineHtml InlineRun InlineOpaque InlineEmph InlineRead InlineTarget InlineStill.
Import ListNotations.

Lemma get_store k v bt m : bt_get ((k, v) :: bt) m = if k =? m then v else bt_get bt m.
Proof. reflexivity. Qed.
(** An entry is kept, or it is set to a later position. *)
Lemma close_later n m : forall w pos run bt r bt', close_ticks w pos run n bt = (r, bt') -> bt_get bt' m = bt_get bt m \/ pos - run <= bt_get bt' m.
Proof.
  assert (St : forall pos run bt, bt_get (if run <=? MAXBACKTICKS then (run, pos - run) :: bt else bt) m = bt_get bt m \/ pos - run <= bt_get (if run <=? MAXBACKTICKS then (run, pos - run) :: bt else bt) m).
  { intros pos run bt. destruct (run <=? MAXBACKTICKS); [|auto]. rewrite get_store. destruct (run =? m); auto. }
  induction w as [|c w IH]; intros pos run bt r bt'; cbn [close_ticks]; cbv zeta.
  - destruct (run =? 0); [intros [= <- <-]; auto|]. destruct (run =? n); intros [= <- <-]; apply St.
  - destruct (N.eqb c cTICK); [intros H; apply IH in H; destruct H as [H|H]; [auto|right; lia]|]. destruct (run =? 0); [intros H; apply IH in H; destruct H as [H|H]; [auto|right; lia]|].
    destruct (run =? n); [intros [= <- <-]; apply St|]. intros H. apply IH in H. destruct H as [H|H]; [|right; lia]. rewrite H. apply St.
Qed.
(** A scan to the end leaves the place of the last run of each length, or a later one. *)
Lemma run_split k : forall m u v c w, 1 <= m -> repeat 96%N k ++ c :: w = u ++ repeat 96%N m ++ v -> c <> 96%N -> last u 0%N <> 96%N -> hd 0%N v <> 96%N -> (u = [] /\ m = k) \/ exists u', u = repeat 96%N k ++ c :: u' /\ w = u' ++ repeat 96%N m ++ v.
Proof.
  intros m u v c w Hm Eq Hc Hu Hv. destruct u as [|x u].
  - left. split; [reflexivity|]. cbn [app] in Eq. revert m Hm Eq. induction k as [|k IH]; intros [|m] Hm Eq; [lia| |lia|].
    + cbn in Eq. injection Eq as -> _. contradiction.
    + cbn [repeat app] in Eq. injection Eq as Eq. f_equal. destruct m as [|m].
      * destruct k as [|k]; [reflexivity|]. cbn in Eq. rewrite <- Eq in Hv. cbn in Hv. contradiction.
      * apply IH; [lia|exact Eq].
  - right. revert x u Eq Hu. induction k as [|k IH]; intros x u Eq Hu.
    + cbn [repeat app] in Eq. injection Eq as -> Eq. exists u. auto.
    + cbn [repeat app] in Eq. injection Eq as <- Eq. destruct u as [|y u]; [cbn in Hu; contradiction|]. destruct (IH y u Eq) as (u' & E1 & E2); [exact Hu|]. exists u'. rewrite E1. auto.
Qed.
Lemma close_end n m : 1 <= m <= 1000 -> forall w pos run bt bt', run <= pos -> close_ticks w pos run n bt = (None, bt') ->
  forall u v, repeat 96%N run ++ w = u ++ repeat 96%N m ++ v -> last u 0%N <> 96%N -> hd 0%N v <> 96%N -> pos - run + length u <= bt_get bt' m.
Proof.
  intros Hm. induction w as [|c w IH]; intros pos run bt bt' Hr H u v Eq Hu Hv; cbn [close_ticks] in H; cbv zeta in H.
  - destruct (run_split run m u (v ++ [10%N]) 10%N []) as [(-> & ->)|(u' & -> & E2)]; [lia|rewrite app_nil_r in Eq; rewrite Eq, <- !app_assoc; reflexivity|discriminate|exact Hu|destruct v; [discriminate|exact Hv]| |].
    + destruct (Nat.eqb_spec run 0); [lia|]. destruct (run =? n); [discriminate|]. injection H as <-. destruct (Nat.leb_spec run MAXBACKTICKS) as [_|X]; [|unfold MAXBACKTICKS in X; lia]. rewrite get_store, Nat.eqb_refl. cbn [length]. lia.
    + destruct u'; [destruct m; [lia|discriminate]|discriminate].
  - destruct (N.eqb_spec c cTICK) as [->|Hc].
    + apply (IH (S pos) (S run) _ _ ltac:(lia) H u v); [|exact Hu|exact Hv]. rewrite <- Eq. change cTICK with 96%N. rewrite <- repeat_snoc, <- app_assoc. reflexivity.
    + destruct (run_split run m u v c w) as [(-> & ->)|(u' & -> & E2)]; [lia|exact Eq|exact Hc|exact Hu|exact Hv| |].
      * destruct (Nat.eqb_spec run 0); [lia|]. destruct (run =? n); [discriminate|]. destruct (Nat.leb_spec run MAXBACKTICKS) as [_|X]; [|unfold MAXBACKTICKS in X; lia].
        destruct (close_later n run _ _ _ _ _ _ H) as [X|X]; [|cbn [length]; lia]. rewrite X, get_store, Nat.eqb_refl. cbn [length]. lia.
      * assert (Hu' : last u' 0%N <> 96%N) by (rewrite last_app_ne in Hu by discriminate; destruct u' as [|y u']; [discriminate|exact Hu]).
        assert (G : S pos + length u' <= bt_get bt' m).
        { destruct (run =? 0); [|destruct (run =? n); [discriminate|]]; (apply (IH (S pos) 0 _ _ ltac:(lia)) with (u := u') (v := v) in H; [lia|exact E2|exact Hu'|exact Hv]). }
        rewrite app_length, repeat_length. cbn [length]. lia.
Qed.
(** A code span changes the entries of its own length and of the runs in it. *)
Lemma close_kept n m post : 1 <= n -> 1 <= m -> m <> n -> hd 0%N post <> 96%N -> forall w pos run bt r bt', no_ticks_of n (repeat 96%N run ++ w) -> no_ticks_of m (repeat 96%N run ++ w) -> (w = [] -> run = 0) -> last w 0%N <> 96%N ->
  close_ticks (w ++ repeat 96%N n ++ post) pos run n bt = (r, bt') -> bt_get bt' m = bt_get bt m.
Proof.
  intros H1 H2 Hmn Hp. assert (St : forall pos bt, bt_get (if n <=? MAXBACKTICKS then (n, pos - n) :: bt else bt) m = bt_get bt m).
  { intros pos bt. destruct (n <=? MAXBACKTICKS); [|reflexivity]. rewrite get_store. destruct (Nat.eqb_spec n m); [congruence|reflexivity]. }
  induction w as [|c w IH]; intros pos run bt r bt' Hn Hm Hr Hl H.
  - rewrite (Hr eq_refl) in H. cbn [app] in H. clear Hr Hn Hm Hl. assert (G : forall k run pos bt r bt', run + k = n -> close_ticks (repeat 96%N k ++ post) pos run n bt = (r, bt') -> bt_get bt' m = bt_get bt m); [|eapply (G n 0); [lia|exact H]].
    clear - H1 Hp St. induction k as [|k IH]; intros run pos bt r bt' Hk H.
    + replace run with n in H by lia. cbn [repeat app] in H. destruct post as [|c post]; cbn [close_ticks] in H; cbv zeta in H.
      * destruct (Nat.eqb_spec n 0); [lia|]. rewrite Nat.eqb_refl in H. injection H as <- <-. apply St.
      * cbn in Hp. destruct (N.eqb_spec c cTICK); [contradiction|]. destruct (Nat.eqb_spec n 0); [lia|]. rewrite Nat.eqb_refl in H. injection H as <- <-. apply St.
    + cbn [repeat app close_ticks] in H. cbv zeta in H. change (N.eqb 96 cTICK) with true in H. cbv iota in H. eapply (IH (S run)); [lia|exact H].
  - cbn [app close_ticks] in H. cbv zeta in H. assert (Hl' : last w 0%N <> 96%N) by (destruct w; [discriminate|exact Hl]). destruct (N.eqb_spec c cTICK) as [->|Hc].
    + change cTICK with 96%N in *. assert (X : repeat 96%N run ++ 96%N :: w = repeat 96%N (S run) ++ w) by (rewrite <- repeat_snoc, <- app_assoc; reflexivity). rewrite X in Hn, Hm.
      eapply IH; [exact Hn|exact Hm|intros ->; exfalso; apply Hl; reflexivity|exact Hl'|exact H].
    + assert (Gn : no_ticks_of n (repeat 96%N 0 ++ w)) by (apply (no_ticks_drop n _ c) in Hn; [exact Hn|exact H1|exact Hc]).
      assert (Gm : no_ticks_of m (repeat 96%N 0 ++ w)) by (apply (no_ticks_drop m _ c) in Hm; [exact Hm|exact H2|exact Hc]).
      destruct (Nat.eqb_spec run 0); [eapply IH; [exact Gn|exact Gm|auto|exact Hl'|exact H]|]. destruct (Nat.eqb_spec run n) as [->|_].
      * exfalso. destruct (Hn [] (c :: w) eq_refl) as [X|X]; [discriminate|]. cbn in X. contradiction.
      * apply IH in H; [|exact Gn|exact Gm|auto|exact Hl']. rewrite H. destruct (run <=? MAXBACKTICKS); [|reflexivity]. rewrite get_store. destruct (Nat.eqb_spec run m) as [->|]; [|reflexivity].
        exfalso. destruct (Hm [] (c :: w) eq_refl) as [X|X]; [discriminate|]. cbn in X. contradiction.
Qed.
(** A code span that the table does not hide. *)
Lemma handle_code_kept E a n w post st : zs_ascii E -> 1 <= n <= 1000 -> hd 96%N w <> 96%N -> last w 0%N <> 96%N -> last w 0%N <> 13%N -> no_ticks_of n w -> hd 0%N post <> 96%N ->
  let ch := trimmed E (a ++ repeat 96%N n ++ w ++ repeat 96%N n ++ post) in
  s_pos st = length a -> s_scanned st = false \/ length a + n < bt_get (s_backticks st) n ->
  exists bt, handle_backticks ch st = Ok (set_ticks (set_pos st (length a + n + length w + n)) bt (s_scanned st)) /\
    forall m, 1 <= m -> m <> n -> no_ticks_of m w -> bt_get bt m = bt_get (s_backticks st) m.
Proof.
  intros Hz Hn Hw1 Hw2 Hw4 Hw3 Hp ch Ep Hs. destruct (code_inp E a w post n Hz Hn Hw1 Hw2 Hp) as (post' & Ei & Hp'). fold ch in Ei.
  assert (Lt : length (repeat 96%N n) = n) by apply repeat_length.
  assert (Sp : span_len (N.eqb cTICK) (skipn (s_pos st) (c_inp ch)) = n).
  { rewrite Ep, Ei, skipn_app_len. rewrite span_unique; [exact Lt|apply Forall_repeat; reflexivity|]. destruct w as [|x w']; [cbn in Hw1; congruence|]. cbn in Hw1 |- *. apply N.eqb_neq. intros X. apply Hw1. symmetry. exact X. }
  unfold handle_backticks. rewrite Sp. destruct (Nat.ltb_spec MAXBACKTICKS n) as [L|_]; [unfold MAXBACKTICKS in L; lia|].
  assert (Sc : s_scanned st && (bt_get (s_backticks st) n <=? s_pos st + n) = false).
  { destruct Hs as [->|Hs]; [reflexivity|]. destruct (Nat.leb_spec (bt_get (s_backticks st) n) (s_pos st + n)) as [X|_]; [lia|apply andb_false_r]. }
  rewrite Sc. assert (Sk : skipn (s_pos st + n) (c_inp ch) = w ++ repeat 96%N n ++ post').
  { rewrite Ep, Ei, app_assoc. rewrite <- Lt at 1. rewrite <- app_length, skipn_app_len. reflexivity. }
  rewrite Sk. destruct (close_span n post' ltac:(lia) Hp' w (s_pos st + n) 0 (s_backticks st)) as (bt & Ct); [exact Hw3|reflexivity|exact Hw2|]. rewrite Ct. exists bt. split.
  - replace (slice (c_data ch) (s_pos st + n) (s_pos st + n + length w + n - n)) with w.
    + destruct (N.eqb_spec (last w 0%N) cCR); [contradiction|]. rewrite Ep. reflexivity.
    + unfold slice. replace (s_pos st + n + length w + n - n - (s_pos st + n)) with (length w) by lia. cbn [ch trimmed c_data]. rewrite app_assoc. replace (s_pos st + n) with (length (a ++ repeat 96%N n)) by (rewrite app_length, Lt; lia).
      rewrite skipn_app_len, firstn_app, Nat.sub_diag, firstn_all. cbn. rewrite app_nil_r. reflexivity.
  - intros m Hm Hne Hno. apply (close_kept n m post' ltac:(lia) Hm Hne Hp' w (s_pos st + n) 0 _ _ _ Hw3 Hno (fun _ => eq_refl) Hw2 Ct).
Qed.
(** Stray backticks: nothing is remembered of them, or the table is right about what follows. *)
Lemma still_ticks_told E ch st a n b : scanned E ch -> zs_ascii E -> c_data ch = a ++ repeat 96%N n ++ b -> 1 <= n -> hd 0%N b <> 96%N -> 1000 < n \/ no_ticks_of n b -> s_pos st = length a ->
  length a + n <= c_len ch /\ (handle_backticks ch st = Ok (set_pos st (length a + n)) \/
  exists bt, handle_backticks ch st = Ok (set_ticks (set_pos st (length a + n)) bt true) /\
    forall m u v, 1 <= m <= 1000 -> b = u ++ repeat 96%N m ++ v -> last u 0%N <> 96%N -> hd 0%N v <> 96%N -> length a + n + length u <= bt_get bt m).
Proof.
  intros Hs Hz Hd Hn Hb Hno Hpos. assert (S96 : cm_space E 96%N = false) by (apply ascii_punct_not_space; [exact Hz|reflexivity]). destruct (inp_run E ch a 96%N n b Hs S96 Hd Hn) as (b' & sp & Ei & Eb & Fs).
  assert (Hb' : hd 0%N b' <> 96%N) by (destruct b' as [|x b']; [discriminate|]; rewrite Eb in Hb; exact Hb).
  assert (L : length (c_inp ch) = c_len ch) by (apply inp_length, Hs). split; [rewrite <- L, Ei, !app_length, repeat_length; lia|].
  unfold handle_backticks. rewrite Hpos, Ei, skip_app by reflexivity. change cTICK with 96%N. rewrite span_repeat by (assumption || discriminate). destruct (Nat.ltb_spec MAXBACKTICKS n) as [X|X]; [left; reflexivity|]. change MAXBACKTICKS with 1000 in X. destruct Hno as [Y|Hno]; [lia|].
  destruct (s_scanned st && (bt_get (s_backticks st) n <=? length a + n)); [left; reflexivity|right]. rewrite app_assoc, skip_app by (rewrite app_length, repeat_length; reflexivity).
  destruct (close_none n Hn b' (length a + n) 0 (s_backticks st)) as (bt & Ct).
  { cbn [repeat app]. intros x y Exy. destruct (Hno x (y ++ sp)) as [Z|Z]; [rewrite Eb, Exy, <- !app_assoc; reflexivity|left; exact Z|]. destruct y as [|z y]; [|right; exact Z]. destruct Fs as [|z sp Hz' _]; [discriminate|]. cbn in Z. subst z. congruence. }
  rewrite Ct. exists bt. split; [reflexivity|]. intros m u v Hm Ebu Hu Hv.
  assert (Eb' : exists v', b' = u ++ repeat 96%N m ++ v' /\ hd 0%N v' <> 96%N).
  { rewrite Ebu, app_assoc in Eb. apply app_eq_app in Eb as (l & [(E1 & E2)|(E1 & E2)]).
    - destruct m as [|m]; [lia|]. destruct l as [|x l _] using rev_ind.
      + rewrite app_nil_r in E1. exists []. rewrite app_nil_r. split; [symmetry; exact E1|discriminate].
      + exfalso. assert (X' : last (u ++ repeat 96%N (S m)) 0%N = x) by (rewrite E1, app_assoc; apply last_last). rewrite <- repeat_snoc, app_assoc, last_last in X'. rewrite E2 in Fs. apply Forall_app in Fs as (Fs & _). apply Forall_app in Fs as (_ & Fs). inversion Fs as [|? ? Y _]; subst. congruence.
    - exists l. split; [rewrite E1, <- app_assoc; reflexivity|]. destruct l as [|x l]; [discriminate|]. rewrite E2 in Hv. exact Hv. }
  destruct Eb' as (v' & Eb' & Hv'). pose proof (close_end n m Hm b' (length a + n) 0 _ _ ltac:(lia) Ct u v' Eb' Hu Hv') as G. lia.
Qed.
