(** When remove_emphasis does not raise. *)
From Coq Require Import String List NArith ZArith Bool Arith Lia.
From Verif Require Import Str StrFacts Spec EnvSpec Regex HtmlRe Fence Atx Entity Inlines HelperSpec EntityProof EmphSpec InlineProof InlineHtml InlineRun InlineOpaque.
Import ListNotations.
Local Open Scope list_scope.

Lemma inp_incl ch c : In c (c_inp ch) -> In c (c_data ch).
Proof. unfold c_inp. intros H. rewrite <- (firstn_skipn (c_len ch) (c_data ch)). apply in_or_app. left. exact H. Qed.
Lemma strip_incl p s c : In c (strip p s) -> In c s.
Proof. intros H. destruct (strip_split p s) as (a & b & E & _). rewrite E. apply in_or_app. right. apply in_or_app. left. exact H. Qed.
Lemma slice_incl' (s : str) a b c : In c (slice s a b) -> In c s.
Proof.
  unfold slice. intros H. apply (skipn_in a). rewrite <- (firstn_skipn (b - a) (skipn a s)). apply in_or_app. left. exact H.
Qed.
Lemma last_in (s : str) d : last s d = d \/ In (last s d) s.
Proof. induction s as [|x s IH]; [left; reflexivity|]. destruct s as [|y s]; [right; left; reflexivity|]. destruct IH as [IH|IH]; [left; exact IH|right; right; exact IH]. Qed.
Lemma find_special_total rest : ~ In 256%N rest -> forall n, exists m, find_special rest n = Ok m.
Proof.
  induction rest as [|c rest IH]; intros H n; cbn [find_special]; [eauto|]. destruct (N.ltb 256 c); [eauto|].
  destruct (N.eqb_spec c 256) as [->|_]; [exfalso; apply H; left; reflexivity|]. destruct (special_char c); [eauto|]. apply IH. intros X. apply H. right. exact X.
Qed.
Lemma nth_split2 {A} (l : list A) i x y : nth_error l i = Some x -> nth_error l (S i) = Some y -> exists a b, l = a ++ x :: y :: b /\ length a = i.
Proof.
  intros Hx Hy. apply nth_error_split in Hx as (a & b & -> & Ha). rewrite nth_error_app2 in Hy by lia. replace (S i - length a) with 1 in Hy by lia.
  cbn in Hy. destruct b as [|z b]; [discriminate|]. cbn in Hy. injection Hy as ->. eauto.
Qed.
Lemma autolink_total E ch st n : e_entities E <> [] -> ascii_digits E (c_data ch) -> exists st', autolink E ch st n = Ok st'.
Proof.
  intros He Hd. unfold autolink. destruct (unescape_html_f_ok E (strip (cm_space E) (slice (c_data ch) (s_pos st) (s_pos st + n - 1))) He) as (b & ->); [|cbn [bind]; eauto].
  intros x Hx. apply Hd. eapply slice_incl'. eapply strip_incl. exact Hx.
Qed.
Lemma parse_inline_total E ch st c : e_entities E <> [] -> harmless E (c_data ch) -> not_escaped ch (s_pos st) -> peek ch (s_pos st) = Some c -> exists st', parse_inline E ch st c = Ok st'.
Proof.
  intros He (Hcr & H256 & Hdg & Hnl) Hj Hp. pose proof Hp as Hp'. unfold parse_inline. rewrite peek_inp in Hp. pose proof (inp_data _ _ _ Hp) as Hd.
  destruct (N.eqb_spec c cCR) as [->|_]; [exfalso; apply Hcr; eapply nth_error_In; exact Hd|]. cbn [orb].
  destruct (N.eqb_spec c cLF) as [->|_].
  { unfold handle_newline, peek_at. rewrite Hd. cbn [bind]. change (N.eqb cLF cCR) with false. cbv iota. rewrite Hd. cbn [bind]. eauto. }
  destruct (N.eqb c cTICK).
  { unfold handle_backticks. destruct (_ <? _); [eauto|]. destruct (_ && _); [eauto|]. destruct (close_ticks _ _ _ _ _) as ([e|] & bt); [|eauto].
    destruct (N.eqb_spec (last (slice (c_data ch) (s_pos st + span_len (N.eqb cTICK) (skipn (s_pos st) (c_inp ch))) (e - span_len (N.eqb cTICK) (skipn (s_pos st) (c_inp ch)))) 0%N) cCR) as [X|_]; [|eauto].
    exfalso. destruct (last_in (slice (c_data ch) (s_pos st + span_len (N.eqb cTICK) (skipn (s_pos st) (c_inp ch))) (e - span_len (N.eqb cTICK) (skipn (s_pos st) (c_inp ch)))) 0%N) as [Y|Y]; rewrite X in Y; [discriminate|].
    apply Hcr. eapply slice_incl'. exact Y. }
  destruct (N.eqb c cBS); [eauto|]. destruct (N.eqb c 38).
  { unfold handle_entity. destruct (unescape_ent_ok E (skipn (S (s_pos st)) (c_inp ch)) He) as (r & ->); [|cbn [bind]; destruct r as [(? & ?)|]; eauto].
    intros x Hx. apply Hdg. apply inp_incl. eapply skipn_in. exact Hx. }
  destruct (N.eqb c 60).
  { unfold handle_pointy_brace. destruct (0 <? _); [apply autolink_total; assumption|]. destruct (0 <? _); [apply autolink_total; assumption|]. destruct (html_inline ch _ _) as (n & ((x & y) & z)). eauto. }
  destruct (_ || _); [eauto|]. destruct (cin c _); [eauto|]. destruct (N.eqb c cLB); [eauto|].
  destruct (N.eqb_spec c cRB) as [->|_].
  { unfold handle_close_bracket. cbn zeta. destruct (s_brackets _) as [|b bs]; [eauto|]. destruct (negb _); [eauto|].
    change (s_pos (set_pos st (S (s_pos st)))) with (S (s_pos st)).
    assert (G : forall x, x = 40%N \/ x = 91%N -> peek_is ch (S (s_pos st)) x = false).
    { intros x Hx. unfold peek_is. rewrite peek_inp. destruct (nth_error (c_inp ch) (S (s_pos st))) as [y|] eqn:Y; [|reflexivity].
      destruct (N.eqb_spec y x) as [->|_]; [|reflexivity]. exfalso. destruct (nth_split2 _ _ _ _ Hd (inp_data _ _ _ Y)) as (a & t & Et & Ea). change cRB with 93%N in Et.
      assert (F : free (c_data ch) (s_pos st)) by (destruct Hj as [Hj|Hj]; [exact Hj|specialize (Hj _ Hp'); discriminate]).
      refine (escapes_not_free a (93%N :: x :: t) (Hnl a t x Et Hx) _). rewrite Ea, <- Et. exact F. }
    unfold inline_link. rewrite G by auto. cbn [bind]. unfold ref_label. replace (peek_is ch (S (s_pos st)) cLB) with false by (symmetry; apply G; right; reflexivity). cbn [bind]. eauto. }
  destruct (find_special_total (skipn (S (s_pos st)) (c_inp ch))) with (n := S (s_pos st)) as (m & ->); [|cbn [bind]; eauto].
  intros X. apply H256. apply inp_incl. eapply skipn_in. exact X.
Qed.
Lemma parse_loop_total E ch : e_entities E <> [] -> ~ In 0%N (c_data ch) -> c_len ch <= length (c_data ch) -> harmless E (c_data ch) ->
  forall fuel st, not_escaped ch (s_pos st) -> parse_loop fuel E ch st = Err OutOfFuel \/ exists st', parse_loop fuel E ch st = Ok st'.
Proof.
  intros He H0 Hl Hc. induction fuel as [|fuel IH]; intros st Hj; cbn [parse_loop]; [left; reflexivity|]. destruct (peek ch (s_pos st)) as [c|] eqn:P; [|right; eauto].
  destruct (parse_inline_total E ch st c He Hc Hj P) as (st' & X). rewrite X. cbn [bind]. apply IH. eapply escape_step; [exact Hj|exact P|exact H0|exact Hl|exact X].
Qed.
Lemma parse_inlines_total E s : e_entities E <> [] -> ~ In 0%N s -> harmless E s -> exists ign, parse_inlines E s = Ok ign.
Proof.
  intros He H0 Hc. unfold parse_inlines. pose proof (parse_loop_known E s) as P.
  destruct (parse_loop_total E (trimmed E s) He H0 (trimmed_len E s) Hc (S (length s)) init_subject) as [X|(st & X)]; [left; reflexivity| |]; rewrite X in P |- *.
  - exfalso. destruct P as [P|[P|P]]; discriminate.
  - cbn [bind]. destruct (process_ok _ _ st None (proj1 P)) as (st' & -> & _). cbn [bind]. eauto.
Qed.
