(** When remove_emphasis does not raise on texts with links. *)
From Coq Require Import String List NArith ZArith Bool Arith Lia.
From Verif Require Import Str StrFacts Spec EnvSpec Regex RegexSpec RegexProof HtmlRe Fence Atx Entity Inlines HelperSpec EntityProof EmphSpec DelimSpec LinkSpec HtmlProof AtxProof InlineProof InlineHtml InlineRun InlineOpaque InlineEmph InlineRead InlineTarget InlineBare InlineTotal TameSpec.
Import ListNotations.
Local Open Scope list_scope.

Lemma blank_iff E c : blank E c <-> cm_space E c = true.
Proof. unfold blank. symmetry. apply space_iff. Qed.
Lemma slice_tail (x y : str) i j c : length x <= i -> In c (slice (x ++ y) i j) -> In c y.
Proof.
  intros L H. unfold slice in H. rewrite skipn_app in H. rewrite (skipn_all2 x) in H by exact L. cbn in H. apply (skipn_in (i - length x)). rewrite <- (firstn_skipn (j - i) (skipn (i - length x) y)). apply in_or_app. left. exact H.
Qed.
Lemma clean_tame E (b w : str) : ~ In 92%N b -> no_entity b -> (forall c, In c w -> In c b) -> exists v, unescape_html_f E w = Ok v /\ strbuf_unescape v = Ok tt.
Proof.
  intros H1 H2 H. exists w. split; [apply unescape_plain; destruct H2 as [X|X]; [left|right]; intros Y; apply X, H, Y|]. apply strbuf_plain. intros Y. apply H1, H, Y.
Qed.
Lemma tl_in {A} (l : list A) c : In c (tl l) -> In c l.
Proof. destruct l; [auto|]. intros H. right. exact H. Qed.
Lemma firstn_in {A} n (l : list A) c : In c (firstn n l) -> In c l.
Proof. intros H. rewrite <- (firstn_skipn n l). apply in_or_app. left. exact H. Qed.
Lemma clean_title_tame E (b w : str) : ~ In 92%N b -> no_entity b -> (forall c, In c w -> In c b) -> clean_title E w = Ok tt.
Proof.
  intros H1 H2 H. destruct w as [|x w]; [reflexivity|]. unfold clean_title. cbn zeta.
  match goal with |- (do _ <- unescape_html_f E ?v; _) = _ => destruct (clean_tame E b v H1 H2) as (u & -> & G); [|exact G] end.
  intros c Hc. apply H. destruct (_ || _); [apply tl_in; eapply firstn_in; exact Hc|exact Hc].
Qed.
Lemma clean_url_tame E (b w : str) : ~ In 92%N b -> no_entity b -> (forall c, In c w -> In c b) -> clean_url E w = Ok tt.
Proof. intros H1 H2 H. unfold clean_url. destruct (clean_tame E b (strip (cm_space E) w) H1 H2) as (u & -> & G); [|exact G]. intros c Hc. apply H. eapply strip_in. exact Hc. Qed.
(** The last visible character of a tame tail. *)
Lemma last_visible E (b x y : str) c : tame_tail E b -> zs_ascii E -> b = x ++ c :: y -> In c [34; 39; 11]%N -> Forall (fun d => In d space6) y -> False.
Proof.
  intros (_ & _ & T) Hz Eb Hc Hy. revert x c Eb Hc Hy. induction y as [|d y IH] using rev_ind; intros x c Eb Hc Hy.
  - apply (T x c [] Eb); [|constructor|exact Hc]. intros X. apply blank_iff, space_iff in X. cbn in Hc. destruct X as [X|X].
    + destruct Hc as [<-|[<-|[<-|[]]]]; apply Hz in X; [discriminate|lia|discriminate|lia|discriminate|lia].
    + cbn in X. destruct Hc as [<-|[<-|[<-|[]]]]; intuition discriminate.
  - apply Forall_app in Hy as (Hy & Hd). inversion Hd as [|? ? Hd1 _]; subst. clear Hd.
    assert (S5 : forall e, In e space6 -> e = 11%N \/ blank E e).
    { intros e He. unfold space6 in He. cbn in He. destruct He as [<-|[<-|[<-|[<-|[<-|[<-|[]]]]]]]; [right; left; apply (Hz 32%N); [lia|reflexivity]|right; right; cbn; auto|left; reflexivity|right; right; cbn; auto|right; right; cbn; auto|right; right; cbn; auto]. }
    (* the last character of the tail that is no white space is c or a vertical tab *)
    assert (G : forall z : str, Forall (fun d => In d space6) z -> Forall (blank E) z \/ exists z1 z2, z = z1 ++ 11%N :: z2 /\ Forall (blank E) z2).
    { induction z as [|e z IHz] using rev_ind; intros Fz; [left; constructor|]. apply Forall_app in Fz as (Fz & Fe). inversion Fe as [|? ? He _]; subst. destruct (S5 e He) as [->|Be].
      - right. exists z, []. split; [reflexivity|constructor].
      - destruct (IHz Fz) as [B|(z1 & z2 & -> & B)]; [left; apply Forall_app; split; [exact B|constructor; [exact Be|constructor]]|]. right. exists z1, (z2 ++ [e]). split; [rewrite <- app_assoc; reflexivity|]. apply Forall_app. split; [exact B|constructor; [exact Be|constructor]]. }
    assert (Nb : forall e, In e [34; 39; 11]%N -> ~ blank E e).
    { intros e He X. apply blank_iff, space_iff in X. cbn in He. destruct X as [X|X]; [destruct He as [<-|[<-|[<-|[]]]]; apply Hz in X; try discriminate; lia|]. cbn in X. destruct He as [<-|[<-|[<-|[]]]]; intuition discriminate. }
    destruct (G (y ++ [d])) as [B|(z1 & z2 & Ez & B)]; [apply Forall_app; split; [exact Hy|constructor; [exact Hd1|constructor]]| |].
    + exact (T x c (y ++ [d]) eq_refl (Nb c Hc) B Hc).
    + rewrite Ez in T. refine (T (x ++ c :: z1) 11%N z2 _ (Nb 11%N _) B _); [rewrite <- app_assoc; reflexivity|cbn; auto|cbn; auto].
Qed.
Lemma inline_link_total E s a w : zs_ascii E -> s = a ++ w -> (forall b, w = 40%N :: b -> tame_tail E b) -> exists r, inline_link E (trimmed E s) (length a) = Ok r.
Proof.
  intros Hz Es Ht. set (ch := trimmed E s). pose proof (scanned_trimmed E s : scanned E ch) as Hs.
  destruct (inp_trimmed E s) as (Hinp & _). destruct (rstrip_split (cm_space E) s) as (suf & Esuf & Fsuf & Ne). fold ch in Hinp. set (inp := rstrip (cm_space E) s) in *. assert (Hlen : c_len ch = length inp) by reflexivity. assert (Hdat : c_data ch = s) by reflexivity.
  unfold inline_link. destruct (peek_is ch (length a) 40) eqn:P40; [|eauto].
  assert (W : exists w1, w = 40%N :: w1 /\ length a < c_len ch).
  { unfold peek_is in P40. destruct (peek ch (length a)) as [x|] eqn:P; [|discriminate]. apply N.eqb_eq in P40. subst x. apply peek_some in P as (L & P). rewrite Hdat, Es, nth_error_app2, Nat.sub_diag in P by lia. destruct w as [|y w]; [discriminate|]. injection P as ->. eauto. }
  destruct W as (w1 & -> & La). specialize (Ht w1 eq_refl). set (u0 := a ++ [40%N]). assert (L0 : length u0 = S (length a)) by (unfold u0; rewrite app_length; cbn; lia). rewrite <- L0.
  assert (E0 : s = u0 ++ w1) by (rewrite Es; unfold u0; rewrite <- app_assoc; reflexivity).
  assert (E0d : c_data ch = u0 ++ w1) by (rewrite Hdat; exact E0). rewrite (scan_here re_scan_spacechars ch u0 w1 E0d) by lia.
  destruct (spaces_cut w1) as (b1 & r1 & Ew1 & Fb1 & _ & ->). rewrite <- app_length. set (u1 := u0 ++ b1).
  assert (E1 : s = u1 ++ r1) by (rewrite E0, Ew1; unfold u1; rewrite app_assoc; reflexivity).
  destruct (scan_url E ch (length u1)) as [(n & url)|] eqn:Su; [|eauto].
  assert (L01 : length u0 <= length u1) by (unfold u1; rewrite app_length; lia).
  assert (Pl : exists p r, inp = u1 ++ p ++ r /\ r <> [] /\ n = length p /\ (forall c, In c url -> In c w1)).
  { unfold scan_url in Su. rewrite Hinp in Su. destruct (skipn (length u1) inp) as [|c s0] eqn:Sk; [discriminate|].
    assert (L1 : length u1 <= length inp) by (destruct (Nat.le_gt_cases (length u1) (length inp)) as [L|L]; [exact L|]; rewrite skipn_all2 in Sk by lia; discriminate).
    destruct (app_longer u1 r1 inp suf ltac:(rewrite <- E1; exact Esuf) L1) as (z & Ez). rewrite Ez, skipn_app_len in Sk. subst z. rewrite E0d in Su.
    destruct (N.eqb_spec c 60) as [->|N60].
    - destruct (scan_url1 s0 1) as [m|] eqn:S1; [|discriminate]. injection Su as <- <-. destruct (cut_pointed _ _ _ _ (le_n _) S1) as (d & r & -> & Hr & -> & Pd).
      exists (60%N :: d ++ [62%N]), r. split; [rewrite Ez; cbn [app]; rewrite <- app_assoc; reflexivity|]. split; [exact Hr|]. split; [cbn [length]; rewrite app_length; cbn; lia|].
      intros c Hc. eapply slice_tail; [|exact Hc]. lia.
    - destruct (scan_url2 E (c :: s0) 0 0) as [m|] eqn:S2; [|discriminate]. injection Su as <- <-. destruct (cut_address E Hz _ _ _ _ _ (le_n _) S2) as (d & e & r & Ed & -> & Bd & Ce).
      exists d, (e :: r). split; [rewrite Ez, Ed; reflexivity|]. split; [discriminate|]. split; [lia|].
      intros x Hx. eapply slice_tail; [|exact Hx]. lia. }
  destruct Pl as (p & r & Ei & Hr & -> & Hurl). rewrite <- app_length. set (u2 := u1 ++ p). assert (Ei2 : inp = u2 ++ r) by (rewrite Ei; unfold u2; rewrite app_assoc; reflexivity).
  assert (E2 : s = u2 ++ r ++ suf) by (rewrite Esuf, Ei2, <- app_assoc; reflexivity).
  assert (Er1 : r1 = p ++ r ++ suf) by (apply (app_inv_head u1); rewrite <- E1, E2; unfold u2; rewrite <- app_assoc; reflexivity).
  assert (L2 : length u2 < c_len ch) by (rewrite Hlen, Ei2, app_length; destruct r; [contradiction|cbn; lia]).
  rewrite (scan_here re_scan_spacechars ch u2 (r ++ suf)) by (try (rewrite Hdat; exact E2); lia).
  destruct (spaces_cut (r ++ suf)) as (b2 & r2 & Er2 & Fb2 & Nb2 & ->). rewrite <- app_length. set (u3 := u2 ++ b2).
  assert (E3 : s = u3 ++ r2) by (rewrite E2, Er2; unfold u3; rewrite app_assoc; reflexivity).
  assert (Ew2 : w1 = b1 ++ p ++ b2 ++ r2) by (rewrite Ew1, Er1, Er2; reflexivity).
  assert (L3 : length u3 < c_len ch).
  { destruct (Nat.lt_ge_cases (length u3) (c_len ch)) as [L|L]; [exact L|]. exfalso. rewrite Hlen, Ei2 in L. unfold u3 in L. rewrite !app_length in L.
    destruct (app_longer r suf b2 r2 Er2 ltac:(lia)) as (z & Ez). destruct (exists_last Hr) as (y & c & Ey). rewrite Ei2, Ey in Ne. rewrite app_assoc in Ne. apply noend_app in Ne.
    pose proof Fb2 as Fb2'. rewrite Ez, Ey in Fb2'. rewrite Forall_app in Fb2'. destruct Fb2' as (Fb2' & Fz). rewrite Forall_app in Fb2'. destruct Fb2' as (_ & Fc). apply Forall_inv in Fc as Hc.
    destruct (N.eq_dec c 11) as [->|N11].
    - destruct Ht as (_ & _ & T). refine (T (b1 ++ p ++ y) 11%N suf _ _ _ _).
      + rewrite Ew1, Er1, Ey, <- !app_assoc. reflexivity.
      + intros X. apply blank_iff in X. congruence.
      + eapply Forall_impl; [|exact Fsuf]. intros d Hd. apply blank_iff. exact Hd.
      + cbn. auto.
    - assert (X : cm_space E c = true); [|congruence]. destruct (cm_space E c) eqn:Q; [reflexivity|]. exfalso. exact (pchar_of E c Hz Q (no_blank c N11 Hc)). }
  assert (Lu : length u0 <= length u3) by (unfold u3, u2; rewrite !app_length; lia).
  set (endtitle := if length u3 =? length u2 then length u3 else length u3 + scan_at re_scan_link_title ch (length u3)).
  assert (T : endtitle = length u3 \/ exists t r3, r2 = t ++ r3 /\ quoted t /\ endtitle = length (u3 ++ t)).
  { unfold endtitle. destruct (Nat.eqb_spec (length u3) (length u2)) as [|Nb]; [left; reflexivity|]. rewrite (scan_here re_scan_link_title ch u3 r2) by (try (rewrite Hdat; exact E3); lia).
    destruct (title_cut r2) as [->|(t & r3 & Et & Qt & ->)]; [left; lia|right]. exists t, r3. split; [exact Et|]. split; [exact Qt|]. rewrite app_length. reflexivity. }
  assert (Pk : exists c, peek_at ch (endtitle + scan_at re_scan_spacechars ch endtitle) = Ok c).
  { clearbody endtitle. destruct T as [->|(t & r3 & Et & Qt & ->)].
    - rewrite (scan_here re_scan_spacechars ch u3 r2) by (try (rewrite Hdat; exact E3); lia). destruct (spaces_cut r2) as (b3 & r4 & Er4 & Fb3 & _ & ->).
      destruct r2 as [|c r2]; [exfalso; assert (Lc : c_len ch <= length s) by exact (proj1 Hs); assert (Ls : length s = length u3) by (rewrite E3 at 1; rewrite app_nil_r; reflexivity); lia|].
      assert (b3 = []) as ->. { destruct b3 as [|x b3]; [reflexivity|]. exfalso. cbn in Er4. injection Er4 as <- _. inversion Fb3 as [|? ? Hc _]; subst. exact (Nb2 c r2 eq_refl Hc). }
      cbn [length]. rewrite Nat.add_0_r. unfold peek_at. rewrite Hdat.
      assert (X : nth_error s (length u3) = Some c) by (rewrite E3 at 1; rewrite nth_error_app2, Nat.sub_diag by lia; reflexivity). rewrite X. eauto.
    - set (u4 := u3 ++ t). assert (E4 : s = u4 ++ r3) by (rewrite E3, Et; unfold u4; rewrite app_assoc; reflexivity). destruct (quoted_last t Qt) as (x & c & Ex & Hc).
      assert (L4 : length u4 <= c_len ch).
      { assert (X : c_data ch = (u3 ++ x) ++ c :: r3) by (rewrite Hdat, E4; unfold u4; rewrite Ex, <- !app_assoc; reflexivity).
        apply (in_scan E ch _ _ _ Hs) in X; [|destruct Hc as [->| ->]; apply ascii_punct_not_space; [exact Hz|reflexivity|exact Hz|reflexivity]]. assert (Y : length u4 = S (length (u3 ++ x))) by (unfold u4; rewrite Ex, app_assoc, app_length; cbn; lia). lia. }
      rewrite (scan_here re_scan_spacechars ch u4 r3) by (try (rewrite Hdat; exact E4); lia). destruct (spaces_cut r3) as (b3 & r4 & Er4 & Fb3 & _ & ->). rewrite <- app_length.
      assert (E5 : s = (u4 ++ b3) ++ r4) by (rewrite E4, Er4, app_assoc; reflexivity).
      unfold peek_at. rewrite Hdat. destruct r4 as [|d r4]; [|assert (X : nth_error s (length (u4 ++ b3)) = Some d) by (rewrite E5 at 1; rewrite nth_error_app2, Nat.sub_diag by lia; reflexivity); rewrite X; eauto].
      exfalso. refine (last_visible E w1 (b1 ++ p ++ b2 ++ x) b3 c Ht Hz _ _ Fb3); [|cbn; destruct Hc as [->| ->]; auto].
      rewrite Ew2, Et, Ex, Er4, app_nil_r, <- !app_assoc. reflexivity. }
  destruct Pk as (c & Pk). fold endtitle. rewrite Pk. cbn [bind]. destruct (N.eqb c 41); [|eauto]. destruct Ht as (H92 & Hent & _).
  rewrite (clean_url_tame E w1 url H92 Hent Hurl). cbn [bind]. rewrite (clean_title_tame E w1 _ H92 Hent); [cbn [bind]; eauto|].
  intros x Hx. rewrite E0d in Hx. eapply slice_tail; [|exact Hx]. exact Lu.
Qed.
Lemma parse_inline_tame E s st c : let ch := trimmed E s in e_entities E <> [] -> zs_ascii E -> tame E s -> inv anywhere ch st -> not_escaped ch (s_pos st) -> peek ch (s_pos st) = Some c ->
  exists st', parse_inline E ch st c = Ok st'.
Proof.
  intros ch He Hz Ht Hi Hj Hp. pose proof Ht as (Hcr & H256 & Hdg & Hrl & Hil). change s with (c_data ch) in Hcr, H256, Hdg. pose proof Hp as Hp'. unfold parse_inline. rewrite peek_inp in Hp. pose proof (inp_data _ _ _ Hp) as Hd.
  destruct (N.eqb_spec c cCR) as [->|_]; [exfalso; apply Hcr; eapply nth_error_In; exact Hd|]. cbn [orb].
  destruct (N.eqb_spec c cLF) as [->|_].
  { unfold handle_newline, peek_at. rewrite Hd. cbn [bind]. change (N.eqb cLF cCR) with false. cbv iota. rewrite Hd. cbn [bind]. eauto. }
  destruct (N.eqb c cTICK).
  { unfold handle_backticks. destruct (_ <? _); [eauto|]. destruct (_ && _); [eauto|]. destruct (close_ticks _ _ _ _ _) as ([e|] & bt); [|eauto].
    destruct (N.eqb_spec (last (slice (c_data ch) (s_pos st + span_len (N.eqb cTICK) (skipn (s_pos st) (c_inp ch))) (e - span_len (N.eqb cTICK) (skipn (s_pos st) (c_inp ch)))) 0%N) cCR) as [X|_]; [|eauto].
    exfalso. destruct (last_in (slice (c_data ch) (s_pos st + span_len (N.eqb cTICK) (skipn (s_pos st) (c_inp ch))) (e - span_len (N.eqb cTICK) (skipn (s_pos st) (c_inp ch)))) 0%N) as [Y|Y]; rewrite X in Y; [discriminate|].
    apply Hcr. eapply slice_incl'. exact Y. }
  destruct (N.eqb c cBS); [eauto|]. destruct (N.eqb c 38).
  { unfold handle_entity. destruct (unescape_ent_ok E (skipn (S (s_pos st)) (c_inp ch)) He) as (r & ->); [|cbn [bind]; destruct r as [(? & ?)|]; eauto].
    intros x Hx. apply Hdg. apply inp_incl. eapply skipn_in. exact Hx. }
  destruct (N.eqb c 60).
  { unfold handle_pointy_brace. destruct (0 <? _); [apply autolink_total; assumption|]. destruct (0 <? _); [apply autolink_total; assumption|]. destruct (html_inline ch _ _) as (n & ((x & y) & z)). eauto. }
  destruct (_ || _); [eauto|]. destruct (cin c _); [eauto|]. destruct (N.eqb c cLB); [eauto|].
  destruct (N.eqb_spec c cRB) as [->|_].
  { unfold handle_close_bracket. cbn zeta. destruct (s_brackets _) as [|b bs]; [eauto|]. destruct (negb _); [eauto|].
    change (s_pos (set_pos st (S (s_pos st)))) with (S (s_pos st)).
    assert (F : free (c_data ch) (s_pos st)) by (destruct Hj as [Hj|Hj]; [exact Hj|specialize (Hj _ Hp'); discriminate]).
    apply nth_error_split in Hd as (a & w & Es & Ea). change (c_data ch) with s in Es, F.
    assert (Ne : forall v, 93%N :: w = v -> escapes a -> False) by (intros v _ X; refine (escapes_not_free a (93%N :: w) X _); rewrite Ea; change (93%N :: w) with (cRB :: w); rewrite <- Es; exact F).
    assert (L : S (s_pos st) = length (a ++ [cRB])) by (rewrite app_length, Ea; cbn; lia).
    assert (Es' : s = (a ++ [cRB]) ++ w) by (rewrite <- app_assoc; exact Es).
    destruct (inline_link_total E s (a ++ [cRB]) w Hz Es') as (r & R).
    { intros b' ->. destruct (Hil a b' Es) as [X|X]; [exfalso; eapply Ne; [reflexivity|exact X]|exact X]. }
    rewrite L. fold ch in R. rewrite R. cbn [bind]. destruct r as [e|].
    - destruct (process_ok anywhere ch (set_pos (set_pos st (length (a ++ [cRB]))) e) (b_prevdelim b) Hi) as (st' & X & _). rewrite X. cbn [bind]. eauto.
    - unfold ref_label. destruct (peek_is ch (length (a ++ [cRB])) cLB) eqn:P; [|cbn [bind]; eauto].
      assert (W : exists w', w = 91%N :: w').
      { unfold peek_is in P. destruct (peek ch (length (a ++ [cRB]))) as [x|] eqn:Q; [|discriminate]. apply N.eqb_eq in P. subst x. apply peek_some in Q as (_ & Q). change (c_data ch) with s in Q. rewrite Es', nth_error_app2, Nat.sub_diag in Q by lia.
        destruct w as [|y w]; [discriminate|]. injection Q as ->. eauto. }
      destruct W as (w' & ->). assert (B : hd 0%N w' = 91%N \/ hd 0%N w' = 93%N) by (destruct (Hrl a w' Es) as [X|X]; [exfalso; eapply Ne; [reflexivity|exact X]|exact X]).
      assert (G : forall x, In x [91; 93]%N -> hd 0%N w' = x -> peek_is ch (S (length (a ++ [cRB]))) x = true).
      { intros x Hx Hh. destruct w' as [|y w']; [cbn in Hh; subst x; cbn in Hx; intuition discriminate|]. cbn in Hh. subst y. unfold peek_is.
        rewrite (peek_data E ch (S (length (a ++ [cRB]))) x (scanned_trimmed E s)); [apply N.eqb_refl| |].
        - change (c_data ch) with s. rewrite Es', nth_error_app2 by lia. replace (S (length (a ++ [cRB])) - length (a ++ [cRB])) with 1 by lia. reflexivity.
        - destruct Hx as [<-|[<-|[]]]; apply ascii_punct_not_space; [exact Hz|reflexivity|exact Hz|reflexivity]. }
      change cLB with 91%N. change cRB with 93%N in *. destruct B as [B|B]; [rewrite (G 91%N ltac:(cbn; auto) B)|rewrite (G 93%N ltac:(cbn; auto) B), orb_true_r]; cbn [orb bind]; eauto. }
  destruct (find_special_total (skipn (S (s_pos st)) (c_inp ch))) with (n := S (s_pos st)) as (m & ->); [|cbn [bind]; eauto].
  intros X. apply H256. apply inp_incl. eapply skipn_in. exact X.
Qed.
Lemma parse_loop_tame E s : e_entities E <> [] -> zs_ascii E -> ~ In 0%N s -> tame E s ->
  forall fuel st, inv anywhere (trimmed E s) st -> not_escaped (trimmed E s) (s_pos st) -> parse_loop fuel E (trimmed E s) st = Err OutOfFuel \/ exists st', parse_loop fuel E (trimmed E s) st = Ok st'.
Proof.
  intros He Hz H0 Ht. induction fuel as [|fuel IH]; intros st Hi Hj; cbn [parse_loop]; [left; reflexivity|]. destruct (peek (trimmed E s) (s_pos st)) as [c|] eqn:P; [|right; eauto].
  destruct (parse_inline_tame E s st c He Hz Ht Hi Hj P) as (st' & X). rewrite X. cbn [bind].
  pose proof (parse_inline_ok anywhere E (trimmed E s) st c Hi P (fun _ _ _ => I)) as S. rewrite X in S. destruct S as (Hi' & _).
  apply IH; [exact Hi'|]. eapply escape_step; [exact Hj|exact P|exact H0|apply trimmed_len|exact X].
Qed.
Lemma parse_inlines_tame E s : e_entities E <> [] -> zs_ascii E -> ~ In 0%N s -> tame E s -> exists ign, parse_inlines E s = Ok ign.
Proof.
  intros He Hz H0 Ht. unfold parse_inlines. pose proof (parse_loop_known E s) as P.
  destruct (parse_loop_tame E s He Hz H0 Ht (S (length s)) init_subject (inv_init _ _)) as [X|(st & X)]; [left; reflexivity| |]; rewrite X in P |- *.
  - exfalso. destruct P as [P|[P|P]]; discriminate.
  - cbn [bind]. destruct (process_ok _ _ st None (proj1 P)) as (st' & -> & _). cbn [bind]. eauto.
Qed.
