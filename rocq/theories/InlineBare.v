(** Text after a closing bracket that is no target of a link. *)
From Coq Require Import String List NArith ZArith Bool Arith Lia.
From Verif Require Import Str StrFacts Spec EnvSpec Regex RegexSpec RegexProof HtmlRe Fence Atx Entity Inlines HelperSpec EmphSpec DelimSpec LinkSpec HtmlProof AtxProof InlineProof InlineHtml InlineRun InlineOpaque InlineEmph InlineRead InlineTarget.
Import ListNotations.
Local Open Scope list_scope.

(** ** Blanks *)
Lemma spaces_cut s : exists b r, s = b ++ r /\ Forall (fun c => In c space6) b /\ (forall c r', r = c :: r' -> ~ In c space6) /\ matchlen re_scan_spacechars s = length b.
Proof.
  unfold matchlen. destruct (rmatch re_scan_spacechars None s (fun _ s' => Some s')) as [rest|] eqn:R.
  - destruct (match_split _ _ _ _ R) as (pv' & Mm). apply plus_star in Mm. apply star_set in Mm as (u & Eu & Fu & _).
    destruct (seq_star_stuck _ _ _ _ _ R) as ((pv & St) & _). exists u, rest. split; [exact Eu|]. split; [|split].
    + eapply Forall_impl; [|exact Fu]. intros c Hc. apply cin_In. exact Hc.
    + intros c r -> X. apply (St (Some c) r); [|cbn; lia]. exists c. split; [reflexivity|]. split; [apply cin_In; exact X|reflexivity].
    + rewrite Eu, app_length. lia.
  - exists [], s. split; [reflexivity|]. split; [constructor|]. split; [|reflexivity].
    intros c r' -> X. destruct (oneof_plus_make space6 [c] None r' ltac:(discriminate) ltac:(constructor; [exact X|constructor])) as (pv' & Mm). refine (rmatch_complete _ _ _ _ _ _ Mm _ R). discriminate.
Qed.

(** ** Addresses *)
Definition pchar (c : N) : Prop := ~ In c [9; 10; 12; 13; 32]%N.
Lemma pchar_of E c : zs_ascii E -> cm_space E c = false -> pchar c.
Proof.
  intros Hz Hc X. assert (Y : cm_space E c = true); [|congruence]. apply space_iff. cbn in X. destruct X as [X|[X|[X|[X|[X|[]]]]]]; subst c; try (right; cbn; tauto). left. apply (Hz 32%N); [lia|reflexivity].
Qed.
Lemma cut_address E : zs_ascii E -> forall k s i nb m, length s <= k -> scan_url2 E s i nb = Some m ->
  exists d c r, s = d ++ c :: r /\ m = i + length d /\ balanced pchar nb d /\ (c = 41%N \/ cm_space E c = true /\ m <> 0).
Proof.
  intros Hz. induction k as [|k IH]; intros s i nb m Hk H; (destruct s as [|c s]; [discriminate|]); [cbn in Hk; lia|]. cbn [length] in Hk. cbn [scan_url2] in H. change cBS with 92%N in H.
  assert (G : forall m, scan_url2 E s (S i) nb = Some m -> exists d c r, s = d ++ c :: r /\ m = S i + length d /\ balanced pchar nb d /\ (c = 41%N \/ cm_space E c = true /\ m <> 0)) by (intros; apply IH; [lia|assumption]).
  destruct (N.eqb_spec c 92) as [->|N92].
  - assert (P : (exists d s', s = d :: s' /\ ascii_punct d = true /\ scan_url2 E s' (S (S i)) nb = Some m) \/ (~ punctuation (hd 0%N s) /\ scan_url2 E s (S i) nb = Some m)).
    { destruct s as [|d s']; [right; split; [unfold punctuation; cbn; lia|exact H]|]. destruct (ascii_punct d) eqn:Q; [left; eauto|right]. split; [|exact H]. intros X. cbn in X. apply punctuation_iff in X. congruence. }
    destruct P as [(d & s' & -> & Q & H')|(Q & H')].
    + apply IH in H' as (x & e & r & -> & -> & B & C); [|cbn [length] in Hk; lia]. exists (92%N :: d :: x), e, r. split; [reflexivity|]. split; [cbn [length]; lia|]. split; [|exact C]. apply balanced_escape; [apply punctuation_iff; exact Q|exact B].
    + destruct (G _ H') as (x & e & r & -> & -> & B & C). exists (92%N :: x), e, r. split; [reflexivity|]. split; [cbn [length]; lia|]. split; [|exact C]. apply balanced_slash; [|exact B]. destruct x as [|y x]; [unfold punctuation; cbn; lia|exact Q].
  - destruct (N.eqb_spec c 40) as [->|N40].
    + destruct (Nat.leb_spec 32 nb) as [L|L]; [discriminate|]. apply IH in H as (x & e & r & -> & -> & B & C); [|lia]. exists (40%N :: x), e, r. split; [reflexivity|]. split; [cbn [length]; lia|]. split; [|exact C]. apply balanced_open; assumption.
    + destruct (N.eqb_spec c 41) as [->|N41].
      * destruct nb as [|nb].
        -- injection H as <-. exists [], 41%N, s. split; [reflexivity|]. split; [cbn; lia|]. split; [constructor|auto].
        -- apply IH in H as (x & e & r & -> & -> & B & C); [|lia]. exists (41%N :: x), e, r. split; [reflexivity|]. split; [cbn [length]; lia|]. split; [|exact C]. apply balanced_close; assumption.
      * destruct (cm_space E c) eqn:Sp.
        -- destruct (Nat.eqb_spec i 0) as [|Ni]; [discriminate|]. destruct (Nat.eqb_spec nb 0) as [->|]; [|discriminate]. injection H as <-. exists [], c, s. split; [reflexivity|]. split; [cbn; lia|]. split; [constructor|auto].
        -- destruct (G _ H) as (x & e & r & -> & -> & B & C). exists (c :: x), e, r. split; [reflexivity|]. split; [cbn [length]; lia|]. split; [|exact C]. apply balanced_char; [eapply pchar_of; eassumption|cbn; intuition congruence|exact B].
Qed.
Lemma cut_pointed : forall k s i m, length s <= k -> scan_url1 s i = Some m -> exists d r, s = d ++ 62%N :: r /\ r <> [] /\ m = S (i + length d) /\ pointed d.
Proof.
  induction k as [|k IH]; intros s i m Hk H; (destruct s as [|c s]; [discriminate|]); [cbn in Hk; lia|]. cbn [length] in Hk. cbn [scan_url1] in H. change cBS with 92%N in H. change cLF with 10%N in H.
  destruct (N.eqb_spec c 62) as [->|N62]; [destruct s as [|x s]; [discriminate|]; injection H as <-; exists [], (x :: s); split; [reflexivity|]; split; [discriminate|]; split; [cbn; lia|constructor]|].
  destruct (N.eqb_spec c 92) as [->|N92].
  - destruct s as [|x s]; [discriminate|]. apply IH in H as (d & r & -> & Hr & -> & P); [|cbn [length] in Hk; lia]. exists (92%N :: x :: d), r. split; [reflexivity|]. split; [exact Hr|]. split; [cbn [length]; lia|]. apply pointed_escape. exact P.
  - destruct (N.eqb_spec c 10) as [|N10]; [discriminate|]. destruct (N.eqb_spec c 60) as [|N60]; [discriminate|]. cbn [orb] in H. apply IH in H as (d & r & -> & Hr & -> & P); [|lia].
    exists (c :: d), r. split; [reflexivity|]. split; [exact Hr|]. split; [cbn [length]; lia|]. apply pointed_char; [cbn; intuition congruence|exact N10|exact P].
Qed.

(** ** Titles *)
Lemma star_without l pv s pv' s' : (forall x, In x l -> ~ In x (lit "}~-]")) -> star (M (RAlt re_escaped_char (RNotIn l))) pv s pv' s' -> exists u, s = u ++ s' /\ (forall x, In x l -> ~ In x u).
Proof.
  intros Q. induction 1 as [pv s|pv s pv1 s1 pv2 s2 H1 H2 (u & -> & Hu)]; [exists []; auto|]. destruct H1 as [H1|(c & -> & Hc & _)].
  - apply M_lit in H1. exists (lit "}~-]" ++ u). rewrite <- app_assoc. split; [exact H1|]. intros x Hx X. apply in_app_or in X as [X|X]; [exact (Q x Hx X)|exact (Hu x Hx X)].
  - exists (c :: u). split; [reflexivity|]. intros x Hx [->|X]; [|exact (Hu x Hx X)]. unfold cin in Hc. apply negb_true_iff in Hc. assert (Y : existsb (N.eqb x) l = true) by (apply existsb_exists; exists x; split; [exact Hx|apply N.eqb_refl]). congruence.
Qed.
Lemma title_cut s : matchlen re_scan_link_title s = 0 \/ exists t r, s = t ++ r /\ quoted t /\ matchlen re_scan_link_title s = length t.
Proof.
  unfold matchlen. destruct (rmatch re_scan_link_title None s (fun _ s' => Some s')) as [rest|] eqn:R; [|left; reflexivity]. right. destruct (match_split _ _ _ _ R) as (pv' & H).
  unfold re_scan_link_title in H. apply M_alts in H as (r & Hr & H).
  assert (G : exists q l e u, In (q, l, e) [(34, [34; 0], 34); (39, [39; 0], 39); (40, [40; 41; 0], 39)]%N /\ s = q :: u ++ e :: rest /\ forall x, In x l -> ~ In x u).
  { destruct Hr as [<-|[<-|[<-|[]]]]; apply M_seqs_cons in H as (pv1 & s1 & A & H); apply M_chr in A as (-> & _); apply M_seqs_cons in H as (pv2 & s2 & B & H);
      (apply star_without in B as (u & -> & Hu); [|intros x Hx X; cbn in Hx, X; repeat (destruct Hx as [<-|Hx]; [repeat (destruct X as [X|X]; [discriminate X|]); exact X|]); exact Hx]);
      apply M_seqs_cons in H as (pv3 & s3 & C & H); apply M_seqs_nil in H as (-> & ->); apply M_chr in C as (-> & _); eexists _, _, _, u; (split; [|split; [reflexivity|exact Hu]]); cbn [In]; auto. }
  destruct G as (q & l & e & u & Hq & -> & Hu). exists (q :: u ++ [e]), rest. split; [cbn; rewrite <- app_assoc; reflexivity|]. split.
  - exists q, u. destruct Hq as [X|[X|[X|[]]]]; injection X as <- <- <-; [left|left|right]; (split; [cbn; auto|]); [split; [reflexivity|apply Hu; cbn; auto]|split; [reflexivity|apply Hu; cbn; auto]|split; apply Hu; cbn; auto].
  - cbn [length]. rewrite !app_length. cbn [length]. lia.
Qed.
Lemma quoted_last t : quoted t -> exists u c, t = u ++ [c] /\ (c = 34%N \/ c = 39%N).
Proof. intros (q & w & [(Hq & -> & _)|(-> & _)]); [exists (q :: w), q|exists (40%N :: w), 39%N]; split; auto. cbn in Hq. intuition. Qed.

(** ** No link *)
Lemma no_blank c : c <> 11%N -> In c space6 -> In c [9; 10; 12; 13; 32]%N.
Proof. intros N X. unfold space6 in X. cbn in *. intuition congruence. Qed.
Lemma inp_trimmed E s : c_inp (trimmed E s) = rstrip (cm_space E) s /\ exists suf, s = rstrip (cm_space E) s ++ suf /\ noend (cm_space E) (rstrip (cm_space E) s).
Proof.
  destruct (rstrip_split (cm_space E) s) as (suf & E1 & _ & Ne). split; [|eauto]. unfold c_inp, trimmed. cbn [c_len c_data]. rewrite E1 at 2. rewrite firstn_app, Nat.sub_diag, firstn_all. cbn. apply app_nil_r.
Qed.
Lemma app_longer {A} (x y u v : list A) : x ++ y = u ++ v -> length x <= length u -> exists z, u = x ++ z.
Proof.
  revert u. induction x as [|a x IH]; intros u H L; [exists u; reflexivity|]. destruct u as [|b u]; [cbn in L; lia|]. cbn in H, L. injection H as <- H. destruct (IH u H ltac:(lia)) as (z & ->). exists z. reflexivity.
Qed.
Lemma no_link E s a w : zs_ascii E -> s = a ++ w -> calm E (Bare w) -> inline_link E (trimmed E s) (length a) = Ok None.
Proof.
  intros Hz Es (N11 & Nl & Nu & _). set (ch := trimmed E s). pose proof (scanned_trimmed E s : scanned E ch) as Hs.
  destruct (inp_trimmed E s) as (Hinp & suf & Esuf & Ne). fold ch in Hinp. set (inp := rstrip (cm_space E) s) in *. assert (Hlen : c_len ch = length inp) by reflexivity. assert (Hdat : c_data ch = s) by reflexivity.
  unfold inline_link. destruct (peek_is ch (length a) 40) eqn:P40; [|reflexivity].
  assert (W : exists w1, w = 40%N :: w1 /\ length a < c_len ch).
  { unfold peek_is in P40. destruct (peek ch (length a)) as [x|] eqn:P; [|discriminate]. apply N.eqb_eq in P40. subst x. apply peek_some in P as (L & P). rewrite Hdat, Es, nth_error_app2, Nat.sub_diag in P by lia. destruct w as [|y w]; [discriminate|]. injection P as ->. eauto. }
  destruct W as (w1 & -> & La). set (u0 := a ++ [40%N]). assert (L0 : length u0 = S (length a)) by (unfold u0; rewrite app_length; cbn; lia). rewrite <- L0.
  assert (E0 : s = u0 ++ w1) by (rewrite Es; unfold u0; rewrite <- app_assoc; reflexivity).
  assert (E0d : c_data ch = u0 ++ w1) by (rewrite Hdat; exact E0). rewrite (scan_here re_scan_spacechars ch u0 w1 E0d) by lia.
  destruct (spaces_cut w1) as (b1 & r1 & Ew1 & Fb1 & _ & ->). rewrite <- app_length. set (u1 := u0 ++ b1).
  assert (E1 : s = u1 ++ r1) by (rewrite E0, Ew1; unfold u1; rewrite app_assoc; reflexivity).
  assert (In6 : forall c, In c w1 -> In c space6 -> In c [9; 10; 12; 13; 32]%N) by (intros c Hc X; apply no_blank; [|exact X]; intros ->; apply N11; right; exact Hc).
  assert (F5 : forall b x y, w1 = x ++ b ++ y -> Forall (fun c => In c space6) b -> Forall (fun c => In c [9; 10; 12; 13; 32]%N) b).
  { intros b x y Eb Fb. rewrite Forall_forall in *. intros c Hc. apply In6; [|apply Fb; exact Hc]. rewrite Eb. apply in_or_app. right. apply in_or_app. left. exact Hc. }
  assert (Sp5 : forall c, In c [9; 10; 12; 13; 32]%N -> cm_space E c = true) by (intros c Hc; destruct (cm_space E c) eqn:Q; [reflexivity|]; exfalso; exact (pchar_of E c Hz Q Hc)).
  destruct (scan_url E ch (length u1)) as [(n & url)|] eqn:Su; [|reflexivity].
  assert (Pl : exists p r, inp = u1 ++ p ++ r /\ r <> [] /\ n = length p /\ (p = [] -> hd 0%N r = 41%N) /\
     ((exists d, p = 60%N :: d ++ [62%N] /\ pointed d) \/ (hd 0%N p <> 60%N /\ balanced pchar 0 p))).
  { unfold scan_url in Su. rewrite Hinp in Su. destruct (skipn (length u1) inp) as [|c s0] eqn:Sk; [discriminate|].
    assert (L1 : length u1 <= length inp) by (destruct (Nat.le_gt_cases (length u1) (length inp)) as [L|L]; [exact L|]; rewrite skipn_all2 in Sk by lia; discriminate).
    destruct (app_longer u1 r1 inp suf ltac:(rewrite <- E1; exact Esuf) L1) as (z & Ez). rewrite Ez, skipn_app_len in Sk. subst z.
    destruct (N.eqb_spec c 60) as [->|N60].
    - destruct (scan_url1 s0 1) as [m|] eqn:S1; [|discriminate]. injection Su as <- _. destruct (cut_pointed _ _ _ _ (le_n _) S1) as (d & r & -> & Hr & -> & Pd).
      exists (60%N :: d ++ [62%N]), r. split; [rewrite Ez; cbn [app]; rewrite <- app_assoc; reflexivity|]. split; [exact Hr|]. split; [cbn [length]; rewrite app_length; cbn; lia|]. split; [discriminate|]. left. exists d. auto.
    - destruct (scan_url2 E (c :: s0) 0 0) as [m|] eqn:S2; [|discriminate]. injection Su as <- _. destruct (cut_address E Hz _ _ _ _ _ (le_n _) S2) as (d & e & r & Ed & -> & Bd & Ce).
      exists d, (e :: r). split; [rewrite Ez, Ed; reflexivity|]. split; [discriminate|]. split; [lia|]. split.
      + intros ->. destruct Ce as [->|(_ & X)]; [reflexivity|cbn in X; lia].
      + right. split; [|exact Bd]. destruct d as [|x d]; [discriminate|]. cbn in Ed. injection Ed as -> _. exact N60. }
  destruct Pl as (p & r & Ei & Hr & -> & Hp0 & Hpl). rewrite <- app_length. set (u2 := u1 ++ p). assert (Ei2 : inp = u2 ++ r) by (rewrite Ei; unfold u2; rewrite app_assoc; reflexivity).
  assert (E2 : s = u2 ++ r ++ suf) by (rewrite Esuf, Ei2, <- app_assoc; reflexivity).
  assert (Er1 : r1 = p ++ r ++ suf) by (apply (app_inv_head u1); rewrite <- E1, E2; unfold u2; rewrite <- app_assoc; reflexivity).
  assert (L2 : length u2 < c_len ch) by (rewrite Hlen, Ei2, app_length; destruct r; [contradiction|cbn; lia]).
  rewrite (scan_here re_scan_spacechars ch u2 (r ++ suf)) by (try (rewrite Hdat; exact E2); lia).
  destruct (spaces_cut (r ++ suf)) as (b2 & r2 & Er2 & Fb2 & Nb2 & ->). rewrite <- app_length. set (u3 := u2 ++ b2).
  assert (E3 : s = u3 ++ r2) by (rewrite E2, Er2; unfold u3; rewrite app_assoc; reflexivity).
  assert (Ew2 : w1 = b1 ++ p ++ b2 ++ r2) by (rewrite Ew1, Er1, Er2; reflexivity).
  assert (Fb1' : Forall (fun c => In c [9; 10; 12; 13; 32]%N) b1) by (apply (F5 b1 [] (p ++ b2 ++ r2)); [exact Ew2|exact Fb1]).
  assert (Fb2' : Forall (fun c => In c [9; 10; 12; 13; 32]%N) b2) by (apply (F5 b2 (b1 ++ p) r2); [rewrite <- app_assoc; exact Ew2|exact Fb2]).
  assert (L3 : length u3 < c_len ch).
  { destruct (Nat.lt_ge_cases (length u3) (c_len ch)) as [L|L]; [exact L|]. exfalso. rewrite Hlen, Ei2 in L. unfold u3 in L. rewrite !app_length in L.
    destruct (app_longer r suf b2 r2 Er2 ltac:(lia)) as (z & Ez). destruct (exists_last Hr) as (y & c & Ey). rewrite Ei2, Ey in Ne. rewrite app_assoc in Ne. apply noend_app in Ne.
    rewrite Ez, Ey in Fb2'. rewrite Forall_app in Fb2'. destruct Fb2' as (Fb2' & _). rewrite Forall_app in Fb2'. destruct Fb2' as (_ & Fb2'). inversion Fb2' as [|? ? Hc _]; subst. rewrite (Sp5 c Hc) in Ne. discriminate. }
  assert (Hplace : forall t : str, (b2 = [] -> t = []) -> (exists d, p = 60%N :: d ++ [62%N] /\ pointed d) \/ (hd 0%N p <> 60%N /\ balanced pchar 0 p /\ (p = [] -> t = []))).
  { intros t Ht. destruct Hpl as [Hpl|(Hp1 & Hp2)]; [left; exact Hpl|right]. split; [exact Hp1|]. split; [exact Hp2|]. intros Ep. apply Ht. specialize (Hp0 Ep). destruct b2 as [|c b2]; [reflexivity|]. exfalso.
    destruct r as [|x r]; [contradiction|]. cbn in Hp0, Er2. injection Er2 as -> _. subst c. inversion Fb2' as [|? ? Hc _]; subst. cbn in Hc. intuition discriminate. }
  assert (R : forall t b3 rest : str, r2 = t ++ b3 ++ rest -> Forall (fun c => In c space6) b3 -> (t = [] \/ b2 <> [] /\ quoted t) -> resembles (40%N :: w1) t rest).
  { intros t b3 rest Et Fb3 Ht. exists b1, p, b2, b3. split; [rewrite Ew2, Et; reflexivity|]. split; [exact Fb1'|]. split; [exact Fb2'|]. split.
    - apply (F5 b3 (b1 ++ p ++ b2 ++ t) rest); [|exact Fb3]. rewrite Ew2, Et, <- !app_assoc. reflexivity.
    - split; [|exact Ht]. apply Hplace. intros Eb. destruct Ht as [Ht|(Ht & _)]; [exact Ht|contradiction]. }
  set (endtitle := if length u3 =? length u2 then length u3 else length u3 + scan_at re_scan_link_title ch (length u3)).
  assert (T : endtitle = length u3 \/ exists t r3, r2 = t ++ r3 /\ quoted t /\ b2 <> [] /\ endtitle = length (u3 ++ t)).
  { unfold endtitle. destruct (Nat.eqb_spec (length u3) (length u2)) as [|Nb]; [left; reflexivity|]. rewrite (scan_here re_scan_link_title ch u3 r2) by (try (rewrite Hdat; exact E3); lia).
    destruct (title_cut r2) as [->|(t & r3 & Et & Qt & ->)]; [left; lia|right]. exists t, r3. split; [exact Et|]. split; [exact Qt|]. split; [|rewrite app_length; reflexivity]. intros ->. apply Nb. unfold u3. rewrite app_nil_r. reflexivity. }
  clearbody endtitle. destruct T as [->|(t & r3 & Et & Qt & Nb & ->)].
  - rewrite (scan_here re_scan_spacechars ch u3 r2) by (try (rewrite Hdat; exact E3); lia). destruct (spaces_cut r2) as (b3 & r4 & Er4 & Fb3 & _ & ->).
    destruct r2 as [|c r2]; [exfalso; assert (Lc : c_len ch <= length s) by exact (proj1 Hs); assert (Ls : length s = length u3) by (rewrite E3 at 1; rewrite app_nil_r; reflexivity); lia|].
    assert (b3 = []) as ->. { destruct b3 as [|x b3]; [reflexivity|]. exfalso. cbn in Er4. injection Er4 as <- _. inversion Fb3 as [|? ? Hc _]; subst. exact (Nb2 c r2 eq_refl Hc). }
    cbn [length]. rewrite Nat.add_0_r. unfold peek_at. rewrite Hdat. rewrite E3 at 1. rewrite nth_error_app2, Nat.sub_diag by lia. cbn [nth_error bind]. destruct (N.eqb_spec c 41) as [->|]; [|reflexivity].
    exfalso. apply (Nl [] r2). apply (R [] [] (41%N :: r2)); [reflexivity|constructor|left; reflexivity].
  - set (u4 := u3 ++ t). assert (E4 : s = u4 ++ r3) by (rewrite E3, Et; unfold u4; rewrite app_assoc; reflexivity).
    assert (L4 : length u4 <= c_len ch).
    { destruct (quoted_last t Qt) as (x & c & Ex & Hc). assert (X : c_data ch = (u3 ++ x) ++ c :: r3) by (rewrite Hdat, E4; unfold u4; rewrite Ex, <- !app_assoc; reflexivity).
      apply (in_scan E ch _ _ _ Hs) in X; [|destruct Hc as [->| ->]; apply ascii_punct_not_space; [exact Hz|reflexivity|exact Hz|reflexivity]]. assert (Y : length u4 = S (length (u3 ++ x))) by (unfold u4; rewrite Ex, app_assoc, app_length; cbn; lia). lia. }
    rewrite (scan_here re_scan_spacechars ch u4 r3) by (try (rewrite Hdat; exact E4); lia). destruct (spaces_cut r3) as (b3 & r4 & Er4 & Fb3 & _ & ->). rewrite <- app_length.
    assert (E5 : s = (u4 ++ b3) ++ r4) by (rewrite E4, Er4, app_assoc; reflexivity).
    assert (Rt : resembles (40%N :: w1) t r4) by (apply (R t b3 r4); [rewrite Et, Er4; reflexivity|exact Fb3|right; auto]).
    unfold peek_at. rewrite Hdat. rewrite E5 at 1. rewrite nth_error_app2, Nat.sub_diag by lia. destruct r4 as [|c r4].
    + exfalso. apply (Nu t); [|exact Rt]. destruct (quoted_last t Qt) as (x & c & -> & _). destruct x; discriminate.
    + cbn [nth_error bind]. destruct (N.eqb_spec c 41) as [->|]; [|reflexivity]. exfalso. exact (Nl t r4 Rt).
Qed.
