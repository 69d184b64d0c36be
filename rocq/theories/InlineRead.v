(** The inline scanner on a text cut into pieces, and what is left of it. *)
From Coq Require Import String List NArith ZArith Bool Arith Lia.
From Verif Require Import Str StrFacts Spec EnvSpec Regex HtmlRe Fence Atx Entity Inlines HelperSpec EntityProof EmphSpec DelimSpec AtxProof InlineProof InlineRun InlineOpaque InlineEmph InlinePair.
Import ListNotations.
Local Open Scope list_scope.

(** ** Flanking *)
Lemma space_reflect E c : reflect (space_char E c) (cm_space E c).
Proof. apply iff_reflect. symmetry. apply space_iff. Qed.
Lemma punct_reflect E c : reflect (punct_char E c) (uc_punct E c).
Proof. apply iff_reflect. symmetry. apply punct_iff. Qed.
Lemma left_iff E x y : left_flank E x y = true <-> left_flanking E x y.
Proof.
  unfold left_flank, left_flanking. destruct (space_reflect E x), (space_reflect E y), (punct_reflect E x), (punct_reflect E y); cbn; split; try tauto; try discriminate.
Qed.
Lemma right_iff E x y : right_flank E x y = true <-> right_flanking E x y.
Proof.
  unfold right_flank, right_flanking. destruct (space_reflect E x), (space_reflect E y), (punct_reflect E x), (punct_reflect E y); cbn; split; try tauto; try discriminate.
Qed.
Lemma opens_iff E c x y : opens E c x y = true <-> may_open E c x y.
Proof.
  unfold opens, may_open. rewrite <- left_iff. change cUND with 95%N. destruct (N.eqb_spec c 95) as [->|H]; [|tauto].
  rewrite andb_true_iff, orb_true_iff, negb_true_iff, punct_iff, <- right_iff. destruct (right_flank E x y); intuition congruence.
Qed.
Lemma closes_iff E c x y : closes E c x y = true <-> may_close E c x y.
Proof.
  unfold closes, may_close. rewrite <- right_iff. change cUND with 95%N. destruct (N.eqb_spec c 95) as [->|H]; [|tauto].
  rewrite andb_true_iff, orb_true_iff, negb_true_iff, punct_iff, <- left_iff. destruct (left_flank E x y); intuition congruence.
Qed.
Lemma unmistaken_flags E c a y : unmistaken E c a y <-> same_flags E c a y.
Proof.
  unfold unmistaken, same_flags. rewrite <- !opens_iff, <- !closes_iff. destruct (opens E c (looked_at a) y), (opens E c (last a 10%N) y), (closes E c (looked_at a) y), (closes E c (last a 10%N) y); intuition congruence.
Qed.
Lemma not_tail_unmistaken E c a y : ~ tail_like (last a 10%N) -> unmistaken E c a y.
Proof. intros H. apply unmistaken_flags. apply not_tail_flags. exact H. Qed.
Lemma bool_iff_eq (a b : bool) P : (a = true <-> P) -> (b = true <-> P) -> a = b.
Proof. destruct a, b; intuition congruence. Qed.

(** ** Scanning *)
Lemma ascii_punct_not_space E c : zs_ascii E -> ascii_punct c = true -> cm_space E c = false.
Proof.
  intros Hz H. apply space_not. intros [K|K].
  - apply ascii_punct_iff in H. apply Hz in K; [subst; lia|lia].
  - apply ascii_punct_iff in H. cbn in K. intuition (subst; lia).
Qed.
Lemma piece_head E a p ps rs : zs_ascii E -> reads E a (p :: ps) rs -> not_words (p :: ps) -> exists c b, spell (p :: ps) = c :: b /\ special_char c = true /\ cm_space E c = false.
Proof.
  intros Hz H Hn. inversion H as [| |a0 c ps0 rs0 Hc Hr|a0 n w ps0 rs0 H1 H2 H3 H4 H5 H6 Hr|a0 c n o cl ps0 rs0 Hc H1 H2 H3 H4 H5 Hr]; subst.
  - destruct Hn.
  - exists 92%N, (c :: spell ps). split; [reflexivity|]. split; [reflexivity|]. apply ascii_punct_not_space; [exact Hz|reflexivity].
  - destruct n as [|n]; [lia|]. eexists _, _. split; [reflexivity|]. split; [reflexivity|]. apply ascii_punct_not_space; [exact Hz|reflexivity].
  - destruct n as [|n]; [lia|]. eexists _, _. split; [reflexivity|]. split; [apply delim_special; exact Hc|apply delim_not_space; assumption].
Qed.
Lemma spell_cons p ps : spell (p :: ps) = spell1 p ++ spell ps.
Proof. reflexivity. Qed.
Lemma handle_bs ch st c : peek ch (S (s_pos st)) = Some c -> ascii_punct c = true -> handle_backslash ch st = set_pos st (S (S (s_pos st))).
Proof. intros H Hc. unfold handle_backslash. rewrite H, Hc. reflexivity. Qed.
Lemma handle_code E a n w post st : zs_ascii E -> 1 <= n <= 1000 -> hd 96%N w <> 96%N -> last w 0%N <> 96%N -> last w 0%N <> 13%N -> no_ticks_of n w -> hd 0%N post <> 96%N ->
  let ch := trimmed E (a ++ repeat 96%N n ++ w ++ repeat 96%N n ++ post) in
  s_pos st = length a -> s_scanned st = false ->
  exists bt, handle_backticks ch st = Ok (set_ticks (set_pos st (length a + n + length w + n)) bt false).
Proof.
  intros Hz Hn Hw1 Hw2 Hw4 Hw3 Hp ch Ep Hs. destruct (code_inp E a w post n Hz Hn Hw1 Hw2 Hp) as (post' & Ei & Hp'). fold ch in Ei.
  assert (Lt : length (repeat 96%N n) = n) by apply repeat_length.
  assert (Sp : span_len (N.eqb cTICK) (skipn (s_pos st) (c_inp ch)) = n).
  { rewrite Ep, Ei, skipn_app_len. rewrite span_unique; [exact Lt|apply Forall_repeat; reflexivity|]. destruct w as [|x w']; [cbn in Hw1; congruence|]. cbn in Hw1 |- *. apply N.eqb_neq. intros X. apply Hw1. symmetry. exact X. }
  unfold handle_backticks. rewrite Sp, Hs. cbn [andb]. destruct (Nat.ltb_spec MAXBACKTICKS n) as [L|_]; [unfold MAXBACKTICKS in L; lia|].
  assert (Sk : skipn (s_pos st + n) (c_inp ch) = w ++ repeat 96%N n ++ post').
  { rewrite Ep, Ei, app_assoc. rewrite <- Lt at 1. rewrite <- app_length, skipn_app_len. reflexivity. }
  rewrite Sk. destruct (close_span n post' ltac:(lia) Hp' w (s_pos st + n) 0 (s_backticks st)) as (bt & Ct); [exact Hw3|reflexivity|exact Hw2|]. rewrite Ct. exists bt.
  replace (slice (c_data ch) (s_pos st + n) (s_pos st + n + length w + n - n)) with w.
  - destruct (N.eqb_spec (last w 0%N) cCR); [contradiction|]. rewrite Ep. reflexivity.
  - unfold slice. replace (s_pos st + n + length w + n - n - (s_pos st + n)) with (length w) by lia. cbn [ch trimmed c_data]. rewrite app_assoc. replace (s_pos st + n) with (length (a ++ repeat 96%N n)) by (rewrite app_length, Lt; lia).
    rewrite skipn_app_len, firstn_app, Nat.sub_diag, firstn_all. cbn. rewrite app_nil_r. reflexivity.
Qed.
Definition scan_result (ch : chunk) (a : str) (st st' : subject) (ds : list delim) (rs : list run) : Prop :=
  c_len ch <= s_pos st' /\ s_delims st' = rev ds ++ s_delims st /\ s_ignore st' = s_ignore st /\
  sim mute ds rs /\ Forall (fun d => length a <= d_start d) ds /\ asc ds.
Lemma result_later ch a b st st1 st2 ds rs : scan_result ch (a ++ b) st1 st2 ds rs -> s_delims st1 = s_delims st -> s_ignore st1 = s_ignore st -> scan_result ch a st st2 ds rs.
Proof.
  intros (A & B & C & D & F & G) H1 H2. split; [exact A|]. split; [rewrite B, H1; reflexivity|]. split; [rewrite C; exact H2|]. split; [exact D|]. split; [|exact G].
  eapply Forall_impl; [|exact F]. intros d Hd. cbn beta in Hd. rewrite app_length in Hd. lia.
Qed.
Lemma reads_scan E s : zs_ascii E -> let ch := trimmed E s in forall a ps rs, reads E a ps rs -> s = a ++ spell ps ->
  forall st, s_pos st = length a -> length a <= c_len ch -> s_scanned st = false ->
  exists ds st', runs E ch st st' /\ scan_result ch a st st' ds rs.
Proof.
  intros Hz ch a ps rs H. pose proof (scanned_trimmed E s) as Hsc. fold ch in Hsc.
  induction H as [a|a w ps rs Hw1 Hw2 Hnw Hr IH|a c ps rs Hc Hr IH|a n w ps rs Hn Hw1 Hw2 Hw4 Hw3 Hp Hr IH|a c n o cl ps rs Hc Hn Hhd Ht Ho Hcl Hr IH]; intros Es st Hp0 Hle Hs.
  - exists [], st. split; [constructor|]. split; [|repeat split; constructor]. cbn [spell flat_map] in Es. rewrite app_nil_r in Es. rewrite Hp0, <- Es. apply trimmed_len.
  - rewrite spell_cons in Es. cbn [spell1] in Es. assert (Hd : c_data ch = a ++ w ++ spell ps) by exact Es. destruct ps as [|p ps].
    + inversion Hr; subst rs. exists [], (set_pos st (Nat.min (length a + length w) (c_len ch))). split.
      * apply (runs_text E ch st a w [] Hsc Hd Hp0 Hw2); [discriminate|exact Hle|congruence].
      * split; [|repeat split; constructor]. cbn [s_pos set_pos]. pose proof (proj1 Hsc) as L. rewrite Hd in L. cbn [spell flat_map] in L. rewrite app_nil_r, app_length in L. apply Nat.min_glb; [exact L|apply Nat.le_refl].
    + destruct (piece_head E _ p ps rs Hz Hr Hnw) as (x & b & Eb & Sx & Spx).
      assert (Lt : length a + length w < c_len ch).
      { rewrite <- app_length. apply (in_scan E ch (a ++ w) x b Hsc); [rewrite <- app_assoc, <- Eb; exact Hd|exact Spx]. }
      destruct (IH ltac:(rewrite <- app_assoc; exact Es) (set_pos st (length a + length w))) as (ds & st' & R & Q); [cbn; rewrite app_length; reflexivity|rewrite app_length; lia|exact Hs|].
      exists ds, st'. split; [|eapply result_later; [exact Q|reflexivity..]]. eapply runs_trans; [|exact R].
      replace (length a + length w) with (Nat.min (length a + length w) (c_len ch)) by lia. apply (runs_text E ch st a w (spell (p :: ps)) Hsc Hd Hp0 Hw2).
      * intros y b' X. rewrite Eb in X. injection X as <- _. exact Sx.
      * exact Hle.
      * intros _. exact Lt.
  - rewrite spell_cons in Es. assert (Pc : ascii_punct c = true) by (apply ascii_punct_iff; exact Hc).
    assert (D0 : nth_error (c_data ch) (length a) = Some 92%N) by (change (c_data ch) with s; rewrite Es, nth_error_app2, Nat.sub_diag by lia; reflexivity).
    assert (D1 : nth_error (c_data ch) (S (length a)) = Some c).
    { change (c_data ch) with s. rewrite Es, nth_error_app2 by lia. replace (S (length a) - length a) with 1 by lia. reflexivity. }
    assert (P1 : peek ch (S (length a)) = Some c) by (apply (peek_data E); [exact Hsc|exact D1|apply ascii_punct_not_space; assumption]).
    assert (P0 : peek ch (length a) = Some 92%N) by (apply (peek_data E); [exact Hsc|exact D0|apply ascii_punct_not_space; [exact Hz|reflexivity]]).
    destruct (peek_some _ _ _ P1) as (L1 & _).
    destruct (IH ltac:(rewrite <- app_assoc; exact Es) (set_pos st (S (S (length a))))) as (ds & st' & R & Q); [cbn; rewrite app_length; cbn; lia|rewrite app_length; cbn [spell1 length]; lia|exact Hs|].
    exists ds, st'. split; [|eapply result_later; [exact Q|reflexivity..]]. eapply runs_step; [rewrite Hp0; exact P0| |exact R].
    change (parse_inline E ch st 92%N) with (Ok (handle_backslash ch st)). rewrite (handle_bs ch st c) by (rewrite ?Hp0; assumption). rewrite Hp0. reflexivity.
  - rewrite spell_cons in Es. cbn [spell1] in Es. rewrite <- !app_assoc in Es. assert (Hw2' : last w 0%N <> 96%N).
    { destruct w as [|x w]; [cbn in Hw1; congruence|]. destruct (exists_last (l := x :: w) ltac:(discriminate)) as (w' & y & Ew). rewrite Ew in *. rewrite last_last in *. exact Hw2. }
    destruct (handle_code E a n w (spell ps) st Hz Hn Hw1 Hw2' Hw4 Hw3 Hp) as (bt & Hb); [exact Hp0|exact Hs|]. pose proof (code_len E a w (spell ps) n Hz Hn Hw1 Hw2' Hp) as CL. rewrite <- Es in Hb, CL. fold ch in Hb, CL.
    assert (La : length (a ++ spell1 (Code n w)) = length a + n + length w + n) by (rewrite app_length; cbn [spell1]; rewrite !app_length, !repeat_length; lia).
    destruct (IH ltac:(cbn [spell1]; rewrite <- !app_assoc; exact Es) (set_ticks (set_pos st (length a + n + length w + n)) bt false)) as (ds & st' & R & Q); [cbn [s_pos set_ticks set_pos]; rewrite La; reflexivity|rewrite La; lia|reflexivity|].
    exists ds, st'. split; [|eapply result_later; [exact Q|reflexivity..]]. eapply (runs_step E ch st 96%N); [|exact Hb|exact R].
    rewrite Hp0. apply (peek_data E); [exact Hsc| |apply ascii_punct_not_space; [exact Hz|reflexivity]]. change (c_data ch) with s. rewrite Es, nth_error_app2, Nat.sub_diag by lia. destruct n; [lia|reflexivity].
  - rewrite spell_cons in Es. cbn [spell1] in Es. assert (Hd : c_data ch = a ++ repeat c n ++ spell ps) by exact Es.
    assert (La : length (a ++ repeat c n) = length a + n) by (rewrite app_length, repeat_length; reflexivity).
    apply unmistaken_flags in Ht.
    destruct (span_run E ch a c n (spell ps) Hsc Hz Hc Hd Hhd) as (_ & Lc). specialize (Lc Hn).
    pose proof (bool_iff_eq _ _ _ (opens_iff E c (last a 10%N) (hd 10%N (spell ps))) Ho) as Eo. pose proof (bool_iff_eq _ _ _ (closes_iff E c (last a 10%N) (hd 10%N (spell ps))) Hcl) as Ec.
    destruct (o || cl) eqn:Oc.
    + pose proof (delim_step E ch st a c n (spell ps) Hsc Hz Hc Hd Hn Hhd Ht Hp0 o cl Eo Ec Oc) as R1. set (d := mkDelim (length a) (length a + n) c n o cl n 0) in *.
      destruct (IH ltac:(rewrite <- app_assoc; exact Es) (set_delims (set_pos st (length a + n)) (d :: s_delims st))) as (ds & st' & R & (Q1 & Q2 & Q3 & Q4 & Q5 & Q6)); [cbn; rewrite La; reflexivity|rewrite La; lia|exact Hs|].
      exists (d :: ds), st'. split; [eapply runs_trans; [exact R1|exact R]|]. split; [exact Q1|]. split; [rewrite Q2; cbn [rev s_delims set_delims]; rewrite <- app_assoc; reflexivity|]. split; [exact Q3|].
      split; [apply sim_live; [|exact Q4]|].
      * unfold same, d, r_left. cbn [d_start d_end d_char d_len d_open d_close d_num d_off r_start r_char r_size r_opens r_closes r_closed r_opened]. repeat split; lia.
      * split; [constructor; [cbn; lia|]|split; [|exact Q6]]; (eapply Forall_impl; [|exact Q5]; intros y Hy; cbn beta in Hy; rewrite La in Hy; cbn; lia).
    + assert (R1 : runs E ch st (set_pos st (length a + n))).
      { eapply runs_step; [|apply parse_delim; exact Hc|].
        - rewrite Hp0. apply (peek_data E); [exact Hsc| |apply delim_not_space; assumption]. rewrite Hd, nth_error_app2, Nat.sub_diag by lia. destruct n; [lia|reflexivity].
        - unfold handle_delim. rewrite Hp0, (scan_run E ch a c n (spell ps) Hsc Hz Hc Hd Hn Hhd Ht), Eo, Ec, Oc. constructor. }
      destruct (IH ltac:(rewrite <- app_assoc; exact Es) (set_pos st (length a + n))) as (ds & st' & R & Q); [cbn; rewrite La; reflexivity|rewrite La; lia|exact Hs|].
      exists ds, st'. split; [eapply runs_trans; [exact R1|exact R]|]. destruct (result_later ch a (repeat c n) st (set_pos st (length a + n)) st' ds rs Q eq_refl eq_refl) as (Q1 & Q2 & Q3 & Q4 & Q5 & Q6).
      split; [exact Q1|]. split; [exact Q2|]. split; [exact Q3|]. split; [|split; [exact Q5|exact Q6]]. apply sim_dead; [|exact Q4]. left. apply orb_false_iff in Oc. exact Oc.
Qed.

(** ** What is left of the text *)
Lemma gone_within i r : sound r -> gone i r = true -> r_start r <= i < r_start r + r_size r.
Proof.
  unfold sound, gone. intros S H. apply andb_true_iff in H as (H1 & H2). apply Nat.leb_le in H1. split; [exact H1|]. apply orb_true_iff in H2 as [H2|H2].
  - apply Nat.ltb_lt in H2. lia.
  - apply andb_true_iff in H2 as (_ & H2). apply Nat.ltb_lt in H2. lia.
Qed.
Lemma gone_none i out : Forall sound out -> Forall (fun r => i < r_start r) out -> existsb (gone i) out = false.
Proof.
  intros S L. induction out as [|r out IH]; [reflexivity|]. inversion S; inversion L; subst. cbn [existsb]. rewrite IH by assumption. rewrite orb_false_r.
  destruct (gone i r) eqn:G; [|reflexivity]. apply gone_within in G; [lia|assumption].
Qed.
Lemma filter_run c ign i0 g : forall n j, (forall k, j <= k < j + n -> covered ign (i0 + k) = g k) -> filter_from (i0 + j) (repeat c n) ign = repeat c (length (filter (fun k => negb (g k)) (seq j n))).
Proof.
  induction n as [|n IH]; intros j H; [reflexivity|]. cbn [repeat filter_from seq filter]. specialize (IH (S j)). replace (i0 + S j) with (S (i0 + j)) in IH by lia.
  rewrite IH by (intros k Hk; apply H; lia). pose proof (H j ltac:(lia)) as Hj. unfold covered in Hj. rewrite Hj. destruct (g j); reflexivity.
Qed.
Lemma reads_starts E a ps rs : reads E a ps rs -> Forall (fun r => length a <= r_start r) rs.
Proof.
  induction 1 as [|a w ps rs H1 H2 H3 H IH|a c ps rs H1 H IH|a n w ps rs H1 H2 H3 H4 H5 H6 H IH|a c n o cl ps rs H1 H2 H3 H4 H5 H6 H IH]; [constructor|..|constructor; [cbn; lia|]];
    (eapply Forall_impl; [|exact IH]; intros r Hr; cbn beta in Hr; rewrite app_length in Hr; lia).
Qed.
Lemma shape_starts (P : nat -> Prop) out rs : map shape out = map shape rs -> Forall (fun r => P (r_start r)) rs -> Forall (fun r => P (r_start r)) out.
Proof.
  revert rs. induction out as [|o out IH]; intros [|r rs] H F; cbn in H; try discriminate; [constructor|]. injection H as H1 H2 H3 H4. inversion F; subst. constructor; [rewrite H1; assumption|]. apply (IH rs); assumption.
Qed.
Lemma filter_reads E a ps rs : reads E a ps rs -> forall out ign, map shape out = map shape rs -> Forall sound out ->
  (forall i, length a <= i -> covered ign i = existsb (gone i) out) -> filter_from (length a) (spell ps) ign = respell leaves ps out.
Proof.
  assert (Text : forall a p ps rs out ign, Forall (fun r => length (a ++ spell1 p) <= r_start r) rs -> map shape out = map shape rs -> Forall sound out ->
    (forall i, length a <= i -> covered ign i = existsb (gone i) out) -> filter_from (length (a ++ spell1 p)) (spell ps) ign = respell leaves ps out ->
    filter_from (length a) (spell (p :: ps)) ign = spell1 p ++ respell leaves ps out).
  { clear. intros a p ps rs out ign Hst Hsh Hso Hcov Hrec. rewrite spell_cons, filter_from_app, <- app_length, Hrec. f_equal. apply filter_none. intros j Hj. rewrite Hcov by lia. apply gone_none; [exact Hso|].
    apply (shape_starts (fun x => j < x) out rs Hsh). eapply Forall_impl; [|exact Hst]. intros r Hr. cbn beta in Hr. rewrite app_length in Hr. lia. }
  induction 1 as [a|a w ps rs H1 H2 H3 H IH|a c ps rs H1 H IH|a n w ps rs H1 H2 H3 H4 H5 H6 H IH|a c n o cl ps rs H1 H2 H3 H4 H5 H6 H IH]; intros out ign Hsh Hso Hcov.
  - reflexivity.
  - apply (Text a (Words w) ps rs); [apply (reads_starts E _ ps); exact H|assumption..|]. apply IH; [assumption..|]. intros i Hi. apply Hcov. rewrite app_length in Hi. lia.
  - apply (Text a (Escape c) ps rs); [apply (reads_starts E _ ps); exact H|assumption..|]. apply IH; [assumption..|]. intros i Hi. apply Hcov. rewrite app_length in Hi. lia.
  - apply (Text a (Code n w) ps rs); [apply (reads_starts E _ ps); exact H|assumption..|]. apply IH; [assumption..|]. intros i Hi. apply Hcov. rewrite app_length in Hi. lia.
  - destruct out as [|r out]; [discriminate|]. cbn [map shape r_start r_char r_size] in Hsh. assert (Es : r_start r = length a /\ r_size r = n /\ map shape out = map shape rs) by (unfold shape in Hsh; cbn in Hsh; injection Hsh as E1 E2 E3 E4; auto).
    destruct Es as (E1 & E3 & E4). inversion Hso as [|? ? Sr So]; subst. pose proof (reads_starts E _ ps rs H) as St.
    assert (Lr : length (a ++ repeat c (r_size r)) = length a + r_size r) by (rewrite app_length, repeat_length; reflexivity).
    rewrite spell_cons, filter_from_app. cbn [spell1 respell]. rewrite repeat_length. f_equal.
    + rewrite <- (Nat.add_0_r (length a)). unfold leaves. apply (filter_run c ign (length a) (fun k => (k <? r_closed r) || ((r_size r - r_closed r - r_opened r <=? k) && (k <? r_size r - r_closed r)))).
      intros k Hk. rewrite Hcov by lia. cbn [existsb]. rewrite (gone_none _ out So).
      * rewrite orb_false_r. unfold gone. rewrite E1. destruct (Nat.leb_spec (length a) (length a + k)); [|lia].
        destruct (Nat.ltb_spec (length a + k) (length a + r_closed r)), (Nat.ltb_spec k (r_closed r)); try lia;
        destruct (Nat.leb_spec (length a + (r_size r - r_closed r - r_opened r)) (length a + k)), (Nat.leb_spec (r_size r - r_closed r - r_opened r) k); try lia;
        destruct (Nat.ltb_spec (length a + k) (length a + (r_size r - r_closed r))), (Nat.ltb_spec k (r_size r - r_closed r)); try lia; reflexivity.
      * apply (shape_starts (fun x => length a + k < x) out rs E4). eapply Forall_impl; [|exact St]. intros q Hq. cbn beta in Hq. rewrite Lr in Hq. lia.
    + rewrite <- Lr. apply IH; [assumption..|]. intros i Hi. rewrite Lr in Hi. rewrite Hcov by lia. cbn [existsb]. destruct (gone i r) eqn:G; [|reflexivity]. apply gone_within in G; [lia|assumption].
Qed.

(** ** The whole *)
Lemma reads_runs E a ps rs : reads E a ps rs -> Forall (fun r => delimiter (r_char r) /\ r_closed r = 0 /\ r_opened r = 0) rs.
Proof. induction 1; try assumption; constructor; auto. Qed.
Lemma sim_forall dead (P : run -> Prop) (Q : delim -> Prop) ds rs : (forall d r, same d r -> P r -> Q d) -> sim dead ds rs -> Forall P rs -> Forall Q ds.
Proof. intros HPQ. induction 1 as [|d r ds rs Hs H IH|r ds rs Hd H IH]; intros F; inversion F; subst; [constructor|constructor; [eapply HPQ; eassumption|auto]|auto]. Qed.
Lemma runs_inv E ch a b : runs E ch a b -> inv anywhere ch a -> inv anywhere ch b.
Proof.
  induction 1 as [|st c st1 st2 P S R IH]; intros Hi; [exact Hi|]. pose proof (parse_inline_ok anywhere E ch st c Hi P (fun _ _ _ => I)) as K. rewrite S in K. apply IH. apply K.
Qed.
(** The underscore runs among [rs]. *)
Definition kind_of (rs : list run) (n : nat) (o c : bool) : Prop := exists r, In r rs /\ r_char r = 95%N /\ r_size r = n /\ r_opens r = o /\ r_closes r = c.
Lemma kind_agreeing rs : underscores_agree rs -> agreeing (kind_of rs).
Proof.
  intros Hw n o c n' o' c' (r & A1 & A2 & <- & <- & <-) (r' & B1 & B2 & <- & <- & <-) Ho Hc Hb Hm. apply (Hw r r' A1 B1 A2 B2 Ho Hc); [|exact Hm]. apply orb_true_iff. exact Hb.
Qed.
Lemma agree_incl rs rs' : underscores_agree rs -> incl rs' rs -> underscores_agree rs'.
Proof. intros H I o c Ho Hc. apply H; apply I; assumption. Qed.
Lemma agree_star r rs : r_char r <> 95%N -> underscores_agree rs -> underscores_agree (r :: rs).
Proof. intros Hr H o c [<-|Ho] Hc; [intros X; contradiction|]. destruct Hc as [<-|Hc]; [intros _ X; contradiction|]. apply H; assumption. Qed.
Lemma emphasis_pairs E ps rs : zs_ascii E -> reads E [] ps rs -> agreeing (kind_of rs) ->
  exists out ign, paired [] rs out /\ parse_inlines E (spell ps) = Ok ign /\ filter_indices_from_line (spell ps) ign = respell leaves ps out.
Proof.
  intros Hz Hr Hw. destruct (reads_scan E (spell ps) Hz [] ps rs Hr eq_refl init_subject eq_refl) as (ds & st & R & (Q1 & Q2 & Q3 & Q4 & Q5 & Q6)); [cbn; lia|reflexivity|].
  pose proof (reads_runs E [] ps rs Hr) as Hrs. pose proof (runs_inv _ _ _ _ R (inv_init _ _)) as Iv. destruct (process_ok anywhere _ st None Iv) as (st2 & K & _).
  rewrite (parse_inlines_runs E (spell ps) st R) in * by (apply peek_end; exact Q1). unfold process_emphasis in *. rewrite Q2, Q3 in *. cbn [s_delims init_subject s_ignore] in *. rewrite app_nil_r, rev_involutive in *.
  destruct (pe_loop _ [] ds _ []) as [(stack & ign)|e] eqn:P; cbn [bind] in *; [|exfalso].
  - destruct (pair_sim (kind_of rs) Hw (fun _ => false) _ _ _ _ _ _ _ [] rs P) as (out & Pd & C).
    + split; [constructor|]. split; [exact Q4|]. split; [constructor|]. split; [|split; [exact I|split; [exact Q6|split; [|split; [|split; [|split]]]]]].
      * apply (sim_forall mute (fun r => In r rs /\ delimiter (r_char r)) _ ds rs); [|exact Q4|].
        -- intros d r (_ & _ & A3 & A4 & A5 & A6 & _) (W & D). split; [|rewrite A3; exact D]. intros X. exists r. rewrite <- A3. auto 8.
        -- rewrite Forall_forall in *. intros r Hin. split; [exact Hin|apply Hrs; exact Hin].
      * apply Forall_forall. intros; constructor.
      * intros i b o c Hb. discriminate.
      * eapply Forall_impl; [|exact Hrs]. intros r Hx. apply Hx.
      * intros i b Hb. discriminate.
      * intros i. cbn [covered existsb app orb]. symmetry. clear -Hrs. induction Hrs as [|r rs (_ & A & B) H IH]; [reflexivity|]. cbn [existsb]. rewrite IH, orb_false_r. unfold gone. rewrite A, B.
        destruct (Nat.leb_spec (r_start r) i), (Nat.ltb_spec i (r_start r + 0)), (Nat.leb_spec (r_start r + (r_size r - 0 - 0)) i), (Nat.ltb_spec i (r_start r + (r_size r - 0))); cbn [andb orb]; try reflexivity; exfalso; lia.
    + exists out, ign. split; [exact Pd|]. split; [reflexivity|]. unfold filter_indices_from_line. apply (filter_reads E [] ps rs Hr).
      * rewrite (paired_shape _ _ _ Pd). reflexivity.
      * apply (paired_sound _ _ _ Pd); [constructor|]. eapply Forall_impl; [|exact Hrs]. intros r (_ & A & B). unfold sound. lia.
      * intros i _. apply C.
  - discriminate.
Qed.
