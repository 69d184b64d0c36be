(** Runs of the inline scanner over inert text and runs of delimiters. *)
From Coq Require Import String List NArith ZArith Bool Arith Lia.
From Verif Require Import Str StrFacts Spec EnvSpec Regex HtmlRe Fence Atx Entity Inlines HelperSpec EntityProof EmphSpec InlineProof.
Import ListNotations.
Local Open Scope list_scope.

(** ** Several steps *)
Inductive runs (E : env) (ch : chunk) : subject -> subject -> Prop :=
| runs_here : forall st, runs E ch st st
| runs_step : forall st c st1 st2, peek ch (s_pos st) = Some c -> parse_inline E ch st c = Ok st1 -> runs E ch st1 st2 -> runs E ch st st2.
Lemma runs_trans E ch a b c : runs E ch a b -> runs E ch b c -> runs E ch a c.
Proof. intros H. revert c. induction H as [|st x st1 st2 P S R IH]; intros c Hc; [exact Hc|]. eapply runs_step; [exact P|exact S|]. apply IH. exact Hc. Qed.
Lemma runs_loop E ch a b : runs E ch a b -> peek ch (s_pos b) = None -> exists fuel, parse_loop fuel E ch a = Ok b.
Proof.
  intros H Hb. induction H as [st|st x st1 st2 P S R IH].
  - exists 1. cbn. rewrite Hb. reflexivity.
  - destruct (IH Hb) as (fuel & F). exists (Datatypes.S fuel). cbn. rewrite P, S. exact F.
Qed.
Lemma parse_loop_mono E ch : forall fuel st r, parse_loop fuel E ch st = r -> r <> Err OutOfFuel -> forall fuel', fuel <= fuel' -> parse_loop fuel' E ch st = r.
Proof.
  induction fuel as [|fuel IH]; intros st r H Hr fuel' Hle; [cbn in H; congruence|]. destruct fuel' as [|fuel']; [lia|].
  cbn [parse_loop] in *. destruct (peek ch (s_pos st)) as [c|]; [|exact H]. destruct (parse_inline E ch st c) as [st'|e]; cbn [bind] in *; [|exact H].
  apply IH; [exact H|exact Hr|lia].
Qed.
Lemma parse_inlines_runs E s st : runs E (trimmed E s) init_subject st -> peek (trimmed E s) (s_pos st) = None ->
  parse_inlines E s = (do st' <- process_emphasis st None; Ok (s_ignore st')).
Proof.
  intros R P. destruct (runs_loop _ _ _ _ R P) as (fuel & F). unfold parse_inlines. pose proof (parse_loop_known E s) as K.
  replace (parse_loop (S (length s)) E (trimmed E s) init_subject) with (Ok st); [reflexivity|].
  destruct (Nat.le_ge_cases fuel (S (length s))) as [L|L].
  - symmetry. apply (parse_loop_mono _ _ _ _ _ F); [discriminate|exact L].
  - rewrite <- F. apply (parse_loop_mono E (trimmed E s) (S (length s)) init_subject); [reflexivity| |exact L].
    intros X. rewrite X in K. destruct K as [K|[K|K]]; discriminate.
Qed.

(** ** Character classes *)
Lemma space_iff E c : cm_space E c = true <-> space_char E c.
Proof. unfold cm_space, space_char. rewrite orb_true_iff, cin_In. reflexivity. Qed.
Lemma space_not E c : cm_space E c = false <-> ~ space_char E c.
Proof. rewrite <- space_iff. destruct (cm_space E c); split; congruence. Qed.
Lemma in_range_iff a b c : in_range a b c = true <-> (a <= c <= b)%N.
Proof. unfold in_range. rewrite andb_true_iff, !N.leb_le. reflexivity. Qed.
Lemma ascii_punct_iff c : ascii_punct c = true <-> (33 <= c <= 47)%N \/ (58 <= c <= 64)%N \/ (91 <= c <= 96)%N \/ (123 <= c <= 126)%N.
Proof. unfold ascii_punct. rewrite !orb_true_iff, !in_range_iff. tauto. Qed.
Lemma punct_iff E c : uc_punct E c = true <-> punct_char E c.
Proof.
  unfold uc_punct, punct_char. rewrite orb_true_iff, andb_true_iff, ascii_punct_iff, N.ltb_lt. split; [tauto|]. intros [H|H]; [auto|]. left. split; [lia|exact H].
Qed.
Lemma punct_not E c : uc_punct E c = false <-> ~ punct_char E c.
Proof. rewrite <- punct_iff. destruct (uc_punct E c); split; congruence. Qed.
Lemma tail_iff c : looks_continuation c = true <-> tail_like c.
Proof.
  unfold looks_continuation, tail_like. rewrite N.eqb_eq, N.shiftr_div_pow2. change (2 ^ 6)%N with 64%N. split.
  - intros H. pose proof (N.div_mod c 64 ltac:(lia)) as D. pose proof (N.mod_lt c 64 ltac:(lia)) as L. rewrite H in D. clear H. set (r := (c mod 64)%N) in *. clearbody r. lia.
  - intros H. symmetry. apply (N.div_unique c 64 2 (c - 128)); lia.
Qed.
Lemma tail_not c : looks_continuation c = false <-> ~ tail_like c.
Proof. rewrite <- tail_iff. destruct (looks_continuation c); split; congruence. Qed.
Lemma delim_not_space E c : zs_ascii E -> delimiter c -> cm_space E c = false.
Proof.
  intros Hz Hc. apply space_not. intros [H|H].
  - apply Hz in H; destruct Hc as [->| ->]; lia.
  - destruct Hc as [->| ->]; cbn in H; repeat (destruct H as [H|H]; [discriminate|]); exact H.
Qed.

(** ** What is scanned and what is not *)
(** The part of the text behind [c_len] is white space. *)
Definition scanned (E : env) (ch : chunk) : Prop :=
  c_len ch <= length (c_data ch) /\ forall i c, nth_error (c_data ch) i = Some c -> c_len ch <= i -> cm_space E c = true.
Lemma scanned_trimmed E s : scanned E (trimmed E s).
Proof.
  split; [apply trimmed_len|]. cbn. destruct (rstrip_split (cm_space E) s) as (suf & Es & Hs & _). intros i c Hi Hl. rewrite Es in Hi at 1. rewrite nth_error_app2 in Hi by exact Hl.
  apply nth_error_In in Hi. rewrite Forall_forall in Hs. apply Hs. exact Hi.
Qed.
Lemma peek_data E ch i c : scanned E ch -> nth_error (c_data ch) i = Some c -> cm_space E c = false -> peek ch i = Some c.
Proof. intros (_ & H) Hi Hc. unfold peek. destruct (Nat.ltb_spec i (c_len ch)) as [L|L]; [exact Hi|]. rewrite (H i c Hi L) in Hc. discriminate. Qed.
Lemma peek_some ch i c : peek ch i = Some c -> i < c_len ch /\ nth_error (c_data ch) i = Some c.
Proof. unfold peek. destruct (Nat.ltb_spec i (c_len ch)); [auto|discriminate]. Qed.
Lemma peek_end ch i : c_len ch <= i -> peek ch i = None.
Proof. intros H. unfold peek. destruct (Nat.ltb_spec i (c_len ch)); [lia|reflexivity]. Qed.
(** The character at [i], LF at the end, decides the flanking just as what is scanned does. *)
Lemma peek_after E ch i x : scanned E ch -> nth i (c_data ch) 10%N = x -> exists y, match peek ch i with Some z => z | None => 10%N end = y /\ (y = x \/ cm_space E x = true /\ y = 10%N).
Proof.
  intros (Hl & H) Hx. eexists. split; [reflexivity|]. unfold peek. destruct (Nat.ltb_spec i (c_len ch)) as [L|L].
  - left. destruct (nth_error (c_data ch) i) as [z|] eqn:N; [|apply nth_error_None in N; lia]. apply (nth_error_nth _ _ 10%N) in N. congruence.
  - right. split; [|reflexivity]. subst x. destruct (nth_error (c_data ch) i) as [z|] eqn:N.
    + rewrite (nth_error_nth _ _ 10%N N). apply (H i z N L).
    + apply nth_error_None in N. rewrite nth_overflow by exact N. apply space_iff. right. cbn. auto.
Qed.

(** ** Inert text *)
Lemma inert_cases c : inert c -> N.eqb c cCR = false /\ N.eqb c cLF = false /\ N.eqb c cTICK = false /\ N.eqb c cBS = false /\ N.eqb c 38 = false /\ N.eqb c 60 = false
  /\ N.eqb c cSTAR = false /\ N.eqb c cUND = false /\ N.eqb c cLB = false /\ N.eqb c cRB = false /\ N.eqb c 256 = false.
Proof.
  intros (H & H0 & H10 & H13 & H256). cbn in H. repeat split; apply N.eqb_neq; try assumption; intros ->; apply H; repeat (first [left; reflexivity|right]).
Qed.
Lemma inert_special c : inert c -> special_char c = true -> c = 33%N.
Proof.
  intros (H & H0 & H10 & H13 & H256) S. unfold special_char in S. apply cin_In in S. cbn in S, H.
  repeat (destruct S as [S|S]; [subst c; first [reflexivity|exfalso; congruence|exfalso; apply H; repeat (first [left; reflexivity|right])]|]). destruct S.
Qed.
Lemma find_special_stop rest : forall k n, (forall i c, i < k -> nth_error rest i = Some c -> inert c) -> k <= length rest ->
  (forall c, nth_error rest k = Some c -> special_char c = true) -> exists m, find_special rest n = Ok m /\ n <= m <= n + k.
Proof.
  induction rest as [|c rest IH]; intros k n Hk Hl Hs; cbn [find_special]; [exists n; split; [reflexivity|lia]|].
  destruct k as [|k].
  - specialize (Hs c eq_refl). rewrite Hs. destruct (N.ltb 256 c) eqn:L; [exists n; split; [reflexivity|lia]|].
    destruct (N.eqb_spec c 256) as [->|_]; [discriminate|]. exists n. split; [reflexivity|lia].
  - destruct (N.ltb 256 c); [exists n; split; [reflexivity|lia]|]. pose proof (Hk 0 c ltac:(lia) eq_refl) as Hc.
    destruct (inert_cases c Hc) as (_ & _ & _ & _ & _ & _ & _ & _ & _ & _ & ->). destruct (special_char c); [exists n; split; [reflexivity|lia]|].
    destruct (IH k (S n)) as (m & -> & Hm); [| |exact Hs|].
    + intros i x Hi Hx. apply (Hk (S i) x); [lia|exact Hx].
    + cbn in Hl. lia.
    + exists m. split; [reflexivity|lia].
Qed.
Lemma inp_length ch : c_len ch <= length (c_data ch) -> length (c_inp ch) = c_len ch.
Proof. intros H. unfold c_inp. rewrite firstn_length. lia. Qed.
Lemma set_pos_id st : set_pos st (s_pos st) = st.
Proof. destruct st. reflexivity. Qed.
Lemma set_pos_twice st a b : set_pos (set_pos st a) b = set_pos st b.
Proof. reflexivity. Qed.
(** From a position in inert text to its end, which is the end of the input or a special character. *)
Lemma runs_inert E ch : c_len ch <= length (c_data ch) -> forall n st q, q - s_pos st <= n -> s_pos st <= q -> q <= c_len ch ->
  (forall i c, s_pos st <= i < q -> nth_error (c_inp ch) i = Some c -> inert c) ->
  (forall c, nth_error (c_inp ch) q = Some c -> special_char c = true) -> runs E ch st (set_pos st q).
Proof.
  intros Hlen. pose proof (inp_length ch Hlen) as Li. induction n as [|n IH]; intros st q Hn Hp Hq Hi Hs.
  - replace q with (s_pos st) by lia. rewrite set_pos_id. constructor.
  - destruct (Nat.eq_dec (s_pos st) q) as [<-|Hne]; [rewrite set_pos_id; constructor|].
    destruct (nth_error (c_inp ch) (s_pos st)) as [c|] eqn:Hc; [|apply nth_error_None in Hc; lia].
    pose proof (Hi (s_pos st) c ltac:(lia) Hc) as Hin. assert (G : exists m, parse_inline E ch st c = Ok (set_pos st m) /\ s_pos st < m <= q).
    { unfold parse_inline. destruct (inert_cases c Hin) as (-> & -> & -> & -> & -> & -> & -> & -> & -> & -> & _). cbn [orb].
      destruct (cin c _); [exists (S (s_pos st)); split; [reflexivity|lia]|].
      destruct (find_special_stop (skipn (S (s_pos st)) (c_inp ch)) (q - S (s_pos st)) (S (s_pos st))) as (m & -> & Hm).
      - intros i x Hlt Hx. rewrite nth_skipn in Hx. apply (Hi (S (s_pos st) + i) x); [lia|exact Hx].
      - rewrite skipn_length. unfold str in *. lia.
      - intros x Hx. rewrite nth_skipn in Hx. replace (S (s_pos st) + (q - S (s_pos st))) with q in Hx by lia. apply Hs. exact Hx.
      - cbn [bind]. exists m. split; [reflexivity|lia]. }
    destruct G as (m & Pm & Hm). eapply runs_step; [rewrite peek_inp; exact Hc|exact Pm|].
    rewrite <- (set_pos_twice st m q). apply IH; cbn [s_pos set_pos]; try lia; [|exact Hs].
    intros i x Hx. apply Hi. lia.
Qed.

(** ** Runs of delimiters *)
Lemma delim_special c : delimiter c -> special_char c = true.
Proof. intros [-> | ->]; reflexivity. Qed.
Lemma parse_delim E ch st c : delimiter c -> parse_inline E ch st c = Ok (handle_delim E ch st c).
Proof. intros [-> | ->]; reflexivity. Qed.
Lemma walk_back_stop data p c : nth_error data p = Some c -> ~ tail_like c -> walk_back data p = p.
Proof. intros H Hc. destruct p as [|p]; [reflexivity|]. cbn [walk_back]. rewrite H. apply tail_not in Hc. rewrite Hc. reflexivity. Qed.
Lemma last_nth {A} (a : list A) d x b : a <> [] -> nth_error (a ++ b) (pred (length a)) = Some (last a x) /\ last a x = last a d.
Proof.
  intros H. destruct (exists_last H) as (a' & y & ->). rewrite !last_last. split; [|reflexivity]. rewrite <- app_assoc, app_length. cbn. rewrite nth_error_app2 by lia.
  replace (pred (length a' + 1) - length a') with 0 by lia. reflexivity.
Qed.
Lemma nth_hd (a b : str) d : nth (length a) (a ++ b) d = hd d b.
Proof. rewrite app_nth2 by lia. rewrite Nat.sub_diag. destruct b; reflexivity. Qed.
(** What scan_delims computes for a maximal run between [a] and [b]. *)
Definition left_flank E x y := negb (cm_space E y) && (negb (uc_punct E y) || cm_space E x || uc_punct E x).
Definition right_flank E x y := negb (cm_space E x) && (negb (uc_punct E x) || cm_space E y || uc_punct E y).
Definition opens E c x y := if N.eqb c cUND then left_flank E x y && (negb (right_flank E x y) || uc_punct E x) else left_flank E x y.
Definition closes E c x y := if N.eqb c cUND then right_flank E x y && (negb (left_flank E x y) || uc_punct E y) else right_flank E x y.
Lemma span_run E ch a c k b : scanned E ch -> zs_ascii E -> delimiter c -> c_data ch = a ++ repeat c k ++ b -> hd 10%N b <> c ->
  span_len (N.eqb c) (skipn (length a) (c_inp ch)) = k /\ (1 <= k -> length a + k <= c_len ch).
Proof.
  intros Hs Hz Hc Hd Hb. destruct Hs as (Hl & Hs).
  assert (Hle : 1 <= k -> length a + k <= c_len ch).
  { intros Hk. destruct (Nat.le_gt_cases (length a + k) (c_len ch)) as [L|L]; [exact L|exfalso].
    assert (N : nth_error (c_data ch) (pred (length a + k)) = Some c).
    { rewrite Hd, nth_error_app2, nth_error_app1; rewrite ?repeat_length; try lia. rewrite nth_error_repeat by lia. reflexivity. }
    specialize (Hs _ _ N ltac:(lia)). rewrite (delim_not_space E c Hz Hc) in Hs. discriminate. }
  split; [|exact Hle]. destruct k as [|k].
  - cbn [repeat app] in Hd. cbn. assert (X : nth_error (c_inp ch) (length a) <> Some c).
    { intros X. apply inp_data in X. rewrite Hd, nth_error_app2, Nat.sub_diag in X by lia. destruct b; [discriminate|]. cbn in X, Hb. congruence. }
    rewrite <- (Nat.add_0_r (length a)) in X. rewrite <- nth_skipn in X. destruct (skipn (length a) (c_inp ch)) as [|y t]; [reflexivity|]. cbn in X |- *.
    destruct (N.eqb_spec c y) as [->|]; [congruence|reflexivity].
  - specialize (Hle ltac:(lia)). unfold c_inp. rewrite Hd. rewrite firstn_app. rewrite (firstn_all2 a) by lia. rewrite skipn_app, skipn_all, Nat.sub_diag. cbn [app skipn].
    rewrite firstn_app, repeat_length, firstn_all2 by (rewrite repeat_length; lia). rewrite span_unique; [apply repeat_length| |].
    + apply Forall_repeat. apply N.eqb_refl.
    + set (m := c_len ch - length a - S k). destruct b as [|y b]; [rewrite firstn_nil; exact I|]. destruct m as [|m]; cbn; [exact I|]. cbn in Hb. apply N.eqb_neq. congruence.
Qed.
Lemma flank_space E c x y y' : cm_space E y = true -> cm_space E y' = true -> opens E c x y = opens E c x y' /\ closes E c x y = closes E c x y'.
Proof. intros H H'. unfold opens, closes, left_flank, right_flank. rewrite H, H'. cbn. destruct (N.eqb c cUND), (cm_space E x), (uc_punct E x); cbn; auto. Qed.
Definition same_flags E c (a : str) y := opens E c (looked_at a) y = opens E c (last a 10%N) y /\ closes E c (looked_at a) y = closes E c (last a 10%N) y.
Lemma looked_snoc (a : str) x : looked_at (a ++ [x]) = match a with [] => x | _ => if looks_continuation x then looked_at a else x end.
Proof.
  unfold looked_at. rewrite rev_app_distr. cbn [rev app back_from]. destruct a as [|y a]; [reflexivity|]. destruct (rev (y :: a)) as [|z r] eqn:R.
  { apply (f_equal (@length N)) in R. rewrite rev_length in R. discriminate. }
  destruct (looks_continuation x) eqn:L.
  - apply tail_iff in L. destruct L as (L1 & L2). apply N.leb_le in L1, L2. rewrite L1, L2. reflexivity.
  - apply tail_not in L. destruct (N.leb_spec 128 x), (N.leb_spec x 191); try reflexivity. exfalso. apply L. split; assumption.
Qed.
Lemma looked_last (a : str) : ~ tail_like (last a 10%N) -> looked_at a = last a 10%N.
Proof. destruct a as [|y a] using rev_ind; [reflexivity|]. rewrite last_last, looked_snoc. intros H. apply tail_not in H. rewrite H. destruct a; reflexivity. Qed.
Lemma not_tail_flags E c a y : ~ tail_like (last a 10%N) -> same_flags E c a y.
Proof. intros H. unfold same_flags. rewrite (looked_last a H). auto. Qed.
Lemma walk_looked (a b : str) : match length a with O => 10%N | S p => nth (walk_back (a ++ b) p) (a ++ b) 10%N end = looked_at a.
Proof.
  revert b. induction a as [|x a IH] using rev_ind; intros b; [reflexivity|]. rewrite looked_snoc, app_length, Nat.add_comm. cbn [length Nat.add]. rewrite <- app_assoc. cbn [app].
  destruct a as [|y a]; [reflexivity|]. specialize (IH (x :: b)). cbn [length] in IH |- *. cbn [walk_back].
  assert (X : nth_error ((y :: a) ++ x :: b) (S (length a)) = Some x) by (rewrite nth_error_app2 by (cbn [length]; lia); cbn [length]; rewrite Nat.sub_diag; reflexivity).
  rewrite X. destruct (looks_continuation x); [exact IH|]. apply nth_error_nth. exact X.
Qed.
Lemma scan_run E ch a c k b : scanned E ch -> zs_ascii E -> delimiter c -> c_data ch = a ++ repeat c k ++ b -> 1 <= k -> hd 10%N b <> c ->
  same_flags E c a (hd 10%N b) ->
  scan_delims E ch (length a) c = (k, opens E c (last a 10%N) (hd 10%N b), closes E c (last a 10%N) (hd 10%N b)).
Proof.
  intros Hs Hz Hc Hd Hk Hb Ht. destruct (span_run E ch a c k b Hs Hz Hc Hd Hb) as (Sp & Hle). specialize (Hle Hk).
  unfold scan_delims. rewrite Sp.
  assert (Hbef : match length a with O => 10%N | S p => nth (walk_back (c_data ch) p) (c_data ch) 10%N end = looked_at a) by (rewrite Hd; apply walk_looked).
  rewrite Hbef. destruct (peek_after E ch (length a + k) (hd 10%N b) Hs) as (y & Hy & Hyx).
  { rewrite Hd, app_assoc. rewrite <- (repeat_length c k) at 1. rewrite <- app_length. apply nth_hd. }
  rewrite Hy.
  assert (G : opens E c (looked_at a) y = opens E c (last a 10%N) (hd 10%N b) /\ closes E c (looked_at a) y = closes E c (last a 10%N) (hd 10%N b)).
  { destruct Ht as (<- & <-). destruct Hyx as [->|(Sx & ->)]; [auto|]. apply flank_space; [|exact Sx]. apply space_iff. right. cbn. auto. }
  destruct G as (<- & <-). unfold opens, closes, left_flank, right_flank. destruct k as [|k]; [lia|]. cbn [Nat.ltb Nat.leb andb]. destruct (N.eqb c cUND); reflexivity.
Qed.

(** ** Idle runs: nothing is removed *)
Lemma idle_flags E c x y : delimiter c -> idle E c x y -> opens E c x y = false /\ closes E c x y = false.
Proof.
  intros Hc [(-> & (A1 & A2 & _) & (B1 & B2 & _))|((A & _) & (B & _))]; unfold opens, closes, left_flank, right_flank.
  - apply space_not in A1, B1. apply punct_not in A2, B2. rewrite A1, A2, B1, B2. change (N.eqb 95 cUND) with true. cbn. auto.
  - apply space_iff in A, B. rewrite A, B. cbn. destruct (N.eqb c cUND); auto.
Qed.
Lemma idle_not_tail E c x y : idle E c x y -> ~ tail_like x.
Proof. intros [(_ & (_ & _ & A) & _)|((_ & A) & _)]; exact A. Qed.
(** The longest prefix of characters satisfying a test. *)
Lemma prefix_split (p : N -> bool) (s : str) : exists u v, s = u ++ v /\ Forall (fun c => p c = true) u /\ (forall c v', v = c :: v' -> p c = false).
Proof.
  induction s as [|c s (u & v & -> & Hu & Hv)]; [exists [], []; repeat split; [constructor|discriminate]|]. destruct (p c) eqn:P.
  - exists (c :: u), v. repeat split; [constructor; assumption|exact Hv].
  - exists [], (c :: u ++ v). repeat split; [constructor|]. intros x v' H. injection H as <- _. exact P.
Qed.
Lemma delimiter_dec c : {delimiter c} + {~ delimiter c}.
Proof. unfold delimiter. destruct (N.eq_dec c 42); [left; auto|]. destruct (N.eq_dec c 95); [left; auto|]. right. tauto. Qed.
Lemma inert_not_delim c : inert c -> ~ delimiter c.
Proof. intros H Hc. destruct (inert_cases c H) as (_ & _ & _ & _ & _ & _ & A & B & _). apply N.eqb_neq in A, B. destruct Hc; contradiction. Qed.
Lemma last_app_ne (a b : str) d : b <> [] -> last (a ++ b) d = last b d.
Proof. intros H. destruct (exists_last H) as (b' & x & ->). rewrite app_assoc, !last_last. reflexivity. Qed.
Lemma last_Forall (P : N -> Prop) (b : str) d : b <> [] -> Forall P b -> P (last b d).
Proof. intros H F. destruct (exists_last H) as (b' & x & ->). rewrite last_last. apply Forall_app in F as (_ & F). inversion F; assumption. Qed.
Lemma nth_error_mid {A} (a b c : list A) i : length a <= i < length a + length b -> nth_error (a ++ b ++ c) i = nth_error b (i - length a).
Proof. intros H. rewrite nth_error_app2, nth_error_app1 by lia. reflexivity. Qed.
(** Inert text from [a] to the end or to a special character. *)
Lemma runs_text E ch st a w b : scanned E ch -> c_data ch = a ++ w ++ b -> s_pos st = length a -> Forall inert w ->
  (forall c b', b = c :: b' -> special_char c = true) -> length a <= c_len ch -> (b <> [] -> length a + length w < c_len ch) ->
  runs E ch st (set_pos st (Nat.min (length a + length w) (c_len ch))).
Proof.
  intros (Hl & Hs) Hd Hp Hw Hb Hle Hb2. assert (Hlen : length (c_data ch) = length a + length w + length b) by (rewrite Hd, !app_length; lia).
  apply (runs_inert E ch Hl (length w)); try lia.
  - intros i c Hi Hc. apply inp_data in Hc. rewrite Hd in Hc. rewrite nth_error_mid in Hc by lia. rewrite Forall_forall in Hw. apply Hw. eapply nth_error_In. exact Hc.
  - intros c Hc. rewrite <- peek_inp in Hc. apply peek_some in Hc as (Hlt & Hc). rewrite Hd in Hc. destruct b as [|y b].
    + rewrite app_nil_r in Hc. pose proof (proj1 (nth_error_Some _ _) ltac:(rewrite Hc; discriminate)) as X. rewrite app_length in X. lia.
    + specialize (Hb2 ltac:(discriminate)). rewrite Nat.min_l in Hc by lia. rewrite app_assoc, nth_error_app2, app_length, Nat.sub_diag in Hc by (rewrite app_length; lia). cbn in Hc. injection Hc as ->. eapply Hb. reflexivity.
Qed.
Lemma in_scan E ch a c b : scanned E ch -> c_data ch = a ++ c :: b -> cm_space E c = false -> length a < c_len ch.
Proof.
  intros (_ & Hs) Hd Hc. destruct (Nat.lt_ge_cases (length a) (c_len ch)) as [L|L]; [exact L|]. exfalso.
  assert (N : nth_error (c_data ch) (length a) = Some c) by (rewrite Hd, nth_error_app2, Nat.sub_diag by lia; reflexivity). specialize (Hs _ _ N L). congruence.
Qed.
Lemma runs_idle E ch : scanned E ch -> zs_ascii E -> forall n a b st, length b <= n -> c_data ch = a ++ b -> Forall (fun c => inert c \/ delimiter c) b ->
  (forall c, delimiter c -> last a 10%N = c -> hd 10%N b <> c) -> all_idle E (a ++ b) -> s_pos st = length a -> length a <= c_len ch ->
  runs E ch st (set_pos st (c_len ch)).
Proof.
  intros Hs Hz. pose proof Hs as (Hl & Hs2). induction n as [|n IH]; intros a b st Hn Hd Hb Hm Hi Hp Hle.
  - destruct b; [|cbn in Hn; lia]. rewrite app_nil_r in Hd. rewrite Hd in Hl. replace (c_len ch) with (s_pos st) by lia. rewrite set_pos_id. constructor.
  - destruct b as [|c b].
    { rewrite app_nil_r in Hd. rewrite Hd in Hl. replace (c_len ch) with (s_pos st) by lia. rewrite set_pos_id. constructor. }
    cbn [length] in Hn. inversion Hb as [|? ? Hc Hb']; subst. destruct (delimiter_dec c) as [Dc|Dc].
    + destruct (prefix_split (N.eqb c) (c :: b)) as (u & v & Ev & Hu & Hv). apply Forall_eqb_repeat' in Hu. destruct u as [|u0 u].
      { cbn in Ev. specialize (Hv c b (eq_sym Ev)). rewrite N.eqb_refl in Hv. discriminate. }
      set (k := length (u0 :: u)) in *. assert (Hk : 1 <= k) by (cbn in k; lia). rewrite Hu in Ev. clearbody k. clear Hu u0 u.
      assert (Hhv : hd 10%N v <> c).
      { destruct v as [|y v]; cbn; [destruct Dc as [->| ->]; discriminate|]. specialize (Hv y v eq_refl). apply N.eqb_neq in Hv. congruence. }
      destruct k as [|k]; [lia|]. rewrite Ev in *. cbn [hd] in Hm. assert (Hla : last a 10%N <> c) by (intros X; apply (Hm c Dc X); reflexivity).
      pose proof (Hi a c k v eq_refl Dc Hla Hhv) as Id. destruct (idle_flags E c _ _ Dc Id) as (O & C).
      assert (Pk : peek ch (s_pos st) = Some c).
      { rewrite Hp. apply (peek_data E); [exact Hs| |apply delim_not_space; assumption]. rewrite Hd, nth_error_app2, Nat.sub_diag by lia. reflexivity. }
      destruct (span_run E ch a c (S k) v Hs Hz Dc Hd Hhv) as (_ & Hle2). specialize (Hle2 Hk).
      eapply runs_step; [exact Pk|apply parse_delim; exact Dc|]. unfold handle_delim. rewrite Hp, (scan_run E ch a c (S k) v Hs Hz Dc Hd Hk Hhv (not_tail_flags E c _ _ (idle_not_tail _ _ _ _ Id))), O, C. cbn [orb].
      rewrite <- (set_pos_twice st (length a + S k) (c_len ch)). apply (IH (a ++ repeat c (S k)) v).
      * apply (f_equal (@length N)) in Ev. rewrite app_length, repeat_length in Ev. cbn [length] in Ev. unfold str in *. lia.
      * rewrite <- app_assoc. exact Hd.
      * apply Forall_app in Hb. apply Hb.
      * intros x _ Hx. rewrite last_app_ne in Hx by discriminate. rewrite (last_Forall (fun y => y = c) (repeat c (S k)) 10%N) in Hx; [subst x; exact Hhv|discriminate|apply Forall_repeat; reflexivity].
      * rewrite <- app_assoc. exact Hi.
      * cbn [s_pos set_pos]. rewrite app_length, repeat_length. reflexivity.
      * rewrite app_length, repeat_length. exact Hle2.
    + destruct (prefix_split (fun c => if delimiter_dec c then false else true) (c :: b)) as (u & v & Ev & Hu & Hv).
      assert (Hu1 : u <> []). { intros ->. cbn in Ev. specialize (Hv c b (eq_sym Ev)). cbn in Hv. destruct (delimiter_dec c); [contradiction|discriminate]. }
      rewrite Ev in *. assert (Hui : Forall inert u).
      { apply Forall_app in Hb as (Hb & _). rewrite Forall_forall in *. intros x Hx. specialize (Hu x Hx). destruct (Hb x Hx) as [|Dx]; [assumption|]. cbn in Hu. destruct (delimiter_dec x); [discriminate|contradiction]. }
      assert (Hvd : forall x v', v = x :: v' -> delimiter x). { intros x v' ->. specialize (Hv x v' eq_refl). cbn in Hv. destruct (delimiter_dec x); [assumption|discriminate]. }
      assert (Hvl : v <> [] -> length a + length u < c_len ch).
      { destruct v as [|x v]; [congruence|]. intros _. rewrite <- app_length. apply (in_scan E ch (a ++ u) x v Hs); [rewrite <- app_assoc; exact Hd|]. apply delim_not_space; [exact Hz|]. eapply Hvd. reflexivity. }
      eapply runs_trans; [apply (runs_text E ch st a u v Hs Hd Hp Hui); [|exact Hle|exact Hvl]|].
      { intros x v' X. apply delim_special. eapply Hvd. exact X. }
      destruct v as [|x v].
      * rewrite app_nil_r in Hd. assert (length (c_data ch) = length a + length u) by (rewrite Hd, app_length; reflexivity).
        rewrite Nat.min_r by lia. constructor.
      * rewrite Nat.min_l by (specialize (Hvl ltac:(discriminate)); lia).
        rewrite <- (set_pos_twice st (length a + length u) (c_len ch)). apply (IH (a ++ u) (x :: v)).
        -- apply (f_equal (@length N)) in Ev. rewrite app_length in Ev. destruct u; [congruence|]. cbn [length] in *. unfold str in *. lia.
        -- rewrite <- app_assoc. exact Hd.
        -- apply Forall_app in Hb. apply Hb.
        -- intros y Dy Hy. rewrite last_app_ne in Hy by exact Hu1. exfalso. subst y. apply (inert_not_delim _ (last_Forall inert u 10%N Hu1 Hui)). exact Dy.
        -- rewrite <- app_assoc. exact Hi.
        -- cbn [s_pos set_pos]. rewrite app_length. reflexivity.
        -- rewrite app_length. specialize (Hvl ltac:(discriminate)). lia.
Qed.
Lemma filter_from_nil s : forall i, filter_from i s [] = s.
Proof. induction s as [|c s IH]; intros i; cbn; [reflexivity|]. rewrite IH. reflexivity. Qed.
Lemma parse_inlines_idle E s : zs_ascii E -> Forall (fun c => inert c \/ delimiter c) s -> all_idle E s -> parse_inlines E s = Ok [].
Proof.
  intros Hz Hb Hi. rewrite (parse_inlines_runs E s (set_pos init_subject (c_len (trimmed E s)))).
  - reflexivity.
  - apply (runs_idle E (trimmed E s) (scanned_trimmed E s) Hz (length s) [] s); auto; [|cbn; lia].
    cbn. intros c [->| ->]; discriminate.
  - apply peek_end. cbn. lia.
Qed.
