(** Links and brackets in the inline scanner. *)
From Coq Require Import String List NArith ZArith Bool Arith Lia Permutation.
From Verif Require Import Str StrFacts Spec EnvSpec Regex HtmlRe Fence Atx Entity Inlines HelperSpec EntityProof EmphSpec DelimSpec LinkSpec AtxProof InlineProof InlineRun InlineOpaque InlineEmph InlinePair InlineRead InlineSettle InlineTarget InlineBare InlineAngle InlineLone InlineStill InlineTicks.
From Verif Require HtmlSpec.
Import ListNotations.
Local Open Scope list_scope.

(** ** Brackets and runs on the stacks *)
Inductive stands : list delim -> list bracket -> list item -> Prop :=
| stands_nil : stands [] [] []
| stands_live d r ds bs it : same d r -> d_open d || d_close d = true -> stands ds bs it -> stands (d :: ds) bs (Run r :: it)
| stands_dead r ds bs it : mute r -> stands ds bs it -> stands ds bs (Run r :: it)
| stands_bracket i act ds bs it : stands ds bs it -> stands ds (mkBracket (option_map d_start (hd_error ds)) act :: bs) (Bracket i act :: it).
Lemma stands_no_bracket rs : forall ds bs, stands ds bs (map Run rs) -> bs = [].
Proof. induction rs as [|r rs IH]; intros ds bs H; inversion H; subst; [reflexivity|eapply IH; eassumption..]. Qed.
Lemma stands_split rs : forall ds bs i act it, stands ds bs (map Run rs ++ Bracket i act :: it) ->
  exists ds1 ds2 bs2, ds = ds1 ++ ds2 /\ bs = mkBracket (option_map d_start (hd_error ds2)) act :: bs2 /\ sim mute ds1 rs /\ Forall (fun d => d_open d || d_close d = true) ds1 /\ stands ds2 bs2 it.
Proof.
  induction rs as [|r rs IH]; intros ds bs i act it H; cbn [map app] in H; inversion H as [|d r0 ds0 bs0 it0 Hs Ho H'|r0 ds0 bs0 it0 Hm H'|i0 act0 ds0 bs0 it0 H']; subst.
  - exists [], ds, bs0. repeat split; [constructor|constructor|assumption].
  - destruct (IH _ _ _ _ _ H') as (ds1 & ds2 & bs2 & -> & -> & A & B & C). exists (d :: ds1), ds2, bs2. repeat split; [constructor; assumption..|assumption].
  - destruct (IH _ _ _ _ _ H') as (ds1 & ds2 & bs2 & -> & -> & A & B & C). exists ds1, ds2, bs2. repeat split; [apply sim_dead; assumption|assumption..].
Qed.
Lemma stands_join rs : forall ds1 ds2 bs it, sim mute ds1 rs -> Forall (fun d => d_open d || d_close d = true) ds1 -> stands ds2 bs it -> stands (ds1 ++ ds2) bs (map Run rs ++ it).
Proof.
  intros ds1 ds2 bs it H. revert ds2 bs it. induction H as [|d r ds rs Hs H IH|r ds rs Hd H IH]; intros ds2 bs it F S; cbn [map app]; [exact S| |].
  - inversion F; subst. apply stands_live; [assumption..|]. apply IH; assumption.
  - apply stands_dead; [assumption|]. apply IH; assumption.
Qed.
Lemma stands_sim ds bs it : stands ds bs it -> sim mute ds (runs_of it).
Proof. induction 1; cbn [runs_of flat_map app]; [constructor|apply sim_live; assumption|apply sim_dead; assumption|assumption]. Qed.
Lemma stands_flags ds bs it : stands ds bs it -> Forall (fun d => d_open d || d_close d = true) ds.
Proof. induction 1; [constructor|constructor; assumption|assumption|assumption]. Qed.
Lemma sim_rev dead ds rs : sim dead ds rs -> sim dead (rev ds) (rev rs).
Proof.
  assert (G : forall ds rs ds' rs', sim dead ds rs -> sim dead ds' rs' -> sim dead (ds ++ ds') (rs ++ rs')).
  { intros d1 r1 d2 r2 H. revert d2 r2. induction H; intros d2 r2 K; cbn [app]; [exact K|apply sim_live; auto|apply sim_dead; auto]. }
  induction 1; cbn [rev]; [constructor| |].
  - apply G; [assumption|]. apply sim_live; [assumption|constructor].
  - rewrite <- (app_nil_r (rev ds)). apply G; [assumption|]. apply sim_dead; [assumption|constructor].
Qed.

(** Once a bracket is inactive, so are those below. *)
Fixpoint ordered (bs : list bracket) : Prop :=
  match bs with [] => True | b :: bs' => ordered bs' /\ (b_active b = false -> Forall (fun x => b_active x = false) bs') end.
Lemma deactivate_all bs : ordered bs -> Forall (fun x => b_active x = false) (deactivate bs).
Proof.
  induction bs as [|b bs IH]; intros H; [constructor|]. destruct H as (H1 & H2). cbn [deactivate]. destruct (b_active b) eqn:B; [constructor; [reflexivity|apply IH; exact H1]|constructor; [exact B|apply H2; reflexivity]].
Qed.
Lemma asleep_ordered bs : Forall (fun x => b_active x = false) bs -> ordered bs.
Proof. induction 1; cbn; [exact I|]. split; [assumption|auto]. Qed.
Lemma stands_asleep (img : bool) ds bs it : ordered bs -> stands ds bs it -> (forall i, In (Bracket i true) it -> i = false /\ img = false) -> stands ds (deactivate bs) (if img then it else asleep it).
Proof.
  intros Ho H. revert Ho. induction H as [|d r ds bs it Hs Hf H IH|r ds bs it Hm H IH|i act ds bs it H IH]; intros Ho Hi.
  - destruct img; constructor.
  - assert (K : stands ds (deactivate bs) (if img then it else asleep it)) by (apply IH; [exact Ho|intros i X; apply Hi; right; exact X]). destruct img; cbn [asleep map]; apply stands_live; assumption.
  - assert (K : stands ds (deactivate bs) (if img then it else asleep it)) by (apply IH; [exact Ho|intros i X; apply Hi; right; exact X]). destruct img; cbn [asleep map]; apply stands_dead; assumption.
  - destruct Ho as (Ho1 & Ho2). cbn [deactivate b_active b_prevdelim]. destruct act.
    + destruct (Hi i ltac:(left; reflexivity)) as (-> & ->). cbn [asleep map]. apply stands_bracket. apply IH; [exact Ho1|intros j X; apply Hi; right; exact X].
    + assert (Hs : forall ds bs it, stands ds bs it -> Forall (fun x => b_active x = false) bs -> stands ds bs (asleep it)).
      { clear. intros ds bs it H. induction H as [|d r ds bs it Hs Hf H IH|r ds bs it Hm H IH|i act ds bs it H IH]; intros F; cbn [asleep map].
        - constructor.
        - apply stands_live; auto.
        - apply stands_dead; auto.
        - inversion F as [|? ? F1 F2]; subst. cbn in F1. subst act. destruct i; apply stands_bracket; apply IH; exact F2. }
      specialize (Ho2 eq_refl). destruct img; [apply stands_bracket; exact H|]. cbn [asleep map]. destruct i; apply stands_bracket; apply Hs; assumption.
Qed.

(** ** The emphasis of a label *)
Definition fresh (r : run) : Prop := delimiter (r_char r) /\ r_closed r = 0 /\ r_opened r = 0.
Lemma fresh_none rs i : Forall fresh rs -> existsb (gone i) rs = false.
Proof.
  induction 1 as [|r rs (_ & A & B) H IH]; [reflexivity|]. cbn [existsb]. rewrite IH, orb_false_r. unfold gone. rewrite A, B.
  destruct (Nat.leb_spec (r_start r) i), (Nat.ltb_spec i (r_start r + 0)), (Nat.leb_spec (r_start r + (r_size r - 0 - 0)) i), (Nat.ltb_spec i (r_start r + (r_size r - 0))); cbn [andb orb]; try reflexivity; exfalso; lia.
Qed.
Lemma desc_below a b : desc (a ++ b) -> forall x y, In x a -> In y b -> d_start y < d_start x.
Proof.
  induction a as [|z a IH]; intros H x y Hx Hy; [destruct Hx|]. destruct H as (H1 & H2). destruct Hx as [<-|Hx]; [|apply (IH H2); assumption].
  rewrite Forall_forall in H1. apply H1. apply in_or_app. right. exact Hy.
Qed.
Lemma split_label ds1 d ds2 : desc (ds1 ++ d :: ds2) -> split_at (d_start d) (ds1 ++ d :: ds2) = Some (ds1, d :: ds2).
Proof.
  induction ds1 as [|x ds1 IH]; intros H; cbn [app split_at].
  - rewrite Nat.eqb_refl. reflexivity.
  - pose proof (desc_below [x] (ds1 ++ d :: ds2) H x d ltac:(left; reflexivity) ltac:(apply in_or_app; right; left; reflexivity)) as L.
    destruct (Nat.eqb_spec (d_start x) (d_start d)); [lia|]. destruct H as (_ & H). rewrite IH by exact H. reflexivity.
Qed.
Lemma desc_rev l : desc l -> asc (rev l).
Proof.
  assert (G : forall a b, asc a -> asc b -> (forall x y, In x a -> In y b -> d_start x < d_start y) -> asc (a ++ b)).
  { induction a as [|x a IH]; intros b Ha Hb Hx; [exact Hb|]. destruct Ha as (H1 & H2). cbn [app asc]. split.
    - apply Forall_app. split; [exact H1|]. apply Forall_forall. intros y Hy. apply Hx; [left; reflexivity|exact Hy].
    - apply IH; [exact H2|exact Hb|]. intros u v Hu Hv. apply Hx; [right; exact Hu|exact Hv]. }
  induction l as [|x l IH]; intros H; [exact I|]. destruct H as (H1 & H2). cbn [rev]. apply G; [apply IH; exact H2|split; [constructor|exact I]|].
  intros u v Hu [<-|[]]. rewrite Forall_forall in H1. apply H1. apply in_rev. exact Hu.
Qed.
Lemma drop_label bot old l : bot = option_map d_start (hd_error old) -> Forall (above bot) l -> drop_until bot (l ++ old) = old.
Proof.
  intros Hb. induction 1 as [|x l Hx Hl IH].
  - subst bot. destruct old as [|y old]; [reflexivity|]. cbn. rewrite Nat.eqb_refl. reflexivity.
  - cbn [app drop_until]. rewrite above_not by exact Hx. exact IH.
Qed.
Lemma desc_left a b : desc (a ++ b) -> desc a.
Proof. induction a as [|x a IH]; cbn; [auto|]. intros (H1 & H2). apply Forall_app in H1. split; [apply H1|auto]. Qed.
Lemma drop_none l : drop_until None l = [].
Proof. induction l as [|x l IH]; [reflexivity|exact IH]. Qed.
Lemma label_done ch st ds1 ds2 rs : inv anywhere ch st -> s_delims st = ds1 ++ ds2 -> desc (ds1 ++ ds2) -> sim mute ds1 rs -> Forall (fun d => d_open d || d_close d = true) ds1 -> Forall fresh rs -> underscores_agree rs ->
  ds2 = [] \/ settled [] (rev rs) ->
  exists out ign, paired [] (rev rs) out /\ process_emphasis st (option_map d_start (hd_error ds2)) = Ok (set_ignore (set_delims st ds2) ign) /\
    forall i, covered ign i = covered (s_ignore st) i || existsb (gone i) out.
Proof.
  intros Iv Ed Hd Hs Hf Hr Hua Hc. set (bot := option_map d_start (hd_error ds2)). destruct (process_ok anywhere ch st bot Iv) as (st2 & K & _).
  assert (Ep : process_emphasis st bot = (do '(stack, ign) <- pe_loop (S (pe_measure ds2 (rev ds1))) ds2 (rev ds1) (fun _ => bot) (s_ignore st); Ok (set_ignore (set_delims st (drop_until bot stack)) ign))).
  { unfold process_emphasis. rewrite Ed. unfold bot. destruct ds2 as [|d ds2]; cbn [hd_error option_map].
    - rewrite app_nil_r. reflexivity.
    - rewrite split_label by exact Hd. reflexivity. }
  rewrite Ep in K |- *. clear Ep. destruct (pe_loop _ ds2 (rev ds1) _ _) as [(stack & ign)|e] eqn:P; cbn [bind] in *; [|discriminate]. clear K st2.
  assert (Hr' : Forall fresh (rev rs)) by (apply Forall_rev; exact Hr). pose proof (sim_rev _ _ _ Hs) as Hs'.
  destruct Hc as [->|Hc].
  - rewrite app_nil_r in *. destruct (pair_sim (kind_of rs) (kind_agreeing rs Hua) (covered (s_ignore st)) _ _ _ _ _ _ _ [] (rev rs) P) as (out & Pd & C).
    + split; [constructor|]. split; [exact Hs'|]. split; [constructor|]. split; [|split; [exact I|split; [apply desc_rev; exact Hd|split; [|split; [|split; [|split]]]]]].
      * apply (sim_forall mute (fun r => In r rs /\ delimiter (r_char r)) _ (rev ds1) (rev rs)); [|exact Hs'|].
        -- intros d r (_ & _ & A3 & A4 & A5 & A6 & _) (W & D). split; [|rewrite A3; exact D]. intros X. exists r. rewrite <- A3. auto 8.
        -- rewrite Forall_forall in *. intros r Hin. split; [apply in_rev; exact Hin|apply Hr'; exact Hin].
      * apply Forall_forall. intros; constructor.
      * intros i b o c Hb. discriminate.
      * eapply Forall_impl; [|exact Hr']. intros r Hx. apply Hx.
      * intros i b Hb. discriminate.
      * intros i. cbn [app]. rewrite fresh_none by exact Hr'. rewrite orb_false_r. reflexivity.
    + exists out, ign. split; [exact Pd|]. split; [|exact C]. cbn [bot hd_error option_map]. rewrite drop_none. reflexivity.
  - assert (Ab : forall l, (forall x, In x l -> In x ds1) -> Forall (above bot) l).
    { intros l Hl. apply Forall_forall. intros x Hx. unfold bot, above. destruct ds2 as [|d ds2]; cbn; [exact I|]. apply (desc_below ds1 (d :: ds2) Hd); [apply Hl; exact Hx|left; reflexivity]. }
    destruct (pair_settled (covered (s_ignore st)) ds2 bot eq_refl _ [] (rev ds1) _ _ _ _ [] (rev rs) P) as (out & l & Pd & -> & Al & C).
    + reflexivity.
    + constructor.
    + exact Hs'.
    + constructor.
    + apply Forall_rev. exact Hf.
    + constructor.
    + apply Ab. intros x Hx. apply in_rev. exact Hx.
    + eapply Forall_impl; [|exact Hr']. intros r Hx. apply Hx.
    + exact Hc.
    + intros i. cbn [app]. rewrite fresh_none by exact Hr'. rewrite orb_false_r. reflexivity.
    + exists out, ign. split; [exact Pd|]. split; [|exact C]. rewrite (drop_label bot ds2 l eq_refl Al). reflexivity.
Qed.

(** ** Scanning *)
Lemma text_cons t ts : text_of (t :: ts) = spelt t ++ text_of ts.
Proof. reflexivity. Qed.
Lemma token_head E g a it t ts out : zs_ascii E -> scans E g a it (t :: ts) out -> no_words (t :: ts) -> exists c b, text_of (t :: ts) = c :: b /\ special_char c = true /\ cm_space E c = false.
Proof.
  intros Hz H Hn. assert (K : forall c b, ascii_punct c = true -> special_char c = true -> text_of (t :: ts) = c :: b -> exists c b, text_of (t :: ts) = c :: b /\ special_char c = true /\ cm_space E c = false).
  { intros c b Hc Hs He. exists c, b. split; [exact He|]. split; [exact Hs|apply ascii_punct_not_space; assumption]. }
  inversion H; subst; try (eapply K; [| |reflexivity]; reflexivity).
  - destruct Hn.
  - destruct n as [|n]; [lia|]. eapply K; [| |reflexivity]; reflexivity.
  - destruct n as [|n]; [lia|]. eexists _, _. split; [reflexivity|]. split; [apply delim_special; assumption|apply delim_not_space; assumption].
  - destruct n as [|n]; [lia|]. eapply K; [| |reflexivity]; reflexivity.
  - destruct x as [[w|n at_ tl sl|n tl|w|w|n gp w|w]|u (l & ls)|sc r]; try (eapply K; [| |reflexivity]; reflexivity). match goal with X : genuine _ |- _ => destruct X as (_ & X); exfalso; apply (X w); reflexivity end.
Qed.
Definition ready (ch : chunk) (a : str) (it : list item) (st : subject) : Prop :=
  inv anywhere ch st /\ stands (s_delims st) (s_brackets st) it /\ ordered (s_brackets st) /\
  desc (s_delims st) /\ Forall (fun d => d_start d < length a) (s_delims st) /\ Forall fresh (runs_of it) /\ underscores_agree (runs_of it).
Definition finishes (E : env) (ch : chunk) (st : subject) (out : list run) : Prop :=
  exists st1 st2, runs E ch st st1 /\ c_len ch <= s_pos st1 /\ process_emphasis st1 None = Ok st2 /\ forall i, covered (s_ignore st2) i = covered (s_ignore st) i || existsb (gone i) out.
Lemma finish ch a it st out : ready ch a it st -> paired [] (rev (runs_of it)) out -> exists st2, process_emphasis st None = Ok st2 /\ forall i, covered (s_ignore st2) i = covered (s_ignore st) i || existsb (gone i) out.
Proof.
  intros (Iv & Hs & _ & Hd & _ & Hr & Hua) Hp. destruct (label_done ch st (s_delims st) [] (runs_of it)) as (out' & ign & P & K & C).
  - exact Iv.
  - rewrite app_nil_r. reflexivity.
  - rewrite app_nil_r. exact Hd.
  - eapply stands_sim. exact Hs.
  - eapply stands_flags. exact Hs.
  - exact Hr.
  - exact Hua.
  - left. reflexivity.
  - cbn [hd_error option_map] in K. rewrite (paired_unique _ _ _ Hp _ P). eexists. split; [exact K|]. exact C.
Qed.
Lemma finishes_later E ch st st1 out : runs E ch st st1 -> s_ignore st1 = s_ignore st -> finishes E ch st1 out -> finishes E ch st out.
Proof. intros R Hi (s1 & s2 & R1 & L & P & C). exists s1, s2. split; [eapply runs_trans; eassumption|]. split; [exact L|]. split; [exact P|]. rewrite <- Hi. exact C. Qed.
Lemma ready_same ch a b it st st' : inv anywhere ch st' -> s_delims st' = s_delims st -> s_brackets st' = s_brackets st -> ready ch a it st -> ready ch (a ++ b) it st'.
Proof.
  intros Iv Ed Eb (_ & H3 & H4 & H5 & H6 & H7). unfold ready. rewrite Ed, Eb. split; [exact Iv|]. split; [exact H3|]. split; [exact H4|]. split; [exact H5|]. split; [|exact H7].
  eapply Forall_impl; [|exact H6]. intros d Hd. cbn beta in Hd. rewrite app_length. lia.
Qed.
Lemma ready_pos ch a b it st n : inv anywhere ch (set_pos st n) -> ready ch a it st -> ready ch (a ++ b) it (set_pos st n).
Proof. intros Iv. apply ready_same; [exact Iv|reflexivity|reflexivity]. Qed.
(** Nothing that was tried in vain hides what is to come: code spans, and what ends with an angle bracket.
    [len] is the length of the whole text. *)
Definition memory (st : subject) : bool * list (nat * nat) * (bool * bool * bool) := (s_scanned st, s_backticks st, flags st).
Definition code_found (len : nat) (st : subject) (ts : list token) : Prop :=
  s_scanned st = false \/
  spread ts /\ forall u n w v, ts = u ++ Piece (Code n w) :: v -> len + n < bt_get (s_backticks st) n + length (text_of (Piece (Code n w) :: v)).
Definition spans_found (len : nat) (st : subject) (ts : list token) : Prop := code_found len st ts /\ told (flags st) (text_of ts).
Lemma spread_later t ts : spread (t :: ts) -> spread ts.
Proof. intros H u n w v m x Eq. apply (H (t :: u)). rewrite Eq. reflexivity. Qed.
Lemma code_later len st st' t ts : s_scanned st' = s_scanned st -> s_backticks st' = s_backticks st -> code_found len st (t :: ts) -> code_found len st' ts.
Proof.
  intros E1 E2 [H|(H & K)]; [left; congruence|right]. split; [apply spread_later in H; exact H|]. intros u n w v Eq. rewrite E2. apply (K (t :: u)). rewrite Eq. reflexivity.
Qed.
Lemma spans_later len st st' t ts : memory st' = memory st -> spans_found len st (t :: ts) -> spans_found len st' ts.
Proof.
  intros Es (H & K). unfold memory in Es. injection Es as E1 E0 E2 E3 E4. split; [eapply code_later; eassumption|].
  rewrite text_cons in K. apply told_part in K. unfold flags in *. rewrite E2, E3, E4. exact K.
Qed.
Lemma peek_hd E ch a b : scanned E ch -> c_data ch = a ++ b -> forall k, hd 0%N b <> k -> peek_is ch (length a) k = false.
Proof.
  intros Hs Hd k Hk. unfold peek_is. destruct (peek ch (length a)) as [x|] eqn:P; [|reflexivity]. apply peek_some in P as (_ & P). rewrite Hd, nth_error_app2, Nat.sub_diag in P by lia.
  destruct b as [|y b]; [discriminate|]. cbn in P, Hk. injection P as ->. apply N.eqb_neq. exact Hk.
Qed.
Lemma label_over E ch a w : zs_ascii E -> scanned E ch -> c_data ch = a ++ w -> (hd 0%N w = 91%N -> In (nth 1 w 0%N) [91; 93]%N) -> ref_label ch (length a) = Ok tt.
Proof.
  intros Hz Hs Hd H. unfold ref_label. change cLB with 91%N. change cRB with 93%N. destruct (N.eq_dec (hd 0%N w) 91) as [Hw|Hw]; [|rewrite (peek_hd E ch a w Hs Hd 91%N Hw); reflexivity].
  destruct (peek_is ch (length a) 91); [|reflexivity]. specialize (H Hw). destruct w as [|x w]; [discriminate|]. cbn in Hw. subst x. destruct w as [|y w]; [cbn in H; intuition discriminate|]. cbn [nth] in H.
  assert (P : peek ch (S (length a)) = Some y).
  { apply (peek_data E); [exact Hs| |apply ascii_punct_not_space; [exact Hz|destruct H as [<-|[<-|[]]]; reflexivity]]. rewrite Hd, nth_error_app2 by lia. replace (S (length a) - length a) with 1 by lia. reflexivity. }
  unfold peek_is. rewrite P. destruct H as [<-|[<-|[]]]; reflexivity.
Qed.
Lemma asleep_runs it : runs_of (asleep it) = runs_of it.
Proof. unfold runs_of, asleep. induction it as [|[r|i act] it IH]; cbn [map flat_map app]; [reflexivity|rewrite IH; reflexivity|destruct i; exact IH]. Qed.
Lemma runs_of_run rs : runs_of (map Run rs) = rs.
Proof. unfold runs_of. induction rs as [|r rs IH]; cbn [map flat_map app]; [reflexivity|rewrite IH; reflexivity]. Qed.
Lemma runs_of_app a b : runs_of (a ++ b) = runs_of a ++ runs_of b.
Proof. unfold runs_of. apply flat_map_app. Qed.
Lemma angle_ends x : genuine x -> exists k, show_angle x = 60%N :: k ++ [62%N].
Proof.
  intros H. assert (K : forall k, exists k', 60%N :: k ++ [62%N] = 60%N :: k' ++ [62%N]) by eauto. destruct x as [[w|n at_ tl sl|n tl|w|w|n gp w|w]|u (l & ls)|sc r]; cbn [show_angle HtmlSpec.show].
  - destruct H as (_ & H). exfalso. apply (H w). reflexivity.
  - rewrite !app_assoc. eauto.
  - exists (47%N :: n ++ tl). cbn [app]. rewrite <- app_assoc. reflexivity.
  - exists (lit "!--" ++ w ++ lit "--"). rewrite <- !app_assoc. reflexivity.
  - exists (63%N :: w ++ [63%N]). cbn [app]. rewrite <- app_assoc. reflexivity.
  - exists (33%N :: n ++ gp ++ w). cbn [app]. rewrite <- !app_assoc. reflexivity.
  - exists (lit "![CDATA[" ++ w ++ lit "]]"). rewrite <- !app_assoc. reflexivity.
  - exists (u ++ 64%N :: l ++ flat_map (fun l => 46%N :: l) ls). rewrite <- app_assoc. cbn [app]. rewrite <- app_assoc. reflexivity.
  - exists (sc ++ 58%N :: r). rewrite <- app_assoc. reflexivity.
Qed.
Lemma code_shape E g a it ts out : scans E g a it ts out -> forall m w v u, ts = u ++ Piece (Code m w) :: v -> 1 <= m <= 1000 /\ hd 96%N w <> 96%N /\ last w 96%N <> 96%N /\ hd 0%N (text_of v) <> 96%N.
Proof.
  induction 1; intros m0 w0 v0 u0 Eq; (destruct u0 as [|t0 u0]; [try discriminate; injection Eq; intros; subst; auto|try discriminate; injection Eq; intros; eauto]).
Qed.
Lemma code_size E g a it ts out : scans E g a it ts out -> forall m w, In (Piece (Code m w)) ts -> 1 <= m.
Proof. intros H m w X. apply in_split in X as (u & v & ->). destruct (code_shape _ _ _ _ _ _ H m w v u eq_refl) as (K & _). lia. Qed.
Lemma scans_finish E s : zs_ascii E -> entity_tables E -> ~ In 0%N s -> let ch := trimmed E s in forall a it ts out, scans E (calm E) a it ts out -> s = a ++ text_of ts ->
  forall st, s_pos st = length a -> length a <= c_len ch -> ready ch a it st -> spans_found (length s) st ts -> finishes E ch st out.
Proof.
  intros Hz Het H0 ch a it ts out H. pose proof (scanned_trimmed E s) as Hsc. fold ch in Hsc.
  assert (Close : forall a b st, s = a ++ 93%N :: b -> s_pos st = length a -> peek ch (length a) = Some 93%N /\ parse_inline E ch st 93%N = handle_close_bracket E ch st).
  { intros a0 b st Es _. split; [|reflexivity]. apply (peek_data E); [exact Hsc| |apply ascii_punct_not_space; [exact Hz|reflexivity]]. change (c_data ch) with s. rewrite Es, nth_error_app2, Nat.sub_diag by lia. reflexivity. }
  assert (Open : forall a b st, s = a ++ 91%N :: b -> s_pos st = length a ->
    runs E ch st (set_brackets (set_pos st (S (length a))) (mkBracket (option_map d_start (hd_error (s_delims st))) true :: s_brackets st)) /\ S (length a) <= c_len ch).
  { intros a0 b st Es Hp. assert (P : peek ch (length a0) = Some 91%N).
    { apply (peek_data E); [exact Hsc| |apply ascii_punct_not_space; [exact Hz|reflexivity]]. change (c_data ch) with s. rewrite Es, nth_error_app2, Nat.sub_diag by lia. reflexivity. }
    split; [|apply peek_some in P; lia]. eapply runs_step; [rewrite Hp; exact P| |constructor]. rewrite <- Hp. reflexivity. }
  assert (Opened : forall a b it st i, ready ch a it st -> inv anywhere ch (set_brackets (set_pos st (S (length a))) (mkBracket (option_map d_start (hd_error (s_delims st))) true :: s_brackets st)) ->
    ready ch (a ++ b) (Bracket i true :: it) (set_brackets (set_pos st (S (length a))) (mkBracket (option_map d_start (hd_error (s_delims st))) true :: s_brackets st))).
  { intros a0 b it0 st i (_ & H3 & H4 & H5 & H6 & H7) Iv. split; [exact Iv|]. split; [apply stands_bracket; exact H3|]. split; [split; [exact H4|discriminate]|]. split; [exact H5|].
    split; [|exact H7]. eapply Forall_impl; [|exact H6]. intros d Hd. cbn beta in Hd. rewrite app_length. lia. }
  assert (Words : forall a w ts it out st, Forall inert w -> no_words ts -> s = a ++ w ++ text_of ts -> s_pos st = length a -> length a <= c_len ch -> ready ch a it st -> scans E (calm E) (a ++ w) it ts out ->
    (forall st', s_pos st' = length (a ++ w) -> length (a ++ w) <= c_len ch -> ready ch (a ++ w) it st' -> memory st' = memory st -> finishes E ch st' out) -> finishes E ch st out).
  { clear a it ts out H. intros a w ts it out st Hw2 Hnw Hdt Hp0 Hle Rd Hr IH. change s with (c_data ch) in Hdt. destruct ts as [|t ts].
    + assert (Hp : paired [] (rev (runs_of it)) out) by (inversion Hr; assumption).
      assert (R : runs E ch st (set_pos st (Nat.min (length a + length w) (c_len ch)))) by (apply (runs_text E ch st a w [] Hsc Hdt Hp0 Hw2); [discriminate|exact Hle|congruence]).
      destruct (finish ch (a ++ w) it (set_pos st (Nat.min (length a + length w) (c_len ch))) out) as (st2 & K & C); [apply ready_pos; [eapply runs_inv; [exact R|apply Rd]|exact Rd]|exact Hp|].
      exists (set_pos st (Nat.min (length a + length w) (c_len ch))), st2. split; [exact R|]. split; [|split; assumption].
      cbn [s_pos set_pos]. pose proof (proj1 Hsc) as L. rewrite Hdt in L. cbn [text_of flat_map] in L. rewrite app_nil_r, app_length in L. apply Nat.min_glb; [exact L|apply Nat.le_refl].
    + destruct (token_head E _ _ _ t ts out Hz Hr Hnw) as (x & b & Eb & Sx & Spx).
      assert (Lt : length a + length w < c_len ch).
      { rewrite <- app_length. apply (in_scan E ch (a ++ w) x b Hsc); [rewrite <- app_assoc, <- Eb; exact Hdt|exact Spx]. }
      assert (R : runs E ch st (set_pos st (length a + length w))).
      { replace (length a + length w) with (Nat.min (length a + length w) (c_len ch)) by lia. apply (runs_text E ch st a w (text_of (t :: ts)) Hsc Hdt Hp0 Hw2).
        - intros y b' X. rewrite Eb in X. injection X as <- _. exact Sx.
        - exact Hle.
        - intros _. exact Lt. }
      apply (finishes_later E ch st _ out R); [reflexivity|]. apply IH; [cbn; rewrite app_length; reflexivity|rewrite app_length; lia| |reflexivity]. apply ready_pos; [eapply runs_inv; [exact R|apply Rd]|exact Rd]. }
  induction H as [a it out Hp|a it w ts out Hw1 Hw2 Hnw Hex Hr IH|a it c ts out Hc Hr IH|a it n w ts out Hn Hw1 Hw2 Hw4 Hw3 Hp Hr IH|a it c n o cl ts out Hc Hn Hhd Ho Hcl How Hr IH|a it ts out Hr IH|a it ts out Hr IH|a rs ts out Hr IH|a rs image active it ts out Hact Hr IH|a rs image it d ts inner out Hd Hg Hpi Hr IH|a it n ts out Hn Hp Hno Hg Hr IH|a it ts out Hp Hr IH|a it w ts out Hw2 Hpd Hnw Hex Hr IH|a it ts out Hlo Hmi Hr IH|a it x ts out Hgx Hg Hr IH];
    intros Es st Hp0 Hle Rd Hs; pose proof Rd as (Iv & Hst & Hord & Hds & Hlt & Hfr); rewrite ?text_cons in Es; cbn [spelt] in Es.
  - destruct (finish ch a it st out Rd Hp) as (st2 & K & C). exists st, st2. split; [constructor|]. split; [|split; assumption]. cbn [text_of flat_map] in Es. rewrite app_nil_r in Es. rewrite Hp0, <- Es. apply trimmed_len.
  - cbn [spell1] in Es. apply (Words a w ts it out st); try assumption. intros st' R1 R2 R3 R4. apply IH; [rewrite <- app_assoc; exact Es|exact R1|exact R2|exact R3|]. eapply spans_later; [exact R4|exact Hs].
  - assert (Pc : ascii_punct c = true) by (apply ascii_punct_iff; exact Hc).
    assert (D0 : nth_error (c_data ch) (length a) = Some 92%N) by (change (c_data ch) with s; rewrite Es, nth_error_app2, Nat.sub_diag by lia; reflexivity).
    assert (D1 : nth_error (c_data ch) (S (length a)) = Some c).
    { change (c_data ch) with s. rewrite Es, nth_error_app2 by lia. replace (S (length a) - length a) with 1 by lia. reflexivity. }
    assert (P1 : peek ch (S (length a)) = Some c) by (apply (peek_data E); [exact Hsc|exact D1|apply ascii_punct_not_space; assumption]).
    assert (P0 : peek ch (length a) = Some 92%N) by (apply (peek_data E); [exact Hsc|exact D0|apply ascii_punct_not_space; [exact Hz|reflexivity]]).
    destruct (peek_some _ _ _ P1) as (L1 & _).
    assert (R : runs E ch st (set_pos st (S (S (length a))))).
    { eapply runs_step; [rewrite Hp0; exact P0| |constructor]. change (parse_inline E ch st 92%N) with (Ok (handle_backslash ch st)). rewrite (handle_bs ch st c) by (rewrite ?Hp0; assumption). rewrite Hp0. reflexivity. }
    apply (finishes_later E ch st _ out R); [reflexivity|]. apply IH; [rewrite <- app_assoc; exact Es|cbn; rewrite app_length; cbn; lia|rewrite app_length; cbn [spell1 length]; lia| |eapply spans_later; [|exact Hs]; reflexivity]. apply ready_pos; [eapply runs_inv; eassumption|exact Rd].
  - cbn [spell1] in Es. rewrite <- !app_assoc in Es. assert (Hw2' : last w 0%N <> 96%N).
    { destruct w as [|x w]; [cbn in Hw1; congruence|]. destruct (exists_last (l := x :: w) ltac:(discriminate)) as (w' & y & Ew). rewrite Ew in *. rewrite last_last in *. exact Hw2. }
    assert (Ls : length s = length a + length (text_of (Piece (Code n w) :: ts))) by (rewrite Es, text_cons; cbn [spelt spell1]; rewrite <- !app_assoc, app_length; reflexivity).
    assert (Hsn : s_scanned st = false \/ length a + n < bt_get (s_backticks st) n) by (destruct Hs as ([Hs|(_ & Hs)] & _); [left; exact Hs|right; pose proof (Hs [] n w ts eq_refl); lia]).
    destruct (handle_code_kept E a n w (text_of ts) st Hz Hn Hw1 Hw2' Hw4 Hw3 Hp) as (bt & Hb & Hk); [exact Hp0|exact Hsn|]. pose proof (code_len E a w (text_of ts) n Hz Hn Hw1 Hw2' Hp) as CL. rewrite <- Es in Hb, CL. fold ch in Hb, CL.
    assert (La : length (a ++ spell1 (Code n w)) = length a + n + length w + n) by (rewrite app_length; cbn [spell1]; rewrite !app_length, !repeat_length; lia).
    assert (R : runs E ch st (set_ticks (set_pos st (length a + n + length w + n)) bt (s_scanned st))).
    { eapply (runs_step E ch st 96%N); [|exact Hb|constructor].
      rewrite Hp0. apply (peek_data E); [exact Hsc| |apply ascii_punct_not_space; [exact Hz|reflexivity]]. change (c_data ch) with s. rewrite Es, nth_error_app2, Nat.sub_diag by lia. destruct n; [lia|reflexivity]. }
    apply (finishes_later E ch st _ out R); [reflexivity|]. apply IH; [cbn [spell1]; rewrite <- !app_assoc; exact Es|cbn [s_pos set_ticks set_pos]; rewrite La; reflexivity|rewrite La; lia| |].
    2:{ destruct Hs as (Hs & Hs'). split; [|rewrite text_cons in Hs'; apply told_part in Hs'; exact Hs']. destruct Hs as [Hs|(Hs & Hv)]; [left; exact Hs|right]. split; [apply spread_later in Hs; exact Hs|].
        intros u m x v Eq. assert (Hc : In (Piece (Code m x)) ts) by (rewrite Eq; apply in_or_app; right; left; reflexivity). destruct (Hs [] n w ts m x eq_refl Hc) as (Hm & Hx). cbn [s_backticks set_ticks].
        rewrite Hk; [|apply (code_size _ _ _ _ _ _ Hr m x Hc)|exact Hm|exact Hx]. apply (Hv (Piece (Code n w) :: u)). rewrite Eq. reflexivity. }
    split; [eapply runs_inv; eassumption|]. split; [exact Hst|]. split; [exact Hord|]. split; [exact Hds|]. split; [|exact Hfr]. eapply Forall_impl; [|exact Hlt]. intros x Hx. cbn beta in Hx. rewrite La. lia.
  - cbn [spell1] in Es. assert (Hdt : c_data ch = a ++ repeat c n ++ text_of ts) by exact Es.
    assert (La : length (a ++ repeat c n) = length a + n) by (rewrite app_length, repeat_length; reflexivity).
    destruct How as (Ht & How). cbn [r_char] in Ht, How. apply unmistaken_flags in Ht.
    destruct (span_run E ch a c n (text_of ts) Hsc Hz Hc Hdt Hhd) as (_ & Lc). specialize (Lc Hn).
    pose proof (bool_iff_eq _ _ _ (opens_iff E c (last a 10%N) (hd 10%N (text_of ts))) Ho) as Eo. pose proof (bool_iff_eq _ _ _ (closes_iff E c (last a 10%N) (hd 10%N (text_of ts))) Hcl) as Ec.
    assert (Fr : fresh (mkRun (length a) c n o cl 0 0)).
    { split; [exact Hc|]. split; reflexivity. }
    assert (Frs : Forall fresh (runs_of (Run (mkRun (length a) c n o cl 0 0) :: it)) /\ underscores_agree (runs_of (Run (mkRun (length a) c n o cl 0 0) :: it))).
    { cbn [runs_of flat_map app]. destruct Hfr as (Hfr & Hua). split; [constructor; [exact Fr|exact Hfr]|]. destruct (N.eq_dec c 95) as [X|X]; [exact (How X)|apply agree_star; [exact X|exact Hua]]. }
    assert (Lt' : Forall (fun x => d_start x < length (a ++ repeat c n)) (s_delims st)) by (eapply Forall_impl; [|exact Hlt]; intros x Hx; cbn beta in Hx; rewrite La; lia).
    destruct (o || cl) eqn:Oc.
    + pose proof (delim_step E ch st a c n (text_of ts) Hsc Hz Hc Hdt Hn Hhd Ht Hp0 o cl Eo Ec Oc) as R. set (d := mkDelim (length a) (length a + n) c n o cl n 0) in *.
      apply (finishes_later E ch st _ out R); [reflexivity|]. apply IH; [rewrite <- app_assoc; exact Es|cbn; rewrite La; reflexivity|rewrite La; lia| |eapply spans_later; [|exact Hs]; reflexivity].
      split; [eapply runs_inv; eassumption|]. split; [|split; [exact Hord|split; [|split]]].
      * apply stands_live; [|exact Oc|exact Hst]. unfold same, d, r_left. cbn [d_start d_end d_char d_len d_open d_close d_num d_off r_start r_char r_size r_opens r_closes r_closed r_opened]. repeat split; lia.
      * cbn [s_delims set_delims desc]. split; [exact Hlt|exact Hds].
      * constructor; [cbn [d d_start]; rewrite La; lia|exact Lt'].
      * exact Frs.
    + assert (R : runs E ch st (set_pos st (length a + n))).
      { eapply runs_step; [|apply parse_delim; exact Hc|].
        - rewrite Hp0. apply (peek_data E); [exact Hsc| |apply delim_not_space; assumption]. rewrite Hdt, nth_error_app2, Nat.sub_diag by lia. destruct n; [lia|reflexivity].
        - unfold handle_delim. rewrite Hp0, (scan_run E ch a c n (text_of ts) Hsc Hz Hc Hdt Hn Hhd Ht), Eo, Ec, Oc. constructor. }
      apply (finishes_later E ch st _ out R); [reflexivity|]. apply IH; [rewrite <- app_assoc; exact Es|cbn; rewrite La; reflexivity|rewrite La; lia| |eapply spans_later; [|exact Hs]; reflexivity].
      split; [eapply runs_inv; eassumption|]. split; [|split; [exact Hord|split; [exact Hds|split; [exact Lt'|]]]].
      * apply stands_dead; [|exact Hst]. left. apply orb_false_iff in Oc. exact Oc.
      * exact Frs.
  - destruct (Open a (text_of ts) st Es Hp0) as (R & L). apply (finishes_later E ch st _ out R); [reflexivity|]. apply IH; [rewrite <- app_assoc; exact Es|cbn; rewrite app_length; cbn; lia|rewrite app_length; cbn [length]; lia| |eapply spans_later; [|exact Hs]; reflexivity].
    apply Opened; [exact Rd|]. eapply runs_inv; eassumption.
  - assert (Es' : s = (a ++ [33%N]) ++ 91%N :: text_of ts) by (rewrite <- app_assoc; exact Es). assert (L0 : length (a ++ [33%N]) = S (length a)) by (rewrite app_length; cbn; lia).
    assert (P : peek ch (length a) = Some 33%N).
    { apply (peek_data E); [exact Hsc| |apply ascii_punct_not_space; [exact Hz|reflexivity]]. change (c_data ch) with s. rewrite Es, nth_error_app2, Nat.sub_diag by lia. reflexivity. }
    assert (R0 : runs E ch st (set_pos st (S (length a)))) by (eapply runs_step; [rewrite Hp0; exact P| |constructor]; rewrite <- Hp0; reflexivity).
    destruct (Open (a ++ [33%N]) (text_of ts) (set_pos st (S (length a))) Es') as (R & L); [cbn; lia|]. pose proof (runs_trans _ _ _ _ _ R0 R) as R1.
    apply (finishes_later E ch st _ out R1); [reflexivity|]. apply IH; [rewrite <- app_assoc; exact Es|cbn [s_pos set_brackets set_pos]; rewrite L0, app_length; cbn; lia|rewrite L0 in L; rewrite app_length; cbn [length]; lia| |eapply spans_later; [|exact Hs]; reflexivity].
    change [33%N; 91%N] with ([33%N] ++ [91%N]). rewrite app_assoc. apply Opened.
    + apply ready_pos; [eapply runs_inv; eassumption|exact Rd].
    + eapply runs_inv; eassumption.
  - destruct (Close a (text_of ts) st Es Hp0) as (P & PI). pose proof (stands_no_bracket _ _ _ Hst) as Nb.
    assert (R : runs E ch st (set_pos st (S (length a)))).
    { eapply runs_step; [rewrite Hp0; exact P| |constructor]. rewrite PI. unfold handle_close_bracket. cbn [s_brackets set_pos]. rewrite Nb, Hp0. reflexivity. }
    apply peek_some in P as (L & _). apply (finishes_later E ch st _ out R); [reflexivity|]. apply IH; [rewrite <- app_assoc; exact Es|cbn; rewrite app_length; cbn; lia|rewrite app_length; cbn [length]; lia| |eapply spans_later; [|exact Hs]; reflexivity]. apply ready_pos; [eapply runs_inv; eassumption|exact Rd].
  - destruct (Close a (text_of ts) st Es Hp0) as (P & PI). destruct (stands_split _ _ _ _ _ _ Hst) as (ds1 & ds2 & bs2 & Ed & Eb & Sm & Fl & Hst2).
    assert (Es' : c_data ch = (a ++ [93%N]) ++ text_of ts) by (rewrite <- app_assoc; exact Es). assert (La : length (a ++ [93%N]) = S (length a)) by (rewrite app_length; cbn; lia).
    assert (R : runs E ch st (set_brackets (set_pos st (S (length a))) bs2)).
    { eapply runs_step; [rewrite Hp0; exact P| |constructor]. rewrite PI. unfold handle_close_bracket. cbn [s_brackets set_pos]. rewrite Eb. cbn [b_active]. rewrite Hp0. destruct active; [|reflexivity]. cbn [negb].
      destruct Hact as [X|(_ & Hb)]; [discriminate|]. cbn [s_pos set_pos]. rewrite <- La. unfold ch at 1. rewrite (no_link E s (a ++ [93%N]) (text_of ts) Hz Es' Hb). cbn [bind].
      replace (ref_label ch (length (a ++ [93%N]))) with (Ok tt); [reflexivity|]. destruct Hb as (_ & _ & _ & Hb). symmetry. exact (label_over E ch _ _ Hz Hsc Es' Hb). }
    apply peek_some in P as (L & _). apply (finishes_later E ch st _ out R); [reflexivity|]. apply IH; [rewrite <- app_assoc; exact Es|cbn; rewrite app_length; cbn; lia|rewrite app_length; cbn [length]; lia| |eapply spans_later; [|exact Hs]; reflexivity].
    split; [eapply runs_inv; eassumption|]. split; [|split; [|split; [exact Hds|split]]].
    + cbn [s_delims s_brackets set_brackets set_pos]. rewrite Ed. apply stands_join; assumption.
    + rewrite Eb in Hord. apply Hord.
    + eapply Forall_impl; [|exact Hlt]. intros x Hx. cbn beta in Hx. rewrite La. lia.
    + rewrite runs_of_app in *. cbn [runs_of flat_map app] in Hfr. exact Hfr.
  - destruct (Close a ([40%N] ++ show_target d ++ [41%N] ++ text_of ts) st) as (P & PI); [rewrite Es; cbn [spelt]; cbn [app]; rewrite <- !app_assoc; reflexivity|exact Hp0|].
    destruct (stands_split _ _ _ _ _ _ Hst) as (ds1 & ds2 & bs2 & Ed & Eb & Sm & Fl & Hst2). destruct Hg as (Hg1 & Hg2 & Hg3).
    assert (Ed' : c_data ch = a ++ spelt (LinkTo d) ++ text_of ts) by (change (c_data ch) with s; rewrite Es; reflexivity).
    pose proof (link_found E ch a d (text_of ts) Hsc Hz Hd Hg3 Ed') as Lf. set (e := length a + length (spelt (LinkTo d))) in *.
    assert (Le : e <= c_len ch).
    { assert (X : c_data ch = (a ++ [93; 40]%N ++ show_target d) ++ 41%N :: text_of ts) by (rewrite Ed'; cbn [spelt]; rewrite <- !app_assoc; reflexivity).
      pose proof (in_scan E ch _ _ _ Hsc X ltac:(apply ascii_punct_not_space; [exact Hz|reflexivity])) as Y. unfold e. cbn [spelt]. rewrite !app_length in *. cbn [length] in *. lia. }
    assert (Iv' : inv anywhere ch (set_pos st e)).
    { exact Iv. }
    rewrite runs_of_app in Hfr. cbn [runs_of flat_map app] in Hfr. fold (runs_of (map Run rs)) (runs_of it) in Hfr. rewrite runs_of_run in Hfr. destruct Hfr as (Hfr & Hua). apply Forall_app in Hfr as (Hfr1 & Hfr2).
    assert (Hua1 : underscores_agree rs) by (apply (agree_incl _ _ Hua); intros x Hx; apply in_or_app; left; exact Hx). assert (Hua2 : underscores_agree (runs_of it)) by (apply (agree_incl _ _ Hua); intros x Hx; apply in_or_app; right; exact Hx). rewrite Ed in Hds, Hlt.
    destruct (label_done ch (set_pos st e) ds1 ds2 rs) as (inner' & ign & Pi & K & C); try assumption.
    { destruct Hg1 as [Hg1|Hg1]; [left|right; exact Hg1]. pose proof (stands_sim _ _ _ Hst2) as X. rewrite Hg1 in X. inversion X. reflexivity. }
    assert (inner' = inner) as -> by (first [apply (paired_unique _ _ _ Hpi); exact Pi|symmetry; apply (paired_unique _ _ _ Hpi); exact Pi]).
    set (st1 := set_brackets (set_ignore (set_delims (set_pos st e) ds2) ign) (deactivate bs2)).
    assert (R : runs E ch st st1).
    { eapply runs_step; [rewrite Hp0; exact P| |constructor]. rewrite PI. unfold handle_close_bracket. cbn [s_brackets set_pos]. rewrite Eb. cbn [b_active negb]. rewrite Hp0. cbn [s_pos set_pos].
      rewrite Lf. cbn [bind b_prevdelim]. change (set_pos (set_pos st (S (length a))) e) with (set_pos st e). rewrite K. reflexivity. }
    destruct (IH ltac:(rewrite <- app_assoc; exact Es) st1) as (s1 & s2 & R1 & L1 & K1 & C1); [| | |eapply spans_later; [|exact Hs]; reflexivity|].
    + cbn. unfold e. rewrite app_length. reflexivity.
    + unfold e in Le. rewrite app_length. exact Le.
    + split; [eapply runs_inv; eassumption|]. split; [|split; [|split; [|split]]].
      * cbn [st1 s_delims s_brackets set_brackets set_ignore set_delims]. apply stands_asleep; [rewrite Eb in Hord; apply Hord|exact Hst2|exact Hg2].
      * apply asleep_ordered. apply deactivate_all. rewrite Eb in Hord. apply Hord.
      * apply desc_app in Hds. exact Hds.
      * apply Forall_app in Hlt as (_ & Hlt). eapply Forall_impl; [|exact Hlt]. intros x Hx. cbn beta in Hx. rewrite app_length. lia.
      * destruct image; [|rewrite asleep_runs]; (split; [exact Hfr2|exact Hua2]).
    + exists s1, s2. split; [eapply runs_trans; eassumption|]. split; [exact L1|]. split; [exact K1|]. intros i. rewrite C1. cbn [st1 s_ignore set_brackets set_ignore]. rewrite C, existsb_app. cbn [s_ignore set_pos]. rewrite orb_assoc. reflexivity.
  - cbn [spelt] in Es. assert (Hdt : c_data ch = a ++ repeat 96%N n ++ text_of ts) by exact Es. assert (La : length (a ++ repeat 96%N n) = length a + n) by (rewrite app_length, repeat_length; reflexivity).
    destruct (still_ticks_told E ch st a n (text_of ts) Hsc Hz Hdt Hn Hp Hno Hp0) as (Lc & Hb).
    assert (P : peek ch (s_pos st) = Some 96%N) by (rewrite Hp0; apply (peek_data E); [exact Hsc| |apply ascii_punct_not_space; [exact Hz|reflexivity]]; rewrite Hdt, nth_error_app2, Nat.sub_diag by lia; destruct n; [lia|reflexivity]).
    assert (Ls : length s = length a + n + length (text_of ts)) by (rewrite Es, !app_length, repeat_length; lia).
    assert (R : exists st', runs E ch st st' /\ s_pos st' = length a + n /\ s_delims st' = s_delims st /\ s_brackets st' = s_brackets st /\ s_ignore st' = s_ignore st /\ flags st' = flags st /\ code_found (length s) st' ts).
    { destruct Hb as [Hb|(bt & Hb & Hk)]; (eexists; split; [eapply runs_step; [exact P|exact Hb|constructor]|]); (repeat (split; [reflexivity|])).
      - destruct Hs as (Hs & _). eapply code_later; [reflexivity|reflexivity|exact Hs].
      - right. split; [exact Hg|]. intros u m w v Eq. cbn [s_backticks set_ticks]. assert (Eq' := Eq). rewrite Eq' in Hr. destruct (code_shape _ _ _ _ _ _ Hr m w v u eq_refl) as (Hm & Hw1 & Hw2 & Hw3).
        assert (Lc' : length (text_of ts) = length (text_of u) + length (text_of (Piece (Code m w) :: v))) by (rewrite Eq; unfold text_of; rewrite flat_map_app, app_length; reflexivity).
        specialize (Hk m (text_of u ++ repeat 96%N m ++ w) (text_of v) Hm). rewrite text_cons in Lc' |- *. cbn [spelt spell1] in Lc' |- *. rewrite !app_length, !repeat_length in Lc' |- *.
        assert (Hw0 : 1 <= length w) by (destruct w; [cbn in Hw1; congruence|cbn; lia]). enough (length a + n + length (text_of u ++ repeat 96%N m ++ w) <= bt_get bt m) by (rewrite !app_length, repeat_length in *; lia).
        apply Hk; [rewrite Eq; unfold text_of at 1; rewrite flat_map_app; cbn [flat_map spelt spell1]; rewrite <- !app_assoc; reflexivity| |exact Hw3]. rewrite app_assoc, last_app_ne; [|intros ->; cbn in Hw0; lia]. intros X. apply Hw2. rewrite <- X. destruct (exists_last (l := w) ltac:(intros ->; cbn in Hw0; lia)) as (w' & y & ->). rewrite !last_last. reflexivity. }
    destruct R as (st' & R & R1 & R2 & R3 & R4 & R5 & R6). apply (finishes_later E ch st st' out R); [exact R4|]. apply IH; [rewrite <- app_assoc; exact Es|rewrite R1, La; reflexivity|rewrite La; exact Lc| |split; [exact R6|destruct Hs as (_ & Hs); rewrite R5; rewrite text_cons in Hs; apply told_part in Hs; exact Hs]].
    apply (ready_same ch a _ it st st'); [eapply runs_inv; eassumption|exact R2|exact R3|exact Rd].
  - assert (Hdt : c_data ch = a ++ 92%N :: text_of ts) by exact Es. assert (Nl : hd 0%N (text_of ts) <> 10%N /\ hd 0%N (text_of ts) <> 13%N).
    { destruct ts as [|t ts]; [split; discriminate|]. destruct t as [[w|c|n w|c n]| | | |g|n| |w| |x]; try (destruct (token_head E _ _ _ _ ts out Hz Hr I) as (x' & b & -> & _ & Sp); cbn; split; intros ->; unfold cm_space in Sp; apply space_not in Sp; apply Sp; right; cbn; tauto).
      inversion Hr as [|a' it' w' ts' out' Hw1 Hw2 _ _ _| | | | | | | | | | | | | ]; subst. destruct w as [|c w]; [contradiction|]. inversion Hw2 as [|? ? Hc _]; subst. cbn. unfold inert in Hc. tauto. }
    assert (R : runs E ch st (set_pos st (S (length a)))).
    { eapply (runs_step E ch st 92%N); [|change (parse_inline E ch st 92%N) with (Ok (handle_backslash ch st)); rewrite (still_slash E ch st a (text_of ts)) by (assumption || apply Nl); reflexivity|constructor].
      rewrite Hp0. apply (peek_data E); [exact Hsc| |apply ascii_punct_not_space; [exact Hz|reflexivity]]. rewrite Hdt, nth_error_app2, Nat.sub_diag by lia. reflexivity. }
    pose proof (in_scan E ch a _ _ Hsc Hdt ltac:(apply ascii_punct_not_space; [exact Hz|reflexivity])) as L.
    apply (finishes_later E ch st _ out R); [reflexivity|]. apply IH; [rewrite <- app_assoc; exact Es|cbn; rewrite app_length; cbn; lia|rewrite app_length; cbn [length]; lia| |eapply spans_later; [|exact Hs]; reflexivity]. apply ready_pos; [eapply runs_inv; eassumption|exact Rd].
  - assert (Hdt : c_data ch = a ++ 38%N :: w ++ text_of ts) by exact Es. destruct (still_amp E ch st a w (text_of ts) Hsc Hz Het Hdt Hpd) as (u & v & Ew & Lu & Hh).
    { intros y b Eb. destruct ts as [|t ts]; [discriminate|]. destruct (token_head E _ _ _ t ts out Hz Hr Hnw) as (y' & b' & Eb' & S1 & S2). rewrite Eb' in Eb. injection Eb as <- _. auto. }
    { exact Hp0. }
    assert (R : runs E ch st (set_pos st (length (a ++ 38%N :: u)))).
    { eapply (runs_step E ch st 38%N); [|change (parse_inline E ch st 38%N) with (handle_entity E ch st); exact Hh|constructor].
      rewrite Hp0. apply (peek_data E); [exact Hsc| |apply ascii_punct_not_space; [exact Hz|reflexivity]]. rewrite Hdt, nth_error_app2, Nat.sub_diag by lia. reflexivity. }
    apply (finishes_later E ch st _ out R); [reflexivity|]. assert (Eq : a ++ 38%N :: w = (a ++ 38%N :: u) ++ v) by (rewrite Ew, <- app_assoc; reflexivity). rewrite Eq in *.
    apply (Words (a ++ 38%N :: u) v ts it out); try assumption.
    + rewrite Ew in Hw2. apply Forall_app in Hw2. apply Hw2.
    + rewrite app_assoc, <- Eq, <- app_assoc. exact Es.
    + reflexivity.
    + apply ready_pos; [eapply runs_inv; eassumption|exact Rd].
    + intros st' R1 R2 R3 R4. apply IH; [rewrite <- Eq, <- app_assoc; exact Es|exact R1|exact R2|exact R3|]. eapply spans_later; [exact R4|]. exact Hs.
  - assert (Hdt : c_data ch = a ++ 60%N :: text_of ts) by exact Es. destruct (pointy_lone E ch st a (text_of ts) Hsc Hz H0 Hdt Hlo Hmi Hp0) as (f1 & f2 & f3 & Hh & Hfl).
    assert (R : runs E ch st (set_flags (set_pos st (S (length a))) f1 f2 f3)).
    { eapply (runs_step E ch st 60%N); [|change (parse_inline E ch st 60%N) with (handle_pointy_brace E ch st); exact Hh|constructor].
      rewrite Hp0. apply (peek_data E); [exact Hsc| |apply ascii_punct_not_space; [exact Hz|reflexivity]]. rewrite Hdt, nth_error_app2, Nat.sub_diag by lia. reflexivity. }
    pose proof (in_scan E ch a _ _ Hsc Hdt ltac:(apply ascii_punct_not_space; [exact Hz|reflexivity])) as L.
    apply (finishes_later E ch st _ out R); [reflexivity|]. apply IH; [rewrite <- app_assoc; exact Es|cbn; rewrite app_length; cbn; lia|rewrite app_length; cbn [length]; lia| |destruct Hfl as [Hfl|Hfl]; [eapply spans_later; [|exact Hs]; unfold memory; rewrite <- Hfl; reflexivity|split; [|apply Hfl; destruct Hs as (_ & Hs); rewrite text_cons in Hs; apply told_part in Hs; exact Hs]; destruct Hs as (Hs & _); eapply code_later; [reflexivity|reflexivity|exact Hs]]]. eapply ready_same; [eapply runs_inv; eassumption|reflexivity|reflexivity|exact Rd].
  - assert (Hdt : c_data ch = a ++ show_angle x ++ text_of ts) by exact Es. destruct (angle_ends x Hgx) as (k & Ek).
    assert (Hf : told (flags st) (show_angle x ++ text_of ts)) by (destruct Hs as (_ & Hs); rewrite text_cons in Hs; exact Hs).
    destruct (pointy_angle E ch st a x (text_of ts) Hsc Hz H0 Hdt Hgx Hg Hf Hp0) as (f1 & f2 & f3 & Hh & Hfl).
    assert (R : runs E ch st (set_flags (set_pos st (length a + length (show_angle x))) f1 f2 f3)).
    { eapply (runs_step E ch st 60%N); [|change (parse_inline E ch st 60%N) with (handle_pointy_brace E ch st); exact Hh|constructor].
      rewrite Hp0. apply (peek_data E); [exact Hsc| |apply ascii_punct_not_space; [exact Hz|reflexivity]]. rewrite Hdt, Ek, nth_error_app2, Nat.sub_diag by lia. reflexivity. }
    pose proof (in_scan E ch (a ++ 60%N :: k) 62%N (text_of ts) Hsc ltac:(rewrite Hdt, Ek, <- !app_assoc; cbn [app]; rewrite <- app_assoc; reflexivity) ltac:(apply ascii_punct_not_space; [exact Hz|reflexivity])) as L.
    assert (La : length (a ++ show_angle x) <= c_len ch) by (rewrite Ek; rewrite app_length in *; cbn [length] in *; rewrite app_length; cbn [length]; lia).
    apply (finishes_later E ch st _ out R); [reflexivity|]. apply IH; [rewrite <- app_assoc; exact Es|cbn; rewrite app_length; reflexivity|exact La| |eapply spans_later; [|exact Hs]; unfold memory; rewrite <- Hfl; reflexivity]. eapply ready_same; [eapply runs_inv; eassumption|reflexivity|reflexivity|exact Rd].
Qed.

(** ** What is left of the text *)
Fixpoint spots (p : nat) (ts : list token) : list (nat * N * nat) :=
  match ts with
  | [] => []
  | Piece (Marks c n) :: ts' => (p, c, n) :: spots (p + n) ts'
  | t :: ts' => spots (p + length (spelt t)) ts'
  end.
Definition solid (t : token) : Prop := match t with Piece (Marks _ n) => 1 <= n | _ => True end.
Lemma scans_solid E g a it ts out : scans E g a it ts out -> Forall solid ts.
Proof. induction 1; constructor; cbn; auto. Qed.
Lemma scans_shape E g a it ts out : scans E g a it ts out -> Permutation (map shape out) (map shape (runs_of it) ++ spots (length a) ts) /\ (Forall sound (runs_of it) -> Forall sound out).
Proof.
  induction 1 as [a it out Hp|a it w ts out Hw1 Hw2 Hnw Hex Hr IH|a it c ts out Hc Hr IH|a it n w ts out Hn Hw1 Hw2 Hw4 Hw3 Hp Hr IH|a it c n o cl ts out Hc Hn Hhd Ho Hcl How Hr IH|a it ts out Hr IH|a it ts out Hr IH|a rs ts out Hr IH|a rs image active it ts out Hact Hr IH|a rs image it d ts inner out Hd Hg Hpi Hr IH|a it n ts out Hn Hp Hno Hg Hr IH|a it ts out Hp Hr IH|a it w ts out Hw2 Hpd Hnw Hex Hr IH|a it ts out Hlo Hmi Hr IH|a it x ts out Hgx Hg Hr IH];
    cbn [spots spelt]; try (rewrite ?app_length in IH; exact IH).
  - split.
    + rewrite (paired_shape _ _ _ Hp). cbn [rev app]. rewrite app_nil_r, map_rev. symmetry. apply Permutation_rev.
    + intros F. apply (paired_sound _ _ _ Hp); [constructor|apply Forall_rev; exact F].
  - rewrite app_length, repeat_length in IH. destruct IH as (IH1 & IH2). split.
    + rewrite IH1. cbn [runs_of flat_map app map shape r_start r_char r_size]. apply Permutation_middle.
    + intros F. apply IH2. cbn [runs_of flat_map app]. constructor; [unfold sound; cbn; lia|exact F].
  - rewrite runs_of_app in *. rewrite app_length in IH. cbn [runs_of flat_map app]. exact IH.
  - rewrite app_length in IH. destruct IH as (IH1 & IH2). rewrite runs_of_app. cbn [runs_of flat_map app]. fold (runs_of (map Run rs)) (runs_of it). rewrite runs_of_run. split.
    + rewrite !map_app, IH1, (paired_shape _ _ _ Hpi). cbn [rev app]. rewrite map_rev. assert (Er : runs_of (if image then it else asleep it) = runs_of it) by (destruct image; [reflexivity|apply asleep_runs]). rewrite Er.
      rewrite <- app_assoc. apply Permutation_app_tail. symmetry. apply Permutation_rev.
    + intros F. apply Forall_app in F as (F1 & F2). apply Forall_app. split; [apply (paired_sound _ _ _ Hpi); [constructor|apply Forall_rev; exact F1]|]. apply IH2. destruct image; [exact F2|rewrite asleep_runs; exact F2].
Qed.
Lemma spots_from ts : forall p x, In x (spots p ts) -> p <= fst (fst x).
Proof.
  induction ts as [|t ts IH]; intros p x H; [destruct H|]. destruct t as [[w|c|n w|c n]| | | |d|n| |w| |x0]; cbn [spots] in H; try (apply IH in H; lia). destruct H as [<-|H]; [cbn; lia|]. apply IH in H. lia.
Qed.
Lemma find_here (f : run -> bool) l1 r l2 : (forall x, In x l1 -> f x = false) -> f r = true -> find f (l1 ++ r :: l2) = Some r.
Proof. induction l1 as [|x l1 IH]; intros H Hr; cbn [app find]; [rewrite Hr; reflexivity|]. rewrite (H x) by (left; reflexivity). apply IH; [intros y Hy; apply H; right; exact Hy|exact Hr]. Qed.
Definition ended (p : nat) (x : nat * N * nat) : Prop := fst (fst x) < p /\ fst (fst x) + snd x <= p.
Lemma not_gone i out : Forall sound out -> (forall x, In x (map shape out) -> i < fst (fst x) \/ fst (fst x) + snd x <= i) -> existsb (gone i) out = false.
Proof.
  induction out as [|r out IH]; intros S H; [reflexivity|]. inversion S; subst. cbn [existsb]. rewrite IH; [|assumption|intros x Hx; apply H; right; exact Hx]. rewrite orb_false_r.
  destruct (gone i r) eqn:G; [|reflexivity]. apply gone_within in G; [|assumption]. specialize (H (shape r) ltac:(left; reflexivity)). cbn in H. lia.
Qed.
Lemma filter_tokens out ign : Forall sound out -> forall ts p pre, Forall solid ts -> Permutation (map shape out) (pre ++ spots p ts) -> Forall (ended p) pre ->
  (forall i, covered ign i = existsb (gone i) out) -> filter_from p (text_of ts) ign = without leaves out p ts.
Proof.
  intros So. induction ts as [|t ts IH]; intros p pre Hs Hp He Cov; [reflexivity|]. inversion Hs as [|? ? Ht Hs']; subst. rewrite Forall_forall in He.
  assert (Text : spots p (t :: ts) = spots (p + length (spelt t)) ts -> filter_from p (text_of (t :: ts)) ign = spelt t ++ without leaves out (p + length (spelt t)) ts).
  { intros Es. rewrite Es in Hp. rewrite text_cons, filter_from_app. rewrite (IH (p + length (spelt t)) pre); [|exact Hs'|exact Hp| |exact Cov].
    - f_equal. apply filter_none. intros j Hj. rewrite Cov. apply not_gone; [exact So|]. intros x Hx. apply (Permutation_in _ Hp) in Hx. apply in_app_or in Hx as [Hx|Hx].
      + right. specialize (He x Hx). unfold ended in He. lia.
      + left. apply spots_from in Hx. lia.
    - apply Forall_forall. intros x Hx. specialize (He x Hx). unfold ended in *. lia. }
  destruct t as [[w|c|n w|c n]| | | |d|n| |w| |x0]; cbn [without]; try (apply Text; reflexivity). clear Text. cbn [spots] in Hp. cbn [solid] in Ht.
  assert (Hin : In (p, c, n) (map shape out)) by (apply (Permutation_in _ (Permutation_sym Hp)); apply in_or_app; right; left; reflexivity).
  apply in_map_iff in Hin as (r & Er & Hr). apply in_split in Hr as (l1 & l2 & Eo).
  assert (Hrest : Permutation (map shape (l1 ++ l2)) (pre ++ spots (p + n) ts)).
  { apply (Permutation_cons_inv (a := (p, c, n))). rewrite Permutation_middle. rewrite <- Hp, Eo, !map_app. cbn [map]. rewrite Er. apply Permutation_middle. }
  assert (E1 : r_start r = p /\ r_size r = n) by (unfold shape in Er; injection Er; auto). destruct E1 as (E1 & E3).
  assert (Far : forall x, In x (l1 ++ l2) -> ended p (shape x) \/ p + n <= r_start x).
  { intros x Hx. apply (in_map shape) in Hx. apply (Permutation_in _ Hrest) in Hx. apply in_app_or in Hx as [Hx|Hx]; [left; apply He; exact Hx|right; apply spots_from in Hx; exact Hx]. }
  assert (So' : Forall sound (l1 ++ l2) /\ sound r).
  { rewrite Eo in So. apply Forall_app in So as (A & B). inversion B; subst. split; [apply Forall_app; split; assumption|assumption]. } destruct So' as (So1 & So2).
  assert (Ef : kept leaves out p n = leaves r).
  { unfold kept. rewrite Eo, find_here; [reflexivity| |apply Nat.eqb_eq; exact E1]. intros x Hx. apply Nat.eqb_neq. destruct (Far x ltac:(apply in_or_app; left; exact Hx)) as [K|K]; [unfold ended in K; cbn in K; lia|lia]. }
  rewrite Ef, text_cons, filter_from_app. cbn [spelt spell1]. rewrite repeat_length. f_equal.
  - rewrite <- (Nat.add_0_r p). unfold leaves. rewrite E3. apply (filter_run c ign p (fun k => (k <? r_closed r) || ((n - r_closed r - r_opened r <=? k) && (k <? n - r_closed r)))).
    intros k Hk. rewrite Cov, Eo, existsb_app. cbn [existsb].
    assert (Z : existsb (gone (p + k)) l1 = false /\ existsb (gone (p + k)) l2 = false).
    { apply Forall_app in So1 as (S1 & S2). split; (apply not_gone; [assumption|]; intros x Hx; apply in_map_iff in Hx as (y & <- & Hy));
        [destruct (Far y ltac:(apply in_or_app; left; exact Hy)) as [K|K]|destruct (Far y ltac:(apply in_or_app; right; exact Hy)) as [K|K]]; unfold ended in K; cbn in K |- *; lia. }
    destruct Z as (-> & ->). rewrite orb_false_r. cbn [orb]. unfold gone. rewrite E1, E3. destruct (Nat.leb_spec p (p + k)); [|lia].
    destruct (Nat.ltb_spec (p + k) (p + r_closed r)), (Nat.ltb_spec k (r_closed r)); try lia;
    destruct (Nat.leb_spec (p + (n - r_closed r - r_opened r)) (p + k)), (Nat.leb_spec (n - r_closed r - r_opened r) k); try lia;
    destruct (Nat.ltb_spec (p + k) (p + (n - r_closed r))), (Nat.ltb_spec k (n - r_closed r)); try lia; reflexivity.
  - apply (IH (p + n) (pre ++ [(p, c, n)])); [exact Hs'|rewrite <- app_assoc; exact Hp| |exact Cov].
    apply Forall_app. split; [apply Forall_forall; intros x Hx; specialize (He x Hx); unfold ended in *; lia|]. constructor; [unfold ended; cbn; lia|constructor].
Qed.
Lemma links_read E ts out : zs_ascii E -> entity_tables E -> ~ In 0%N (text_of ts) -> scans E (calm E) [] [] ts out -> exists ign, parse_inlines E (text_of ts) = Ok ign /\ filter_indices_from_line (text_of ts) ign = without leaves out 0 ts.
Proof.
  intros Hz Het H0 H. destruct (scans_finish E (text_of ts) Hz Het H0 [] [] ts out H eq_refl init_subject eq_refl) as (st1 & st2 & R & L & P & C); [cbn; lia| |split; [left; reflexivity|split; [|split]; discriminate]|].
  - split; [apply inv_init|]. split; [constructor|]. split; [exact I|]. split; [exact I|]. split; [constructor|]. split; [constructor|]. intros o c [].
  - exists (s_ignore st2). split.
    + rewrite (parse_inlines_runs E (text_of ts) st1 R) by (apply peek_end; exact L). rewrite P. reflexivity.
    + destruct (scans_shape _ _ _ _ _ _ H) as (Sh & So). unfold filter_indices_from_line. apply (filter_tokens out (s_ignore st2) (So ltac:(constructor)) ts 0 []); [eapply scans_solid; exact H|exact Sh|constructor|exact C].
Qed.
