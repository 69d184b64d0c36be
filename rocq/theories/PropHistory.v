(** Every history of edits and runs (C63). *)
From Coq Require Import String List NArith ZArith Bool Arith Lia.
From Verif Require Import Str StrFacts Regex HtmlRe Fence Atx Entity Inlines Anchor Toc Write Cli Killed Args Spec EnvSpec AnchorSpec TocSpec TableSpec DocSpec WriteSpec RerunSpec CliSpec
  EmphSpec LinkSpec SafeSpec HeadSpec PlainSpec BookSpec CommandSpec HistorySpec.
From Verif Require Import AsciiEnv TocLoop TableProof PropTable WriteProof WriteLoop WriteTwice PropWrite PropMulti PropArgs Inert PropNewline PropRerun PropPlain PropErrors PropBook PropMore PropCommand PropCheck.
Import ListNotations.
Local Open Scope list_scope.

(** ** Documents *)
Lemma document_app E p links b A hs1 : document E p links b A hs1 -> forall B hs2, document E p links None B hs2 -> document E p links b (A ++ B) (hs1 ++ hs2).
Proof. induction 1; intros B hs2 HB; cbn [app]; [exact HB|eapply doc_title; eauto|eapply doc_text; eauto|eapply doc_open; eauto|eapply doc_code; eauto|eapply doc_close; eauto]. Qed.
Lemma plain_text E p links l ls hs : p <> OtherParser -> (forall q, plain_line q l) -> (exists line, BookSpec.ended line l) ->
  document E p links None ls hs -> document E p links None (l :: ls) hs.
Proof.
  intros Hp Hl (line & He) Hd. pose proof He as (Hs & He').
  assert (Hpl : p <> Redcarpet -> (forall level rest s, l = s \/ l = s ++ [10%N] -> single_line s -> ~ atx_line p s level rest) /\ (forall c n, ~ opening_fence_line l c n)).
  { intros R. specialize (Hl p). destruct p; try contradiction; try exact Hl. }
  apply (doc_text E p links line l ls hs He); [split| |exact Hd].
  - intros Hc level rest Hx. destruct Hpl as (X & _); [intros ->; destruct Hc as [|[|[|[|[|[]]]]]]; discriminate|]. apply (X level rest line); auto. destruct He' as [->|(-> & _)]; auto.
  - intros -> level text (k & j & m & Hx & Hlv & _). specialize (Hl Redcarpet). cbn in Hl. apply Hl. destruct level as [|level]; [lia|]. destruct He' as [->|(-> & _)]; rewrite Hx; reflexivity.
  - intros c n (Hc & Ho). destruct Hpl as (_ & X); [intros ->; destruct Hc as [|[|[|[|[|[]]]]]]; discriminate|]. exact (X c n Ho).
Qed.
Lemma plain_texts E p links shown ls hs : p <> OtherParser -> (forall q l, In l shown -> plain_line q l) -> (forall l, In l shown -> exists line, BookSpec.ended line l) ->
  document E p links None ls hs -> document E p links None (shown ++ ls) hs.
Proof.
  intros Hp. induction shown as [|l shown IH]; intros H1 H2 Hd; [exact Hd|]. cbn [app]. apply plain_text; [exact Hp| | |].
  - intros q. apply H1. left. reflexivity.
  - apply H2. left. reflexivity.
  - apply IH; [intros q x Hx; apply H1; right; exact Hx|intros x Hx; apply H2; right; exact Hx|exact Hd].
Qed.
Lemma text_ended ls : text_lines ls -> forall l, In l ls -> exists line, BookSpec.ended line l.
Proof.
  induction 1 as [|s Hs Hn|s ls Hs Hl IH]; intros l Hin; [destruct Hin| |].
  - destruct Hin as [<-|[]]. exists s. split; auto.
  - destruct Hin as [<-|Hin]; [exists s; split; auto|auto].
Qed.
Lemma lines_of_text ls text : lines_text ls text -> lines_of text = ls.
Proof.
  intros (<- & H). induction ls as [|l ls IH]; [reflexivity|]. cbn [concat]. destruct (H l (or_introl eq_refl)) as (s & -> & Hs). rewrite lines_of_line by exact Hs. f_equal. apply IH. intros x Hx. apply H. right. exact Hx.
Qed.

(** ** What is shown, as a write sees it. *)
Inductive block (E : env) (marker : str) : list str -> str -> Prop :=
| block_marker : forall m, is_marker E marker m -> block E marker [m] marker
| block_table : forall m1 mid m2, is_marker E marker m1 -> is_marker E marker m2 -> no_marker E marker mid -> table_region E mid ->
    block E marker (m1 :: mid ++ [m2]) (trim (e_space E) (concat mid)).
Lemma block_target E marker above shown below t : no_marker E marker above -> no_marker E marker below -> block E marker shown t ->
  WriteSpec.target E marker (above ++ shown ++ below) above shown below t.
Proof. intros Ha Hb [m Hm|m1 mid m2 H1 H2 H3 H4]; [apply tg_single; assumption|]. apply tg_table; try assumption. apply no_table_short. exact Ha. Qed.

Lemma first_entry p keep hs : forall seen e es, filter (fun e => listed p keep (e_level e)) (with_anchors p seen (map found_of hs)) = e :: es ->
  exists l h r, hs = l ++ h :: r /\ listed p keep (b_level h) = true /\ (forall x, In x l -> listed p keep (b_level x) = false) /\ e_level e = b_level h /\ e_text e = b_label h.
Proof.
  induction hs as [|h hs IH]; intros seen e es; cbn [map with_anchors filter]; [discriminate|]. cbn [found_of f_level f_text e_level]. destruct (listed p keep (b_level h)) eqn:L.
  - intros X. injection X as <- _. exists [], h, hs. split; [reflexivity|]. split; [exact L|]. split; [intros x []|]. split; reflexivity.
  - intros X. apply IH in X as (l & h' & r & -> & A & B & C). exists (h :: l), h', r. split; [reflexivity|]. split; [exact A|]. split; [|exact C]. intros x [<-|Hx]; [exact L|auto].
Qed.

(** ** One run *)
Section Run.
Variables (E : env) (n marker : str).
Hypothesis (Ht : python_tables E) (Hz : zs_ascii E) (Hw : word_ascii E) (He : entity_tables E) (Hd : digit_ascii E) (Hs : space_ascii E).
Hypothesis (Hneu : neutral_marker E marker).

Definition inv (shown : list str) (t : str) : Prop := block E marker shown t /\ forall q l, In l shown -> plain_line q l.

(** The new lines, whatever is around them. *)
Lemma written o fn lines hs t nl new text : o_parser o <> OtherParser -> (1 <= o_keep o)%Z -> o_skip o = 0%Z ->
  document E (o_parser o) (negb (o_no_links o)) None lines hs -> (o_parser o <> Redcarpet -> no_collision E (map b_name hs)) -> clear_start E o hs ->
  build_toc E o fn (mkDoc lines false) = Ok t -> o_newline o = nl -> line_end nl ->
  normalized (block_text E nl marker t) text -> lines_text new text ->
  full_lines new /\ exists t', normalized t t' /\ inv new (trim (e_space E) t').
Proof.
  intros Hp Hk Hsk Hdoc Hc Hst Hb Enl Hnl Hno Hnew.
  destruct (document_applies E o fn lines hs Hp Hk Hsk Ht Hz Hw He Hdoc Hc) as (ks & Ha & Hh).
  assert (Hrec : recognisable E o ks).
  { intros fs e es Hfs Hes. rewrite <- (headings_fun _ _ _ _ _ Hh _ Hfs) in Hes. apply first_entry in Hes as (l & h & r & Eq & L1 & L2 & El & Et). rewrite El, Et. exact (Hst l h r Eq L1 L2). }
  assert (Hlf : e_space E 10%N = true) by (apply Hs; lia). assert (Hcr : e_space E 13%N = true) by (apply Hs; lia).
  destruct (C48_rows_are_single_lines E o fn _ ks t Hw Ha Hb) as (rows & Hrows & Hrn).
  assert (Et0 : t = PropNewline.ended nl rows). { specialize (Hrn (o_newline o)). rewrite with_newline_same, Hb in Hrn. injection Hrn as ->. rewrite Enl. reflexivity. }
  set (t' := PropNewline.ended [10%N] rows). assert (Hno' : normalized t t') by (rewrite Et0; apply ended_normalized; assumption).
  specialize (Hrn [10%N]). change (concat (map (fun r : list N => r ++ [10%N]) rows)) with t' in Hrn.
  destruct (table_lines E (with_newline o [10%N]) fn _ ks t' Hw eq_refl Ha Hrn) as (rs & Et & Hf & _ & Hr).
  assert (Hmn : py_strip E marker <> []) by (destruct Hneu as (_ & c & r & Ec & _); intros X; change (trim (e_space E) marker = []) in X; rewrite Ec in X; discriminate).
  assert (Hnm : no_marker E marker rs).
  { intros l Hl. rewrite Forall_forall in Hr. destruct (Hr l Hl) as (ws & c & r & -> & X & Y). apply row_not_marker; assumption. }
  assert (Hitem : list_item E (chomp (rstrip (e_space E) t')) \/ py_strip E t' = []).
  { destruct (C42_table_is_recognised E (with_newline o [10%N]) fn _ ks t' Hs Hd Ha Hrec Hrn) as [X|X]; [right; rewrite X; reflexivity|auto]. }
  assert (Enew : new = lines_of (universal (final_toc E nl marker t))).
  { change (final_toc E nl marker t) with (block_text E nl marker t). rewrite (universal_is _ _ Hno). symmetry. exact (lines_of_text _ _ Hnew). }
  assert (Hmk : is_marker E marker (marker ++ [10%N])) by (unfold is_marker, py_strip; apply (strip_pad _ [] marker [10%N]); auto).
  assert (Hmt : text_lines [marker ++ [10%N]]) by (apply tl_line; [apply Hneu|constructor]).
  assert (Hmg : WriteSpec.target E marker [marker ++ [10%N]] [] [marker ++ [10%N]] [] marker).
  { apply (tg_single E marker [] (marker ++ [10%N]) []); [exact Hmk|intros l []|intros l []]. }
  destruct (written_target E nl marker t t' rs _ [] _ [] marker Hnl Hno' Hlf Hcr (proj1 Hneu) Hmn (full_text _ Hf) Et Hnm Hitem Hmt Hmg) as (T1 & T2). cbn zeta in T1, T2. rewrite <- Enew in T1, T2.
  assert (Hshape : new = lines_of (final_toc E [10%N] marker t')) by (rewrite Enew, universal_final by (assumption || apply Hneu); rewrite (universal_is _ _ Hno'); reflexivity).
  assert (Hplain : forall q l, In l new -> plain_line q l).
  { intros q. apply Forall_forall. rewrite Hshape, <- Et. apply new_plain; try assumption. revert Hr. apply Forall_impl. intros l (ws & c & r & -> & X & Y). destruct (listy_facts _ Y) as (F1 & F2). apply blank_prefix_plain; auto.
    intros x Hx. rewrite Forall_forall in X. rewrite (X x Hx). cbn. intuition discriminate. }
  rewrite final_lines in Hshape by apply Hneu. split.
  { rewrite app_nil_r in T1. cbn [app] in T1. apply Forall_forall. intros l Hl. destruct (text_ended _ T1 l Hl) as (line & Hsl & _). destruct Hnew as (_ & Hx). destruct (Hx l Hl) as (s & -> & H10).
    exists s. split; [|reflexivity]. split; [exact H10|]. intros X. pose proof (text_no_cr _ T1) as Y. apply Y. apply in_concat. exists (s ++ [10%N]). split; [exact Hl|]. apply in_or_app. auto. }
  exists t'. split; [exact Hno'|]. split; [|exact Hplain]. change (trim (e_space E) t') with (py_strip E t').
  remember ([] ++ new ++ []) as L eqn:EL. remember (@nil str) as PRE eqn:EP in T2 at 1. remember (@nil str) as POST eqn:EQ in T2. remember (py_strip E t') as TT.
  destruct T2 as [pre m post H1 H2 H3|pre m1 mid m2 post H1 H2 H3 H4 H5|pre m1 post H1 H2 H3 H4].
  - exfalso. injection Hshape as _ X. destruct (lines_of (rstrip (e_space E) t' ++ [10%N])); discriminate.
  - apply block_table; assumption.
  - discriminate Hshape.
Qed.

(** The state of the file, as the next run finds it. *)
Definition state (w : world) (above below : list str) (last : option (opts * str)) (shown : list str) (t : str) : Prop :=
  n <> lit "-" /\ no_marker E marker above /\ no_marker E marker below /\ holds w n (above ++ shown ++ below) /\ text_lines (above ++ shown ++ below)
  /\ inv shown t /\ shows E marker last shown
  /\ match last with None => t = marker | Some (_, t0) => exists t', normalized t0 t' /\ t = trim (e_space E) t' end.

Lemma whole above shown below o k hs : (k <= Z.of_nat (length above))%Z -> (0 <= k)%Z -> o_parser o <> OtherParser ->
  text_lines (above ++ shown ++ below) -> (forall q l, In l shown -> plain_line q l) ->
  (exists hs1 hs2, hs = hs1 ++ hs2 /\ document E (o_parser o) (negb (o_no_links o)) None (skipn (Z.to_nat k) above) hs1 /\ document E (o_parser o) (negb (o_no_links o)) None below hs2) ->
  document E (o_parser o) (negb (o_no_links o)) None (skipn (Z.to_nat k) (above ++ shown ++ below)) hs.
Proof.
  intros Hk H0 Hp Htx Hpl (hs1 & hs2 & -> & D1 & D2). rewrite skipn_pre by lia. apply document_app; [exact D1|]. apply plain_texts; [exact Hp|exact Hpl| |exact D2].
  intros l Hl. apply (text_ended _ Htx). apply in_or_app. right. apply in_or_app. left. exact Hl.
Qed.
Lemma some_tables {A B} (P : A -> B -> Prop) l : (forall x, In x l -> exists y, P x y) -> exists ys, Forall2 P l ys.
Proof.
  induction l as [|x l IH]; intros H; [exists []; constructor|]. destruct (H x (or_introl eq_refl)) as (y & Hy). destruct IH as (ys & Hys); [intros z Hz0; apply H; right; exact Hz0|]. exists (y :: ys). constructor; assumption.
Qed.
Lemma in_forall2 {A B} (P : A -> B -> Prop) l l' x : Forall2 P l l' -> In x l -> exists y, In (x, y) (combine l l') /\ P x y.
Proof. induction 1 as [|a b l l' Hab _ IH]; [intros []|]. intros [<-|Hx]; [exists b; split; [left; reflexivity|exact Hab]|]. destruct (IH Hx) as (y & X & Y). exists y. split; [right; exact X|exact Y]. Qed.

Section Fit.
Variables (w : world) (above below : list str) (last : option (opts * str)) (a : cli_args) (o : opts) (hs : list heading) (shown : list str) (t : str).
Hypothesis (Hfit : fits E n marker w above below a o hs) (Hst : state w above below last shown t).

Lemma fit_usable : o_parser o <> OtherParser /\ (1 <= o_keep o)%Z /\ (0 <= o_skip o)%Z /\ marker_valid o /\ o_skip o = a_skip a.
Proof.
  destruct Hfit as [(F1 & F2 & F3 & F4 & F5) _ _ _ _ _ _]. destruct (usable a o F1 F2 F3) as (U1 & U2 & U3 & U4). repeat (split; [assumption|]). destruct F2 as (_ & _ & _ & _ & _ & _ & _ & _ & X & _). exact X.
Qed.
Lemma fit_titled : titled E o (above ++ shown ++ below) hs.
Proof.
  destruct fit_usable as (U1 & _ & _ & _ & U5). destruct Hfit as [(_ & _ & F3 & _) _ F6 F7 F8 _ _]. destruct Hst as (_ & _ & _ & _ & S5 & (_ & S6) & _).
  split; [rewrite U5; apply whole; assumption|exact F8].
Qed.
Lemma fit_supplies : supplies w n (above ++ shown ++ below).
Proof. destruct Hst as (S1 & _ & _ & S4 & _). right. split; assumption. Qed.
Lemma fit_text m lines : In m (inputs a) -> supplies w m lines -> m <> lit "-" /\ text_lines lines.
Proof.
  intros Hm Hsup. destruct (list_eq_dec N.eq_dec m n) as [->|Hne].
  - destruct Hst as (S1 & _ & _ & S4 & S5 & _). split; [exact S1|]. pose proof (supplies_file _ _ _ Hsup S1) as X. unfold holds in S4. rewrite S4 in X. injection X as <-. exact S5.
  - destruct (fit_others _ _ _ _ _ _ _ _ _ Hfit m Hm Hne) as (X & lines' & hs' & Y1 & Y2 & _). split; [exact X|]. pose proof (supplies_file _ _ _ Hsup X) as Z. unfold holds in Y1. rewrite Y1 in Z. injection Z as <-. exact Y2.
Qed.
Variable (tab : str).
Hypothesis (Hco : table_of_titles o hs tab).
Lemma fit_expect : to_expect E o w n tab.
Proof. exists (above ++ shown ++ below), hs. split; [exact fit_supplies|]. split; [exact fit_titled|exact Hco]. Qed.
Lemma fit_build : build_toc E o n (mkDoc (above ++ shown ++ below) false) = Ok tab.
Proof.
  destruct fit_usable as (U1 & U2 & U3 & U4 & U5). pose proof fit_titled as (D & C & S). destruct Hco as [(C1 & ->)|(C1 & ->)].
  - refine (proj1 (C60_whole_table E o n _ hs U1 U2 U3 U4 Ht Hz Hw He D C S) C1).
  - apply C60_unchecked_table; try assumption. exact fit_titled.
Qed.
Lemma fit_all m : In m (inputs a) -> exists t, to_expect E o w m t.
Proof.
  intros Hm. destruct (list_eq_dec N.eq_dec m n) as [->|Hne]; [eexists; exact fit_expect|]. destruct (fit_others _ _ _ _ _ _ _ _ _ Hfit m Hm Hne) as (X & lines' & hs' & Y1 & Y2 & Y3 & t' & Y4).
  exists t', lines', hs'. split; [right; split; assumption|]. split; [exact Y3|exact Y4].
Qed.
Lemma update_state w' : a_in_place a = true -> fs_get (w_fs w') n = fs_get (f_fs (cli_write_toc E a w)) n -> exists new t1, state w' above below (Some (o, tab)) new t1.
Proof.
  intros Hip Hw'. destruct (some_tables _ _ fit_all) as (ts & Hts). destruct fit_usable as (U1 & U2 & U3 & U4 & U5).
  pose proof Hfit as [(F1 & F2 & F3 & F4 & F5) (G1 & G2) F6 F7 (F8 & F8') F9 _].
  pose proof (C61_command E a o w ts F1 F2 F3 Ht Hz Hw He G2 Hts (fun _ => fit_text)) as (_ & X & _). cbn zeta in X. destruct (X Hip) as (_ & _ & Y). clear X.
  destruct (in_forall2 _ _ _ _ Hts G1) as (t1 & Hin & Hex). pose proof (table_fun E a o w F1 F2 F3 Ht Hz Hw He _ _ _ Hex fit_expect) as ->.
  pose proof Hst as (S1 & S2 & S3 & S4 & S5 & (S6 & S6') & _). destruct (Y F5 n _ _ Hin S4) as (lines' & L1 & L2). rewrite F4 in L2.
  pose proof (block_target E marker above shown below t S2 S3 S6) as Hg.
  destruct L2 as [(Hno & _)|(pre & old & post & t0 & text & new & Hg' & Hnorm & Hlt & ->)].
  { exfalso. destruct S6 as [m Hm|m1 mid m2 Hm _ _ _]; (refine (Hno _ _ Hm); apply in_or_app; right; left; reflexivity). }
  destruct (target_fun _ _ _ _ _ _ _ _ _ _ _ Hg Hg') as (<- & <- & <- & _).
  set (o0 := with_skip o 0). set (inner_lines := skipn (Z.to_nat (o_skip o)) (above ++ shown ++ below)).
  assert (Hd0 : document E (o_parser o0) (negb (o_no_links o0)) None inner_lines hs) by exact (proj1 fit_titled).
  assert (Hb : build_toc E o0 n (mkDoc inner_lines false) = Ok tab) by (rewrite <- fit_build; symmetry; apply skipped; exact U3).
  destruct (written o0 n inner_lines hs tab (o_newline o) new text U1 U2 eq_refl Hd0 F8 F9 Hb eq_refl F5 Hnorm Hlt) as (W1 & t' & W2 & W3).
  exists new, (trim (e_space E) t'). split; [exact S1|]. split; [exact S2|]. split; [exact S3|]. split; [unfold holds; rewrite Hw'; exact L1|]. split.
  { destruct (target_full_pre _ _ _ _ _ _ _ S5 Hg) as (P1 & P2). apply WriteProof.full_text; [exact P1|]. apply WriteProof.full_text; assumption. }
  split; [exact W3|]. split; [exists text; split; assumption|]. exists t'. split; [exact W2|reflexivity].
Qed.
End Fit.
Lemma same_state w w' above below last shown t : f_fs w' = w_fs w -> forall input, state w above below last shown t -> state (mkWorld (f_fs w') input) above below last shown t.
Proof. intros Eq input. unfold state, holds. cbn [w_fs]. rewrite Eq. auto. Qed.
Lemma history_state w above below last : maintained E n marker w above below last -> exists shown t, state w above below last shown t.
Proof.
  induction 1 as [w above m below Hn Hh Hm Ha Hb Htx|w above below last w' shown above' below' _ (sh & t & Hst) Hh Hh' Ha Hb Htx
    |w above below last a o hs tab w' _ (sh & t & Hst) Hfit Hip Hco Hw'|w above below last a o hs input _ (sh & t & Hst) Hfit Hun|w above below last a input _ (sh & t & Hst) Hip].
  - exists [m], marker. repeat (split; [assumption|]). split; [|split; [exists m; auto|reflexivity]]. split; [apply block_marker; exact Hm|]. intros q l [<-|[]]. exact (neutral_plain E q marker m Hs Hneu Hm).
  - destruct Hst as (S1 & S2 & S3 & S4 & S5 & S6). assert (shown = sh) as ->.
    { unfold holds in Hh, S4. rewrite Hh in S4. injection S4 as X. apply app_inv_head in X. apply app_inv_tail in X. exact X. }
    exists sh, t. split; [exact S1|]. repeat (split; [assumption|]). exact S6.
  - exact (update_state w above below last a o hs sh t Hfit Hst tab Hco w' Hip Hw').
  - exists sh, t. apply (same_state w); [|exact Hst]. pose proof Hfit as [(F1 & F2 & F3 & F4 & F5) (G1 & G2) F6 F7 F8 F9 Fo].
    destruct (C61_unrenderable E a o w F1 F2 F3 Ht Hz Hw He G2) as (X & _).
    + intros m Hm. destruct (list_eq_dec N.eq_dec m n) as [->|Hne].
      * exists (above ++ sh ++ below), hs. split; [exact (fit_supplies w above below last sh t Hst)|]. exact (fit_titled w above below last a o hs sh t Hfit Hst).
      * destruct (Fo m Hm Hne) as (X & lines' & hs' & Y1 & Y2 & Y3 & Y4). exists lines', hs'. split; [right; split; assumption|]. auto.
    + exists n, (above ++ sh ++ below), hs. split; [exact G1|]. split; [exact (fit_supplies w above below last sh t Hst)|]. split; [exact (fit_titled w above below last a o hs sh t Hfit Hst)|exact Hun].
    + rewrite X. reflexivity.
  - exists sh, t. apply (same_state w); [apply C40_printing_touches_nothing; exact Hip|exact Hst].
Qed.
End Run.

(** C63: whatever edits and runs follow each other, the file consists of the lines of its users and,
    between them, of exactly the table of the last update. *)
Theorem C63_history : forall E n marker w above below last,
  python_tables E -> zs_ascii E -> word_ascii E -> entity_tables E -> digit_ascii E -> space_ascii E -> neutral_marker E marker ->
  maintained E n marker w above below last ->
  exists shown, holds w n (above ++ shown ++ below) /\ shows E marker last shown.
Proof.
  intros E n marker w above below last Ht Hz Hw He Hd Hs Hm H. destruct (history_state E n marker Ht Hz Hw He Hd Hs Hm w above below last H) as (shown & t & _ & _ & _ & A & _ & _ & B & _). eauto.
Qed.
Print Assumptions C63_history.

(** With --diff, at any time: status 128 if and only if the table of the titles as they are now is not
    the one that was written last (before the first update: the marker). *)
Theorem C63_diff : forall E n marker w above below last a o hs t0 table,
  python_tables E -> zs_ascii E -> word_ascii E -> entity_tables E -> digit_ascii E -> space_ascii E -> neutral_marker E marker ->
  maintained E n marker w above below last -> fits E n marker w above below a o hs -> table_of_titles o hs t0 ->
  inputs a = [n] -> a_diff a = true ->
  match last with None => table = marker | Some (_, t1) => exists t, normalized t1 t /\ table = trim (e_space E) t end ->
  let status := exit_status (f_result (cli_write_toc E a w)) in
  (status = 128%Z <-> trim (e_space E) t0 <> table) /\ (status <> 128%Z -> status = 0%Z).
Proof.
  intros E n marker w above below last a o hs tab table Ht Hz Hw He Hd Hs Hm H Hfit Hco Hin Hdf Htab.
  destruct (history_state E n marker Ht Hz Hw He Hd Hs Hm w above below last H) as (shown & t & Hst).
  assert (table = t) as ->.
  { destruct Hst as (_ & _ & _ & _ & _ & _ & _ & X). destruct last as [(o0 & tab0)|]; [|congruence]. destruct X as (t1 & X1 & ->). destruct Htab as (t2 & X2 & ->). rewrite (normalized_fun _ _ _ X1 X2). reflexivity. }
  pose proof Hfit as [(F1 & F2 & F3 & F4 & F5) (G1 & G2) F6 F7 (F8 & F8') F9 _].
  pose proof (fit_expect E n marker w above below last a o hs shown t Hfit Hst tab Hco) as Hex.
  assert (Hts : Forall2 (to_expect E o w) (inputs a) [tab]) by (rewrite Hin; constructor; [exact Hex|constructor]).
  pose proof (C61_command E a o w _ F1 F2 F3 Ht Hz Hw He G2 Hts (fun _ => fit_text E n marker w above below last a o hs shown t Hfit Hst)) as (_ & _ & X & Y). cbn zeta in X, Y. cbn zeta.
  split; [|exact Y]. rewrite X. destruct Hst as (S1 & S2 & S3 & S4 & S5 & (S6 & _) & _). pose proof (block_target E marker above shown below t S2 S3 S6) as Hg. rewrite F4. split.
  - intros (_ & m & Hm' & lines & t1 & t0 & L1 & L2 & L3 & L4). rewrite Hin in Hm'. destruct Hm' as [<-|[]]. unfold holds in S4. rewrite S4 in L1. injection L1 as <-.
    rewrite (table_fun E a o w F1 F2 F3 Ht Hz Hw He _ _ _ L2 Hex) in L4. destruct L3 as [(Z & _)|(pre & old & post & Z)].
    + exfalso. destruct S6 as [m' Hm'|m1 mid m2 Hm' _ _ _]; (refine (Z _ _ Hm'); apply in_or_app; right; left; reflexivity).
    + destruct (target_fun _ _ _ _ _ _ _ _ _ _ _ Hg Z) as (_ & _ & _ & <-). exact L4.
  - intros Hne. split; [exact Hdf|]. exists n. split; [rewrite Hin; left; reflexivity|]. exists (above ++ shown ++ below), tab, t. split; [exact S4|]. split; [exact Hex|]. split; [|exact Hne]. right. exists above, shown, below. exact Hg.
Qed.
Print Assumptions C63_diff.

(** A run in place that is killed: the file is as it was, or the update is complete, or exactly what the
    file showed is missing; then putting a marker line back is enough to go on. *)
Theorem C63_killed : forall E n marker w above below last a o hs t g input,
  python_tables E -> zs_ascii E -> word_ascii E -> entity_tables E -> digit_ascii E -> space_ascii E -> neutral_marker E marker ->
  maintained E n marker w above below last -> fits E n marker w above below a o hs -> table_of_titles o hs t -> a_in_place a = true ->
  In g (cli_states E a w) ->
  maintained E n marker (mkWorld g input) above below last
  \/ maintained E n marker (mkWorld g input) above below (Some (o, t))
  \/ (holds (mkWorld g input) n (above ++ below)
      /\ forall m w', is_marker E marker (m ++ [10%N]) -> single_line m -> holds w' n (above ++ [m ++ [10%N]] ++ below) ->
           maintained E n marker w' above below None).
Proof.
  intros E n marker w above below last a o hs tab g input Ht Hz Hw He Hd Hs Hm H Hfit Hco Hip Hg.
  destruct (history_state E n marker Ht Hz Hw He Hd Hs Hm w above below last H) as (shown & t & Hst).
  pose proof Hfit as [(F1 & F2 & F3 & F4 & F5) (G1 & G2) F6 F7 (F8 & F8') F9 _].
  destruct (some_tables _ _ (fit_all E n marker w above below last a o hs shown t Hfit Hst tab Hco)) as (ts & Hts).
  pose proof (fit_text E n marker w above below last a o hs shown t Hfit Hst) as Htext.
  destruct (all_tables E a o w F1 F2 F3 Ht Hz Hw He G2 ts Hts) as (w1 & B). destruct (run_ok E a o w F1 F2 F3 Ht Hz Hw He G2 (fun _ => Htext) ts Hts) as (b & R & _).
  pose proof (PropCommand.Forall2_length _ _ _ Hts) as Hl. pose proof (selects_model _ _ F2) as Eo.
  assert (Enl : cli_newline (a_newline a) = o_newline o) by (rewrite Eo; reflexivity).
  unfold cli_states in Hg. rewrite <- Eo, B, Hip, <- inputs_effective, Enl in Hg. replace (length (inputs a) =? length ts) with true in Hg by (symmetry; apply Nat.eqb_eq; exact Hl). cbn [andb] in Hg.
  destruct Hst as (S1 & S2 & S3 & S4 & S5 & (S6 & S6') & S7). pose proof (block_target E marker above shown below t S2 S3 S6) as Htg.
  destruct (C53_killed_batch E (o_newline o) (inputs a) ts (w_fs w) (a_toc_marker a) g F5 G2 Hl) as (done & rest & Eq & K1 & K2); [|exact Hg|].
  { intros m d Hin Hget. destruct (list_eq_dec N.eq_dec m n) as [->|Hne].
    - unfold holds in S4. rewrite S4 in Hget. injection Hget as <-. right. exact S5.
    - destruct (fit_others _ _ _ _ _ _ _ _ _ Hfit m Hin Hne) as (_ & lines' & hs' & Y1 & Y2 & _). unfold holds in Y1. rewrite Y1 in Hget. injection Hget as <-. right. exact Y2. }
  destruct (in_dec (list_eq_dec N.eq_dec) n (map fst done)) as [Hin|Hin].
  - right. left. apply in_map_iff in Hin as ((n1 & t1) & X & Hin). cbn [fst] in X. subst n1. destruct (K1 n t1 Hin) as (d' & v & (_ & d & D1 & D2) & D3).
    assert (Hc : In (n, t1) (combine (inputs a) ts)) by (rewrite Eq; apply in_or_app; left; exact Hin).
    destruct (C40_in_place_writes E a o w ts w1 b F2 B Hip G2 R) as (A1 & _). destruct (A1 n t1 Hc) as (d2 & d2' & v2 & A2 & A3 & A4).
    apply (h_update E n marker w above below last a o hs tab); try assumption. cbn [w_fs]. rewrite D3, A4. assert (d2 = d) by congruence. subst d2. congruence.
  - destruct (K2 n Hin) as [Hsame|(t1 & rest' & lines & pre & old & post & t0 & _ & L1 & L2 & L3)].
    + left. apply (h_edit E n marker w above below last (mkWorld g input) shown); try assumption. unfold holds. cbn [w_fs]. rewrite Hsame. exact S4.
    + right. right. unfold holds in S4. rewrite S4 in L1. injection L1 as <-. rewrite F4 in L2. destruct (target_fun _ _ _ _ _ _ _ _ _ _ _ Htg L2) as (<- & <- & <- & _).
      split; [exact L3|]. intros m w' Hmm Hsm Hh. apply (h_new E n marker w' above (m ++ [10%N]) below); try assumption.
      destruct (target_full_pre _ _ _ _ _ _ _ S5 Htg) as (P1 & P2). apply WriteProof.full_text; [exact P1|]. apply tl_line; assumption.
Qed.
Print Assumptions C63_killed.

(** ** A history: the table is written; a title is added above it; the difference is reported; the table is
    written again. *)
Local Ltac esc := match goal with |- Spec.escapes ?b ?s ?t => let s' := eval vm_compute in s in let t' := eval vm_compute in t in change (Spec.escapes b s' t') end;
  repeat first [apply Spec.esc_nil | apply Spec.esc_other; [unfold Spec.bracket_char; intuition discriminate|discriminate|]].
Definition diary_args (in_place : bool) : cli_args :=
  mkArgs [lit "a.md"] (Some (lit ".")) (lit "-") false false false 3 Github 0 false in_place true (lit "<!--TOC-->") (lit "\n").
Definition diary_options : opts := args_opts (diary_args true).
Definition world0 : world := mkWorld [(lit "a.md", mkDoc (ln "<!--TOC-->" :: skipn 1 guide) false)] Closed.
Definition world1 : world := mkWorld (f_fs (cli_write_toc ascii_env (diary_args true) world0)) Closed.
Definition table1 : list str :=
  [ln "<!--TOC-->"; ln ""; ln "1. [One *two*](#one-two)"; ln "   1. [<b>Tag</b>](#tag)"; ln "   2. [\[x\]](#x)"; ln "2. [Deep](#deep-1)"; ln ""; ln "<!--TOC-->"].
Definition world2 : world := mkWorld [(lit "a.md", mkDoc ([ln "# Deep"] ++ table1 ++ skipn 1 guide) false); (lit "b.md", mkDoc [] true)] Closed.
Definition world3 : world := mkWorld (f_fs (cli_write_toc ascii_env (diary_args true) world2)) Closed.
Definition table3 : list str :=
  [ln "<!--TOC-->"; ln ""; ln "1. [Deep](#deep)"; ln "2. [One *two*](#one-two)"; ln "   1. [<b>Tag</b>](#tag)"; ln "   2. [\[x\]](#x)"; ln "3. [Deep](#deep-2)"; ln ""; ln "<!--TOC-->"].
Lemma diary_offered in_place : offered (diary_args in_place) /\ selects (diary_args in_place) diary_options.
Proof.
  split.
  - split; [discriminate|]. split; [left; reflexivity|]. split; [intros m X; injection X as <-; auto|]. split; [cbn; lia|]. split; [discriminate|left; reflexivity].
  - split; [cbn; split; intros; [discriminate|reflexivity]|]. split; [intros m X; injection X as <-; reflexivity|]. split; [discriminate|]. repeat (split; [reflexivity|]). constructor.
Qed.
Lemma diary_fits in_place w above hs : document ascii_env Github true None above hs -> length hs <= 5 ->
  fits ascii_env (lit "a.md") (lit "<!--TOC-->") w above (skipn 1 guide) (diary_args in_place) diary_options (hs ++ guide_headings).
Proof.
  intros Hd Hl. constructor.
  - split; [apply diary_offered|]. split; [apply diary_offered|]. split; [cbn; lia|]. split; [reflexivity|left; reflexivity].
  - split; [left; reflexivity|]. constructor; [intros []|constructor].
  - cbn. lia.
  - exists hs, guide_headings. split; [reflexivity|]. split; [exact Hd|exact guide_document].
  - split; [intros _; apply titles_slugs_distinct|]. rewrite app_length. cbn. lia.
  - intros l h r _ _ _. split; [discriminate|discriminate].
  - intros m [<-|[]] Hm. destruct Hm. reflexivity.
Qed.
Lemma deep_document : document ascii_env Github true None [ln "# Deep"] [Heading 1 (lit "Deep") (lit "deep")].
Proof.
  apply (doc_title _ _ _ (lit "# Deep")); [split; [split; vm_compute; intuition discriminate|left; vm_compute; reflexivity]| | |apply doc_end].
  - apply (title_by _ _ _ (lit " Deep") (lit "Deep")); [cbn; auto 8|exists 0; split; [vm_compute; reflexivity|split; [lia|split; [lia|right; eexists 32%N, _; split; [vm_compute; reflexivity|left; reflexivity]]]]|vm_compute; reflexivity|reflexivity|reflexivity|discriminate|vm_compute; repeat constructor|esc].
  - change (lit "deep") with (plain_slug ascii_env Github (lit "Deep")). apply named_plain; [cbn; auto 8|apply safe_line_b; reflexivity| |left; vm_compute; intuition discriminate].
    intros c Hc X. cbn in Hc, X. intuition (subst; discriminate).
Qed.
Lemma guide_no_marker : no_marker ascii_env (lit "<!--TOC-->") (skipn 1 guide).
Proof. apply not_marker_dec. vm_compute. reflexivity. Qed.
Example C63_history_ex :
  neutral_marker ascii_env (lit "<!--TOC-->") /\ digit_ascii ascii_env /\ space_ascii ascii_env
  /\ maintained ascii_env (lit "a.md") (lit "<!--TOC-->") world3 [ln "# Deep"] (skipn 1 guide) (Some (diary_options, expected_table diary_options (Heading 1 (lit "Deep") (lit "deep") :: guide_headings)))
  /\ holds world3 (lit "a.md") ([ln "# Deep"] ++ table3 ++ skipn 1 guide)
  /\ maintained ascii_env (lit "a.md") (lit "<!--TOC-->") world2 [ln "# Deep"] (skipn 1 guide) (Some (diary_options, expected_table diary_options guide_headings))
  /\ fits ascii_env (lit "a.md") (lit "<!--TOC-->") world2 [ln "# Deep"] (skipn 1 guide) (diary_args false) diary_options (Heading 1 (lit "Deep") (lit "deep") :: guide_headings)
  /\ coherent (row_levels diary_options (Heading 1 (lit "Deep") (lit "deep") :: guide_headings))
  /\ inputs (diary_args false) = [lit "a.md"] /\ a_diff (diary_args false) = true
  /\ exit_status (f_result (cli_write_toc ascii_env (diary_args false) world2)) = 128%Z
  /\ exit_status (f_result (cli_write_toc ascii_env (diary_args false) world3)) = 0%Z.
Proof.
  assert (M0 : maintained ascii_env (lit "a.md") (lit "<!--TOC-->") world0 [] (skipn 1 guide) None).
  { apply (h_new _ _ _ _ _ (ln "<!--TOC-->")); [discriminate|reflexivity|vm_compute; reflexivity|intros l []|exact guide_no_marker|]. apply (guide_text (lit "<!--TOC-->")). split; vm_compute; intuition discriminate. }
  assert (M1 : maintained ascii_env (lit "a.md") (lit "<!--TOC-->") world1 [] (skipn 1 guide) (Some (diary_options, expected_table diary_options guide_headings))).
  { eapply h_update; [exact M0|apply (diary_fits true world0 [] []); [constructor|cbn; lia]|reflexivity|left; split; [apply coherent_by; repeat split|reflexivity]|reflexivity]. }
  assert (M2 : maintained ascii_env (lit "a.md") (lit "<!--TOC-->") world2 [ln "# Deep"] (skipn 1 guide) (Some (diary_options, expected_table diary_options guide_headings))).
  { apply (h_edit _ _ _ world1 [] (skipn 1 guide) _ _ table1); [exact M1|vm_compute; reflexivity|reflexivity|apply not_marker_dec; vm_compute; reflexivity|exact guide_no_marker|].
    unfold table1, guide, ln. cbn [app skipn]. repeat (apply tl_line; [split; vm_compute; intuition discriminate|]). apply tl_nil. }
  assert (C : coherent (row_levels diary_options (Heading 1 (lit "Deep") (lit "deep") :: guide_headings))) by (apply coherent_by; repeat split).
  split; [split; [split; vm_compute; intuition discriminate|]; exists 60%N; eexists; split; [vm_compute; reflexivity|]; split; [vm_compute; intuition discriminate|unfold is_digit; lia]|].
  split; [exact digit_ascii_ex|]. split; [exact space_ascii_ex|].
  split; [eapply h_update; [exact M2|apply (diary_fits true world2 _ _ deep_document); cbn; lia|reflexivity|left; split; [exact C|reflexivity]|reflexivity]|].
  split; [vm_compute; reflexivity|]. split; [exact M2|]. split; [apply (diary_fits false world2 _ _ deep_document); cbn; lia|]. split; [exact C|]. split; [reflexivity|]. split; [reflexivity|]. split; vm_compute; reflexivity.
Qed.
Example C63_killed_ex :
  maintained ascii_env (lit "a.md") (lit "<!--TOC-->") world2 [ln "# Deep"] (skipn 1 guide) (Some (diary_options, expected_table diary_options guide_headings))
  /\ map (fun g => fs_get g (lit "a.md")) (cli_states ascii_env (diary_args true) world2) =
     [Some (mkDoc ([ln "# Deep"] ++ table1 ++ skipn 1 guide) false); Some (mkDoc ([ln "# Deep"] ++ skipn 1 guide) false);
      Some (mkDoc ([ln "# Deep"] ++ table3 ++ skipn 1 guide) false); Some (mkDoc ([ln "# Deep"] ++ table3 ++ skipn 1 guide) false)].
Proof. split; [exact (proj1 (proj2 (proj2 (proj2 (proj2 (proj2 C63_history_ex))))))|vm_compute; reflexivity]. Qed.

(** Every level listed, the check of the levels switched off: the file of the first update is updated again
    with a table that skips a level. *)
Definition loose_args : cli_args :=
  mkArgs [lit "a.md"] (Some (lit ".")) (lit "-") false false true 6 Github 0 false true true (lit "<!--TOC-->") (lit "\n").
Definition loose_options : opts := args_opts loose_args.
Definition world4 : world := mkWorld (f_fs (cli_write_toc ascii_env loose_args world1)) Closed.
Definition table4 : list str :=
  [ln "<!--TOC-->"; ln ""; ln "1. [One *two*](#one-two)"; ln "   1. [<b>Tag</b>](#tag)"; ln "      1. [Deep](#deep)"; ln "   2. [\[x\]](#x)"; ln "2. [Deep](#deep-1)"; ln ""; ln "<!--TOC-->"].
Example C63_unchecked_ex :
  ~ coherent (row_levels loose_options guide_headings)
  /\ maintained ascii_env (lit "a.md") (lit "<!--TOC-->") world4 [] (skipn 1 guide) (Some (loose_options, loose_table loose_options guide_headings))
  /\ holds world4 (lit "a.md") (table4 ++ skipn 1 guide).
Proof.
  split; [intros H; specialize (H [1; 2] 4 [2; 1] eq_refl); assert (X : 1 <= 4 <= 3) by (apply H; discriminate); lia|]. split; [|vm_compute; reflexivity].
  assert (M0 : maintained ascii_env (lit "a.md") (lit "<!--TOC-->") world0 [] (skipn 1 guide) None).
  { apply (h_new _ _ _ _ _ (ln "<!--TOC-->")); [discriminate|reflexivity|vm_compute; reflexivity|intros l []|exact guide_no_marker|]. apply (guide_text (lit "<!--TOC-->")). split; vm_compute; intuition discriminate. }
  assert (M1 : maintained ascii_env (lit "a.md") (lit "<!--TOC-->") world1 [] (skipn 1 guide) (Some (diary_options, expected_table diary_options guide_headings))).
  { eapply h_update; [exact M0|apply (diary_fits true world0 [] []); [constructor|cbn; lia]|reflexivity|left; split; [apply coherent_by; repeat split|reflexivity]|reflexivity]. }
  apply (h_update _ _ _ world1 _ _ _ loose_args _ guide_headings _ _ M1); [|reflexivity|right; split; [right; reflexivity|reflexivity]|reflexivity]. constructor.
  - split. { split; [discriminate|]. split; [left; reflexivity|]. split; [intros m X; injection X as <-; auto|]. split; [cbn; lia|]. split; [discriminate|left; reflexivity]. }
    split. { split; [cbn; split; intros; [discriminate|reflexivity]|]. split; [intros m X; injection X as <-; reflexivity|]. split; [discriminate|]. repeat (split; [reflexivity|]). constructor. }
    split; [cbn; lia|]. split; [reflexivity|left; reflexivity].
  - split; [left; reflexivity|]. constructor; [intros []|constructor].
  - cbn. lia.
  - exists [], guide_headings. split; [reflexivity|]. split; [constructor|exact guide_document].
  - split; [intros _; apply titles_slugs_distinct|]. cbn. lia.
  - intros l h r _ _ _. split; discriminate.
  - intros m [<-|[]] Hm. destruct Hm. reflexivity.
Qed.
