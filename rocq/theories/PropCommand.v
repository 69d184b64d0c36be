(** The command on whole documents (C61). *)
From Coq Require Import String List NArith ZArith Bool Arith Lia.
From Verif Require Import Str Regex HtmlRe Fence Atx Entity Inlines Anchor Toc Write Cli Args Spec EnvSpec AnchorSpec TocSpec TableSpec DocSpec WriteSpec CliSpec
  EmphSpec LinkSpec SafeSpec BookSpec CommandSpec StrFacts AsciiEnv PropWrite PropMulti WriteLoop PropArgs PropPlain PropBook PropMore TableProof.
Import ListNotations.
Local Open Scope list_scope.

Lemma Forall2_length {A B} (R : A -> B -> Prop) l l' : Forall2 R l l' -> length l = length l'.
Proof. induction 1; cbn; congruence. Qed.

Lemma forall2_in {A B} (R : A -> B -> Prop) l l' x y : Forall2 R l l' -> In (x, y) (combine l l') -> R x y.
Proof. induction 1; cbn; [tauto|]. intros [Eq|Hin]; [congruence|auto]. Qed.

Lemma supplies_file w n lines : supplies w n lines -> n <> lit "-" -> fs_get (w_fs w) n = Some (mkDoc lines false).
Proof. intros [(X & _)|(_ & X)] Hn; [contradiction|exact X]. Qed.

Lemma coherent_or ls : coherent ls \/ ~ coherent ls.
Proof.
  assert (G : forall hist, coherent_from hist ls \/ ~ coherent_from hist ls).
  { induction ls as [|l r IH]; intros hist; cbn [coherent_from]; [left; exact I|]. unfold coherent_step. destruct (IH (l :: hist)); destruct (incoherent hist l); intuition discriminate. }
  rewrite coherent_iff. apply G.
Qed.

Section Command.
Variables (E : env) (a : cli_args) (o : opts) (w : world).
Hypothesis (Hacc : offered a) (Hsel : selects a o) (Hskip : (0 <= a_skip a)%Z).
Hypothesis (Ht : python_tables E) (Hz : zs_ascii E) (Hw : word_ascii E) (He : entity_tables E).

Lemma usable : o_parser o <> OtherParser /\ (1 <= o_keep o)%Z /\ (0 <= o_skip o)%Z /\ marker_valid o.
Proof.
  apply C49_accepted_arguments in Hacc. destruct (C49_accepted_options_are_usable a Hacc) as (o' & Hsel' & A & B & C & _).
  apply selects_model in Hsel' as Eo'. apply selects_model in Hsel as Eo. subst o' o. split; [exact A|]. split; [lia|]. split; [exact Hskip|exact C].
Qed.
Lemma table_of n t : to_expect E o w n t -> alone E o w n t.
Proof.
  intros (lines & hs & Hs & Htl & Hco). apply alone_iff. destruct usable as (U1 & U2 & U3 & U4).
  assert (B : forall fn, build_toc E o fn (mkDoc lines false) = Ok t).
  { intros fn. destruct Hco as [(Hco & ->)|(Hoff & ->)].
    - destruct Htl as (Hd & Hc & Hl). exact (proj1 (C60_whole_table E o fn lines hs U1 U2 U3 U4 Ht Hz Hw He Hd Hc Hl) Hco).
    - exact (C60_unchecked_table E o fn lines hs U1 U2 U3 U4 Ht Hz Hw He Htl Hoff). }
  unfold read_toc. replace (o_skip o <? 0)%Z with false by (symmetry; apply Z.ltb_ge; exact U3). destruct Hs as [(-> & Hs)|(Hn & Hs)].
  - change (is_stdin (lit "-")) with true. cbv iota. rewrite Hs, B. cbn [bind]. eexists. reflexivity.
  - destruct (is_stdin n) eqn:Hi; [apply is_stdin_iff in Hi; contradiction|]. rewrite Hs, B. cbn [bind]. eexists. reflexivity.
Qed.
Lemma fails_of n lines hs : supplies w n lines -> titled E o lines hs -> unrenderable o hs -> alone_fails E o w n TocDoesNotRenderAsCoherentList.
Proof.
  intros Hs (Hd & Hc & Hl) (Hco & H1 & H2). apply alone_fails_iff. destruct usable as (U1 & U2 & U3 & U4).
  pose proof (fun fn => proj2 (C60_whole_table E o fn lines hs U1 U2 U3 U4 Ht Hz Hw He Hd Hc Hl) Hco H1 H2) as B.
  unfold read_toc. replace (o_skip o <? 0)%Z with false by (symmetry; apply Z.ltb_ge; exact U3). destruct Hs as [(-> & Hs)|(Hn & Hs)].
  - change (is_stdin (lit "-")) with true. cbv iota. rewrite Hs, B. reflexivity.
  - destruct (is_stdin n) eqn:Hi; [apply is_stdin_iff in Hi; contradiction|]. rewrite Hs, B. reflexivity.
Qed.
Lemma build_inputs : build_multiple_tocs E o w (a_names a) = build_multiple_tocs E o w (inputs a).
Proof. unfold inputs. destruct (a_names a); reflexivity. Qed.
Lemma nodup_once l : NoDup l -> stdin_once l.
Proof.
  intros H x y Eq Hin. subst l. apply NoDup_remove_2 in H. apply H. apply in_or_app. right. exact Hin.
Qed.
Hypothesis (Hnd : NoDup (inputs a)).
Lemma all_tables ts : Forall2 (to_expect E o w) (inputs a) ts -> exists w', build_multiple_tocs E o w (a_names a) = Ok (ts, w').
Proof.
  intros H. rewrite build_inputs. apply C22_succeeds; [apply inputs_nonempty| |apply nodup_once; exact Hnd].
  clear -H Hacc Hsel Hskip Ht Hz Hw He. induction H; constructor; auto using table_of.
Qed.
Hypothesis (Htext : a_in_place a = true \/ a_diff a = true -> forall n lines, In n (inputs a) -> supplies w n lines -> n <> lit "-" /\ text_lines lines).

Lemma print_ok f : (a_diff a = true -> forall n, In n (inputs a) -> exists lines, fs_get f n = Some (mkDoc lines false) /\ text_lines lines) ->
  forall l acc, incl (map fst l) (inputs a) -> exists r, print_loop E a f l acc = (concat (map snd l), Ok r).
Proof.
  clear Htext. intros Hf. induction l as [|(n & t) l IH]; intros acc Hi; [eexists; reflexivity|]. cbn [print_loop map concat snd].
  assert (Hi' : incl (map fst l) (inputs a)) by (intros x Hx; apply Hi; right; exact Hx). destruct (a_diff a) eqn:Hd.
  - destruct (Hf eq_refl n) as (lines & G & T); [apply Hi; left; reflexivity|]. rewrite G. destruct (C36_same_verdict E [10%N] t (a_toc_marker a) lines T) as (b & Eb & _). rewrite Eb.
    destruct (IH (acc && b) Hi') as (r & R). rewrite R. eexists. reflexivity.
  - destruct (IH acc Hi') as (r & R). rewrite R. eexists. reflexivity.
Qed.
Lemma run_ok ts : Forall2 (to_expect E o w) (inputs a) ts -> exists b, f_result (cli_write_toc E a w) = Ok b
  /\ f_out (cli_write_toc E a w) = if a_in_place a then [] else concat ts.
Proof.
  intros H. destruct (all_tables ts H) as (w' & B). pose proof (Forall2_length _ _ _ H) as Hl. apply selects_model in Hsel as Eo.
  assert (Hfile : a_in_place a = true \/ a_diff a = true -> forall n, In n (inputs a) -> n <> lit "-" /\ exists lines, fs_get (w_fs w) n = Some (mkDoc lines false) /\ text_lines lines).
  { intros Hm n Hn. assert (X : exists t, to_expect E o w n t) by (clear -H Hn; induction H; [destruct Hn|destruct Hn as [<-|Hn]; [eauto|auto]]). destruct X as (t & lines & hs & Hs & _).
    destruct (Htext Hm n lines Hn Hs) as (N & T). split; [exact N|]. exists lines. split; [apply supplies_file; assumption|exact T]. }
  unfold cli_write_toc. rewrite <- Eo, B, <- inputs_effective. destruct (a_in_place a) eqn:Hi.
  - destruct (write_strings E (cli_newline (a_newline a)) (w_fs w) (inputs a) ts (a_toc_marker a)) as [[b|e] f'] eqn:W; cbn [f_result f_out bind]; [eauto|]. exfalso.
    destruct (C38_batch_failure _ _ _ _ _ _ _ _ Hnd Hl W) as (pre & n & t & post & Eq & _ & Hfail & _).
    assert (Hn : In n (inputs a)) by (apply (in_combine_l _ ts n t); rewrite Eq; apply in_or_app; right; left; reflexivity).
    destruct (Hfile (or_introl eq_refl) n Hn) as (N & lines & G & T).
    destruct Hfail as [(X & _)|[(_ & X & _)|(_ & d & X & Y)]]; [contradiction|congruence|]. rewrite G in X. injection X as <-.
    destruct (write_total E (cli_newline (a_newline a)) t (a_toc_marker a) lines T) as (ls' & v & Z & _). congruence.
  - destruct (print_ok (w_fs w)) with (l := combine (inputs a) ts) (acc := true) as (r & R).
    + intros Hd n Hn. apply Hfile; auto.
    + rewrite map_fst_combine by exact Hl. apply incl_refl.
    + rewrite R, map_snd_combine by exact Hl. cbn [f_result f_out bind]. eauto.
Qed.
Lemma status ts : Forall2 (to_expect E o w) (inputs a) ts ->
  exit_status (f_result (cli_write_toc E a w)) = 0%Z \/ exit_status (f_result (cli_write_toc E a w)) = 128%Z.
Proof. intros H. destruct (run_ok ts H) as ([|] & R & _); rewrite R; cbn; auto. Qed.
Lemma table_fun n t t' : to_expect E o w n t -> to_expect E o w n t' -> t = t'.
Proof. intros A B. apply table_of, alone_iff in A as (x & A). apply table_of, alone_iff in B as (y & B). congruence. Qed.
Lemma differs_iff ts : a_diff a = true -> Forall2 (to_expect E o w) (inputs a) ts ->
  differs E a w ts <-> exists n, In n (inputs a) /\ outdated E o w (a_toc_marker a) n.
Proof.
  intros Hd H. pose proof (Forall2_length _ _ _ H) as Hl. split.
  - intros (n & t & d & Hin & G & T). pose proof (in_combine_l _ _ _ _ Hin) as Hn. pose proof (forall2_in _ _ _ _ _ H Hin) as Hex. pose proof Hex as (lines & hs & Hs & _).
    destruct (Htext (or_intror Hd) n lines Hn Hs) as (N & Tx). pose proof (supplies_file _ _ _ Hs N) as G'. rewrite G in G'. injection G' as ->. exists n. split; [exact Hn|].
    destruct (C36_same_verdict E [10%N] t (a_toc_marker a) lines Tx) as (b & Eb & _ & V1 & V2). rewrite T in Eb. injection Eb as <-.
    destruct (C34_target_exists E (a_toc_marker a) lines Tx) as [Hm|(pre & old & post & t0 & Hg)].
    + exists lines, t, []. repeat (split; [assumption|]). split; [left; auto|]. intros X. apply (V2 Hm) in X. discriminate.
    + exists lines, t, t0. repeat (split; [assumption|]). split; [right; eauto|]. intros X. apply (V1 _ _ _ _ Hg) in X. discriminate.
  - intros (n & Hn & lines & t & t0 & G & Hex & Hth & Hne).
    assert (X : exists t', In (n, t') (combine (inputs a) ts)).
    { clear -H Hn. induction H as [|x y l l' _ _ IH]; [destruct Hn|]. destruct Hn as [<-|Hn]; [eexists; left; reflexivity|]. destruct (IH Hn) as (t' & Z). exists t'. right. exact Z. }
    destruct X as (t' & Hin). pose proof (table_fun _ _ _ Hex (forall2_in _ _ _ _ _ H Hin)) as <-. exists n, t, (mkDoc lines false). split; [exact Hin|]. split; [exact G|].
    destruct Hex as (lines' & hs & Hs & _). destruct (Htext (or_intror Hd) n lines' Hn Hs) as (N & Tx). pose proof (supplies_file _ _ _ Hs N) as G'. rewrite G in G'. injection G' as <-.
    destruct (C36_same_verdict E [10%N] t (a_toc_marker a) lines Tx) as (b & Eb & _ & V1 & V2). destruct b; [|exact Eb]. exfalso. destruct Hth as [(Hm & ->)|(pre & old & post & Hg)].
    + apply Hne. apply (V2 Hm). reflexivity.
    + apply Hne. apply (V1 _ _ _ _ Hg). reflexivity.
Qed.
Lemma status_128 ts : Forall2 (to_expect E o w) (inputs a) ts ->
  exit_status (f_result (cli_write_toc E a w)) = 128%Z <-> a_diff a = true /\ exists n, In n (inputs a) /\ outdated E o w (a_toc_marker a) n.
Proof.
  intros H. destruct (all_tables ts H) as (w' & B). rewrite (C40_status_128_iff_differs E a o w ts w' Hsel B (fun _ => Hnd)). destruct (run_ok ts H) as (b & R & _). split.
  - intros (_ & Hd & X). split; [exact Hd|]. apply (differs_iff ts Hd H). exact X.
  - intros (Hd & X). split; [intros e; congruence|]. split; [exact Hd|]. apply (differs_iff ts Hd H). exact X.
Qed.
End Command.

(** C61: for arguments the command accepts and documents whose tables are known, the command prints
    exactly these tables, in the order of the names, or puts each in its file and changes nothing else;
    the status tells whether, with --diff, a file did not show its table. *)
Theorem C61_command : forall E a o w ts,
  offered a -> selects a o -> (0 <= a_skip a)%Z ->
  python_tables E -> zs_ascii E -> word_ascii E -> entity_tables E ->
  NoDup (inputs a) -> Forall2 (to_expect E o w) (inputs a) ts ->
  (a_in_place a = true \/ a_diff a = true -> forall n lines, In n (inputs a) -> supplies w n lines -> n <> lit "-" /\ text_lines lines) ->
  let run := cli_write_toc E a w in
  (a_in_place a = false -> f_out run = concat ts /\ f_fs run = w_fs w)
  /\ (a_in_place a = true -> f_out run = []
      /\ (forall n, ~ In n (inputs a) -> fs_get (f_fs run) n = fs_get (w_fs w) n)
      /\ (line_end (o_newline o) -> forall n t lines, In (n, t) (combine (inputs a) ts) -> fs_get (w_fs w) n = Some (mkDoc lines false) ->
            exists lines', fs_get (f_fs run) n = Some (mkDoc lines' false) /\ updated E (o_newline o) (a_toc_marker a) t lines lines'))
  /\ (exit_status (f_result run) = 128%Z <-> a_diff a = true /\ exists n, In n (inputs a) /\ outdated E o w (a_toc_marker a) n)
  /\ (exit_status (f_result run) <> 128%Z -> exit_status (f_result run) = 0%Z).
Proof.
  intros E a o w ts Hacc Hsel Hskip Ht Hz Hw He Hnd H Htext run.
  destruct (run_ok E a o w Hacc Hsel Hskip Ht Hz Hw He Hnd Htext ts H) as (b & R & O). destruct (all_tables E a o w Hacc Hsel Hskip Ht Hz Hw He Hnd ts H) as (w' & B).
  split; [|split; [|split]].
  - intros Hi. unfold run. rewrite O, Hi. split; [reflexivity|]. apply C40_printing_touches_nothing. exact Hi.
  - intros Hi. unfold run. rewrite O, Hi. split; [reflexivity|]. destruct (C40_in_place_writes E a o w ts w' b Hsel B Hi Hnd R) as (A1 & A2 & _).
    split; [exact A2|]. intros Hnl n t lines Hin G. destruct (A1 n t Hin) as (d & d' & v & G1 & G2 & G3). rewrite G in G1. injection G1 as <-.
    assert (Hn : In n (inputs a)) by exact (in_combine_l _ _ _ _ Hin). pose proof (forall2_in _ _ _ _ _ H Hin) as (lines' & hs & Hs & _).
    destruct (Htext (or_introl Hi) n lines' Hn Hs) as (N & T). pose proof (supplies_file _ _ _ Hs N) as G'. rewrite G in G'. injection G' as <-.
    destruct (C34_target_exists E (a_toc_marker a) lines T) as [Hm|(pre & old & post & t0 & Hg)].
    + destruct (C37_no_marker_unchanged E (o_newline o) t (a_toc_marker a) lines T Hm) as (v' & W). rewrite W in G2. injection G2 as <- _. exists lines. split; [exact G3|left; auto].
    + destruct (C34_only_the_target_changes E (o_newline o) t (a_toc_marker a) lines pre old post t0 Hnl T Hg) as (_ & text & new & v' & W1 & W2 & W). rewrite W in G2. injection G2 as <- _.
      eexists. split; [exact G3|]. right. exists pre, old, post, t0, text, new. auto.
  - exact (status_128 E a o w Hacc Hsel Hskip Ht Hz Hw He Hnd Htext ts H).
  - intros Hne. destruct (status E a o w Hacc Hsel Hskip Ht Hz Hw He Hnd Htext ts H); [assumption|contradiction].
Qed.
Print Assumptions C61_command.

(** One document that cannot be rendered, and nothing is printed or written at all. *)
Theorem C61_unrenderable : forall E a o w,
  offered a -> selects a o -> (0 <= a_skip a)%Z ->
  python_tables E -> zs_ascii E -> word_ascii E -> entity_tables E ->
  NoDup (inputs a) ->
  (forall n, In n (inputs a) -> exists lines hs, supplies w n lines /\ titled E o lines hs) ->
  (exists n lines hs, In n (inputs a) /\ supplies w n lines /\ titled E o lines hs /\ unrenderable o hs) ->
  cli_write_toc E a w = mkEffect [] (w_fs w) (Err TocDoesNotRenderAsCoherentList)
  /\ exit_status (f_result (cli_write_toc E a w)) = 1%Z.
Proof.
  intros E a o w Hacc Hsel Hskip Ht Hz Hw He Hnd Hall (n & lines & hs & Hn & Hs & Hd & Hu).
  assert (B : build_multiple_tocs E o w (a_names a) = Err TocDoesNotRenderAsCoherentList).
  { rewrite build_inputs. destruct (build_multiple_tocs E o w (inputs a)) as [(ts & w')|e] eqn:B.
    - exfalso. destruct (C22_each_as_alone E o w _ _ _ (inputs_nonempty a) B) as (_ & F & _).
      assert (X : exists t, alone E o w n t) by (clear -F Hn; induction F; [destruct Hn|destruct Hn as [<-|Hn]; [eauto|auto]]). destruct X as (t & X). apply alone_iff in X as (u & X).
      pose proof (fails_of E a o w Hacc Hsel Hskip Ht Hz Hw He n lines hs Hs Hd Hu) as Y. apply alone_fails_iff in Y. congruence.
    - destruct (C22_first_failure E o w _ e (inputs_nonempty a) B) as (pre & m & post & Eq & _ & [F|(-> & Hi)]).
      + assert (Hm : In m (inputs a)) by (rewrite Eq; apply in_or_app; right; left; reflexivity). destruct (Hall m Hm) as (l2 & h2 & S2 & D2). destruct (coherent_or (row_levels o h2)) as [C|U].
        * assert (X : to_expect E o w m (expected_table o h2)) by (exists l2, h2; split; [exact S2|]; split; [exact D2|]; left; auto). apply (table_of E a o w Hacc Hsel Hskip Ht Hz Hw He) in X. apply alone_iff in X as (u & X). apply alone_fails_iff in F. congruence.
        * pose proof (fails_of E a o w Hacc Hsel Hskip Ht Hz Hw He m l2 h2 S2 D2 (conj U (proj2 Hu))) as Y. unfold alone_fails in *. congruence.
      + exfalso. rewrite Eq in Hnd. apply NoDup_remove_2 in Hnd. apply Hnd. apply in_or_app. left. exact Hi. }
  rewrite (C40_failed_build_touches_nothing E a o w _ Hsel B). split; reflexivity.
Qed.
Print Assumptions C61_unrenderable.

(** ** Two files, one with a marker in the line that is skipped. *)
Definition marked : list str := ln "<!--TOC-->" :: skipn 1 guide.
Definition guide_args (levels : Z) (in_place : bool) : cli_args :=
  mkArgs [lit "a.md"; lit "b.md"] (Some (lit ".")) (lit "-") false false false levels Github 1 false in_place true (lit "<!--TOC-->") (lit "\n").
Definition guide_world : world := mkWorld [(lit "b.md", mkDoc guide false); (lit "c.md", mkDoc [] true); (lit "a.md", mkDoc marked false)] Closed.
Definition guide_table : str := ln "1. [One *two*](#one-two)" ++ ln "   1. [<b>Tag</b>](#tag)" ++ ln "   2. [\[x\]](#x)" ++ ln "2. [Deep](#deep-1)".
Lemma guide_text first : single_line first -> text_lines ((first ++ [10%N]) :: skipn 1 guide).
Proof. intros H. unfold guide, ln. cbn [skipn]. apply tl_line; [exact H|]. repeat (apply tl_line; [split; vm_compute; intuition discriminate|]). apply tl_nil. Qed.
Lemma guide_titled levels first : titled ascii_env (args_opts (guide_args levels true)) (first :: skipn 1 guide) guide_headings.
Proof. split; [exact guide_document|]. split; [intros _; apply titles_slugs_distinct|]. cbn. lia. Qed.
Lemma guide_offered levels in_place : (1 <= levels <= 6)%Z -> offered (guide_args levels in_place) /\ selects (guide_args levels in_place) (args_opts (guide_args levels true)).
Proof.
  intros H. split.
  - split; [discriminate|]. split; [left; reflexivity|]. split; [intros m X; injection X as <-; auto|]. split; [exact H|]. split; [discriminate|left; reflexivity].
  - split; [cbn; split; intros; [discriminate|reflexivity]|]. split; [intros m X; injection X as <-; reflexivity|]. split; [discriminate|]. repeat (split; [reflexivity|]). constructor.
Qed.
Example C61_command_ex :
  let a := guide_args 3 true in let o := args_opts a in
  offered a /\ selects a o /\ (0 <= a_skip a)%Z /\ NoDup (inputs a)
  /\ Forall2 (to_expect ascii_env o guide_world) (inputs a) [guide_table; guide_table]
  /\ (forall n lines, In n (inputs a) -> supplies guide_world n lines -> n <> lit "-" /\ text_lines lines)
  /\ line_end (o_newline o)
  /\ WriteSpec.target ascii_env (lit "<!--TOC-->") marked [] [ln "<!--TOC-->"] (skipn 1 guide) (lit "<!--TOC-->")
  /\ fs_get (f_fs (cli_write_toc ascii_env a guide_world)) (lit "a.md") =
       Some (mkDoc ([ln "<!--TOC-->"; ln ""; ln "1. [One *two*](#one-two)"; ln "   1. [<b>Tag</b>](#tag)"; ln "   2. [\[x\]](#x)"; ln "2. [Deep](#deep-1)"; ln ""; ln "<!--TOC-->"] ++ skipn 1 guide) false)
  /\ outdated ascii_env o guide_world (lit "<!--TOC-->") (lit "a.md")
  /\ f_out (cli_write_toc ascii_env (guide_args 3 false) guide_world) = guide_table ++ guide_table.
Proof.
  intros a o. assert (X : forall n, n = lit "a.md" \/ n = lit "b.md" -> to_expect ascii_env o guide_world n guide_table).
  { intros n Hn. assert (K : exists first, supplies guide_world n (first :: skipn 1 guide)) by (destruct Hn as [-> | ->]; [exists (ln "<!--TOC-->")|exists (ln "intro")]; right; (split; [discriminate|reflexivity])).
    destruct K as (first & K). exists (first :: skipn 1 guide), guide_headings. split; [exact K|]. split; [apply guide_titled|]. left. split; [exact (proj1 (proj2 (proj2 (proj2 (proj2 (proj2 (proj2 (proj2 C60_whole_table_ex))))))))|vm_compute; reflexivity]. }
  assert (T : WriteSpec.target ascii_env (lit "<!--TOC-->") marked [] [ln "<!--TOC-->"] (skipn 1 guide) (lit "<!--TOC-->")).
  { apply (tg_single ascii_env (lit "<!--TOC-->") [] (ln "<!--TOC-->") (skipn 1 guide)); [vm_compute; reflexivity|intros l []|apply not_marker_dec; vm_compute; reflexivity]. }
  split; [apply guide_offered; lia|]. split; [apply guide_offered; lia|]. split; [cbn; lia|]. split; [repeat (constructor; [cbn; intuition discriminate|]); constructor|].
  split; [constructor; [apply X; auto|constructor; [apply X; auto|constructor]]|].
  split. { intros n lines [<-|[<-|[]]] [(N & _)|(N & G)]; try discriminate N; (split; [exact N|]); cbn in G; injection G as <-; apply guide_text; split; vm_compute; intuition discriminate. }
  split; [left; reflexivity|]. split; [exact T|]. split; [vm_compute; reflexivity|]. split; [|vm_compute; reflexivity].
  exists marked, guide_table, (lit "<!--TOC-->"). split; [reflexivity|]. split; [apply X; auto|]. split; [right; exists [], [ln "<!--TOC-->"], (skipn 1 guide); exact T|vm_compute; discriminate].
Qed.
Example C61_unrenderable_ex :
  let a := guide_args 6 true in let o := args_opts a in
  offered a /\ selects a o /\ NoDup (inputs a)
  /\ (forall n, In n (inputs a) -> exists lines, supplies guide_world n lines /\ titled ascii_env o lines guide_headings) /\ unrenderable o guide_headings
  /\ exit_status (f_result (cli_write_toc ascii_env a guide_world)) = 1%Z.
Proof.
  intros a o. split; [apply guide_offered; lia|]. split; [apply guide_offered; lia|]. split; [repeat (constructor; [cbn; intuition discriminate|]); constructor|].
  split. { intros n [<-|[<-|[]]]; [exists marked|exists guide]; (split; [right; split; [discriminate|reflexivity]|apply guide_titled]). }
  split; [|vm_compute; reflexivity]. split; [|split; reflexivity].
  intros H. specialize (H [1; 2] 4 [2; 1] eq_refl). assert (X : 1 <= 4 <= 3) by (apply H; discriminate). lia.
Qed.
(** The same files with every level listed and the check of the levels switched off. *)
Definition unchecked_args (in_place : bool) : cli_args :=
  mkArgs [lit "a.md"; lit "b.md"] (Some (lit ".")) (lit "-") false false true 6 Github 1 false in_place true (lit "<!--TOC-->") (lit "\n").
Definition unchecked_table : str :=
  ln "1. [One *two*](#one-two)" ++ ln "   1. [<b>Tag</b>](#tag)" ++ ln "      1. [Deep](#deep)" ++ ln "   2. [\[x\]](#x)" ++ ln "2. [Deep](#deep-1)".
Example C61_command_unchecked_ex :
  let a := unchecked_args true in let o := args_opts a in
  offered a /\ selects a o /\ ~ coherent (row_levels o guide_headings)
  /\ Forall2 (to_expect ascii_env o guide_world) (inputs a) [unchecked_table; unchecked_table]
  /\ fs_get (f_fs (cli_write_toc ascii_env a guide_world)) (lit "a.md") =
       Some (mkDoc ([ln "<!--TOC-->"; ln ""; ln "1. [One *two*](#one-two)"; ln "   1. [<b>Tag</b>](#tag)"; ln "      1. [Deep](#deep)"; ln "   2. [\[x\]](#x)"; ln "2. [Deep](#deep-1)"; ln ""; ln "<!--TOC-->"] ++ skipn 1 guide) false).
Proof.
  intros a o. split. { split; [discriminate|]. split; [left; reflexivity|]. split; [intros m X; injection X as <-; auto|]. split; [cbn; lia|]. split; [discriminate|left; reflexivity]. }
  split. { split; [cbn; split; intros; [discriminate|reflexivity]|]. split; [intros m X; injection X as <-; reflexivity|]. split; [discriminate|]. repeat (split; [reflexivity|]). constructor. }
  split; [intros H; specialize (H [1; 2] 4 [2; 1] eq_refl); assert (X : 1 <= 4 <= 3) by (apply H; discriminate); lia|].
  split; [|vm_compute; reflexivity].
  assert (K : forall first, titled ascii_env o (first :: skipn 1 guide) guide_headings) by (intros first; split; [exact guide_document|]; split; [intros _; apply titles_slugs_distinct|cbn; lia]).
  constructor; [|constructor; [|constructor]].
  - exists marked, guide_headings. split; [right; split; [discriminate|reflexivity]|]. split; [apply K|]. right. split; [right; reflexivity|vm_compute; reflexivity].
  - exists guide, guide_headings. split; [right; split; [discriminate|reflexivity]|]. split; [apply K|]. right. split; [right; reflexivity|vm_compute; reflexivity].
Qed.
