(** The modes of the command compared with each other: C52. *)
From Coq Require Import String List NArith ZArith Bool Arith Lia.
From Verif Require Import Str Fence Atx HtmlRe Inlines Anchor Toc Write Cli Spec EnvSpec AnchorSpec TocSpec DocSpec TableSpec WriteSpec RerunSpec CliSpec AsciiEnv.
From Verif Require Import StrFacts FenceProof AtxProof DecFacts AnchorProof TocProof TocLoop TocRun TableProof WriteProof WriteLoop PropDoc PropTable PropWrite PropMulti PropRerun.
Import ListNotations.
Local Open Scope list_scope.

(** The same arguments, with or without --in-place and --diff. *)
Definition with_mode (a : cli_args) (in_place diff : bool) : cli_args :=
  mkArgs (a_names a) (a_ordered_marker a) (a_unordered_marker a) (a_no_links a) (a_no_indentation a) (a_no_list_coherence a)
    (a_levels a) (a_parser a) (a_skip a) (a_constant a) in_place diff (a_toc_marker a) (a_newline a).
(** What text mode can read in a file that can be decoded. *)
Definition is_text (d : doc) : Prop := d_bad d = true \/ text_lines (d_lines d).

Lemma loops_agree E a nl f0 : a_diff a = true -> forall l f acc,
  NoDup (map fst l) -> ~ In stdin_name (map fst l) ->
  (forall n, In n (map fst l) -> fs_get f n = fs_get f0 n) ->
  (forall n d, In n (map fst l) -> fs_get f0 n = Some d -> is_text d) ->
  fst (write_loop E nl f l (a_toc_marker a) acc) = snd (print_loop E a f0 l acc).
Proof.
  intros Hd. induction l as [|(n & t) l IH]; intros f acc Hnd Hst Hf Ht; [reflexivity|]. cbn [map fst] in *. apply NoDup_cons_iff in Hnd as (Hn & Hnd).
  cbn [write_loop print_loop]. rewrite Hd. unfold write_one. destruct (is_stdin n) eqn:Es.
  { exfalso. apply Hst. left. apply is_stdin_iff. exact Es. }
  rewrite (Hf n) by (left; reflexivity). destruct (fs_get f0 n) as [[ls bad]|] eqn:G; [|reflexivity].
  destruct (Ht n _ (or_introl eq_refl) G) as [Hb|Hb]; cbn [d_bad d_lines] in Hb.
  - subst bad. destruct (C36_undecodable E nl t (a_toc_marker a) ls) as (-> & ->). reflexivity.
  - destruct bad. { destruct (C36_undecodable E nl t (a_toc_marker a) ls) as (-> & ->). reflexivity. }
    destruct (C36_same_verdict E nl t (a_toc_marker a) ls Hb) as (b & -> & (d' & ->) & _).
    rewrite (IH (fs_set f n d') (acc && b)).
    + destruct (print_loop E a f0 l (acc && b)). reflexivity.
    + exact Hnd.
    + intros X. apply Hst. right. exact X.
    + intros m Hm. rewrite fs_get_other by congruence. apply Hf. right. exact Hm.
    + intros m d Hm. apply Ht. right. exact Hm.
Qed.

(** Checking (printing with --diff) and writing (--in-place with --diff) report the same: the same
    status and the same exception, if any. *)
Theorem C52_check_and_write_agree : forall E a w,
  NoDup (inputs a) -> ~ In (lit "-") (inputs a) ->
  (forall n d, In n (inputs a) -> fs_get (w_fs w) n = Some d -> is_text d) ->
  f_result (cli_write_toc E (with_mode a true true) w) = f_result (cli_write_toc E (with_mode a false true) w).
Proof.
  intros E a w Hnd Hst Ht. unfold cli_write_toc. change (args_opts (with_mode a true true)) with (args_opts a). change (args_opts (with_mode a false true)) with (args_opts a).
  cbn [with_mode a_names a_in_place a_diff a_newline a_toc_marker].
  destruct (build_multiple_tocs E (args_opts a) w (a_names a)) as [(tocs & w')|] eqn:B; [|reflexivity].
  pose proof (built_length _ _ _ _ _ _ B) as Hl. rewrite inputs_model in *. unfold write_strings. replace (length (effective_names (a_names a)) =? length tocs) with true by (symmetry; apply Nat.eqb_eq; exact Hl).
  pose proof (loops_agree E (with_mode a false true) (cli_newline (a_newline a)) (w_fs w) eq_refl (combine (effective_names (a_names a)) tocs) (w_fs w) true) as G.
  rewrite map_fst_combine in G by exact Hl. specialize (G Hnd Hst (fun _ _ => eq_refl) Ht). cbn [with_mode a_toc_marker] in G.
  destruct (write_loop _ _ _ _ _ _) as (r & f). destruct (print_loop _ _ _ _ _) as (out & r'). cbn [fst snd] in G. subst r'. reflexivity.
Qed.
Print Assumptions C52_check_and_write_agree.

(** After a run in place that succeeds, checking the same files finds nothing to report. *)
Theorem C52_check_after_write : forall E a o w f1 r,
  selects a o -> o_newline o = [10%N] ->
  word_ascii E -> digit_ascii E -> space_ascii E -> neutral_marker E (a_toc_marker a) ->
  a_names a <> [] -> NoDup (a_names a) -> ~ In (lit "-") (a_names a) ->
  (forall n, In n (a_names a) -> exists lines, fs_get (w_fs w) n = Some (mkDoc lines false) /\ rerunnable E o (a_toc_marker a) n lines) ->
  cli_write_toc E (with_mode a true false) w = mkEffect [] f1 (Ok r) ->
  let check := cli_write_toc E (with_mode a false true) (mkWorld f1 (w_stdin w)) in
  exit_status (f_result check) = 0%Z /\ f_fs check = f1.
Proof.
  intros E a o w f1 r Hsel Hnl Hw Hd Hs Hm Hne Hnd Hst Hfiles H check.
  assert (Hfs : f_fs check = f1) by (apply (C40_printing_touches_nothing E (with_mode a false true) (mkWorld f1 (w_stdin w))); reflexivity).
  split; [|exact Hfs].
  assert (H' : exists r', cli_write_toc E (with_mode a true true) w = mkEffect [] f1 (Ok r')).
  { unfold cli_write_toc in H |- *. change (args_opts (with_mode a true true)) with (args_opts a). change (args_opts (with_mode a true false)) with (args_opts a) in H.
    cbn [with_mode a_names a_in_place a_diff a_newline a_toc_marker] in *.
    destruct (build_multiple_tocs E (args_opts a) w (a_names a)) as [(tocs & w')|]; [|discriminate].
    destruct (write_strings _ _ _ _ _ _) as ([b|e] & f); cbn [bind] in *; [|discriminate]. injection H as -> _. eexists. reflexivity. }
  destruct H' as (r' & H').
  assert (Hin : inputs a = a_names a) by (unfold inputs; destruct (a_names a); [congruence|reflexivity]).
  destruct (C43_command_twice E (with_mode a true true) o w f1 r') as ((r2 & R1 & R2) & _); auto.
  { left. symmetry; exact Hnl. }
  specialize (R2 Hnl). subst r2. unfold check. rewrite <- C52_check_and_write_agree; rewrite ?Hin; auto.
  - rewrite R1. reflexivity.
  - cbn [w_fs]. intros n d Hn Hg. destruct (Hfiles n Hn) as (lines & G & (Hl & _)).
    destruct (build_multiple_tocs E o w (a_names a)) as [(tocs & w')|] eqn:B.
    2: { exfalso. assert (Hsel' : selects (with_mode a true false) o) by exact Hsel. rewrite (C40_failed_build_touches_nothing _ _ _ _ _ Hsel' B) in H. discriminate. }
    assert (Hsel' : selects (with_mode a true false) o) by exact Hsel.
    destruct (C40_in_place_writes E (with_mode a true false) o w tocs w' r Hsel' B eq_refl) as (A & _ & Hlen & _).
    { change (inputs (with_mode a true false)) with (inputs a). rewrite Hin. exact Hnd. }
    { rewrite H. reflexivity. }
    change (inputs (with_mode a true false)) with (inputs a) in *. rewrite Hin in *.
    assert (Hn' := Hn). rewrite <- (map_fst_combine _ _ (eq_sym Hlen)) in Hn'. apply in_map_iff in Hn' as ((n1 & t) & E1 & Hc). cbn in E1. subst n1.
    destruct (A n t Hc) as (d0 & d1 & v & G1 & G2 & G3). rewrite H in G3. cbn [f_fs] in G3. rewrite G in G1. injection G1 as <-.
    cbn [with_mode a_toc_marker] in G2. destruct (write_total E (o_newline o) t (a_toc_marker a) lines Hl) as (ls & b & W1 & W2).
    assert (d = mkDoc ls false) as -> by congruence. right. exact W2.
Qed.
Print Assumptions C52_check_after_write.
Example C52_ex :
  let a := args1 [lit "f.md"] false false in
  let w := mkWorld [(lit "f.md", mkDoc doc_marked false)] Closed in
  let f1 := f_fs (cli_write_toc ascii_env (with_mode a true false) w) in
  exit_status (f_result (cli_write_toc ascii_env (with_mode a false true) w)) = 128%Z
  /\ exit_status (f_result (cli_write_toc ascii_env (with_mode a true true) w)) = 128%Z
  /\ cli_write_toc ascii_env (with_mode a true false) w = mkEffect [] f1 (Ok false)
  /\ exit_status (f_result (cli_write_toc ascii_env (with_mode a false true) (mkWorld f1 Closed))) = 0%Z
  /\ exists o, selects a o /\ o_newline o = [10%N] /\ rerunnable ascii_env o (a_toc_marker a) (lit "f.md") doc_marked.
Proof.
  cbn zeta. split; [vm_compute; reflexivity|]. split; [vm_compute; reflexivity|]. split; [vm_compute; reflexivity|]. split; [vm_compute; reflexivity|].
  destruct C43_command_twice_ex as ((o & Hsel & Hl & Hr) & _). assert (Hm := selects_model _ _ Hsel). exists o. split; [exact Hsel|]. split; [subst o; reflexivity|exact Hr].
Qed.

(** ** C53: a batch that is killed *)
Lemma states_last E nl marker l : forall f acc, last (write_states E nl f l marker) f = snd (write_loop E nl f l marker acc).
Proof.
  induction l as [|(n & t) l IH]; intros f acc; [reflexivity|]. cbn [write_states write_loop]. unfold write_one. destruct (is_stdin n); [reflexivity|].
  destruct (fs_get f n) as [d|]; [|reflexivity]. unfold write_toc. destruct (write_toc_steps E nl t marker d) as [(steps & b)|]; cbn [bind]; [|reflexivity].
  rewrite <- IH. set (f1 := fs_set f n _). assert (Hne : write_states E nl f1 l marker <> []) by (destruct l; discriminate).
  rewrite app_comm_cons. generalize (f :: map (fun s => fs_set f n (mkDoc s (d_bad d))) steps). intros k. destruct (exists_last Hne) as (k2 & x & ->). rewrite app_assoc, !last_last. reflexivity.
Qed.
(** The last of the states is the one that write_strings leaves. *)
Theorem C53_states_end_with_the_result : forall E nl names tocs f marker, length names = length tocs ->
  hd_error (write_states E nl f (combine names tocs) marker) = Some f
  /\ last (write_states E nl f (combine names tocs) marker) f = snd (write_strings E nl f names tocs marker).
Proof.
  intros E nl names tocs f marker Hl. split; [destruct (combine names tocs); reflexivity|]. unfold write_strings. replace (length names =? length tocs) with true by (symmetry; apply Nat.eqb_eq; exact Hl). apply states_last.
Qed.
Print Assumptions C53_states_end_with_the_result.

Definition killed (E : env) (nl : str) (f : fs) (marker : str) (l : list (str * str)) (g : fs) : Prop :=
  exists done rest, l = done ++ rest
  /\ (forall n t, In (n, t) done -> exists d' v, writes E nl f marker n t d' v /\ fs_get g n = Some d')
  /\ (forall n, ~ In n (map fst done) -> fs_get g n = fs_get f n
        \/ exists t rest' lines pre old post t0, rest = (n, t) :: rest'
             /\ fs_get f n = Some (mkDoc lines false) /\ target E marker lines pre old post t0
             /\ fs_get g n = Some (mkDoc (pre ++ post) false)).

Lemma states_killed E nl marker l : line_end nl -> forall f g, NoDup (map fst l) ->
  (forall n d, In n (map fst l) -> fs_get f n = Some d -> is_text d) ->
  In g (write_states E nl f l marker) -> killed E nl f marker l g.
Proof.
  intros Hnl. induction l as [|(n & t) l IH]; intros f g Hnd Ht Hin.
  - destruct Hin as [<-|[]]. exists [], []. split; [reflexivity|]. split; [intros ? ? []|auto].
  - cbn [write_states] in Hin. destruct Hin as [<-|Hin]; [exists [], ((n, t) :: l); split; [reflexivity|]; split; [intros ? ? []|auto]|].
    destruct (is_stdin n) eqn:Es; [destruct Hin|]. destruct (fs_get f n) as [d|] eqn:G; [|destruct Hin].
    cbn [map fst] in Hnd, Ht. apply NoDup_cons_iff in Hnd as (Hn & Hnd).
    destruct (write_toc_steps E nl t marker d) as [(steps & b)|] eqn:W; [|destruct Hin].
    assert (Hns : n <> stdin_name) by (intros ->; discriminate).
    assert (Hwr : writes E nl f marker n t (mkDoc (last steps (d_lines d)) (d_bad d)) b).
    { split; [exact Hns|]. exists d. split; [exact G|]. unfold write_toc. rewrite W. reflexivity. }
    apply in_app_or in Hin as [Hin|Hin].
    + apply in_map_iff in Hin as (s & <- & Hs). destruct d as (ls & bad).
      assert (bad = false) by (destruct bad; [discriminate W|reflexivity]). subst bad.
      destruct (Ht n _ (or_introl eq_refl) G) as [Hb|Hb]; [discriminate|]. cbn [d_lines d_bad] in *.
      destruct (C34_target_exists E marker ls Hb) as [Hno|(pre & old & post & t0 & Hg)].
      { rewrite write_steps_none in W by assumption. injection W as <- _. destruct Hs. }
      destruct (C39_every_step_keeps_the_rest E nl t marker ls pre old post t0 steps b Hnl Hb Hg W) as (text & new & _ & _ & A & B & _).
      destruct (A s Hs) as [-> | ->].
      * exists [], ((n, t) :: l). split; [reflexivity|]. split; [intros ? ? []|]. intros m _. destruct (list_eq_dec N.eq_dec n m) as [->|Hm].
        -- right. exists t, l, ls, pre, old, post, t0. split; [reflexivity|]. split; [exact G|]. split; [exact Hg|]. apply fs_get_same.
        -- left. apply fs_get_other. exact Hm.
      * exists [(n, t)], l. split; [reflexivity|]. split.
        -- intros m u [E1|[]]. injection E1 as <- <-. exists (mkDoc (pre ++ new ++ post) false), b. rewrite B in Hwr. split; [exact Hwr|apply fs_get_same].
        -- intros m Hm. left. apply fs_get_other. intros ->. apply Hm. left. reflexivity.
    + set (f1 := fs_set f n _) in Hin. assert (Hsame : forall m, m <> n -> fs_get f1 m = fs_get f m) by (intros m Hm; apply fs_get_other; congruence).
      assert (Hne : forall m, In m (map fst l) -> m <> n) by congruence.
      destruct (IH f1 g Hnd) as (done & rest & -> & A & B); [|exact Hin|].
      { intros m d' Hm G'. apply (Ht m d' (or_intror Hm)). rewrite <- Hsame by (apply Hne; exact Hm). exact G'. }
      exists ((n, t) :: done), rest. split; [reflexivity|]. split.
      * intros m u [E1|Hm].
        -- injection E1 as <- <-. eexists _, _. split; [exact Hwr|]. destruct (B n) as [->|(t' & rest' & ls & pre & old & post & t0 & -> & _)].
           ++ intros X. apply Hn. rewrite map_app. apply in_or_app. left. exact X.
           ++ apply fs_get_same.
           ++ exfalso. apply Hn. rewrite map_app. apply in_or_app. right. left. reflexivity.
        -- destruct (A m u Hm) as (d' & v & A1 & A2). exists d', v. split; [|exact A2]. apply (writes_ext E nl f f1); [|exact A1]. apply Hsame, Hne. rewrite map_app. apply in_or_app. left. apply in_map_iff. exists (m, u). auto.
      * intros m Hm. cbn [map fst In] in Hm. assert (Hmn : m <> n) by (intros ->; apply Hm; left; reflexivity).
        destruct (B m) as [E1|(t' & rest' & ls & pre & old & post & t0 & E1 & E2 & E3 & E4)]; [tauto|left; rewrite E1; apply Hsame; exact Hmn|].
        right. exists t', rest', ls, pre, old, post, t0. rewrite <- (Hsame m Hmn). auto.
Qed.

(** Wherever a batch is killed: the files of some first names have been written completely, the
    next one is either as it was or has lost exactly its old block, all others are as they were. *)
Theorem C53_killed_batch : forall E nl names tocs f marker g,
  line_end nl -> NoDup names -> length names = length tocs ->
  (forall n d, In n names -> fs_get f n = Some d -> is_text d) ->
  In g (write_states E nl f (combine names tocs) marker) ->
  exists done rest, combine names tocs = done ++ rest
  /\ (forall n t, In (n, t) done -> exists d' v, writes E nl f marker n t d' v /\ fs_get g n = Some d')
  /\ (forall n, ~ In n (map fst done) -> fs_get g n = fs_get f n
        \/ exists t rest' lines pre old post t0, rest = (n, t) :: rest'
             /\ fs_get f n = Some (mkDoc lines false) /\ target E marker lines pre old post t0
             /\ fs_get g n = Some (mkDoc (pre ++ post) false)).
Proof.
  intros E nl names tocs f marker g Hnl Hnd Hl Ht Hin. rewrite <- (map_fst_combine names tocs Hl) in Hnd, Ht. exact (states_killed E nl marker _ Hnl f g Hnd Ht Hin).
Qed.
Print Assumptions C53_killed_batch.
Example C53_ex :
  let m := lit "<!--TOC-->" in
  let f := [(lit "a", mkDoc [ln "<!--TOC-->"; ln "x"] false); (lit "b", mkDoc [ln "<!--TOC-->"] false)] in
  let a' := (lit "a", mkDoc [ln "<!--TOC-->"; ln ""; ln "- A"; ln ""; ln "<!--TOC-->"; ln "x"] false) in
  let b' := (lit "b", mkDoc [ln "<!--TOC-->"; ln ""; ln "- B"; ln ""; ln "<!--TOC-->"] false) in
  write_states ascii_env [10%N] f (combine [lit "a"; lit "b"] [ln "- A"; ln "- B"]) m
  = [f; [(lit "a", mkDoc [ln "x"] false); (lit "b", mkDoc [ln "<!--TOC-->"] false)];
     [a'; (lit "b", mkDoc [ln "<!--TOC-->"] false)]; [a'; (lit "b", mkDoc [ln "<!--TOC-->"] false)];
     [a'; (lit "b", mkDoc [] false)]; [a'; b']; [a'; b']].
Proof. vm_compute. reflexivity. Qed.
