(** Further theorems of C08, C23, C38, C40 and C60: skipped lines, names given more than once, what is
    printed while comparing, tables that are not coherent. *)
From Coq Require Import String List NArith ZArith Bool Arith Lia.
From Verif Require Import Str Fence Atx Inlines Anchor Toc Write Cli Spec EnvSpec AnchorSpec TocSpec TableSpec DocSpec WriteSpec CliSpec EmphSpec LinkSpec SafeSpec BookSpec
  StrFacts FenceProof AtxProof TocProof TocLoop TableProof AsciiEnv PropDoc PropTable PropMulti PropEmphasis PropLinks PropHtml PropErrors PropPlain PropBook.
Import ListNotations.
Local Open Scope list_scope.

(** *** C08, C23: any number of skipped lines *)
Lemma skipped E o fn lines : (0 <= o_skip o)%Z ->
  build_toc E o fn (mkDoc lines false) = build_toc E (with_skip o 0) fn (mkDoc (skipn (Z.to_nat (o_skip o)) lines) false).
Proof. intros Hs. rewrite <- C20_skip_drops_first_lines, Z2Nat.id by exact Hs. destruct o; reflexivity. Qed.
Lemma skipn_forall {A} (P : A -> Prop) n l : Forall P l -> Forall P (skipn n l).
Proof. intros H. rewrite <- (firstn_skipn n l) in H. apply Forall_app in H. tauto. Qed.
Theorem C08_after_skipped_lines : forall E o fn lines ks e,
  (0 <= o_skip o)%Z -> (1 <= o_keep o)%Z -> Forall file_line lines ->
  let read := skipn (Z.to_nat (o_skip o)) lines in
  outside (o_parser o) None read ks e ->
  fn = lit "-" \/ ~ ends_inside (o_parser o) read ->
  build_toc E o fn (mkDoc lines false) = build_toc E (with_skip o 0) fn (mkDoc ks false).
Proof.
  intros E o fn lines ks e Hs Hk Hf read Ho He. rewrite (skipped E o fn lines Hs). fold read.
  apply (C08_only_lines_outside_fences_matter E (with_skip o 0) fn read ks e); auto. apply skipn_forall. exact Hf.
Qed.
Print Assumptions C08_after_skipped_lines.
(** A fence among the skipped lines does not count. *)
Example C08_after_skipped_lines_ex :
  let lines := ln "~~~" :: fenced_doc in
  outside Github None (skipn 1 lines) [ln "# a"; ln "## b"] None /\ ~ ends_inside Github (skipn 1 lines)
  /\ build_toc ascii_env (with_skip (opts0 Github) 1) (lit "f.md") (mkDoc lines false) = Ok (ln "- [a](#a)" ++ ln "  - [b](#b)").
Proof. split; [exact fenced_outside|]. split; [eapply ends_none; exact fenced_outside|vm_compute; reflexivity]. Qed.

Theorem C23_after_skipped_lines : forall E o fn fn' lines,
  (0 <= o_skip o)%Z -> (1 <= o_keep o)%Z -> Forall file_line lines ->
  let read := skipn (Z.to_nat (o_skip o)) lines in
  ~ ends_inside (o_parser o) read \/ (exists pre l, read = pre ++ [l] /\ ~ small_indent l) ->
  build_toc E o fn (mkDoc lines false) = build_toc E o fn' (mkDoc lines false).
Proof.
  intros E o fn fn' lines Hs Hk Hf read He. rewrite !(skipped E o _ lines Hs). fold read.
  apply (C23_stdin_and_files_agree E (with_skip o 0) fn fn' read); auto. apply skipn_forall. exact Hf.
Qed.
Print Assumptions C23_after_skipped_lines.
Example C23_after_skipped_lines_ex :
  let lines := ln "~~~" :: fenced_doc in
  ~ ends_inside Github (skipn 1 lines)
  /\ build_toc ascii_env (with_skip (opts0 Github) 1) (lit "-") (mkDoc lines false) = Ok (ln "- [a](#a)" ++ ln "  - [b](#b)").
Proof. split; [eapply ends_none; exact fenced_outside|vm_compute; reflexivity]. Qed.

(** *** C38: names may be given more than once.  [in_order f ps vs g]: the texts [ps] are written one after
    the other, each into the file as the earlier ones left it, with the verdicts [vs]; [f] becomes [g]. *)
Inductive in_order (E : env) (nl marker : str) : fs -> list (str * str) -> list bool -> fs -> Prop :=
| order_end : forall f, in_order E nl marker f [] [] f
| order_next : forall f n t d v rest vs g, writes E nl f marker n t d v ->
    in_order E nl marker (fs_set f n d) rest vs g -> in_order E nl marker f ((n, t) :: rest) (v :: vs) g.
Lemma write_loop_order E nl marker l : forall f acc, match write_loop E nl f l marker acc with
  | (Ok b, g) => exists vs, in_order E nl marker f l vs g /\ (b = true <-> acc = true /\ Forall (eq true) vs)
  | (Err e, g) => exists pre n t post vs, l = pre ++ (n, t) :: post /\ in_order E nl marker f pre vs g /\ write_fails E nl g marker n t e
  end.
Proof.
  induction l as [|(n & t) l IH]; intros f acc; cbn [write_loop].
  - exists []. split; [constructor|]. split; [auto|tauto].
  - pose proof (write_one_spec E nl f n t marker) as W. destruct (write_one E nl f n t marker) as ([v|e] & g).
    + destruct W as (d & W & ->). specialize (IH (fs_set f n d) (acc && v)). destruct (write_loop _ _ _ l _ _) as ([b|e] & g).
      * destruct IH as (vs & A & B). exists (v :: vs). split; [econstructor; eassumption|]. rewrite B, andb_true_iff. split.
        -- intros ((X & Y) & Z). split; [exact X|]. constructor; [symmetry; exact Y|exact Z].
        -- intros (X & Y). inversion Y; subst. auto.
      * destruct IH as (pre & m & s & post & vs & -> & A & B). exists ((n, t) :: pre), m, s, post, (v :: vs). split; [reflexivity|]. split; [econstructor; eassumption|exact B].
    + destruct W as (W & ->). exists [], n, t, l, []. split; [reflexivity|]. split; [constructor|exact W].
Qed.
Theorem C38_in_order : forall E nl f names tocs marker, length names = length tocs ->
  match write_strings E nl f names tocs marker with
  | (Ok b, g) => exists vs, in_order E nl marker f (combine names tocs) vs g /\ (b = true <-> Forall (eq true) vs)
  | (Err e, g) => exists pre n t post vs, combine names tocs = pre ++ (n, t) :: post
      /\ in_order E nl marker f pre vs g /\ write_fails E nl g marker n t e
  end.
Proof.
  intros E nl f names tocs marker Hl. unfold write_strings. rewrite (proj2 (Nat.eqb_eq _ _) Hl).
  pose proof (write_loop_order E nl marker (combine names tocs) f true) as G. destruct (write_loop _ _ _ _ _ _) as ([b|e] & g); [|exact G].
  destruct G as (vs & A & B). exists vs. split; [exact A|]. rewrite B. tauto.
Qed.
Print Assumptions C38_in_order.
Theorem C38_order_decides : forall E nl marker f ps vs g vs' g',
  in_order E nl marker f ps vs g -> in_order E nl marker f ps vs' g' -> vs = vs' /\ g = g'.
Proof.
  intros E nl marker f ps vs g vs' g' H. revert vs' g'. induction H as [f|f n t d v rest vs g W H IH]; intros vs' g' K; inversion K as [|? ? ? d1 v1 ? vs1 ? W1 K1]; subst; [auto|].
  destruct W as (_ & d0 & G & T). destruct W1 as (_ & d0' & G' & T'). assert (d0' = d0) by congruence. subst. assert (d1 = d /\ v1 = v) as (-> & ->) by (split; congruence).
  destruct (IH _ _ K1) as (-> & ->). auto.
Qed.
Print Assumptions C38_order_decides.
(** The same file twice: the second write finds the table of the first. *)
Definition twice_fs : fs := [(lit "a", mkDoc [ln "<!--TOC-->"; ln "# x"] false)].
Example C38_in_order_ex :
  let after := mkDoc [ln "<!--TOC-->"; ln ""; ln "- x"; ln ""; ln "<!--TOC-->"; ln "# x"] false in
  write_strings ascii_env [10%N] twice_fs [lit "a"; lit "a"] [ln "- x"; ln "- x"] (lit "<!--TOC-->") = (Ok false, [(lit "a", after)])
  /\ in_order ascii_env [10%N] (lit "<!--TOC-->") twice_fs [(lit "a", ln "- x"); (lit "a", ln "- x")] [false; true] [(lit "a", after)].
Proof.
  cbv zeta. split; [vm_compute; reflexivity|]. apply (order_next _ _ _ _ _ _ (mkDoc [ln "<!--TOC-->"; ln ""; ln "- x"; ln ""; ln "<!--TOC-->"; ln "# x"] false)).
  - split; [discriminate|]. eexists. split; vm_compute; reflexivity.
  - apply (order_next _ _ _ _ _ _ (mkDoc [ln "<!--TOC-->"; ln ""; ln "- x"; ln ""; ln "<!--TOC-->"; ln "# x"] false)); [split; [discriminate|eexists; split; vm_compute; reflexivity]|].
    apply order_end.
Qed.

(** *** C40: what is printed while comparing *)
Lemma print_diff E a f : a_diff a = true -> forall l acc, match print_loop E a f l acc with
  | (out, Ok r) => out = concat (map snd l)
  | (out, Err e) => exists pre n t post, l = pre ++ (n, t) :: post /\ out = concat (map snd pre) ++ t
      /\ (forall m s, In (m, s) pre -> exists d b, fs_get f m = Some d /\ tocs_equal E s (a_toc_marker a) d = Ok b)
      /\ ((fs_get f n = None /\ e = FileNotFoundError) \/ exists d, fs_get f n = Some d /\ tocs_equal E t (a_toc_marker a) d = Err e)
  end.
Proof.
  intros Hd. induction l as [|(n & t) l IH]; intros acc; cbn [print_loop]; [reflexivity|]. rewrite Hd.
  destruct (fs_get f n) as [d|] eqn:G.
  2:{ exists [], n, t, l. split; [reflexivity|]. split; [reflexivity|]. split; [intros m s []|auto]. }
  destruct (tocs_equal E t (a_toc_marker a) d) as [b|e] eqn:T.
  2:{ exists [], n, t, l. split; [reflexivity|]. split; [reflexivity|]. split; [intros m s []|right; exists d; auto]. }
  specialize (IH (acc && b)). destruct (print_loop E a f l (acc && b)) as (out & [r|e]); [rewrite IH; reflexivity|].
  destruct IH as (pre & m & s & post & -> & -> & A & B). exists ((n, t) :: pre), m, s, post. split; [reflexivity|]. split; [cbn; rewrite app_assoc; reflexivity|]. split; [|exact B].
  intros m' s' [X|X]; [injection X as <- <-; exists d, b; auto|exact (A m' s' X)].
Qed.
Theorem C40_diff_prints_too : forall E a o w tocs w',
  selects a o -> a_in_place a = false -> a_diff a = true -> build_multiple_tocs E o w (a_names a) = Ok (tocs, w') ->
  let run := cli_write_toc E a w in
  (forall r, f_result run = Ok r -> f_out run = concat tocs)
  /\ (forall e, f_result run = Err e -> exists pre n t post, combine (inputs a) tocs = pre ++ (n, t) :: post
        /\ f_out run = concat (map snd pre) ++ t
        /\ (forall m s, In (m, s) pre -> exists d b, fs_get (w_fs w) m = Some d /\ tocs_equal E s (a_toc_marker a) d = Ok b)
        /\ ((fs_get (w_fs w) n = None /\ e = FileNotFoundError)
            \/ exists d, fs_get (w_fs w) n = Some d /\ tocs_equal E t (a_toc_marker a) d = Err e)).
Proof.
  intros E a o w tocs w' Hsel Hi Hd Hb run. subst run. cli. unfold cli_write_toc. rewrite Hb, Hi.
  pose proof (print_diff E a (w_fs w) Hd (combine (effective_names (a_names a)) tocs) true) as P.
  destruct (print_loop _ _ _ _ _) as (out & [r|e]); cbn [bind f_result f_out].
  - split; [|discriminate]. intros _ _. rewrite P. rewrite map_snd_combine by (eapply built_length; exact Hb). reflexivity.
  - split; [discriminate|]. intros e' X. injection X as <-. destruct P as (pre & n & t & post & A & B). exists pre, n, t, post. split; [rewrite <- A; unfold inputs, effective_names; destruct (a_names a); reflexivity|exact B].
Qed.
Print Assumptions C40_diff_prints_too.
(** The table of standard input is printed before the comparison fails. *)
Example C40_diff_prints_too_ex :
  let w := mkWorld fs1 (Fresh (mkDoc [ln "# Std"] false)) in
  (exists o, selects (args1 [lit "b.md"; lit "-"] false true) o)
  /\ f_out (cli_write_toc ascii_env (args1 [lit "b.md"] false true) w) = ln "- [Same](#same)"
  /\ f_out (cli_write_toc ascii_env (args1 [lit "b.md"; lit "-"; lit "b.md"] false true) w) = ln "- [Same](#same)" ++ ln "- [Std](#std)"
  /\ f_result (cli_write_toc ascii_env (args1 [lit "b.md"; lit "-"; lit "b.md"] false true) w) = Err FileNotFoundError.
Proof. cbv zeta. split; [apply C40_options_selected; cbn; auto|]. repeat split; vm_compute; reflexivity. Qed.

(** *** C60: tables that are not coherent, when a check is off *)
Lemma rows_loose o hs : forall hist seen ls,
  rows o (used_ordered o) (used_marker o) hist (filter (fun e => listed (o_parser o) (o_keep o) (e_level e)) (with_anchors (o_parser o) seen (map found_of hs))) = Ok ls ->
  ls = loose_rows o hist seen hs.
Proof.
  induction hs as [|h hs IH]; intros hist seen ls; cbn [map with_anchors filter e_level found_of f_level f_slug f_text loose_rows]; [intros H; injection H as <-; reflexivity|].
  destruct (listed _ _ _); [|apply IH]. cbn [rows e_level e_text e_anchor]. unfold entry_line. destruct (_ && _ && _); [discriminate|]. destruct (_ && _ && _); [discriminate|]. destruct (_ && _); [discriminate|].
  destruct (rows _ _ _ _ _) as [ss|x] eqn:R; [|discriminate]. intros H. injection H as <-. apply (f_equal2 (@cons str)); [reflexivity|exact (IH _ _ _ R)].
Qed.
Theorem C60_unchecked_table : forall E o fn lines hs,
  o_parser o <> OtherParser -> (1 <= o_keep o)%Z -> (0 <= o_skip o)%Z -> marker_valid o ->
  python_tables E -> zs_ascii E -> word_ascii E -> entity_tables E ->
  titled E o lines hs -> o_no_indentation o = true \/ o_no_list_coherence o = true ->
  build_toc E o fn (mkDoc lines false) = Ok (loose_table o hs).
Proof.
  intros E o fn lines hs Hp Hk Hs Hm Ht Hz Hw He (Hd & Hc & Hn) Hoff.
  rewrite (skipped E o fn lines Hs). set (o' := with_skip o 0).
  destruct (document_applies E o' fn _ hs Hp Hk eq_refl Ht Hz Hw He Hd Hc) as (ks & Ha & Hh).
  rewrite (applies_rows _ _ _ _ _ _ Ha Hh). change (o_parser o') with (o_parser o). change (o_keep o') with (o_keep o).
  set (es := entries (o_parser o) (o_keep o) (map found_of hs)).
  assert (Hkn : known_parser (o_parser o')) by exact (proj1 Ha).
  assert (Hm' : valid_marker o').
  { unfold valid_marker. destruct (used_ordered o') eqn:Eu; [left; reflexivity|right]. destruct Hm as [X|[X|(m & X & Y)]].
    - unfold used_ordered in Eu. cbn in Eu. rewrite X in Eu. discriminate.
    - unfold used_ordered in Eu. cbn in Eu. rewrite X, orb_true_r in Eu. discriminate.
    - unfold used_marker. rewrite Eu. cbn [o_marker o' with_skip]. rewrite X. exact Y. }
  assert (Hov : no_overflow o' (length (@nil (nat * nat)) + length es)).
  { right. right. cbn [length Nat.add]. assert (L : length es <= length hs); [|lia].
    unfold es, entries. rewrite <- (map_length found_of hs).
    assert (G : forall fs seen, length (with_anchors (o_parser o) seen fs) = length fs) by (induction fs as [|f fs IH]; intros seen; [reflexivity|cbn; rewrite IH; reflexivity]).
    rewrite <- (G (map found_of hs) []). generalize (with_anchors (o_parser o) [] (map found_of hs)). clear. induction l as [|a l IH]; [reflexivity|]. cbn [filter]. destruct (listed _ _ _); cbn [length]; lia. }
  destruct (rows_accept o' es [] Hkn Hm' Hov) as (ls & Hr); [destruct Hoff; auto|]. rewrite Hr. unfold loose_table. f_equal. f_equal.
  rewrite (rows_loose o' hs [] [] ls Hr). clear. generalize (@nil (nat * nat)), (@nil str). induction hs as [|h hs IH]; intros hist seen; [reflexivity|].
  cbn [loose_rows]. change (o_parser o') with (o_parser o). change (o_keep o') with (o_keep o). destruct (listed _ _ _); [|apply IH]. cbv zeta. apply (f_equal2 (@cons str)); [reflexivity|apply IH].
Qed.
Print Assumptions C60_unchecked_table.
Definition with_check_off (o : opts) : opts := with_no_list_coherence o true.
Example C60_unchecked_table_ex :
  document ascii_env Github true None (skipn 1 guide) guide_headings
  /\ ~ coherent (row_levels (with_check_off (guide_options 6)) guide_headings)
  /\ build_toc ascii_env (with_check_off (guide_options 6)) (lit "guide.md") (mkDoc guide false)
     = Ok (concat (loose_rows (with_check_off (guide_options 6)) [] [] guide_headings))
  /\ concat (loose_rows (with_check_off (guide_options 6)) [] [] guide_headings) =
     ln "1. [One *two*](#one-two)" ++ ln "   1. [<b>Tag</b>](#tag)" ++ ln "      1. [Deep](#deep)" ++ ln "   2. [\[x\]](#x)" ++ ln "2. [Deep](#deep-1)".
Proof.
  split; [exact guide_document|]. split; [intros H; specialize (H [1; 2] 4 [2; 1] eq_refl); assert (X : 1 <= 4 <= 3) by (apply H; discriminate); lia|].
  split; vm_compute; reflexivity.
Qed.
