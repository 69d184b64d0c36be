(** Properties of writing a table into a file: C34, C35, C36, C37, C39, and of the helpers: C32, C44.
    A target is the part of a file that a write replaces; see WriteSpec.v. *)
From Coq Require Import String List NArith ZArith Bool Arith Lia.
From Verif Require Import Str StrFacts Spec Entity Inlines Toc Write Cli WriteSpec HelperSpec AsciiEnv WriteProof WriteLoop WriteTwice.
Import ListNotations.
Local Open Scope list_scope.

(** Every line of a text that ends with LF ends with LF. *)
Lemma lines_text_of t : lines_text (lines_of (t ++ [10%N])) (t ++ [10%N]).
Proof.
  split; [apply concat_lines_of|]. destruct (split_last_line t) as (f & u & _ & Hu & Hf & Hl). rewrite Hl, <- (app_nil_r (u ++ [10%N])), lines_of_line by exact Hu.
  intros l Hin. apply in_app_or in Hin as [Hin|[<-|[]]]; [auto|]. eauto.
Qed.
Lemma block_lines E nl marker toc : line_end nl ->
  normalized (block_text E nl marker toc) (universal (final_toc E nl marker toc)) /\ lines_text (lines_of (universal (final_toc E nl marker toc))) (universal (final_toc E nl marker toc)).
Proof.
  intros H. split; [apply normalized_universal|]. destruct (final_ends E nl marker toc H) as (a & ->). destruct (universal_lf a) as (b & ->). apply lines_text_of.
Qed.

Lemma app_last2_hd {A} (a : list A) x y : hd_error (rev (a ++ [x; y])) = Some y.
Proof. rewrite rev_app_distr. reflexivity. Qed.
Lemma universal_cr a : exists b, universal (a ++ [13%N]) = b ++ [10%N].
Proof.
  assert (H : forall s t, normalized s t -> forall a', s = a' ++ [13%N] -> exists b, t = b ++ [10%N]).
  { induction 1 as [|s t N IH|s t Hn N IH|c s t Hc N IH]; intros a' Eq.
    - destruct a'; discriminate.
    - destruct a' as [|x [|y a']]; try discriminate. injection Eq as _ _ Eq. destruct (IH _ Eq) as (b & ->). exists (10%N :: b). reflexivity.
    - destruct a' as [|x a']; [injection Eq as ->; inversion N; subst; exists []; reflexivity|]. injection Eq as _ Eq. destruct (IH _ Eq) as (b & ->). exists (10%N :: b). reflexivity.
    - destruct a' as [|x a']; [injection Eq as -> _; congruence|]. injection Eq as _ Eq. destruct (IH _ Eq) as (b & ->). exists (c :: b). reflexivity. }
  exact (H _ _ (normalized_universal (a ++ [13%N])) a eq_refl).
Qed.
Lemma universal_crlf a : universal (a ++ [13%N; 10%N]) = universal (a ++ [13%N]).
Proof.
  apply universal_is. assert (H : forall s t, normalized s t -> forall a', s = a' ++ [13%N] -> normalized (a' ++ [13%N; 10%N]) t).
  { induction 1 as [|s t N IH|s t Hn N IH|c s t Hc N IH]; intros a' Eq.
    - destruct a'; discriminate.
    - destruct a' as [|x [|y a']]; try discriminate. injection Eq as <- <- Eq. cbn [app]. constructor. auto.
    - destruct a' as [|x a']; [injection Eq as ->; inversion N; subst; cbn [app]; repeat constructor|]. injection Eq as <- Eq. cbn [app]. constructor; [|auto]. subst s. destruct a'; [discriminate|exact Hn].
    - destruct a' as [|x a']; [injection Eq as -> _; congruence|]. injection Eq as <- Eq. cbn [app]. constructor; auto. }
  exact (H _ _ (normalized_universal (a ++ [13%N])) a eq_refl).
Qed.
Lemma final_cr E marker toc : exists a, final_toc E [13%N] marker toc = a ++ [13%N].
Proof. unfold final_toc. eexists (marker ++ [13%N] ++ [13%N] ++ rstrip (e_space E) toc ++ [13%N] ++ [13%N] ++ marker). rewrite <- !app_assoc. reflexivity. Qed.
Lemma lines_of_final_cr E marker toc pre post : full_lines pre -> text_lines post ->
  exists new kept text, normalized (block_text E [13%N] marker toc) text /\ lines_text new text
    /\ (post = [10%N] :: kept \/ (hd_error post <> Some [10%N] /\ post = kept))
    /\ lines_of (universal (concat pre ++ final_toc E [13%N] marker toc ++ concat post)) = pre ++ new ++ kept.
Proof.
  intros Hp Hq. exists (lines_of (universal (final_toc E [13%N] marker toc))), (if list_eq_dec (list_eq_dec N.eq_dec) (firstn 1 post) [[10%N]] then tl post else post), (universal (final_toc E [13%N] marker toc)).
  split; [apply normalized_universal|]. destruct (final_cr E marker toc) as (a & Ha). destruct (universal_cr a) as (b & Hb).
  split; [rewrite Ha, Hb; apply lines_text_of|].
  assert (Hc1 : ~ In 13%N (concat pre)).
  { intros X. apply in_concat in X as (l & Hl & X). destruct (proj1 (Forall_forall _ _) Hp l Hl) as (s & (_ & Hs) & ->). apply in_app_or in X as [X|[X|[]]]; [exact (Hs X)|discriminate]. }
  assert (K : forall u kept, universal (final_toc E [13%N] marker toc ++ u) = (b ++ [10%N]) ++ concat kept -> text_lines kept ->
     lines_of (universal (concat pre ++ final_toc E [13%N] marker toc ++ u)) = pre ++ lines_of (universal (final_toc E [13%N] marker toc)) ++ kept).
  { intros u kept Hu Hk. rewrite universal_app by (left; intros X; apply Hc1; exact (hd_rev_in _ _ X)). rewrite (universal_id (concat pre)) by exact Hc1.
    rewrite lines_of_full by exact Hp. f_equal. rewrite Hu, Ha, Hb, <- app_assoc, lines_of_split, lines_of_concat by exact Hk. reflexivity. }
  destruct (list_eq_dec (list_eq_dec N.eq_dec) (firstn 1 post) [[10%N]]) as [Hd|Hd].
  - destruct post as [|l post]; [discriminate|]. cbn in Hd. injection Hd as ->. split; [left; reflexivity|]. apply K; [|eapply text_tail; exact Hq].
    rewrite Ha. cbn [concat app]. rewrite <- app_assoc. change ([13%N] ++ 10%N :: concat post) with ([13%N; 10%N] ++ concat post). rewrite app_assoc.
    rewrite universal_app by (left; rewrite app_last2_hd; discriminate). rewrite universal_crlf, Hb. f_equal. apply universal_id, text_no_cr. eapply text_tail. exact Hq.
  - split; [right; split; [|reflexivity]; intros X; apply Hd; destruct post; [discriminate|]; injection X as ->; reflexivity|]. apply K; [|exact Hq].
      rewrite Ha, universal_app, Hb. 2:{ right. intros X. apply Hd. inversion Hq as [Y|s Hs Hn Y|s ls Hs Hl Y]; subst; [discriminate| |].
        - destruct s as [|c s]; [congruence|]. cbn in X. injection X as ->. exfalso. apply (proj1 Hs). left. reflexivity.
        - destruct s as [|c s]; [reflexivity|]. cbn in X. injection X as ->. exfalso. apply (proj1 Hs). left. reflexivity. }
      f_equal. apply universal_id, text_no_cr. exact Hq.
Qed.

Ltac computed t H := let r := eval vm_compute in t in assert (H : t = r) by (vm_compute; reflexivity).
(** C34 *)
Theorem C34_only_the_target_changes : forall E nl toc marker lines pre old post t,
  line_end nl -> text_lines lines -> target E marker lines pre old post t ->
  lines = pre ++ old ++ post /\
  exists text new b, normalized (block_text E nl marker toc) text /\ lines_text new text
    /\ write_toc E nl toc marker (mkDoc lines false) = Ok (mkDoc (pre ++ new ++ post) false, b).
Proof.
  intros E nl toc marker lines pre old post t Hnl Ht Hg. split; [exact (target_split _ _ _ _ _ _ _ Hg)|].
  destruct (write_steps_target E nl toc marker lines pre old post t Hnl Ht Hg) as (first & _ & Hw).
  destruct (block_lines E nl marker toc Hnl) as (B1 & B2).
  exists (universal (final_toc E nl marker toc)), (lines_of (universal (final_toc E nl marker toc))). eexists. split; [exact B1|]. split; [exact B2|].
  unfold write_toc. rewrite Hw. cbn [bind d_bad d_lines]. rewrite last_last. reflexivity.
Qed.
Print Assumptions C34_only_the_target_changes.
(** With CR as newline string the same holds, except that an empty line right after the target
    disappears: its LF and the CR that ends the block are one line end for whoever reads the file
    next. *)
Theorem C34_cr_eats_a_blank_line : forall E toc marker lines pre old post t,
  text_lines lines -> target E marker lines pre old post t ->
  exists text new kept b, normalized (block_text E [13%N] marker toc) text /\ lines_text new text
    /\ (post = [10%N] :: kept \/ (hd_error post <> Some [10%N] /\ post = kept))
    /\ write_toc E [13%N] toc marker (mkDoc lines false) = Ok (mkDoc (pre ++ new ++ kept) false, b).
Proof.
  intros E toc marker lines pre old post t Ht Hg. destruct (write_steps_any E [13%N] toc marker lines pre old post t Ht Hg) as (first & _ & Hw).
  destruct (target_full_pre _ _ _ _ _ _ _ Ht Hg) as (Hfull & Hpost).
  destruct (lines_of_final_cr E marker toc pre post Hfull Hpost) as (new & kept & text & A & B & C & D).
  exists text, new, kept. eexists. split; [exact A|]. split; [exact B|]. split; [exact C|]. unfold write_toc. rewrite Hw. cbn [bind d_bad d_lines]. rewrite last_last, D. reflexivity.
Qed.
Print Assumptions C34_cr_eats_a_blank_line.
(** There is a target as soon as there is a marker line, and only one. *)
Theorem C34_target_exists : forall E marker lines, text_lines lines ->
  no_marker E marker lines \/ exists pre old post t, target E marker lines pre old post t.
Proof.
  intros E marker lines Ht. destruct (existing_target E marker lines Ht) as [H|(pre & old & post & t & x & H & _)]; [left; exact H|]. right. eauto 10.
Qed.
Print Assumptions C34_target_exists.
Theorem C34_target_unique : forall E marker lines pre old post t pre' old' post' t',
  target E marker lines pre old post t -> target E marker lines pre' old' post' t' ->
  pre = pre' /\ old = old' /\ post = post' /\ t = t'.
Proof. exact target_fun. Qed.
Print Assumptions C34_target_unique.

Definition mk1 : str := lit "<!--TOC-->".
Definition doc_one : list str := [ln "intro"; ln " <!--TOC--> "; ln ""; ln "# One"; lit "end"].
Definition toc_one : str := ln "- [One](#one)".
Lemma doc_one_text : text_lines doc_one.
Proof.
  unfold doc_one, ln. repeat (apply tl_line; [split; cbn; intuition discriminate|]). apply tl_last; [split; cbn; intuition discriminate|discriminate].
Qed.
Lemma not_marker_dec E marker ls : forallb (fun l => negb (seqb (py_strip E l) (py_strip E marker))) ls = true -> no_marker E marker ls.
Proof.
  intros H l Hl Hm. rewrite forallb_forall in H. specialize (H l Hl). apply seqb_marker in Hm. rewrite Hm in H. discriminate.
Qed.
Lemma doc_one_target : target ascii_env mk1 doc_one [ln "intro"] [ln " <!--TOC--> "] [ln ""; ln "# One"; lit "end"] mk1.
Proof.
  apply (tg_single ascii_env mk1 [ln "intro"] (ln " <!--TOC--> ") [ln ""; ln "# One"; lit "end"]).
  - apply seqb_marker. vm_compute. reflexivity.
  - apply not_marker_dec. vm_compute. reflexivity.
  - apply not_marker_dec. vm_compute. reflexivity.
Qed.
(** The second table, of two lines, is the one that is replaced: the lines between the first two
    markers do not look like a list. *)
Definition doc_two : list str :=
  [ln "<!--TOC-->"; ln "text"; ln "<!--TOC-->"; ln ""; ln "- [A](#a)"; ln "- [B](#b)"; ln ""; ln "<!--TOC-->"; ln "tail"].
Lemma doc_two_text : text_lines doc_two.
Proof. unfold doc_two, ln. repeat (apply tl_line; [split; cbn; intuition discriminate|]). apply tl_nil. Qed.
Lemma doc_two_target : target ascii_env mk1 doc_two [ln "<!--TOC-->"; ln "text"]
  [ln "<!--TOC-->"; ln ""; ln "- [A](#a)"; ln "- [B](#b)"; ln ""; ln "<!--TOC-->"] [ln "tail"] (lit "- [A](#a)" ++ [10%N] ++ lit "- [B](#b)").
Proof.
  replace (lit "- [A](#a)" ++ [10%N] ++ lit "- [B](#b)") with (py_strip ascii_env (concat [ln ""; ln "- [A](#a)"; ln "- [B](#b)"; ln ""])) by (vm_compute; reflexivity).
  apply (tg_table ascii_env mk1 [ln "<!--TOC-->"; ln "text"] (ln "<!--TOC-->") [ln ""; ln "- [A](#a)"; ln "- [B](#b)"; ln ""] (ln "<!--TOC-->") [ln "tail"]).
  - apply seqb_marker. vm_compute. reflexivity.
  - apply seqb_marker. vm_compute. reflexivity.
  - apply not_marker_dec. vm_compute. reflexivity.
  - left. apply detect_iff. vm_compute. reflexivity.
  - apply (no_table_more ascii_env mk1 [] (ln "<!--TOC-->") [ln "text"] (ln "<!--TOC-->")).
    + apply (no_table_short _ _ []). intros ? [].
    + apply seqb_marker. vm_compute. reflexivity.
    + apply not_marker_dec. vm_compute. reflexivity.
    + intros [H|H].
      * apply detect_iff in H. vm_compute in H. discriminate.
      * inversion H as [|? ? X]. cbn in X. intuition discriminate.
Qed.
Example C34_ex :
  write_toc ascii_env [10%N] toc_one mk1 (mkDoc doc_one false) =
    Ok (mkDoc ([ln "intro"] ++ [ln "<!--TOC-->"; ln ""; ln "- [One](#one)"; ln ""; ln "<!--TOC-->"] ++ [ln ""; ln "# One"; lit "end"]) false, false)
  /\ write_toc ascii_env [10%N] toc_one mk1 (mkDoc doc_two false) =
    Ok (mkDoc ([ln "<!--TOC-->"; ln "text"] ++ [ln "<!--TOC-->"; ln ""; ln "- [One](#one)"; ln ""; ln "<!--TOC-->"] ++ [ln "tail"]) false, false)
  /\ write_toc ascii_env [13; 10]%N (lit "- [One](#one)" ++ [13; 10]%N) mk1 (mkDoc doc_two false) = write_toc ascii_env [10%N] toc_one mk1 (mkDoc doc_two false).
Proof. split; [|split]; vm_compute; reflexivity. Qed.
(** With lone CR as line end a blank line after the replaced part is lost. *)
Theorem C34_cr_refuted :
  ~ (forall toc lines pre old post t d b, text_lines lines -> target ascii_env mk1 lines pre old post t ->
       write_toc ascii_env [13%N] toc mk1 (mkDoc lines false) = Ok (d, b) ->
       exists text new, normalized (block_text ascii_env [13%N] mk1 toc) text /\ lines_text new text /\ d = mkDoc (pre ++ new ++ post) false).
Proof.
  intros H. computed (write_toc ascii_env [13%N] toc_one mk1 (mkDoc doc_one false)) W.
  destruct (H toc_one doc_one _ _ _ _ _ _ doc_one_text doc_one_target W) as (text & new & H1 & H2 & H3).
  apply universal_is in H1. vm_compute in H1. subst text. destruct H2 as (H2 & _).
  apply (f_equal d_lines) in H3. apply (f_equal (@concat N)) in H3. cbn [d_lines] in H3. rewrite !concat_app, H2 in H3. vm_compute in H3. discriminate.
Qed.
Print Assumptions C34_cr_refuted.

(** C35 *)
Theorem C35_write_idempotent : forall E nl marker toc toc' tl lines pre old post t d b,
  e_space E 10%N = true -> e_space E 13%N = true ->        (* LF and CR are white space *)
  line_end nl ->
  single_line marker -> trim (e_space E) marker <> [] ->   (* a non-blank marker of one line *)
  normalized toc toc' -> text_lines tl -> concat tl = toc' -> no_marker E marker tl ->   (* the text has no marker line *)
  list_item E (chomp (trim_end (e_space E) toc')) \/ trim (e_space E) toc' = [] ->
  text_lines lines -> target E marker lines pre old post t ->
  write_toc E nl toc marker (mkDoc lines false) = Ok (d, b) ->
  exists b', write_toc E nl toc marker d = Ok (d, b') /\ (b' = true <-> trim (e_space E) toc = trim (e_space E) toc').
Proof.
  intros E nl marker toc toc' tl lines pre old post t d b Hlf Hcr Hnl Hm Hmn Hno Htl Et Hn Hrec Ht Hg Hw.
  destruct (write_steps_target E nl toc marker lines pre old post t Hnl Ht Hg) as (f1 & _ & Hw1).
  destruct (written_target E nl marker toc toc' tl lines pre old post t Hnl Hno Hlf Hcr Hm Hmn Htl Et Hn Hrec Ht Hg) as (Ht2 & Hg2).
  unfold write_toc in Hw. rewrite Hw1 in Hw. cbn [bind d_bad d_lines] in Hw. rewrite last_last in Hw. injection Hw as <- <-.
  destruct (write_steps_target E nl toc marker _ _ _ _ _ Hnl Ht2 Hg2) as (f2 & _ & Hw2).
  eexists. unfold write_toc. rewrite Hw2. cbn [bind d_bad d_lines]. rewrite last_last. split; [reflexivity|]. apply seqb_eq.
Qed.
Print Assumptions C35_write_idempotent.
(** With LF line ends the second write also reports that the table is there already. *)
Theorem C35_write_twice_equal : forall E marker toc tl lines pre old post t d b,
  e_space E 10%N = true -> e_space E 13%N = true ->
  single_line marker -> trim (e_space E) marker <> [] ->
  text_lines tl -> concat tl = toc -> no_marker E marker tl ->
  list_item E (chomp (trim_end (e_space E) toc)) \/ trim (e_space E) toc = [] ->
  text_lines lines -> target E marker lines pre old post t ->
  write_toc E [10%N] toc marker (mkDoc lines false) = Ok (d, b) ->
  write_toc E [10%N] toc marker d = Ok (d, true).
Proof.
  intros E marker toc tl lines pre old post t d b Hlf Hcr Hm Hmn Htl Et Hn Hrec Ht Hg Hw.
  assert (Hno : normalized toc toc). { rewrite <- (universal_id toc) at 2 by (rewrite <- Et; apply text_no_cr; exact Htl). apply normalized_universal. }
  destruct (C35_write_idempotent E [10%N] marker toc toc tl lines pre old post t d b) as (b' & H1 & H2); auto; [left; reflexivity|].
  rewrite H1. replace b' with true by (symmetry; apply H2; reflexivity). reflexivity.
Qed.
Print Assumptions C35_write_twice_equal.
Example C35_ex : list_item ascii_env (chomp (trim_end (e_space ascii_env) toc_one)) /\ no_marker ascii_env mk1 [ln "- [One](#one)"]
  /\ exists d, write_toc ascii_env [10%N] toc_one mk1 (mkDoc doc_one false) = Ok (d, false) /\ write_toc ascii_env [10%N] toc_one mk1 d = Ok (d, true).
Proof.
  split; [apply detect_iff; vm_compute; reflexivity|]. split; [apply not_marker_dec; vm_compute; reflexivity|].
  eexists. split; vm_compute; reflexivity.
Qed.
(** Without the recognition hypothesis it is false: the block is written again. *)
Theorem C35_any_text_refuted :
  ~ (forall toc lines d b, text_lines lines -> write_toc ascii_env [10%N] toc mk1 (mkDoc lines false) = Ok (d, b) ->
       exists b', write_toc ascii_env [10%N] toc mk1 d = Ok (d, b')).
Proof.
  intros H. computed (write_toc ascii_env [10%N] (lit "text") mk1 (mkDoc doc_one false)) W. destruct (H (lit "text") doc_one _ _ doc_one_text W) as (b' & Hb). vm_compute in Hb. discriminate.
Qed.
Print Assumptions C35_any_text_refuted.
(** With CR LF line ends the second write of a table of two lines does not recognise it as equal. *)
Theorem C35_crlf_equal_refuted :
  ~ (forall toc lines d b b', text_lines lines -> write_toc ascii_env [13; 10]%N toc mk1 (mkDoc lines false) = Ok (d, b) ->
       write_toc ascii_env [13; 10]%N toc mk1 d = Ok (d, b') -> b' = true).
Proof.
  intros H. computed (write_toc ascii_env [13; 10]%N (lit "- [A](#a)" ++ [13; 10]%N ++ lit "- [B](#b)" ++ [13; 10]%N) mk1 (mkDoc doc_one false)) W.
  specialize (fun b' => H (lit "- [A](#a)" ++ [13; 10]%N ++ lit "- [B](#b)" ++ [13; 10]%N) doc_one _ _ b' doc_one_text W). clear W.
  vm_compute in H. specialize (H false eq_refl). discriminate.
Qed.
Print Assumptions C35_crlf_equal_refuted.
(** With lone CR every write removes one more blank line after the table. *)
Definition doc_blank : list str := [ln "<!--TOC-->"; ln ""; ln ""; ln ""; ln "# One"].
Lemma doc_blank_text : text_lines doc_blank.
Proof. unfold doc_blank, ln. repeat (apply tl_line; [split; cbn; intuition discriminate|]). apply tl_nil. Qed.
Theorem C35_cr_refuted :
  ~ (forall lines d b, text_lines lines -> write_toc ascii_env [13%N] (lit "- [One](#one)") mk1 (mkDoc lines false) = Ok (d, b) ->
       exists b', write_toc ascii_env [13%N] (lit "- [One](#one)") mk1 d = Ok (d, b')).
Proof.
  intros H. computed (write_toc ascii_env [13%N] (lit "- [One](#one)") mk1 (mkDoc doc_blank false)) W. destruct (H doc_blank _ _ doc_blank_text W) as (b' & Hb). vm_compute in Hb. discriminate.
Qed.
Print Assumptions C35_cr_refuted.

(** C36 *)
Theorem C36_same_verdict : forall E nl toc marker lines,
  text_lines lines ->
  exists b, tocs_equal E toc marker (mkDoc lines false) = Ok b
    /\ (exists d, write_toc E nl toc marker (mkDoc lines false) = Ok (d, b))
    /\ (forall pre old post t, target E marker lines pre old post t -> (b = true <-> trim (e_space E) toc = t))
    /\ (no_marker E marker lines -> (b = true <-> trim (e_space E) toc = [])).
Proof.
  intros E nl toc marker lines Ht. destruct (existing_target E marker lines Ht) as [Hn|(pre & old & post & t & x & Hg & Hx & Ho & _)].
  - exists (seqb (py_strip E toc) []). repeat split.
    + unfold tocs_equal, get_existing_toc. cbn [d_bad d_lines]. rewrite (marker_lines_none _ _ _ Hn). reflexivity.
    + eexists. unfold write_toc. rewrite write_steps_none by assumption. reflexivity.
    + intros Hb. exfalso. destruct H as [? m ? H1|? m ? ? ? H1|? m ? H1]; apply (Hn m); auto; apply in_or_app; right; left; reflexivity.
    + intros Hb. exfalso. destruct H as [? m ? H1|? m ? ? ? H1|? m ? H1]; apply (Hn m); auto; apply in_or_app; right; left; reflexivity.
    + apply seqb_eq.
    + apply seqb_eq.
  - exists (seqb (py_strip E toc) t). split; [|split; [|split]].
    + unfold tocs_equal. rewrite Hx. cbn [bind]. rewrite Ho. reflexivity.
    + destruct (write_steps_any E nl toc marker lines pre old post t Ht Hg) as (f & _ & Hw). eexists. unfold write_toc. rewrite Hw. reflexivity.
    + intros pre' old' post' t' Hg'. destruct (target_fun _ _ _ _ _ _ _ _ _ _ _ Hg Hg') as (_ & _ & _ & ->). apply seqb_eq.
    + intros Hn. exfalso. destruct Hg as [? m ? H1|? m ? ? ? H1|? m ? H1]; apply (Hn m); auto; apply in_or_app; right; left; reflexivity.
Qed.
Print Assumptions C36_same_verdict.
Theorem C36_undecodable : forall E nl toc marker lines,
  tocs_equal E toc marker (mkDoc lines true) = Err UnicodeDecodeError
  /\ write_toc E nl toc marker (mkDoc lines true) = Err UnicodeDecodeError.
Proof. intros. split; reflexivity. Qed.
Print Assumptions C36_undecodable.
Example C36_ex : tocs_equal ascii_env (ln "- [A](#a)" ++ ln "- [B](#b)") mk1 (mkDoc doc_two false) = Ok true
  /\ tocs_equal ascii_env toc_one mk1 (mkDoc doc_two false) = Ok false
  /\ tocs_equal ascii_env (ln "<!--TOC-->") mk1 (mkDoc doc_one false) = Ok true.
Proof. repeat split; vm_compute; reflexivity. Qed.

(** C37 *)
Theorem C37_no_marker_unchanged : forall E nl toc marker lines,
  text_lines lines -> no_marker E marker lines ->
  exists b, write_toc E nl toc marker (mkDoc lines false) = Ok (mkDoc lines false, b).
Proof. intros E nl toc marker lines Ht Hn. unfold write_toc. rewrite write_steps_none by assumption. eexists. reflexivity. Qed.
Print Assumptions C37_no_marker_unchanged.
Theorem C37_stdin_refused : forall E nl f toc marker, write_one E nl f (lit "-") toc marker = (Err StdinIsNotAFileToBeWritten, f).
Proof. reflexivity. Qed.
Print Assumptions C37_stdin_refused.
Example C37_ex : write_toc ascii_env [10%N] toc_one mk1 (mkDoc [ln "<!-- TOC -->"; lit "x"] false) = Ok (mkDoc [ln "<!-- TOC -->"; lit "x"] false, false).
Proof. vm_compute. reflexivity. Qed.

(** C39: the contents of the file after each of the operations that rewrite it. *)
Theorem C39_every_step_keeps_the_rest : forall E nl toc marker lines pre old post t steps b,
  line_end nl -> text_lines lines -> target E marker lines pre old post t ->
  write_toc_steps E nl toc marker (mkDoc lines false) = Ok (steps, b) ->
  exists text new, normalized (block_text E nl marker toc) text /\ lines_text new text
    /\ (forall s, In s steps -> s = pre ++ post \/ s = pre ++ new ++ post)
    /\ last steps lines = pre ++ new ++ post /\ length steps <= 2.
Proof.
  intros E nl toc marker lines pre old post t steps b Hnl Ht Hg Hw.
  destruct (write_steps_target E nl toc marker lines pre old post t Hnl Ht Hg) as (first & Hf & Hw'). rewrite Hw' in Hw. injection Hw as <- _.
  destruct (block_lines E nl marker toc Hnl) as (B1 & B2).
  exists (universal (final_toc E nl marker toc)), (lines_of (universal (final_toc E nl marker toc))). split; [exact B1|]. split; [exact B2|]. split; [|split].
  - intros s Hs. apply in_app_or in Hs as [Hs|[<-|[]]]; [|auto]. destruct Hf as [(-> & _)| ->]; [destruct Hs|]. destruct Hs as [<-|[]]. auto.
  - apply last_last.
  - rewrite app_length. cbn [length]. destruct Hf as [(-> & _)| ->]; cbn; lia.
Qed.
Print Assumptions C39_every_step_keeps_the_rest.
Example C39_ex : write_toc_steps ascii_env [10%N] toc_one mk1 (mkDoc doc_one false) =
  Ok ([[ln "intro"; ln ""; ln "# One"; lit "end"];
       [ln "intro"; ln "<!--TOC-->"; ln ""; ln "- [One](#one)"; ln ""; ln "<!--TOC-->"; ln ""; ln "# One"; lit "end"]], false).
Proof. vm_compute. reflexivity. Qed.
(** A crash after the first operation cannot be repaired by running the same write again: the
    markers are gone, so that write leaves the file as it is. *)
Theorem C39_rerun_after_crash_refuted :
  ~ (forall toc lines steps b d b' s, text_lines lines ->
       write_toc_steps ascii_env [10%N] toc mk1 (mkDoc lines false) = Ok (steps, b) -> In s steps ->
       write_toc ascii_env [10%N] toc mk1 (mkDoc lines false) = Ok (d, b') ->
       exists b'', write_toc ascii_env [10%N] toc mk1 (mkDoc s false) = Ok (d, b'')).
Proof.
  intros H. computed (write_toc ascii_env [10%N] toc_one mk1 (mkDoc doc_one false)) W. destruct (H toc_one doc_one _ _ _ _ [ln "intro"; ln ""; ln "# One"; lit "end"] doc_one_text C39_ex (or_introl eq_refl) W) as (b & Hb).
  vm_compute in Hb. discriminate.
Qed.
Print Assumptions C39_rerun_after_crash_refuted.

(** C44 *)
Lemma kept_fun {A} (P : Z -> Prop) n (l r r' : list A) : kept P n l r -> kept P n l r' -> r = r'.
Proof.
  intros H. revert r'. induction H as [n|n x l r Hp H IH|n x l r Hp H IH]; intros r' G; inversion G; subst; try contradiction; try reflexivity.
  - f_equal. auto.
  - auto.
Qed.
Lemma kept_interval {A} a b (l : list A) : forall n, kept (fun i => (a <= i <= b)%Z) n l (firstn (Z.to_nat (b - Z.max a n + 1)) (skipn (Z.to_nat (a - n)) l)).
Proof.
  induction l as [|x l IH]; intros n.
  - rewrite skipn_nil, firstn_nil. constructor.
  - specialize (IH (n + 1)%Z). destruct (Z_lt_ge_dec n a) as [Ha|Ha].
    + apply kept_out; [lia|]. replace (Z.to_nat (a - n)) with (S (Z.to_nat (a - (n + 1)))) by lia. cbn [skipn].
      rewrite Z.max_l in * by lia. exact IH.
    + replace (Z.to_nat (a - n)) with 0 by lia. replace (Z.to_nat (a - (n + 1))) with 0 in IH by lia. cbn [skipn] in *.
      rewrite Z.max_r in * by lia. destruct (Z_le_gt_dec n b) as [Hb|Hb].
      * replace (Z.to_nat (b - n + 1)) with (S (Z.to_nat (b - (n + 1) + 1))) by lia. cbn [firstn]. apply kept_in; [lia|exact IH].
      * replace (Z.to_nat (b - n + 1)) with 0 by lia. replace (Z.to_nat (b - (n + 1) + 1)) with 0 in IH by lia. cbn [firstn] in *. apply kept_out; [lia|exact IH].
Qed.
Theorem C44_extract_lines : forall lines a b,
  ((1 <= a <= b)%Z -> exists sel, kept (fun i => (a <= i <= b)%Z) 1 lines sel /\ extract_lines lines a b = Ok (concat sel))
  /\ (~ (1 <= a <= b)%Z -> extract_lines lines a b = Err ValueError).
Proof.
  intros lines a b. unfold extract_lines. split; intros H.
  - replace (b <? a)%Z with false by (symmetry; apply Z.ltb_ge; lia). replace (a <? 1)%Z with false by (symmetry; apply Z.ltb_ge; lia).
    replace (b <? 1)%Z with false by (symmetry; apply Z.ltb_ge; lia). cbn [orb].
    eexists. split; [apply kept_interval|]. rewrite Z.max_l by lia. reflexivity.
  - destruct (Z.ltb_spec b a); [reflexivity|]. destruct (Z.ltb_spec a 1); [reflexivity|]. destruct (Z.ltb_spec b 1); [reflexivity|]. lia.
Qed.
Print Assumptions C44_extract_lines.
Theorem C44_read_line_interval : forall lines a b, text_lines lines ->
  ((1 <= a)%Z -> exists sel, kept (fun i => (a <= i <= b)%Z) 1 lines sel /\ read_line_interval (concat lines) a b = joined sel)
  /\ (~ (1 <= a)%Z -> read_line_interval (concat lines) a b = []).
Proof.
  intros lines a b Ht. split; intros H.
  - eexists. split; [apply kept_interval|]. rewrite Z.max_l by lia. apply read_line_interval_spec; assumption.
  - unfold read_line_interval. replace (a <? 1)%Z with true by (symmetry; apply Z.ltb_lt; lia). rewrite orb_true_r. reflexivity.
Qed.
Print Assumptions C44_read_line_interval.
(** The text of a line: no LF, no CR, except that LF CR between two characters is no line end. *)
Inductive one_line : str -> Prop :=
| one_nil : one_line []
| one_char : forall c s, c <> 10%N -> c <> 13%N -> one_line s -> one_line (c :: s)
| one_pair : forall c d s, c <> 10%N -> c <> 13%N -> d <> 10%N -> d <> 13%N -> one_line (d :: s) -> one_line (c :: 10%N :: 13%N :: d :: s).
Lemma one_plain w : ~ In 10%N w -> ~ In 13%N w -> one_line w.
Proof. induction w as [|c w IH]; intros H1 H2; constructor; [intros ->; apply H1; left; reflexivity|intros ->; apply H2; left; reflexivity|]. apply IH; intros X; [apply H1|apply H2]; right; exact X. Qed.
(** Lines that all end in the same way, with LF, with CR or with CR LF; the last may have no end. *)
Inductive uniform (e : str) : str -> Prop :=
| uniform_nil : uniform e []
| uniform_pair : forall c d s, c <> 10%N -> c <> 13%N -> d <> 10%N -> d <> 13%N -> uniform e (d :: s) -> uniform e (c :: 10%N :: 13%N :: d :: s)
| uniform_char : forall c s, c <> 10%N -> c <> 13%N -> uniform e s -> uniform e (c :: s)
| uniform_end : forall s, uniform e s -> uniform e (e ++ s).
Lemma uniform_lines e ws w : Forall one_line (ws ++ [w]) -> uniform e (concat (map (fun w => w ++ e) ws) ++ w).
Proof.
  assert (C : forall w s, one_line w -> uniform e s -> uniform e (w ++ s)).
  { intros w0 s0 H Hs. induction H as [|c v H1 H2 H IH|c d v H1 H2 H3 H4 H IH]; [exact Hs|cbn [app]; apply uniform_char; assumption|]. cbn [app] in *. apply uniform_pair; assumption. }
  induction ws as [|x ws IH]; intros H; cbn [app] in H; inversion H as [|? ? Hx Hr]; subst; cbn [map concat app].
  - rewrite <- (app_nil_r w). apply C; [exact Hx|apply uniform_nil].
  - rewrite <- !app_assoc. apply C; [exact Hx|]. apply uniform_end. apply IH. exact Hr.
Qed.
Definition skips (s : str) (n : Z) : str * bool * Z := let '(s, i) := skip_lfcr s in let '(s, n) := skip_crlf s n in let '(s, n) := skip_nl s n in (s, i, n).
Lemma skips_char c s n : c <> 10%N -> c <> 13%N -> skips (c :: s) n = (c :: s, false, n).
Proof.
  intros H1 H2. apply N.eqb_neq in H1, H2. assert (A : skip_lfcr (c :: s) = (c :: s, false)) by (cbn [skip_lfcr]; destruct s; [reflexivity|]; change (N.eqb c cLF) with (N.eqb c 10); rewrite H1; reflexivity).
  assert (B : skip_crlf (c :: s) n = (c :: s, n)) by (cbn [skip_crlf]; destruct s; [reflexivity|]; change (N.eqb c cCR) with (N.eqb c 13); rewrite H2; reflexivity).
  unfold skips. rewrite A, B. cbn [skip_nl]. change (N.eqb c cLF) with (N.eqb c 10). change (N.eqb c cCR) with (N.eqb c 13). rewrite H1, H2. reflexivity.
Qed.
Lemma skips_pair d s n : d <> 10%N -> d <> 13%N -> skips (10%N :: 13%N :: d :: s) n = (d :: s, true, n).
Proof.
  intros H1 H2. pose proof (skips_char d s n H1 H2) as K. unfold skips in *. assert (A : skip_lfcr (d :: s) = (d :: s, false)) by (cbn [skip_lfcr]; destruct s; [reflexivity|]; apply N.eqb_neq in H1; change (N.eqb d cLF) with (N.eqb d 10); rewrite H1; reflexivity).
  change (skip_lfcr (10%N :: 13%N :: d :: s)) with (fst (skip_lfcr (d :: s)), true). rewrite A in *. cbn [fst]. destruct (skip_crlf (d :: s) n) as (s2 & n2). destruct (skip_nl s2 n2) as (s3 & n3). injection K as -> ->. reflexivity.
Qed.
Lemma uniform_head e s : uniform e s -> s = [] \/ (hd 0%N s <> 10%N /\ hd 0%N s <> 13%N) \/ exists s', s = e ++ s' /\ uniform e s'.
Proof. intros [|c d s' H1 H2 _ _ _|c s' H1 H2 _|s' H]; cbn; eauto. Qed.
Lemma no_lfcr c s : c <> 10%N \/ hd 0%N s <> 13%N -> skip_lfcr (c :: s) = (c :: s, false).
Proof. intros H. cbn [skip_lfcr]. destruct s as [|d s]; [reflexivity|]. cbn in H. destruct (N.eqb_spec c cLF), (N.eqb_spec d cCR); try reflexivity. exfalso. destruct H; contradiction. Qed.
Lemma no_crlf c s n : c <> 13%N \/ hd 0%N s <> 10%N -> skip_crlf (c :: s) n = (c :: s, n).
Proof. intros H. cbn [skip_crlf]. destruct s as [|d s]; [reflexivity|]. cbn in H. destruct (N.eqb_spec c cCR), (N.eqb_spec d cLF); try reflexivity. exfalso. destruct H; contradiction. Qed.
Lemma hd_lf s : uniform [10%N] s -> hd 0%N s <> 13%N.
Proof. intros H. apply uniform_head in H as [->|[(_ & H)|(s' & -> & _)]]; [discriminate|exact H|discriminate]. Qed.
Lemma hd_cr s : uniform [13%N] s -> hd 0%N s <> 10%N.
Proof. intros H. apply uniform_head in H as [->|[(H & _)|(s' & -> & _)]]; [discriminate|exact H|discriminate]. Qed.
Lemma skips_end e s n : In e [[10%N]; [13%N]; [13%N; 10%N]] -> uniform e s -> skips (e ++ s) n = skips s (n + 1).
Proof.
  intros [<-|[<-|[<-|[]]]] Hs.
  - pose proof (hd_lf s Hs) as H. unfold skips. cbn [app]. rewrite no_lfcr by auto. rewrite no_crlf by (left; discriminate). change (skip_nl (10%N :: s) n) with (skip_nl s (n + 1)).
    apply uniform_head in Hs as [->|[(H1 & H2)|(s' & -> & Hs)]]; [reflexivity| |cbn [app]; rewrite no_lfcr by (right; apply hd_lf; exact Hs); rewrite no_crlf by (left; discriminate); reflexivity].
    destruct s as [|c s]; [reflexivity|]. cbn in H1. rewrite no_lfcr by auto. rewrite no_crlf by auto. reflexivity.
  - pose proof (hd_cr s Hs) as H. unfold skips. cbn [app]. rewrite no_lfcr by (left; discriminate). rewrite no_crlf by auto. change (skip_nl (13%N :: s) n) with (skip_nl s (n + 1)).
    apply uniform_head in Hs as [->|[(H1 & H2)|(s' & -> & Hs)]]; [reflexivity| |cbn [app]; rewrite no_lfcr by (left; discriminate); rewrite no_crlf by (right; apply hd_cr; exact Hs); reflexivity].
    destruct s as [|c s]; [reflexivity|]. cbn in H1, H2. rewrite no_lfcr by auto. rewrite no_crlf by auto. reflexivity.
  - unfold skips. cbn [app]. rewrite no_lfcr by (left; discriminate). change (skip_crlf (13%N :: 10%N :: s) n) with (skip_crlf s (n + 1)).
    replace (skip_lfcr s) with (s, false); [reflexivity|]. apply uniform_head in Hs as [->|[(H1 & H2)|(s' & -> & Hs)]]; [reflexivity| |cbn [app]; rewrite no_lfcr by (left; discriminate); reflexivity].
    destruct s as [|c s]; [reflexivity|]. cbn in H1. rewrite no_lfcr by auto. reflexivity.
Qed.
Lemma loop_skips f s n a b : rli_loop (S f) s n a b = match skips s n with (s', i, n') => match s' with [] => [] | c :: t => (if (a <=? n')%Z && (n' <=? b)%Z then (if i then [cLF; cCR] else []) ++ [c] else []) ++ rli_loop f t n' a b end end.
Proof. cbn [rli_loop]. unfold skips. destruct (skip_lfcr s) as (s1 & i). destruct (skip_crlf s1 n) as (s2 & n2). destruct (skip_nl s2 n2) as (s3 & n3). destruct s3; reflexivity. Qed.
Lemma loop_fuel a b f f' s n e : In e [[10%N]; [13%N]; [13%N; 10%N]] -> uniform e s -> length s < f -> length s < f' -> rli_loop f s n a b = rli_loop f' s n a b.
Proof.
  intros He H. revert n f f'. induction H as [|c d s H1 H2 H3 H4 H IH|c s H1 H2 H IH|s H IH]; intros n [|f] [|f'] L1 L2; try (cbn in L1, L2; lia).
  - reflexivity.
  - rewrite !loop_skips, skips_char by assumption. cbn in L1, L2. destruct f as [|f], f' as [|f']; try lia. rewrite !loop_skips, skips_pair by assumption.
    specialize (IH n (S f) (S f')). rewrite !loop_skips, skips_char in IH by assumption. cbn [length] in IH. specialize (IH ltac:(lia) ltac:(lia)). apply app_inv_head in IH. rewrite IH. reflexivity.
  - rewrite !loop_skips, skips_char by assumption. cbn in L1, L2. rewrite (IH n f f') by lia. reflexivity.
  - rewrite !loop_skips, skips_end by assumption. rewrite <- !loop_skips. apply IH; rewrite app_length in L1, L2; lia.
Qed.
Lemma loop_content a b e w s : In e [[10%N]; [13%N]; [13%N; 10%N]] -> uniform e s -> one_line w -> forall f n, length (w ++ s) < f ->
  rli_loop f (w ++ s) n a b = (if (a <=? n)%Z && (n <=? b)%Z then w else []) ++ rli_loop (S (length s)) s n a b.
Proof.
  intros He Hs H. induction H as [|c w H1 H2 H IH|c d w H1 H2 H3 H4 H IH]; intros f n L.
  - replace (if (a <=? n)%Z && (n <=? b)%Z then [] else []) with (@nil N) by (destruct ((a <=? n)%Z && (n <=? b)%Z); reflexivity). cbn [app] in *. apply (loop_fuel a b f _ s n e He Hs); lia.
  - destruct f as [|f]; [lia|]. cbn [app] in *. rewrite loop_skips, skips_char by assumption. rewrite IH by (cbn in L; lia). destruct (_ && _); reflexivity.
  - cbn [app] in *. destruct f as [|[|f]]; [lia|cbn in L; lia|]. rewrite loop_skips, skips_char by assumption. rewrite loop_skips, skips_pair by assumption. specialize (IH (S f) n). rewrite loop_skips, skips_char in IH by assumption. cbn [length] in IH, L. specialize (IH ltac:(lia)).
    destruct (_ && _); cbn [app] in *; [injection IH as IH|]; rewrite IH; reflexivity.
Qed.
Theorem C44_line_ends : forall e ws w a b, In e [[10%N]; [13%N]; [13%N; 10%N]] -> Forall one_line (ws ++ [w]) -> (1 <= a)%Z ->
  exists sel, kept (fun i => (a <= i <= b)%Z) 1 (ws ++ [w]) sel /\ read_line_interval (concat (map (fun w => w ++ e) ws) ++ w) a b = concat sel.
Proof.
  intros e ws w a b He Hw Ha. unfold read_line_interval. replace (a <? 1)%Z with false by (symmetry; apply Z.ltb_ge; lia). rewrite orb_false_r. destruct (Z.ltb_spec b a) as [L|_].
  { eexists. split; [apply kept_interval|]. replace (Z.to_nat (b - Z.max a 1 + 1)) with 0 by lia. reflexivity. }
  clear Ha. generalize 1%Z as n. assert (Bo : forall n, (a <=? n)%Z && (n <=? b)%Z = true <-> (a <= n <= b)%Z) by (intros n; rewrite andb_true_iff, !Z.leb_le; tauto).
  induction ws as [|x ws IH]; intros n; cbn [app] in Hw; inversion Hw as [|? ? Hx Hr]; subst.
  - cbn [map concat app]. pose proof (loop_content a b e w [] He (uniform_nil e) Hx (S (length w)) n) as K. rewrite app_nil_r in K. rewrite K by lia. change (rli_loop (S (length (@nil N))) [] n a b) with (@nil N). rewrite app_nil_r.
    specialize (Bo n). destruct (_ && _); [exists [w]; split; [apply kept_in; [tauto|constructor]|cbn; rewrite app_nil_r; reflexivity]|exists []; split; [apply kept_out; [intuition discriminate|constructor]|reflexivity]].
  - cbn [map concat app]. rewrite <- !app_assoc. set (t := concat (map (fun w => w ++ e) ws) ++ w) in *. assert (Ut : uniform e t) by (apply uniform_lines; exact Hr). destruct (IH Hr (n + 1)%Z) as (sel & K1 & K2).
    rewrite (loop_content a b e x (e ++ t) He (uniform_end e t Ut) Hx) by lia. assert (K : rli_loop (S (length (e ++ t))) (e ++ t) n a b = concat sel).
    { rewrite loop_skips, skips_end by assumption. rewrite <- loop_skips. rewrite (loop_fuel a b _ (S (length t)) t _ e He Ut); [exact K2|rewrite app_length; lia|lia]. }
    rewrite K. specialize (Bo n). destruct (_ && _); [exists (x :: sel); split; [apply kept_in; [tauto|exact K1]|reflexivity]|exists sel; split; [apply kept_out; [intuition discriminate|exact K1]|reflexivity]].
Qed.
Print Assumptions C44_line_ends.
Example C44_line_ends_ex : concat (map (fun w => w ++ [13%N; 10%N]) [lit "a"; []; lit "b"]) ++ lit "c" = [97; 13; 10; 13; 10; 98; 13; 10; 99]%N
  /\ read_line_interval [97; 13; 10; 13; 10; 98; 13; 10; 99]%N 2 4 = lit "bc" /\ read_line_interval [97; 13; 13; 98; 13; 99]%N 2 3 = lit "b".
Proof. split; [|split]; vm_compute; reflexivity. Qed.
Example C44_line_ends_pair_ex : one_line [97; 10; 13; 98]%N /\ read_line_interval (concat (map (fun w => w ++ [10%N]) [[97; 10; 13; 98]%N]) ++ lit "c") 1 1 = [97; 10; 13; 98]%N
  /\ read_line_interval [97; 10; 13; 98; 10; 99]%N 2 2 = lit "c".
Proof. split; [|split; vm_compute; reflexivity]. apply one_pair; try discriminate. apply one_plain; cbn; intuition discriminate. Qed.
(** Of several LF CR pairs in a row only one is kept. *)
Theorem C44_pairs_refuted : read_line_interval [97; 10; 13; 10; 13; 98]%N 1 1 = [97; 10; 13; 98]%N.
Proof. vm_compute. reflexivity. Qed.
Print Assumptions C44_pairs_refuted.
(** Ends of different kinds: CR and then CR LF count as three line ends. *)
Theorem C44_mixed_ends_refuted : exists sel, kept (fun i => (3 <= i <= 3)%Z) 1 [lit "a"; []; lit "b"] sel /\ concat sel = lit "b" /\ read_line_interval (lit "a" ++ [13%N] ++ [] ++ [13%N; 10%N] ++ lit "b") 3 3 = [].
Proof. eexists. split; [apply kept_out; [lia|apply kept_out; [lia|apply kept_in; [lia|constructor]]]|]. split; vm_compute; reflexivity. Qed.
Print Assumptions C44_mixed_ends_refuted.
Lemma replace_done n s repl a b : (a <= n)%Z -> exists post, kept (fun i => (b < i)%Z) n s post /\ replace_from n s repl a b true = post.
Proof.
  revert n. induction s as [|c s IH]; intros n Hn; [exists []; split; [constructor|reflexivity]|].
  cbn [replace_from]. replace (n <? a)%Z with false by (symmetry; apply Z.ltb_ge; lia). cbn [orb].
  destruct (IH (n + 1)%Z ltac:(lia)) as (post & Hk & He). destruct (Z.ltb_spec b n) as [Hb|Hb].
  - exists (c :: post). split; [apply kept_in; assumption|]. rewrite He. reflexivity.
  - exists post. split; [apply kept_out; [lia|assumption]|]. exact He.
Qed.
Lemma kept_none {A} (P : Z -> Prop) (l : list A) : forall n, (forall i, (n <= i)%Z -> ~ P i) -> kept P n l [].
Proof. induction l as [|x l IH]; intros n H; constructor; [apply H; lia|]. apply IH. intros i Hi. apply H. lia. Qed.
Lemma replace_spec s repl a b : (a <= b)%Z -> forall n, exists pre mid post,
  kept (fun i => (i < a)%Z) n s pre /\ kept (fun i => (a <= i <= b)%Z) n s mid /\ kept (fun i => (b < i)%Z) n s post
  /\ replace_from n s repl a b false = pre ++ (match mid with [] => [] | _ => repl end) ++ post.
Proof.
  intros Hab. induction s as [|c s IH]; intros n.
  - exists [], [], []. repeat split; constructor.
  - cbn [replace_from]. destruct (IH (n + 1)%Z) as (pre & mid & post & H1 & H2 & H3 & H4). destruct (Z.ltb_spec n a) as [Ha|Ha]; cbn [orb].
    + exists (c :: pre), mid, post. split; [apply kept_in; assumption|]. split; [apply kept_out; [lia|assumption]|]. split; [apply kept_out; [lia|assumption]|]. rewrite H4. reflexivity.
    + destruct (Z.ltb_spec b n) as [Hb|Hb].
      * exists pre, mid, (c :: post). split; [apply kept_out; [lia|assumption]|]. split; [apply kept_out; [lia|assumption]|]. split; [apply kept_in; assumption|].
        rewrite H4. assert (pre = []) by (apply (kept_fun _ _ _ _ _ H1); apply kept_none; intros; lia).
        assert (mid = []) by (apply (kept_fun _ _ _ _ _ H2); apply kept_none; intros; lia). subst. reflexivity.
      * destruct (replace_done (n + 1) s repl a b ltac:(lia)) as (post' & H5 & H6).
        assert (pre = []) by (apply (kept_fun _ _ _ _ _ H1); apply kept_none; intros; lia). subst pre.
        exists [], (c :: mid), post'. split; [apply kept_out; [lia|assumption]|]. split; [apply kept_in; [lia|assumption]|]. split; [apply kept_out; [lia|assumption]|].
        rewrite H6. reflexivity.
Qed.
Theorem C44_replace_substring : forall s repl a b,
  ((a <= b)%Z -> exists pre mid post,
     kept (fun i => (i < a)%Z) 0 s pre /\ kept (fun i => (a <= i <= b)%Z) 0 s mid /\ kept (fun i => (b < i)%Z) 0 s post
     /\ replace_substring s repl a b = Ok (pre ++ (match mid with [] => [] | _ => repl end) ++ post))
  /\ ((b < a)%Z -> replace_substring s repl a b = Err ValueError).
Proof.
  intros s repl a b. unfold replace_substring. split; intros H.
  - replace (b <? a)%Z with false by (symmetry; apply Z.ltb_ge; lia). destruct (replace_spec s repl a b H 0) as (pre & mid & post & H1 & H2 & H3 & H4).
    exists pre, mid, post. rewrite H4. auto.
  - replace (b <? a)%Z with true by (symmetry; apply Z.ltb_lt; lia). reflexivity.
Qed.
Print Assumptions C44_replace_substring.
Lemma str_cmp_spec a : forall b, length a = length b ->
  match str_cmp a b with Eq => a = b | Lt => lex_lt a b | Gt => lex_lt b a end.
Proof.
  induction a as [|x a IH]; intros [|y b] H; try discriminate; [reflexivity|]. cbn [str_cmp]. injection H as H. specialize (IH b H).
  destruct (N.compare_spec x y) as [->|L|G].
  - destruct (str_cmp a b); [f_equal; exact IH|apply lex_next; exact IH|apply lex_next; exact IH].
  - apply lex_here. exact L.
  - apply lex_here. exact G.
Qed.
Theorem C44_strncmp : forall s t n,
  match strncmp s t n with
  | Eq => firstn n s = firstn n t
  | Lt => short_lex_lt (firstn n s) (firstn n t)
  | Gt => short_lex_lt (firstn n t) (firstn n s)
  end.
Proof.
  intros s t n. unfold strncmp, short_lex_lt. destruct (Nat.compare_spec (length (firstn n s)) (length (firstn n t))) as [H|H|H]; [|left; exact H|left; exact H].
  pose proof (str_cmp_spec _ _ H) as G. destruct (str_cmp _ _); [exact G|right; split; [exact H|exact G]|right; split; [symmetry; exact H|exact G]].
Qed.
Print Assumptions C44_strncmp.
(** The three outcomes exclude each other. *)
Theorem C44_strncmp_order : forall s t, short_lex_lt s t -> s <> t /\ ~ short_lex_lt t s.
Proof.
  assert (L : forall s t, lex_lt s t -> s <> t /\ ~ lex_lt t s).
  { induction 1 as [x y s t H|x s t H (IH1 & IH2)].
    - split; [intros E; injection E as -> _; exact (N.lt_irrefl _ H)|]. intros G. inversion G; subst; [exact (N.lt_asymm _ _ H ltac:(assumption))|exact (N.lt_irrefl _ H)].
    - split; [congruence|]. intros G. inversion G; subst; [match goal with A : (_ < _)%N |- _ => exact (N.lt_irrefl _ A) end|auto]. }
  intros s t [H|(H & G)]; split.
  - intros ->. lia.
  - intros [A|(A & _)]; lia.
  - apply (L _ _ G).
  - intros [A|(_ & A)]; [lia|]. exact (proj2 (L _ _ G) A).
Qed.
Print Assumptions C44_strncmp_order.
Theorem C44_string_empty : forall s, string_empty s = true <->
  Forall (fun c => In c [32; 9; 11; 10; 13]%N) s /\ (forall a b, s = a ++ 10%N :: 13%N :: b -> exists a', a = a' ++ [13%N]).
Proof. exact string_empty_iff. Qed.
Print Assumptions C44_string_empty.
Theorem C44_detect_toc_list : forall E s, detect_toc_list E s = true <-> list_item E s.
Proof. exact detect_iff. Qed.
Print Assumptions C44_detect_toc_list.
Example C44_ex :
  extract_lines doc_two 5 6 = Ok (ln "- [A](#a)" ++ ln "- [B](#b)")
  /\ read_line_interval (concat doc_two) 5 6 = lit "- [A](#a)- [B](#b)"
  /\ replace_substring (lit "abcdef") (lit "XY") 1 3 = Ok (lit "aXYef")
  /\ strncmp (lit "abd") (lit "abc") 3 = Gt /\ strncmp (lit "ab") (lit "abc") 3 = Lt /\ strncmp (lit "abd") (lit "abc") 2 = Eq
  /\ string_empty (lit " " ++ [10; 9; 13; 10]%N) = true /\ string_empty [10; 13]%N = false /\ string_empty (lit "a") = false
  /\ detect_toc_list ascii_env (lit "  10. x") = true /\ detect_toc_list ascii_env (lit "    - x") = false.
Proof. repeat split; vm_compute; reflexivity. Qed.

(** C32 *)
Lemma filter_from_kept s rs : forall i, kept (fun k => ~ exists a b, In (a, b) rs /\ (Z.of_nat a <= k < Z.of_nat b)%Z) (Z.of_nat i) s (filter_from i s rs).
Proof.
  induction s as [|c s IH]; intros i; [constructor|]. cbn [filter_from]. specialize (IH (S i)). rewrite Nat2Z.inj_succ in IH. unfold Z.succ in IH.
  destruct (existsb _ rs) eqn:Ex.
  - apply kept_out; [|exact IH]. intros H. apply H. apply existsb_exists in Ex as ((a & b) & Hin & Hab). cbn in Hab. apply andb_true_iff in Hab as (H1 & H2).
    apply Nat.leb_le in H1. apply Nat.ltb_lt in H2. exists a, b. split; [exact Hin|lia].
  - apply kept_in; [|exact IH]. intros (a & b & Hin & Hab). apply Bool.not_true_iff_false in Ex. apply Ex. apply existsb_exists. exists (a, b). split; [exact Hin|].
    cbn. apply andb_true_iff. split; [apply Nat.leb_le; lia|apply Nat.ltb_lt; lia].
Qed.
Theorem C32_filter_indices : forall s rs,
  kept (fun k => ~ exists a b, In (a, b) rs /\ (Z.of_nat a <= k < Z.of_nat b)%Z) 0 s (filter_indices_from_line s rs).
Proof. intros s rs. apply (filter_from_kept s rs 0). Qed.
Print Assumptions C32_filter_indices.
Theorem C32_result_unique : forall (P : Z -> Prop) (s r r' : str), kept P 0 s r -> kept P 0 s r' -> r = r'.
Proof. intros P s r r'. apply kept_fun. Qed.
Print Assumptions C32_result_unique.
Example C32_ex : filter_indices_from_line (lit "abcdefg") [(1, 3); (2, 4); (6, 7)] = lit "aef".
Proof. vm_compute. reflexivity. Qed.
