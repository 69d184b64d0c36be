(** Properties that compare two runs of build_toc: C08, C14, C20, C21, C23, C41. *)
From Coq Require Import String List NArith ZArith Bool Arith Lia.
From Verif Require Import Str Fence Atx HtmlRe Inlines Anchor Toc Write Cli Spec AnchorSpec TocSpec DocSpec AsciiEnv.
From Verif Require Import StrFacts FenceProof AtxProof DecFacts AnchorProof TocProof TocLoop TocRun.
Import ListNotations.
Local Open Scope list_scope.

Definition known_dec p : known_parser p \/ ~ known_parser p.
Proof. destruct p; try (left; discriminate). right. intros H. apply H. reflexivity. Qed.

Lemma outside_incl p b lines ks e : outside p b lines ks e -> forall x, In x ks -> In x lines.
Proof. induction 1; cbn; intuition. Qed.
Lemma outside_self p b lines ks e : outside p b lines ks e -> outside p None ks ks None.
Proof. induction 1; auto; try constructor; auto. Qed.
Lemma ends_none p lines ks : outside p None lines ks None -> ~ ends_inside p lines.
Proof.
  intros H (pre & la & ks1 & c & n & -> & A & B).
  assert (G : outside p None (pre ++ [la]) ks1 (Some (c, n))).
  { clear H. revert A. generalize (@None (N * nat)). intros b A. remember (Some (c, n)) as e eqn:Ee. revert Ee B.
    induction A; intros Ee B; cbn [app].
    - subst. apply out_inside; [exact B|constructor].
    - eapply out_open; eauto.
    - eapply out_text; eauto.
    - eapply out_close; eauto.
    - eapply out_inside; eauto. }
  destruct (outside_fun _ _ _ _ _ H _ _ G) as (_ & X). discriminate.
Qed.

(** C08 *)
Theorem C08_only_lines_outside_fences_matter : forall E o fn lines ks e,
  o_skip o = 0%Z -> (1 <= o_keep o)%Z -> Forall file_line lines ->
  outside (o_parser o) None lines ks e ->
  fn = lit "-" \/ ~ ends_inside (o_parser o) lines ->
  build_toc E o fn (mkDoc lines false) = build_toc E o fn (mkDoc ks false).
Proof.
  intros E o fn lines ks e Hs Hk Hfl Hout Hend.
  destruct (known_dec (o_parser o)) as [Hp|Hp]; [|apply build_toc_unknown; assumption].
  rewrite (build_toc_run E o fn lines ks), (build_toc_run E o fn ks ks); auto.
  - rewrite Forall_forall in *. intros x Hx. apply Hfl. eapply outside_incl; eauto.
  - eapply outside_exam; [eapply outside_self; exact Hout|]. right. left.
    change (~ ends_inside (o_parser o) ks). eapply ends_none. eapply outside_self. exact Hout.
  - eapply outside_exam; [exact Hout|]. destruct Hend as [->|]; auto.
Qed.
Print Assumptions C08_only_lines_outside_fences_matter.

Definition opts0 (p : parser) : opts :=
  mkOpts false false false false 3 p (Some (lit "-")) 0 false [cLF].
Lemma file_ln s : single_line (lit s) -> file_line (ln s).
Proof. intros H. exists (lit s). split; [exact H|left; reflexivity]. Qed.
Lemma single_lit s : forallb (fun c => negb (N.eqb c 10) && negb (N.eqb c 13)) s = true -> single_line s.
Proof.
  intros H. rewrite forallb_forall in H. split; intros G; apply H in G; discriminate.
Qed.
Ltac fln := apply file_ln, single_lit; vm_compute; reflexivity.

Lemma not_opens p l : cm_family p = true -> is_opening_code_fence p l = None -> forall c n, ~ opens p l c n.
Proof.
  intros Hp H c n (Hq & Ho). assert (G : is_opening_code_fence p l = Some (repeat c n)) by (apply is_opening_iff; eauto). congruence.
Qed.
Lemma does_open p l c n : cm_family p = true -> is_opening_code_fence p l = Some (repeat c n) -> 3 <= n -> opens p l c n.
Proof.
  intros Hp H Hn. apply cm_family_iff in Hp. split; [exact Hp|]. apply is_opening_iff in H as (c' & n' & E & H); [|exact Hp].
  assert (n = n') by (rewrite <- (repeat_length c n), E, repeat_length; reflexivity). subst n'.
  destruct n; [lia|]. cbn in E. injection E as -> _. exact H.
Qed.
Lemma does_close p l c n : cm_family p = true -> (c = 96 \/ c = 126)%N -> 3 <= n ->
  is_closing_code_fence p l (repeat c n) false = true -> closing_fence_line p l c n.
Proof. intros Hp Hc Hn H. apply cm_family_iff in Hp. apply is_closing_iff in H; assumption. Qed.
Lemma not_closes p l c n : cm_family p = true -> (c = 96 \/ c = 126)%N -> 3 <= n ->
  is_closing_code_fence p l (repeat c n) false = false -> ~ closing_fence_line p l c n.
Proof. intros Hp Hc Hn H G. apply cm_family_iff in Hp. apply is_closing_iff in G; try assumption. congruence. Qed.

Definition fenced_doc : list str := [ln "# a"; ln "~~~ sh"; ln "# no"; ln "~~~~"; ln "## b"].
Lemma fenced_outside : outside Github None fenced_doc [ln "# a"; ln "## b"] None.
Proof.
  apply out_text; [apply not_opens; vm_compute; reflexivity|].
  apply (out_open _ _ 126%N 3); [apply does_open; [reflexivity|vm_compute; reflexivity|lia]|].
  apply out_inside; [apply not_closes; auto; vm_compute; reflexivity|].
  apply out_close; [apply does_close; auto; vm_compute; reflexivity|].
  apply out_text; [apply not_opens; vm_compute; reflexivity|]. constructor.
Qed.
Example C08_only_lines_outside_fences_matter_ex :
  Forall file_line fenced_doc /\ outside Github None fenced_doc [ln "# a"; ln "## b"] None
  /\ ~ ends_inside Github fenced_doc
  /\ build_toc ascii_env (opts0 Github) (lit "f.md") (mkDoc fenced_doc false)
     = Ok (lit "- [a](#a)" ++ [cLF] ++ lit "  - [b](#b)" ++ [cLF]).
Proof.
  split; [repeat (constructor; [fln|]); constructor|].
  split; [exact fenced_outside|]. split; [eapply ends_none; exact fenced_outside|vm_compute; reflexivity].
Qed.

(** For a file that ends inside a block the claim is false. *)
Theorem C08_unclosed_block_refuted : exists E o fn lines ks e,
  o_skip o = 0%Z /\ (1 <= o_keep o)%Z /\ Forall file_line lines /\
  outside (o_parser o) None lines ks e /\
  build_toc E o fn (mkDoc lines false) <> build_toc E o fn (mkDoc ks false).
Proof.
  exists ascii_env, (opts0 Cmark), (lit "f.md"), [ln "```"; ln "# x"], [], (Some (96%N, 3)).
  split; [reflexivity|]. split; [cbn; lia|]. split; [repeat (constructor; [fln|]); constructor|]. split.
  - apply (out_open _ _ 96%N 3); [apply does_open; [reflexivity|vm_compute; reflexivity|lia]|].
    apply out_inside; [apply not_closes; auto; vm_compute; reflexivity|]. constructor.
  - vm_compute. discriminate.
Qed.
Print Assumptions C08_unclosed_block_refuted.

(** C20 *)
Lemma line_step_skip E o n ordered m line st :
  line_step E (with_skip o n) ordered m line st = line_step E o ordered m line st.
Proof. reflexivity. Qed.
Lemma toc_loop_skip E o n stdin ordered m lines bad : forall st,
  toc_loop E (with_skip o n) stdin ordered m lines bad st = toc_loop E o stdin ordered m lines bad st.
Proof.
  induction lines as [|l ls IH]; intros st; [reflexivity|]. cbn [toc_loop].
  destruct (negb stdin && _); [reflexivity|]. rewrite line_step_skip.
  destruct (line_step _ _ _ _ _ _); cbn [bind]; [apply IH|reflexivity].
Qed.
Lemma skip_good n : forall lines, skip n (mkDoc lines false) = Ok (mkDoc (skipn n lines) false).
Proof. induction n as [|n IH]; intros [|l ls]; cbn; auto. Qed.
Lemma skip_bad n : forall lines, skip n (mkDoc lines true) =
  if n <=? length lines then Ok (mkDoc (skipn n lines) true) else Err UnicodeDecodeError.
Proof.
  induction n as [|n IH]; intros [|l ls]; auto. cbn [skip d_lines d_bad length skipn]. rewrite IH. reflexivity.
Qed.

Theorem C20_skip_drops_first_lines : forall E o fn n lines,
  build_toc E (with_skip o (Z.of_nat n)) fn (mkDoc lines false)
  = build_toc E (with_skip o 0) fn (mkDoc (skipn n lines) false).
Proof.
  intros E o fn n lines. unfold build_toc. cbn [o_skip with_skip]. change (fix_marker (with_skip o (Z.of_nat n))) with (fix_marker o).
  change (fix_marker (with_skip o 0)) with (fix_marker o).
  replace (Z.of_nat n <? 0)%Z with false by (symmetry; apply Z.ltb_ge; lia). cbn [Z.ltb Z.compare Z.to_nat skip].
  destruct (fix_marker o) as [(ord & mk)|e]; cbn [bind]; [|reflexivity].
  rewrite Nat2Z.id, skip_good. cbn [bind d_lines d_bad o_parser with_skip].
  destruct (skipn n lines); (destruct (init_indentation_log (o_parser o) mk); cbn [bind]; [|reflexivity]);
    change (mkOpts (o_ordered o) (o_no_links o) (o_no_indentation o) (o_no_list_coherence o) (o_keep o)
    (o_parser o) (o_marker o) 0 (o_constant o) (o_newline o)) with (with_skip o 0);
    change (mkOpts (o_ordered o) (o_no_links o) (o_no_indentation o) (o_no_list_coherence o) (o_keep o)
    (o_parser o) (o_marker o) (Z.of_nat n) (o_constant o) (o_newline o)) with (with_skip o (Z.of_nat n));
    rewrite !toc_loop_skip; reflexivity.
Qed.
Print Assumptions C20_skip_drops_first_lines.
Example C20_skip_drops_first_lines_ex :
  build_toc ascii_env (with_skip (opts0 Cmark) 1) (lit "f.md") (mkDoc [ln "# a"; ln "# b"] false)
  = Ok (lit "- [b](#b)" ++ [cLF])
  /\ build_toc ascii_env (with_skip (opts0 Cmark) 7) (lit "f.md") (mkDoc [ln "# a"; ln "# b"] false) = Ok [].
Proof. split; vm_compute; reflexivity. Qed.

Theorem C20_negative_skip : forall E o fn d, (o_skip o < 0)%Z -> build_toc E o fn d = Err ValueError.
Proof. intros E o fn d H. unfold build_toc. replace (o_skip o <? 0)%Z with true by (symmetry; apply Z.ltb_lt; exact H). reflexivity. Qed.
Print Assumptions C20_negative_skip.
Example C20_negative_skip_ex :
  build_toc ascii_env (with_skip (opts0 Cmark) (-1)) (lit "f.md") (mkDoc [ln "# a"; ln "# b"] false) = Err ValueError.
Proof. vm_compute. reflexivity. Qed.

(** C21 *)
Lemma toc_loop_bad_stdin E o ordered m lines : forall st,
  toc_loop E o true ordered m lines true st =
  match toc_loop E o true ordered m lines false st with Ok _ => Ok None | Err e => Err e end.
Proof.
  induction lines as [|l ls IH]; intros st; [reflexivity|]. cbn [toc_loop negb andb].
  destruct (line_step _ _ _ _ _ _); cbn [bind]; [apply IH|reflexivity].
Qed.
Lemma toc_loop_bad_file E o ordered m lines : forall st,
  lines <> [] ->
  toc_loop E o false ordered m lines true st =
  match toc_loop E o true ordered m (removelast lines) false st with Ok _ => Ok None | Err e => Err e end.
Proof.
  induction lines as [|l ls IH]; intros st H; [congruence|].
  destruct ls as [|l2 ls]; [reflexivity|].
  change (removelast (l :: l2 :: ls)) with (l :: removelast (l2 :: ls)).
  cbn [toc_loop negb andb]. destruct (line_step _ _ _ _ _ _); cbn [bind]; [|reflexivity].
  rewrite <- IH by discriminate. reflexivity.
Qed.

(** The outcome when decoding fails after [lines]: the lines that are looked at are those
    before the failing read (a file is read one line ahead). *)
Theorem C21_undecodable_input : forall E o fn lines,
  known_parser (o_parser o) -> o_skip o = 0%Z ->
  build_toc E o fn (mkDoc lines true) =
  match build_toc E o (lit "-") (mkDoc (if names_stdin fn then lines else removelast lines) false) with
  | Ok _ => Ok (lit "<!--stop reading " ++ fn ++ lit ": probably a binary file-->")
  | Err e => Err e
  end.
Proof.
  intros E o fn lines Hp Hs. rewrite names_stdin_model. unfold build_toc. rewrite Hs. cbn [Z.ltb Z.compare Z.to_nat skip].
  rewrite fix_marker_used by exact Hp. cbn [bind d_lines d_bad]. unfold init_indentation_log.
  replace (known (o_parser o)) with true by (destruct (o_parser o); try reflexivity; destruct Hp; reflexivity).
  cbn [bind]. change (is_stdin (lit "-")) with true. fold (start o).
  destruct lines as [|l ls].
  - assert (G : (if is_stdin fn then @nil str else removelast []) = []) by (destruct (is_stdin fn); reflexivity).
    rewrite G. reflexivity.
  - assert (G : toc_loop E o (is_stdin fn) (used_ordered o) (used_marker o) (l :: ls) true (start o) =
       match toc_loop E o true (used_ordered o) (used_marker o) (if is_stdin fn then l :: ls else removelast (l :: ls)) false (start o) with
       | Ok _ => Ok None | Err e => Err e end).
    { destruct (is_stdin fn); [apply toc_loop_bad_stdin|apply toc_loop_bad_file; discriminate]. }
    unfold start in G |- *. rewrite G.
    set (X := if is_stdin fn then l :: ls else removelast (l :: ls)).
    assert (R : forall Y : list str, match Y with [] => fun x : res str => x | _ :: _ => fun x => x end = fun x => x) by (intros []; reflexivity).
    destruct X as [|x xs];
    (match goal with |- context [toc_loop E o true ?a ?b ?c false ?d] => destruct (toc_loop E o true a b c false d) as [[s|]|e] end; reflexivity).
Qed.
Print Assumptions C21_undecodable_input.
Example C21_undecodable_input_ex :
  build_toc ascii_env (opts0 Cmark) (lit "f") (mkDoc [ln "# a"; ln "# b"] true)
  = Ok (lit "<!--stop reading f: probably a binary file-->")
  /\ build_toc ascii_env (opts0 Cmark) (lit "f") (mkDoc [ln "#"; ln "# b"] true)
  = Err GithubEmptyLinkLabel.
Proof. split; vm_compute; reflexivity. Qed.

(** Lines skipped at the start are read without protection. *)
Theorem C21_undecodable_while_skipping : forall E o fn lines,
  known_parser (o_parser o) -> (0 <= o_skip o)%Z ->
  build_toc E o fn (mkDoc lines true) =
  if (o_skip o <=? Z.of_nat (length lines))%Z
  then build_toc E (with_skip o 0) fn (mkDoc (skipn (Z.to_nat (o_skip o)) lines) true)
  else Err UnicodeDecodeError.
Proof.
  intros E o fn lines Hp Hs. unfold build_toc. cbn [o_skip with_skip].
  change (fix_marker (with_skip o 0)) with (fix_marker o).
  replace (o_skip o <? 0)%Z with false by (symmetry; apply Z.ltb_ge; lia). cbn [Z.ltb Z.compare Z.to_nat skip].
  rewrite fix_marker_used by exact Hp. cbn [bind]. rewrite skip_bad.
  destruct (o_skip o <=? Z.of_nat (length lines))%Z eqn:E1.
  - apply Z.leb_le in E1. replace (Z.to_nat (o_skip o) <=? length lines) with true by (symmetry; apply Nat.leb_le; lia).
    cbn [bind d_lines d_bad o_parser with_skip].
    destruct (skipn (Z.to_nat (o_skip o)) lines); [reflexivity|].
    destruct (init_indentation_log (o_parser o) (used_marker o)); cbn [bind]; [|reflexivity].
    change (mkOpts (o_ordered o) (o_no_links o) (o_no_indentation o) (o_no_list_coherence o) (o_keep o)
    (o_parser o) (o_marker o) 0 (o_constant o) (o_newline o)) with (with_skip o 0).
    rewrite toc_loop_skip. reflexivity.
  - apply Z.leb_gt in E1. replace (Z.to_nat (o_skip o) <=? length lines) with false by (symmetry; apply Nat.leb_gt; lia).
    reflexivity.
Qed.
Print Assumptions C21_undecodable_while_skipping.
Example C21_undecodable_while_skipping_ex :
  build_toc ascii_env (with_skip (opts0 Cmark) 3) (lit "f") (mkDoc [ln "# a"; ln "# b"] true) = Err UnicodeDecodeError
  /\ build_toc ascii_env (with_skip (opts0 Cmark) 2) (lit "f") (mkDoc [ln "# a"; ln "# b"] true)
     = Ok (lit "<!--stop reading f: probably a binary file-->").
Proof. split; vm_compute; reflexivity. Qed.

(** C23 *)
Theorem C23_stdin_and_files_agree : forall E o fn fn' lines,
  o_skip o = 0%Z -> (1 <= o_keep o)%Z -> Forall file_line lines ->
  ~ ends_inside (o_parser o) lines \/ (exists pre l, lines = pre ++ [l] /\ ~ small_indent l) ->
  build_toc E o fn (mkDoc lines false) = build_toc E o fn' (mkDoc lines false).
Proof.
  intros E o fn fn' lines Hs Hk Hfl Hend.
  destruct (known_dec (o_parser o)) as [Hp|Hp].
  - destruct (outside_total (o_parser o) lines None I) as (ks & e & Hout).
    rewrite (build_toc_run E o fn lines ks), (build_toc_run E o fn' lines ks); auto;
      (eapply outside_exam; [exact Hout|]; right; exact Hend).
  - unfold build_toc. rewrite Hs. cbn [Z.ltb Z.compare Z.to_nat skip].
    destruct (fix_marker o) as [(ord & mk)|e]; cbn [bind]; [|reflexivity].
    assert (Hkn : known (o_parser o) = false) by (destruct (o_parser o); try reflexivity; exfalso; apply Hp; discriminate).
    unfold init_indentation_log. rewrite Hkn. cbn [d_lines d_bad bind]. destruct lines; reflexivity.
Qed.
Print Assumptions C23_stdin_and_files_agree.
Example C23_stdin_and_files_agree_ex :
  build_toc ascii_env (opts0 Github) (lit "-") (mkDoc fenced_doc false)
  = Ok (lit "- [a](#a)" ++ [cLF] ++ lit "  - [b](#b)" ++ [cLF])
  /\ ~ ends_inside Github fenced_doc.
Proof. split; [vm_compute; reflexivity|]. eapply ends_none. exact fenced_outside. Qed.

Theorem C23_unclosed_block_refuted : exists E o fn fn' lines,
  o_skip o = 0%Z /\ (1 <= o_keep o)%Z /\ Forall file_line lines /\
  build_toc E o fn (mkDoc lines false) <> build_toc E o fn' (mkDoc lines false).
Proof.
  exists ascii_env, (opts0 Cmark), (lit "f.md"), (lit "-"), [ln "```"; ln "# x"].
  split; [reflexivity|]. split; [cbn; lia|]. split; [repeat (constructor; [fln|]); constructor|].
  vm_compute. discriminate.
Qed.
Print Assumptions C23_unclosed_block_refuted.

(** C41 *)
Lemma plain_no_heading p nl l : known_parser p -> file_line l -> plain_line p l -> no_heading p nl l.
Proof.
  intros Hp Hl Hpl. unfold no_heading. destruct (file_line_split l Hl) as (s & k & Hs & E & Hne).
  assert (Hl2 : l = s \/ l = s ++ [10%N]).
  { destruct Hl as (s' & Hs' & [->|(-> & _)]).
    - assert (s' = s).
      { destruct k as [|[|k]].
        - cbn in E. rewrite app_nil_r in E. subst s. exfalso. destruct Hs as (H & _). apply H. apply in_or_app. cbn. auto.
        - cbn in E. apply app_inj_tail in E as (-> & _). reflexivity.
        - exfalso. change (repeat 10%N (S (S k))) with ([10%N] ++ repeat 10%N (S k)) in E. 
          replace (repeat 10%N (S k)) with (repeat 10%N k ++ [10%N]) in E by (rewrite <- repeat_cons; reflexivity).
          rewrite !app_assoc in E. apply app_inj_tail in E as (-> & _). destruct Hs' as (H & _). apply H.
          apply in_or_app. left. apply in_or_app. right. left. reflexivity. }
      subst. auto.
    - destruct k as [|k]; [cbn in E; rewrite app_nil_r in E; auto|].
      exfalso. destruct Hs' as (H & _). apply H. rewrite E. apply in_or_app. right. left. reflexivity. }
  destruct (known_cases p Hp) as [Hc | ->].
  - assert (Hcm : commonmark_parser p) by (apply cm_family_iff; exact Hc). rewrite E.
    rewrite get_atx_single by (assumption || lia || (rewrite <- E; assumption)).
    destruct (atx_cm_none p 6 nl true s) as (v & ->); [|reflexivity].
    intros (lev & r & H). assert (G : forall level rest s, (l = s \/ l = s ++ [10%N]) -> single_line s -> ~ atx_line p s level rest).
    { destruct p; try discriminate; apply Hpl. }
    eapply G; eauto.
  - rewrite E, get_atx_redcarpet by (assumption || lia || (rewrite <- E; assumption)).
    cbn in Hpl. unfold atx_redcarpet. destruct (startswith [cHASH] s) eqn:Es; [|reflexivity].
    exfalso. apply Hpl. rewrite E. destruct s as [|c s]; [discriminate|]. cbn in Es |- *.
    rewrite andb_true_r in Es. apply N.eqb_eq in Es. rewrite <- Es. reflexivity.
Qed.
Lemma plain_not_opens p l c n : plain_line p l -> ~ opens p l c n.
Proof.
  intros H (Hp & Ho). destruct p; cbn in Hp; try (destruct H as (_ & H); eapply H; eauto).
  exfalso. intuition discriminate.
Qed.
Lemma plain_not_closing p l c n : commonmark_parser p -> fence_char (Some (c, n)) -> plain_line p l -> ~ closing_fence_line p l c n.
Proof.
  intros Hp (Hc & Hn) H G. destruct (closing_is_opening _ _ _ _ Hc Hn G) as (m & Ho).
  eapply plain_not_opens; [exact H|]. split; eauto.
Qed.
Lemma drops_outside p b lines ks e : outside p b lines ks e -> fence_char b -> (commonmark_parser p \/ b = None) ->
  forall rest, drops p lines rest -> exists ks', outside p b rest ks' e /\ drops p ks ks'.
Proof.
  induction 1 as [b|l c n ls ks e Ho H IH|l ls ks e Ho H IH|l c n ls ks e Ho H IH|l c n ls ks e Ho H IH];
    intros Hfc Hcm rest Hd; inversion Hd as [|l1 ls1 rs1 D|l1 ls1 rs1 Hpl D]; subst.
  - exists []. split; constructor.
  - destruct (IH (opens_char _ _ _ _ Ho) (or_introl (proj1 Ho)) _ D) as (ks' & A & B). exists ks'. split; [eapply out_open; eauto|exact B].
  - exfalso. eapply plain_not_opens; eauto.
  - destruct (IH I (or_intror eq_refl) _ D) as (ks' & A & B). exists (l :: ks'). split; [apply out_text; auto|constructor; exact B].
  - destruct (IH I (or_intror eq_refl) _ D) as (ks' & A & B). exists ks'. split; [exact A|]. apply drops_drop; assumption.
  - destruct (IH I (or_intror eq_refl) _ D) as (ks' & A & B). exists ks'. split; [eapply out_close; eauto|exact B].
  - destruct Hcm as [Hcm|]; [|discriminate]. exfalso. eapply plain_not_closing; eauto.
  - destruct (IH Hfc Hcm _ D) as (ks' & A & B). exists ks'. split; [eapply out_inside; eauto|exact B].
  - destruct (IH Hfc Hcm _ D) as (ks' & A & B). exists ks'. split; [exact A|exact B].
Qed.
Lemma drops_run E o ordered m ks ks' : known_parser (o_parser o) -> (1 <= o_keep o)%Z -> Forall file_line ks ->
  drops (o_parser o) ks ks' -> forall st, same_res (run E o ordered m ks st) (run E o ordered m ks' st).
Proof.
  intros Hp Hk Hfl D. induction D as [|l ls rs D IH|l ls rs Hpl D IH]; intros st; cbn [run].
  - apply same_refl.
  - inversion Hfl; subst. destruct (look_step _ _ _ _ _ _) as [s|e]; cbn [bind]; [auto|apply same_refl].
  - inversion Hfl; subst.
    destruct (no_heading_look E o ordered m l st Hp Hk) as (s & -> & G & _); [assumption|apply plain_no_heading; assumption|].
    cbn [bind]. eapply same_trans; [apply IH; assumption|]. apply run_eqst. exact G.
Qed.
Lemma drops_incl p ls rs : drops p ls rs -> forall x, In x rs -> In x ls.
Proof. induction 1; cbn; intuition. Qed.

Theorem C41_plain_lines_do_not_matter : forall E o fn lines rest,
  o_skip o = 0%Z -> (1 <= o_keep o)%Z -> Forall file_line lines ->
  drops (o_parser o) lines rest ->
  fn = lit "-" \/ (exists ks, outside (o_parser o) None lines ks None) ->
  build_toc E o fn (mkDoc lines false) = build_toc E o fn (mkDoc rest false).
Proof.
  intros E o fn lines rest Hs Hk Hfl Hd Hend.
  destruct (known_dec (o_parser o)) as [Hp|Hp]; [|apply build_toc_unknown; assumption].
  destruct (outside_total (o_parser o) lines None I) as (ks & e & Hout).
  destruct (drops_outside _ _ _ _ _ Hout I (or_intror eq_refl) _ Hd) as (ks' & Hout' & Hd').
  assert (He : is_stdin fn = true \/ e = None).
  { destruct Hend as [->|(k0 & H)]; [auto|]. right. destruct (outside_fun _ _ _ _ _ Hout _ _ H) as (_ & X). exact X. }
  rewrite (build_toc_run E o fn lines ks), (build_toc_run E o fn rest ks'); auto.
  - assert (Fk : Forall file_line ks) by (rewrite Forall_forall in *; intros x Hx; apply Hfl; eapply outside_incl; eauto).
    pose proof (drops_run E o (used_ordered o) (used_marker o) ks ks' Hp Hk Fk Hd' (start o)) as G.
    destruct (run _ _ _ _ ks _) as [x|x], (run _ _ _ _ ks' _) as [y|y]; cbn in G; try contradiction; [|congruence].
    destruct G as (-> & _). reflexivity.
  - rewrite Forall_forall in *. intros x Hx. apply Hfl. eapply drops_incl; eauto.
  - eapply outside_exam; [exact Hout'|]. destruct He as [He|He]; [auto|]. subst e. right. left. apply (ends_none _ _ _ Hout').
  - eapply outside_exam; [exact Hout|]. destruct He as [He|He]; [auto|]. subst e. right. left. apply (ends_none _ _ _ Hout).
Qed.
Print Assumptions C41_plain_lines_do_not_matter.

Lemma plain_text p s : cm_family p = true -> single_line (lit s) ->
  get_atx_heading p 6 true (lit s) = Ok [None] -> is_opening_code_fence p (ln s) = None -> plain_line p (ln s).
Proof.
  intros Hp Hs Ha Ho. assert (G : (forall level rest s', (ln s = s' \/ ln s = s' ++ [10%N]) -> single_line s' -> ~ atx_line p s' level rest)
         /\ (forall c n, ~ opening_fence_line (ln s) c n)).
  { split.
    - intros level rest s' [E|E] H' H.
      + exfalso. subst s'. destruct H' as (H' & _). apply H'. apply in_or_app. cbn. auto.
      + apply app_inj_tail in E as (<- & _).
        destruct (lit s) as [|c0 r0] eqn:El.
        * destruct H as (ind & E & _ & Hl & _). destruct ind; [|discriminate]. destruct level; [lia|discriminate].
        * rewrite <- El in *. assert (Hcp : commonmark_parser p) by (apply cm_family_iff; exact Hp).
          assert (H6 : (1 <= 6)%Z) by lia.
          pose proof (get_atx_single p 6 true (lit s) 0 Hcp H6 Hs) as G. cbn [repeat] in G. rewrite app_nil_r in G.
          rewrite Ha, (atx_cm_heading _ _ _ _ _ _ _ H) in G. cbn [bind] in G. discriminate G.
    - intros c n H. eapply not_opens; eauto. split; [apply cm_family_iff; exact Hp|exact H]. }
  destruct p; try discriminate; exact G.
Qed.
Example C41_plain_lines_do_not_matter_ex :
  drops Gitlab [ln "intro"; ln "# a"; ln "    # code"; ln "# b"] [ln "# a"; ln "# b"]
  /\ build_toc ascii_env (opts0 Gitlab) (lit "f.md") (mkDoc [ln "intro"; ln "# a"; ln "    # code"; ln "# b"] false)
     = Ok (lit "- [a](#a)" ++ [cLF] ++ lit "- [b](#b)" ++ [cLF]).
Proof.
  split; [|vm_compute; reflexivity].
  apply drops_drop; [apply plain_text; [reflexivity|apply single_lit; vm_compute; reflexivity|vm_compute; reflexivity|vm_compute; reflexivity]|]. apply drops_keep.
  apply drops_drop; [apply plain_text; [reflexivity|apply single_lit; vm_compute; reflexivity|vm_compute; reflexivity|vm_compute; reflexivity]|]. repeat constructor.
Qed.

(** C14, for one line: the text, the anchor and the duplicate counter do not depend on the limit. *)
Definition same_heading (a b : option heading) : Prop :=
  match a, b with
  | None, None => True
  | Some x, Some y => h_level x = h_level y /\ h_text x = h_text y
  | _, _ => False
  end.
Lemma atx_cm_keep p keep keep' nl vis vis' s :
  match atx_cm p keep nl vis s, atx_cm p keep' nl vis' s with
  | Ok (h, _), Ok (h', _) => same_heading h h'
  | Err e, Err e' => e = e'
  | _, _ => False
  end.
Proof.
  unfold atx_cm. destruct s as [|c0 s]; [exact I|]. destruct (N.eqb c0 cBS); [exact I|].
  destruct (3 <? _); [exact I|]. destruct (_ || _); [exact I|].
  destruct (skipn (leading cHASH _) _) as [|c rest].
  - destruct (if nl then _ else _); cbn; auto.
  - destruct (_ || _); [|exact I]. destruct (cut_closing _ _ _ _ _ _ _ _); cbn [bind]; [|reflexivity].
    destruct (if nl then _ else _); cbn; auto.
Qed.
Lemma atx_redcarpet_keep nl vis vis' s : same_heading (fst (atx_redcarpet nl vis s)) (fst (atx_redcarpet nl vis' s)).
Proof.
  unfold atx_redcarpet. destruct (startswith _ _); [|exact I]. destruct (skipn _ _); [exact I|].
  destruct (negb _); [exact I|]. destruct (_ <? _); [|exact I]. destruct (negb nl && _); cbn; auto.
Qed.
Lemma atx_lines_keep p keep keep' nl subls : forall vis vis',
  match atx_lines p keep nl vis subls, atx_lines p keep' nl vis' subls with
  | Ok hs, Ok hs' => Forall2 same_heading hs hs'
  | Err e, Err e' => e = e'
  | _, _ => False
  end.
Proof.
  induction subls as [|s rest IH]; intros vis vis'; cbn [atx_lines]; [constructor|].
  destruct (cm_family p) eqn:Hc.
  - pose proof (atx_cm_keep p keep keep' nl vis vis' s) as G.
    destruct (atx_cm p keep nl vis s) as [(h & v)|e], (atx_cm p keep' nl vis' s) as [(h' & v')|e']; cbn [bind]; try contradiction; [|exact G].
    specialize (IH v v'). destruct (atx_lines p keep nl v rest), (atx_lines p keep' nl v' rest); cbn [bind]; try contradiction; [|exact IH].
    constructor; assumption.
  - destruct p; try discriminate; [|apply IH].
    pose proof (atx_redcarpet_keep nl vis vis' s) as G.
    destruct (atx_redcarpet nl vis s) as (h & v), (atx_redcarpet nl vis' s) as (h' & v'). cbn [fst] in G.
    specialize (IH v v'). destruct (atx_lines Redcarpet keep nl v rest), (atx_lines Redcarpet keep' nl v' rest); cbn [bind]; try contradiction; [|exact IH].
    constructor; assumption.
Qed.
Lemma md_headers_keep E p hs hs' : Forall2 same_heading hs hs' -> forall d,
  match md_headers E p d hs, md_headers E p d hs' with
  | Ok (l, d1), Ok (l', d1') => Forall2 same_header l l' /\ d1 = d1'
  | Err e, Err e' => e = e'
  | _, _ => False
  end.
Proof.
  induction 1 as [|h h' hs hs' S F IH]; intros d; cbn [md_headers]; [split; [constructor|reflexivity]|].
  destruct h as [h|], h' as [h'|]; try contradiction.
  - destruct S as (S1 & S2). rewrite S2. destruct (build_anchor_link E p d (h_text h')) as [(a & d1)|e]; cbn [bind]; [|reflexivity].
    specialize (IH d1). destruct (md_headers E p d1 hs) as [(l & d2)|e], (md_headers E p d1 hs') as [(l' & d2')|e']; cbn [bind]; try contradiction; [|exact IH].
    destruct IH as (A & B). split; [|exact B]. constructor; [|exact A]. cbn. auto.
  - specialize (IH d). destruct (md_headers E p d hs) as [(l & d2)|e], (md_headers E p d hs') as [(l' & d2')|e']; cbn [bind]; try contradiction; [|exact IH].
    destruct IH as (A & B). split; [|exact B]. constructor; [exact I|exact A].
Qed.

Theorem C14_header_independent_of_limit : forall E p keep keep' no_links d line,
  (1 <= keep)%Z -> (1 <= keep')%Z ->
  match get_md_header E p keep no_links d line, get_md_header E p keep' no_links d line with
  | Ok (hs, d1), Ok (hs', d1') => Forall2 same_header hs hs' /\ d1 = d1'
  | Err e, Err e' => e = e'
  | _, _ => False
  end.
Proof.
  intros E p keep keep' nl d line Hk Hk'. unfold get_md_header, get_atx_heading.
  replace (keep <? 1)%Z with false by (symmetry; apply Z.ltb_ge; lia).
  replace (keep' <? 1)%Z with false by (symmetry; apply Z.ltb_ge; lia).
  destruct line as [|c line].
  - cbn [bind]. apply md_headers_keep. repeat constructor.
  - pose proof (atx_lines_keep p keep keep' nl (replace_and_split_newlines (c :: line)) true true) as G.
    destruct (atx_lines p keep nl true _), (atx_lines p keep' nl true _); cbn [bind]; try contradiction; [|exact G].
    apply md_headers_keep. exact G.
Qed.
Print Assumptions C14_header_independent_of_limit.
Example C14_header_independent_of_limit_ex :
  get_md_header ascii_env Github 1 false [(lit "a", 1%Z)] (lit "## A") =
    Ok ([Some (mkHeader 2 (lit "A") (Some (lit "a-1")) false)], [(lit "a", 2%Z)])
  /\ get_md_header ascii_env Github 2 false [(lit "a", 1%Z)] (lit "## A") =
    Ok ([Some (mkHeader 2 (lit "A") (Some (lit "a-1")) true)], [(lit "a", 2%Z)]).
Proof. split; vm_compute; reflexivity. Qed.
