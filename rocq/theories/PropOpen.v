(** Documents that end inside a code block nobody closed (C08, C60): what the block hides, and the line of it
    that is read all the same when the document is a file. *)
From Coq Require Import String List NArith ZArith Bool Arith Lia.
From Verif Require Import Str Fence Atx Inlines Anchor Toc Spec EnvSpec AnchorSpec TocSpec TableSpec DocSpec EmphSpec LinkSpec SafeSpec HeadSpec PlainSpec BookSpec OpenSpec
  StrFacts FenceProof AtxProof TocProof TocLoop TocRun TableProof AsciiEnv PropErrors PropHeading PropDoc PropTable PropStable PropPlain PropBook PropMore.
Import ListNotations.
Local Open Scope list_scope.

Lemma outside_snoc p pre ks la b e : outside p b pre ks e -> forall ks' e', outside p e [la] ks' e' -> outside p b (pre ++ [la]) (ks ++ ks') e'.
Proof. intros H. induction H; intros ks' e' G; cbn [app]; [exact G|eapply out_open|eapply out_text|eapply out_close|eapply out_inside]; eauto. Qed.
Lemma stdin_not fn : fn <> lit "-" -> is_stdin fn = false.
Proof. intros H. rewrite <- names_stdin_model. unfold names_stdin. destruct (list_eq_dec _ _ _); [contradiction|reflexivity]. Qed.
(** A last line that opens a block, or that gives no heading, changes nothing. *)
Lemma last_without E o ks la : known_parser (o_parser o) -> o_skip o = 0%Z -> (1 <= o_keep o)%Z -> Forall file_line (ks ++ [la]) ->
  no_heading (o_parser o) (o_no_links o) la ->
  match run E o (used_ordered o) (used_marker o) (ks ++ [la]) (start o) with Ok st => Ok (concat (t_toc st)) | Err e => Err e end =
  match run E o (used_ordered o) (used_marker o) ks (start o) with Ok st => Ok (concat (t_toc st)) | Err e => Err e end.
Proof.
  intros Hp Hs Hk Hf Hn. rewrite run_app. destruct (run E o _ _ ks _) as [st|e]; cbn [bind run]; [|reflexivity].
  apply Forall_app in Hf as (_ & Hf). inversion Hf as [|x y Hla _]; subst.
  destruct (no_heading_look E o (used_ordered o) (used_marker o) la st Hp Hk Hla Hn) as (st' & -> & Hq & _). cbn [bind].
  destruct Hq as (Ht & _). rewrite Ht. reflexivity.
Qed.

(** *** C08: every document.  A block that is not closed hides everything up to the end when the document comes
    from the standard input (C08_after_skipped_lines).  In a file its last line counts as if it stood outside,
    unless it is indented by more than three spaces. *)
Theorem C08_unclosed_block : forall E o fn lines pre last ks c n,
  (0 <= o_skip o)%Z -> (1 <= o_keep o)%Z -> Forall file_line lines -> fn <> lit "-" ->
  skipn (Z.to_nat (o_skip o)) lines = pre ++ [last] ->
  outside (o_parser o) None pre ks (Some (c, n)) -> ~ closing_fence_line (o_parser o) last c n ->
  (small_indent last ->
   build_toc E o fn (mkDoc lines false) = build_toc E (with_skip o 0) fn (mkDoc (ks ++ [last]) false))
  /\ (~ small_indent last ->
   build_toc E o fn (mkDoc lines false) = build_toc E (with_skip o 0) fn (mkDoc ks false)).
Proof.
  intros E o fn lines pre la ks c n Hs Hk Hf Hfn Hr Ho Hc. rewrite (skipped E o fn lines Hs), Hr. set (o' := with_skip o 0).
  assert (Hf' : Forall file_line (pre ++ [la])) by (rewrite <- Hr; apply skipn_forall; exact Hf).
  assert (Hfk : Forall file_line ks).
  { rewrite Forall_forall in *. intros x Hx. apply Hf', in_or_app. left. eapply outside_incl; eauto. }
  assert (Hfl : Forall file_line (ks ++ [la])) by (apply Forall_app; split; [exact Hfk|apply Forall_app in Hf'; tauto]).
  destruct (known_dec (o_parser o')) as [Hp|Hp]; [|split; intros _; apply build_toc_unknown; auto].
  pose proof (stdin_not fn Hfn) as Hst. pose proof (outside_self _ _ _ _ _ Ho) as Hself.
  assert (Hin : outside (o_parser o) None (pre ++ [la]) ks (Some (c, n))).
  { rewrite <- (app_nil_r ks). eapply outside_snoc; [exact Ho|]. apply out_inside; [exact Hc|constructor]. }
  split; intros Hsm.
  - rewrite (build_toc_run E o' fn (pre ++ [la]) (ks ++ [la])); auto; [|rewrite Hst; eapply outside_exam_quirk; eauto].
    destruct (opens_dec (o_parser o) la) as [(c1 & n1 & Hop)|Hno].
    + rewrite (build_toc_run E o' fn (ks ++ [la]) ks); auto.
      * apply last_without; auto. apply Forall_app in Hfl as (_ & X). inversion X; subst. exact (opening_no_heading' _ _ _ _ _ (proj1 Hop) H1 (proj2 Hop)).
      * assert (Q : outside (o_parser o) None (ks ++ [la]) ks (Some (c1, n1))).
        { rewrite <- (app_nil_r ks) at 2. eapply outside_snoc; [exact Hself|]. eapply out_open; [exact Hop|constructor]. }
        eapply outside_exam; [exact Q|]. right. left. change (~ ends_inside (o_parser o) (ks ++ [la])).
        intros (pre1 & la1 & ks1 & c2 & n2 & Eq & A & _). apply app_inj_tail in Eq as (<- & _). destruct (outside_fun _ _ _ _ _ Hself _ _ A) as (_ & X). discriminate.
    + rewrite (build_toc_run E o' fn (ks ++ [la]) (ks ++ [la])); auto.
      assert (Q : outside (o_parser o) None (ks ++ [la]) (ks ++ [la]) None) by (eapply outside_snoc; [exact Hself|]; apply out_text; [exact Hno|constructor]).
      eapply outside_exam; [exact Q|]. right. left. exact (ends_none _ _ _ Q).
  - rewrite (build_toc_run E o' fn (pre ++ [la]) ks), (build_toc_run E o' fn ks ks); auto.
    + eapply outside_exam; [exact Hself|]. right. left. exact (ends_none _ _ _ Hself).
    + eapply outside_exam; [exact Hin|]. right. right. eauto.
Qed.
Print Assumptions C08_unclosed_block.
Example C08_unclosed_block_ex :
  let lines := [ln "# a"; ln "```"; ln "# b"; ln "## c"] in
  let lines' := [ln "# a"; ln "```"; ln "# b"; ln "    ## c"] in
  Forall file_line lines /\ outside Github None [ln "# a"; ln "```"; ln "# b"] [ln "# a"] (Some (96%N, 3))
  /\ ~ closing_fence_line Github (ln "## c") 96 3 /\ small_indent (ln "## c") /\ ~ small_indent (ln "    ## c")
  /\ build_toc ascii_env (opts0 Github) (lit "f.md") (mkDoc lines false) = Ok (ln "- [a](#a)" ++ ln "  - [c](#c)")
  /\ build_toc ascii_env (opts0 Github) (lit "f.md") (mkDoc lines' false) = Ok (ln "- [a](#a)").
Proof.
  cbv zeta. split; [repeat (constructor; [fln|]); constructor|]. split.
  { apply out_text; [apply not_opens; reflexivity|]. apply (out_open _ _ 96%N 3); [apply does_open; [reflexivity|vm_compute; reflexivity|lia]|].
    apply out_inside; [apply not_closes; auto; vm_compute; reflexivity|]. constructor. }
  split; [apply not_closes; auto; vm_compute; reflexivity|]. split; [apply small_indent_iff; vm_compute; lia|]. split; [rewrite small_indent_iff; vm_compute; lia|].
  split; vm_compute; reflexivity.
Qed.

(** *** C60 *)
Lemma document_snoc E p links b ls hs l hs' : document E p links b ls hs -> document E p links None [l] hs' -> document E p links b (ls ++ [l]) (hs ++ hs').
Proof.
  intros H G. induction H; cbn [app]; [exact G|eapply doc_title|eapply doc_text|eapply doc_open|eapply doc_code|eapply doc_close]; eauto.
Qed.
Lemma inside_stays p c n code : Forall (fun l => ~ closing_fence_line p l c n) code -> outside p (Some (c, n)) code [] (Some (c, n)).
Proof. induction 1; [constructor|apply out_inside; assumption]. Qed.
Lemma outside_join p pre ks b e more ks' e' : outside p b pre ks e -> outside p e more ks' e' -> outside p b (pre ++ more) (ks ++ ks') e'.
Proof. intros H G. induction H; cbn [app]; [exact G|eapply out_open|eapply out_text|eapply out_close|eapply out_inside]; eauto. Qed.
Lemma title_small p links line l level label : p <> Redcarpet -> ended line l -> title p links line level label -> small_indent l.
Proof.
  intros Hp Hl Ht. destruct (ended_repeat _ _ Hl) as (k & ->).
  destruct Ht as [rest text whole lab _ _ (i & -> & Hi & Hlv & _) _ _ _ _ _ _|rest text _ _ (i & -> & Hi & Hlv & _) _ _|text -> _]; [| |contradiction].
  - exists i, ((repeat 35%N level ++ rest) ++ repeat 10%N k). rewrite <- !app_assoc. split; [reflexivity|]. split; [lia|]. destruct level; [lia|]. discriminate.
  - exists i, ((repeat 35%N level ++ rest) ++ repeat 10%N k). rewrite <- !app_assoc. split; [reflexivity|]. split; [lia|]. destruct level; [lia|]. discriminate.
Qed.
Theorem C60_unclosed_block : forall E o fn lines done fence c n code hs hs',
  o_parser o <> OtherParser -> (1 <= o_keep o)%Z -> (0 <= o_skip o)%Z -> marker_valid o ->
  python_tables E -> zs_ascii E -> word_ascii E -> entity_tables E -> Forall file_line lines ->
  skipn (Z.to_nat (o_skip o)) lines = done ++ fence :: code ->
  document E (o_parser o) (negb (o_no_links o)) None done hs -> opens (o_parser o) fence c n ->
  Forall (fun l => ~ closing_fence_line (o_parser o) l c n) code ->
  late E (o_parser o) (negb (o_no_links o)) (names_stdin fn) code hs' ->
  (o_parser o <> Redcarpet -> no_collision E (map b_name (hs ++ hs'))) ->
  (Z.of_nat (length (hs ++ hs')) <= 999999999)%Z ->
  (coherent (row_levels o (hs ++ hs')) ->
   build_toc E o fn (mkDoc lines false) = Ok (expected_table o (hs ++ hs')))
  /\ (unrenderable o (hs ++ hs') ->
   build_toc E o fn (mkDoc lines false) = Err TocDoesNotRenderAsCoherentList)
  /\ (o_no_indentation o = true \/ o_no_list_coherence o = true ->
   build_toc E o fn (mkDoc lines false) = Ok (loose_table o (hs ++ hs'))).
Proof.
  intros E o fn lines dn fence c n code hs hs' Hp Hk Hs Hm Ht Hz Hw He Hf Hr Hd Hop Hcl Hla Hco Hle.
  set (o' := with_skip o 0).
  enough (G : exists ls, build_toc E o fn (mkDoc lines false) = build_toc E o' fn (mkDoc ls false) /\ document E (o_parser o) (negb (o_no_links o)) None ls (hs ++ hs')).
  { destruct G as (ls & -> & D). destruct (C60_whole_table E o' fn ls (hs ++ hs') Hp Hk) as (A & B); auto; [cbn; lia|].
    split; [|split].
    - intros X. rewrite (A X). unfold expected_table, o'. rewrite book_rows_skip. reflexivity.
    - intros (X & Y & Z). exact (B X Y Z).
    - intros X. rewrite (C60_unchecked_table E o' fn ls (hs ++ hs')); auto; [|cbn; lia|split; [exact D|split; assumption]].
      f_equal. unfold loose_table. f_equal. unfold o'. generalize (@nil (nat * nat)) (@nil str). clear. induction (hs ++ hs') as [|h l IH]; intros hist seen; [reflexivity|].
      cbn [loose_rows]. rewrite !IH. reflexivity. }
  destruct (document_lines _ _ _ _ _ _ Hp Ht Hz Hw He Hd) as (Fd & ks & Od & _ & _).
  assert (Hrf : Forall file_line (dn ++ fence :: code)) by (rewrite <- Hr; apply skipn_forall; exact Hf).
  assert (Ed : build_toc E o' fn (mkDoc dn false) = build_toc E o' fn (mkDoc ks false)).
  { apply (C08_only_lines_outside_fences_matter E o' fn dn ks None); auto. right. exact (ends_none _ _ _ Od). }
  assert (Hin : forall code0, Forall (fun l => ~ closing_fence_line (o_parser o) l c n) code0 -> outside (o_parser o) None (dn ++ fence :: code0) ks (Some (c, n))).
  { intros code0 H0. rewrite <- (app_nil_r ks). eapply outside_join; [exact Od|]. eapply out_open; [exact Hop|]. apply inside_stays. exact H0. }
  assert (Hred : o_parser o <> Redcarpet) by (intros R; destruct Hop as (X & _); rewrite R in X; destruct X as [|[|[|[|[|[]]]]]]; discriminate).
  assert (Hstd : names_stdin fn = true -> build_toc E o fn (mkDoc lines false) = build_toc E o' fn (mkDoc dn false)).
  { intros X. rewrite Ed. eapply C08_after_skipped_lines; auto; [rewrite Hr; apply Hin; exact Hcl|]. left. unfold names_stdin in X. destruct (list_eq_dec _ _ _); [assumption|discriminate]. }
  assert (Hfile : names_stdin fn = false -> fn <> lit "-") by (intros X ->; discriminate).
  assert (Hone : forall body la, code = body ++ [la] -> exists pre, dn ++ fence :: code = pre ++ [la] /\ outside (o_parser o) None pre ks (Some (c, n)) /\ ~ closing_fence_line (o_parser o) la c n).
  { intros body la ->. apply Forall_app in Hcl as (H1 & H2). exists (dn ++ fence :: body). split; [rewrite <- app_assoc; reflexivity|]. split; [exact (Hin _ H1)|]. inversion H2; assumption. }
  destruct (names_stdin fn) eqn:Es.
  { exists dn. split; [exact (Hstd eq_refl)|]. inversion Hla; subst; rewrite app_nil_r; exact Hd. }
  specialize (Hfile eq_refl). clear Hstd.
  inversion Hla as [code0|stdin|stdin body l Hsm|stdin body line l Hl Hnt|body line l level label name Hl Hti Hn]; subst.
  - exists dn. rewrite app_nil_r. split; [|exact Hd]. rewrite Ed. eapply C08_after_skipped_lines; auto; [rewrite Hr; apply Hin; exact Hcl|]. right. rewrite Hr.
    intros (pre1 & la1 & ks1 & c2 & n2 & Eq & A & _). apply app_inj_tail in Eq as (<- & _). destruct (outside_fun _ _ _ _ _ Od _ _ A) as (_ & X). discriminate.
  - exists dn. rewrite app_nil_r. split; [|exact Hd]. rewrite Ed. destruct (Hone _ _ eq_refl) as (pre & Eq & A & B).
    refine (proj2 (C08_unclosed_block E o fn lines pre l ks c n Hs Hk Hf Hfile _ A B) Hsm). rewrite Hr. exact Eq.
  - destruct (Hone _ _ eq_refl) as (pre & Eq & A & B). rewrite <- Hr in Eq.
    destruct (C08_unclosed_block E o fn lines pre l ks c n Hs Hk Hf Hfile Eq A B) as (Q1 & Q2).
    rewrite app_nil_r. exists dn. split; [|exact Hd]. rewrite Ed. destruct (Nat.le_gt_cases (leading 32 l) 3) as [S|S].
    2: { apply Q2. rewrite small_indent_iff. lia. }
    rewrite Q1 by (apply small_indent_iff; exact S). fold o'.
    assert (Hfl : Forall file_line (ks ++ [l])).
    { apply Forall_app. split; [|constructor; [exact (ended_file_line _ _ Hl)|constructor]]. rewrite Forall_forall in *. intros x Hx. apply Fd. eapply outside_incl; eauto. }
    pose proof (outside_self _ _ _ _ _ Od) as Hself.
    assert (Hnh : no_heading (o_parser o) (o_no_links o) l).
    { destruct (ended_repeat _ _ Hl) as (k & ->). apply C01_other_lines_give_no_heading; [exact (proj1 Hop)|lia|exact (proj1 Hl)|exact (proj1 Hnt (proj1 Hop))]. }
    assert (Hk' : Forall file_line ks) by (apply Forall_app in Hfl; tauto).
    rewrite (build_toc_run E o' fn ks ks); auto; [|eapply outside_exam; [exact Hself|]; right; left; exact (ends_none _ _ _ Hself)].
    destruct (opens_dec (o_parser o) l) as [(c1 & n1 & Hop1)|Hno].
    + rewrite (build_toc_run E o' fn (ks ++ [l]) ks); auto.
      assert (Q : outside (o_parser o) None (ks ++ [l]) ks (Some (c1, n1))).
      { rewrite <- (app_nil_r ks) at 2. eapply outside_snoc; [exact Hself|]. eapply out_open; [exact Hop1|constructor]. }
      eapply outside_exam; [exact Q|]. right. left. change (~ ends_inside (o_parser o) (ks ++ [l])).
      intros (pre1 & la1 & ks1 & c2 & n2 & Eq1 & A1 & _). apply app_inj_tail in Eq1 as (<- & _). destruct (outside_fun _ _ _ _ _ Hself _ _ A1) as (_ & X). discriminate.
    + rewrite (build_toc_run E o' fn (ks ++ [l]) (ks ++ [l])); auto; [apply last_without; auto|].
      assert (Q : outside (o_parser o) None (ks ++ [l]) (ks ++ [l]) None) by (eapply outside_snoc; [exact Hself|]; apply out_text; [exact Hno|constructor]).
      eapply outside_exam; [exact Q|]. right. left. exact (ends_none _ _ _ Q).
  - destruct (Hone _ _ eq_refl) as (pre & Eq & A & B). rewrite <- Hr in Eq.
    destruct (C08_unclosed_block E o fn lines pre l ks c n Hs Hk Hf Hfile Eq A B) as (Q1 & _).
    exists (dn ++ [l]). split.
    + rewrite Q1 by (eapply title_small; eauto). symmetry.
      assert (Q : outside (o_parser o) None (dn ++ [l]) (ks ++ [l]) None).
      { eapply outside_snoc; [exact Od|]. apply out_text; [exact (title_not_opens _ _ _ _ _ _ Hl Hti)|constructor]. }
      apply (C08_only_lines_outside_fences_matter E o' fn (dn ++ [l]) (ks ++ [l]) None); auto; [|right; exact (ends_none _ _ _ Q)].
      apply Forall_app. split; [exact Fd|]. constructor; [exact (ended_file_line _ _ Hl)|constructor].
    + eapply document_snoc; [exact Hd|]. eapply doc_title; eauto. constructor.
Qed.
Print Assumptions C60_unclosed_block.
(** The guide of C60_whole_table, followed by a block of tildes that is never closed: as standard input, the block
    gives nothing; as a file, its last line gives a row. *)
Definition open_guide : list str := guide ++ [ln "~~~"; ln "# hidden"; ln "## Late"].
Example C60_unclosed_block_ex :
  skipn 1 open_guide = skipn 1 guide ++ ln "~~~" :: [ln "# hidden"; ln "## Late"]
  /\ Forall file_line open_guide /\ opens Github (ln "~~~") 126 3
  /\ Forall (fun l => ~ closing_fence_line Github l 126 3) [ln "# hidden"; ln "## Late"]
  /\ late ascii_env Github true true [ln "# hidden"; ln "## Late"] []
  /\ late ascii_env Github true false [ln "# hidden"; ln "## Late"] [Heading 2 (lit "Late") (lit "late")]
  /\ no_collision ascii_env (map b_name (guide_headings ++ [Heading 2 (lit "Late") (lit "late")]))
  /\ coherent (row_levels (guide_options 3) (guide_headings ++ [Heading 2 (lit "Late") (lit "late")]))
  /\ build_toc ascii_env (guide_options 3) (lit "-") (mkDoc open_guide false) = Ok (expected_table (guide_options 3) guide_headings)
  /\ build_toc ascii_env (guide_options 3) (lit "guide.md") (mkDoc open_guide false) =
       Ok (expected_table (guide_options 3) guide_headings ++ ln "   1. [Late](#late)").
Proof.
  split; [reflexivity|]. split; [repeat (constructor; [fln|]); constructor|].
  split; [apply does_open; [reflexivity|vm_compute; reflexivity|lia]|].
  split; [repeat (constructor; [apply not_closes; auto; vm_compute; reflexivity|]); constructor|]. split; [apply late_stdin|]. split.
  { apply (late_title _ _ _ [ln "# hidden"] (lit "## Late")); [split; [split; vm_compute; intuition discriminate|left; reflexivity]| |].
    - apply (title_by _ _ _ (lit " Late") (lit "Late")); [cbn; auto 8|exists 0; split; [vm_compute; reflexivity|split; [lia|split; [lia|right; eexists 32%N, _; split; [vm_compute; reflexivity|left; reflexivity]]]]|vm_compute; reflexivity|reflexivity|reflexivity|discriminate|vm_compute; repeat constructor|].
      match goal with |- Spec.escapes ?b ?s ?t => let s' := eval vm_compute in s in let t' := eval vm_compute in t in change (Spec.escapes b s' t') end.
      repeat first [apply Spec.esc_nil | apply Spec.esc_other; [unfold Spec.bracket_char; intuition discriminate|discriminate|]].
    - change (lit "late") with (plain_slug ascii_env Github (lit "Late")). apply named_plain; [cbn; auto 8|apply safe_line_b; reflexivity| |left; vm_compute; intuition discriminate].
      intros c Hc X. cbn in Hc, X. intuition (subst; discriminate). }
  split; [apply titles_slugs_distinct|]. split; [apply coherent_by; repeat split|]. split; vm_compute; reflexivity.
Qed.
