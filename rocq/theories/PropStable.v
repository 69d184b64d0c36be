(** How a table changes when the limit on the levels or the document changes: C50, C51. *)
From Coq Require Import String List NArith ZArith Bool Arith Lia.
From Verif Require Import Str Fence Atx HtmlRe Inlines Anchor Toc Spec AnchorSpec TocSpec DocSpec TableSpec AsciiEnv.
From Verif Require Import StrFacts FenceProof AtxProof DecFacts AnchorProof TocProof TocLoop TocRun TableProof PropDoc PropTable.
Import ListNotations.
Local Open Scope list_scope.

(** ** C50 *)
Definition upto (k : nat) (ls : list nat) : list nat := filter (fun x => x <=? k) ls.
Definition hupto (k : nat) (h : history) : history := filter (fun x => fst x <=? k) h.
Lemma hupto_fst k h : map fst (hupto k h) = upto k (map fst h).
Proof. induction h as [|(x & w) h IH]; [reflexivity|]. cbn [hupto upto filter map fst]. destruct (x <=? k); cbn [map fst]; [f_equal|]; exact IH. Qed.

Lemma upto_hd k h : coherent_hist h -> k <= hd 0 h -> upto k h = [] \/ hd 0 (upto k h) = k.
Proof.
  induction h as [|x h IH]; intros Hc Hk; [left; reflexivity|]. cbn [hd] in Hk. cbn [upto filter]. destruct Hc as (Hs & Hc).
  destruct (Nat.leb_spec x k) as [L|L]; [right; cbn; lia|]. apply incoherent_iff in Hs as [->|Hs]; [left; reflexivity|]. apply IH; [exact Hc|lia].
Qed.
Lemma upto_last k h : h <> [] -> last h 0 <= k -> last (upto k h) 0 = last h 0 /\ upto k h <> [].
Proof.
  induction h as [|x h IH]; intros Hn Hl; [congruence|]. destruct h as [|y h].
  - cbn in *. replace (x <=? k) with true by (symmetry; apply Nat.leb_le; exact Hl). split; [reflexivity|discriminate].
  - rewrite last_cons2 in *. destruct (IH ltac:(discriminate) Hl) as (A & B). change (upto k (x :: y :: h)) with (if x <=? k then x :: upto k (y :: h) else upto k (y :: h)).
    destruct (x <=? k); [|auto]. split; [|discriminate]. destruct (upto k (y :: h)) as [|z u]; [congruence|]. rewrite last_cons2. exact A.
Qed.
Lemma upto_step k h l : coherent_hist h -> coherent_step h l -> l <= k -> coherent_step (upto k h) l.
Proof.
  intros Hc Hs Hl. apply incoherent_iff in Hs. apply incoherent_iff. destruct Hs as [->|(H1 & H2)]; [left; reflexivity|].
  destruct h as [|x h]; [left; reflexivity|]. right. destruct (upto_last k (x :: h)) as (A & B); [discriminate|lia|]. rewrite A. split; [exact H1|].
  destruct (Nat.leb_spec x k) as [L|L].
  - cbn [upto filter]. replace (x <=? k) with true by (symmetry; apply Nat.leb_le; exact L). exact H2.
  - destruct (upto_hd k (x :: h) Hc) as [C|C]; [cbn; lia|congruence|lia].
Qed.
Lemma upto_hist k h : coherent_hist h -> coherent_hist (upto k h).
Proof.
  induction h as [|x h IH]; intros Hc; [exact I|]. destruct Hc as (Hs & Hc). cbn [upto filter]. destruct (Nat.leb_spec x k) as [L|L]; [|apply IH; exact Hc].
  split; [|apply IH; exact Hc]. apply upto_step; assumption.
Qed.
Lemma upto_siblings k h l : l <= k -> siblings (upto k h) l = siblings h l.
Proof.
  intros Hl. induction h as [|x h IH]; [reflexivity|]. cbn [upto filter siblings]. destruct (Nat.leb_spec x k) as [L|L].
  - cbn [siblings]. fold (upto k h). rewrite IH. reflexivity.
  - replace (x <? l) with false by (symmetry; apply Nat.ltb_ge; lia). replace (x =? l) with false by (symmetry; apply Nat.eqb_neq; lia). cbn. exact IH.
Qed.
Lemma upto_column k : forall n h l, length h <= n -> coherent_hist (map fst h) -> l <= k -> parent_column (hupto k h) l = parent_column h l.
Proof.
  induction n as [|n IH]; intros h l Hn Hc Hl; [destruct h; [reflexivity|cbn in Hn; lia]|]. destruct h as [|(x & w) h]; [reflexivity|]. cbn [length] in Hn. destruct Hc as (Hs & Hc).
  cbn [hupto filter fst parent_column]. destruct (Nat.leb_spec x k) as [L|L].
  - cbn [parent_column]. fold (hupto k h). destruct (x <? l); [|apply IH; [lia|exact Hc|exact Hl]].
    rewrite !column_parent; [|exact Hc|rewrite hupto_fst; apply upto_hist; exact Hc]. rewrite IH; [reflexivity|lia|exact Hc|exact L].
  - replace (x <? l) with false by (symmetry; apply Nat.ltb_ge; lia). apply IH; [lia|exact Hc|exact Hl].
Qed.

Definition shown (k : nat) (r : entry * (nat * nat)) : bool := e_level (fst r) <=? k.
Definition row_of (o : opts) (r : entry * (nat * nat)) : str := row o (fst r) (fst (snd r)) (snd (snd r)).

Lemma rows_upto o o' k es : o_parser o <> Redcarpet -> o_parser o <> OtherParser -> o' = with_keep o (Z.of_nat k) ->
  forall hist ls, coherent_hist (map fst hist) -> coherent_from (map fst hist) (levels es) ->
  rows o (used_ordered o) (used_marker o) hist es = Ok ls ->
  exists ls', rows o' (used_ordered o) (used_marker o) (hupto k hist) (filter (fun e => e_level e <=? k) es) = Ok ls'
    /\ concat ls' = concat (map (row_of o) (filter (shown k) (combine es (combine (cols_of o (used_ordered o) (used_marker o) hist (levels es)) (nums_of o (used_ordered o) (used_marker o) hist (levels es)))))).
Proof.
  intros Hr Hp ->. set (ord := used_ordered o). set (m := used_marker o).
  induction es as [|e es IH]; intros hist ls Hh Hc H; cbn [rows] in H; [exists []; auto|].
  destruct (entry_line o ord m hist (e_level e) (e_text e) (e_anchor e)) as [s|] eqn:Es; [|discriminate].
  destruct (rows o ord m (push o ord m hist (e_level e)) es) as [ss|] eqn:Er; [|discriminate]. destruct Hc as (Hs & Hc).
  destruct (IH (push o ord m hist (e_level e)) ss) as (ls' & A & B); [split; assumption|exact Hc|exact Er|].
  cbn [levels map cols_of nums_of combine filter shown fst]. unfold shown at 1. cbn [fst].
  destruct (Nat.leb_spec (e_level e) k) as [L|L].
  - assert (Hnum : entry_number o ord (hupto k hist) (e_level e) = entry_number o ord hist (e_level e)).
    { unfold entry_number. destruct (numbered_list o ord); [|reflexivity]. rewrite hupto_fst, !number_siblings; auto using upto_hist, upto_step. rewrite upto_siblings by exact L. reflexivity. }
    assert (Hmk : entry_marker o ord m (hupto k hist) (e_level e) = entry_marker o ord m hist (e_level e)) by (unfold entry_marker; rewrite Hnum; reflexivity).
    assert (Hcol : column (o_parser o) (hupto k hist) (e_level e) = column (o_parser o) hist (e_level e)).
    { unfold column. destruct (o_parser o); try congruence; (rewrite !column_parent; [|exact Hh|rewrite hupto_fst; apply upto_hist; exact Hh]; eapply upto_column; eauto). }
    assert (Hpush : push o ord m (hupto k hist) (e_level e) = hupto k (push o ord m hist (e_level e))).
    { unfold push. cbn [hupto filter fst]. replace (e_level e <=? k) with true by (symmetry; apply Nat.leb_le; exact L). rewrite Hmk. reflexivity. }
    assert (Hline : entry_line (with_keep o (Z.of_nat k)) ord m (hupto k hist) (e_level e) (e_text e) (e_anchor e) = Ok s).
    { rewrite <- Es. unfold entry_line in *. cbn [with_keep o_parser o_no_indentation o_no_list_coherence o_newline o_no_links o_constant].
      change (entry_number (with_keep o (Z.of_nat k)) ord) with (entry_number o ord). change (entry_marker (with_keep o (Z.of_nat k)) ord) with (entry_marker o ord).
      change (numbered_list (with_keep o (Z.of_nat k)) ord) with (numbered_list o ord). change (entry_label (with_keep o (Z.of_nat k))) with (entry_label o).
      rewrite Hnum, Hmk, Hcol. rewrite hupto_fst. rewrite (upto_step k _ _ Hh Hs L), Hs. reflexivity. }
    cbn [rows]. change (push (with_keep o (Z.of_nat k)) ord m) with (push o ord m). rewrite Hline, Hpush, A. eexists. split; [reflexivity|]. cbn [concat map]. rewrite B. f_equal.
    assert (R := rows_table o [e] hist [s]). cbn [rows] in R. fold ord m in R. rewrite Es in R. specialize (R eq_refl). cbn [concat levels map cols_of nums_of table] in R. rewrite !app_nil_r in R. exact R.
  - exists ls'. split; [|exact B]. rewrite <- A. f_equal. unfold push. cbn [hupto filter fst]. replace (e_level e <=? k) with false by (symmetry; apply Nat.leb_gt; exact L). reflexivity.
Qed.

Lemma filter_filter {A} (f g : A -> bool) l : filter f (filter g l) = filter (fun x => g x && f x) l.
Proof. induction l as [|x l IH]; [reflexivity|]. cbn. destruct (g x); cbn; [destruct (f x); cbn; rewrite IH; reflexivity|exact IH]. Qed.
Lemma entries_lower p k K hs : p <> Redcarpet -> (Z.of_nat k <= K)%Z -> entries p (Z.of_nat k) hs = filter (fun e => e_level e <=? k) (entries p K hs).
Proof.
  intros Hr Hk. unfold entries. rewrite filter_filter. apply filter_ext. intros e. unfold listed. destruct p; try congruence;
  (destruct (Nat.leb_spec (e_level e) k); destruct (Z.leb_spec (Z.of_nat (e_level e)) (Z.of_nat k)); destruct (Z.leb_spec (Z.of_nat (e_level e)) K); cbn; lia || reflexivity).
Qed.

(** Lowering the limit on the levels deletes the rows of the deeper entries and changes nothing in
    the other rows, neither numbers nor indentation (CommonMark family; the table that is built
    with the higher limit is coherent). *)
Theorem C50_lower_limit_only_deletes_rows : forall E o fn lines ks t k,
  applies E o fn lines ks -> o_parser o <> Redcarpet -> (1 <= Z.of_nat k <= o_keep o)%Z ->
  (forall hs, headings E (o_parser o) (o_no_links o) ks hs -> coherent (levels (entries (o_parser o) (o_keep o) hs))) ->
  build_toc E o fn (mkDoc lines false) = Ok t ->
  exists es cols nums, is_table o es cols nums t
    /\ build_toc E (with_keep o (Z.of_nat k)) fn (mkDoc lines false)
       = Ok (concat (map (fun r => row o (fst r) (fst (snd r)) (snd (snd r)))
               (filter (fun r => e_level (fst r) <=? k) (combine es (combine cols nums))))).
Proof.
  intros E o fn lines ks t k Ha Hr Hk Hcoh H. destruct (applies_table _ _ _ _ _ _ Ha H) as (hs & ls & Hh & Hrows & Ht).
  eexists _, _, _. split; [exact Ht|]. specialize (Hcoh hs Hh). apply coherent_iff in Hcoh.
  assert (Ha' : applies E (with_keep o (Z.of_nat k)) fn lines ks).
  { destruct Ha as (A1 & A2 & A3 & A4 & A5 & A6). repeat split; auto; try apply A5. cbn. lia. }
  destruct (rows_upto o (with_keep o (Z.of_nat k)) k _ Hr (proj1 Ha) eq_refl [] ls I Hcoh Hrows) as (ls' & A & B).
  rewrite (applies_rows E (with_keep o (Z.of_nat k)) fn lines ks hs Ha' Hh). cbn [with_keep o_parser o_keep].
  change (used_ordered (with_keep o (Z.of_nat k))) with (used_ordered o). change (used_marker (with_keep o (Z.of_nat k))) with (used_marker o).
  rewrite (entries_lower _ k (o_keep o)) by (auto; lia). cbn [hupto filter] in A. change (hupto k []) with (@nil (nat * nat)) in A. rewrite A. f_equal. exact B.
Qed.
Print Assumptions C50_lower_limit_only_deletes_rows.
(** With the coherence check a table is always coherent. *)
Theorem C50_lower_limit_checked : forall E o fn lines ks t k,
  applies E o fn lines ks -> o_parser o <> Redcarpet -> (1 <= Z.of_nat k <= o_keep o)%Z ->
  o_no_indentation o = false -> o_no_list_coherence o = false ->
  build_toc E o fn (mkDoc lines false) = Ok t ->
  exists es cols nums, is_table o es cols nums t
    /\ build_toc E (with_keep o (Z.of_nat k)) fn (mkDoc lines false)
       = Ok (concat (map (fun r => row o (fst r) (fst (snd r)) (snd (snd r)))
               (filter (fun r => e_level (fst r) <=? k) (combine es (combine cols nums))))).
Proof.
  intros E o fn lines ks t k Ha Hr Hk Hi Hl H. apply (C50_lower_limit_only_deletes_rows E o fn lines ks t k); auto.
  intros hs Hh. destruct (C19_accepted_tables_are_coherent E o fn lines ks t Ha Hi Hl H) as (hs' & Hh' & Hc). rewrite (headings_fun _ _ _ _ _ Hh _ Hh'). exact Hc.
Qed.
Print Assumptions C50_lower_limit_checked.
Example C50_lower_limit_ex :
  applies ascii_env (with_keep (opts1 true Github) 4) (lit "f.md") doc1 doc1
  /\ build_toc ascii_env (with_keep (opts1 true Github) 4) (lit "f.md") (mkDoc doc1 false)
     = Ok (ln "1. [One](#one)" ++ ln "   1. [Two](#two)" ++ ln "   2. [Two](#two-1)" ++ ln "      1. [Deep](#deep)"
           ++ ln "         1. [Deeper](#deeper)" ++ ln "2. [Last](#last)")
  /\ build_toc ascii_env (with_keep (with_keep (opts1 true Github) 4) (Z.of_nat 2)) (lit "f.md") (mkDoc doc1 false)
     = Ok (ln "1. [One](#one)" ++ ln "   1. [Two](#two)" ++ ln "   2. [Two](#two-1)" ++ ln "2. [Last](#last)").
Proof.
  split; [|split; vm_compute; reflexivity]. destruct (doc1_applies true Github eq_refl) as (A1 & A2 & A3 & A4 & A5 & A6).
  split; [exact A1|]. split; [exact A2|]. split; [cbn; lia|]. auto.
Qed.
(** Without the check, a table that is not coherent can change: the row of "## b" moves. *)
Theorem C50_incoherent_table_refuted : exists E o fn lines es cols nums t k,
  o_no_list_coherence o = true /\ applies E o fn lines lines /\ o_parser o <> Redcarpet /\ (1 <= Z.of_nat k <= o_keep o)%Z
  /\ build_toc E o fn (mkDoc lines false) = Ok t /\ is_table o es cols nums t /\ length es = 3
  /\ build_toc E (with_keep o (Z.of_nat k)) fn (mkDoc lines false)
     <> Ok (concat (map (fun r => row o (fst r) (fst (snd r)) (snd (snd r)))
              (filter (fun r => e_level (fst r) <=? k) (combine es (combine cols nums))))).
Proof.
  set (ls := [ln "# a"; ln "### c"; ln "## b"]).
  exists ascii_env, (mkOpts false false false true 3 Github (Some (lit "-")) 0 false [cLF]), (lit "f.md"), ls,
    [mkEntry 1 (lit "a") (lit "a"); mkEntry 3 (lit "c") (lit "c"); mkEntry 2 (lit "b") (lit "b")], [0; 2; 0], [1; 1; 1],
    (ln "- [a](#a)" ++ ln "  - [c](#c)" ++ ln "- [b](#b)"), 2.
  assert (Ho : outside Github None ls ls None).
  { repeat (apply out_text; [apply not_opens; [reflexivity|vm_compute; reflexivity]|]). constructor. }
  split; [reflexivity|]. split.
  { split; [discriminate|]. split; [reflexivity|]. split; [cbn; lia|]. split; [repeat (constructor; [fln|]); constructor|]. split.
    - eapply ex_normal; [exact Ho|]. right. left. eapply ends_none. exact Ho.
    - intros _. apply distinct_sha_ok. vm_compute. reflexivity. }
  split; [discriminate|]. split; [cbn; lia|]. split; [vm_compute; reflexivity|]. split; [|split; [reflexivity|vm_compute; discriminate]].
  split; [reflexivity|]. split; [reflexivity|]. vm_compute. reflexivity.
Qed.
Print Assumptions C50_incoherent_table_refuted.

(** ** C51 *)
Lemma outside_app_inv p ls more : forall b ks e, outside p b (ls ++ more) ks e ->
  exists k1 k2 mid, outside p b ls k1 mid /\ outside p mid more k2 e /\ ks = k1 ++ k2.
Proof.
  induction ls as [|l ls IH]; intros b ks e H; cbn [app] in H.
  - exists [], ks, b. repeat split; [constructor|exact H].
  - inversion H; subst;
      match goal with G : outside _ _ (ls ++ more) _ _ |- _ => destruct (IH _ _ _ G) as (k1 & k2 & mid & A & B & ->) end.
    + exists k1, k2, mid. repeat split; [|exact B]. eapply out_open; eauto.
    + exists (l :: k1), k2, mid. repeat split; [|exact B]. eapply out_text; eauto.
    + exists k1, k2, mid. repeat split; [|exact B]. eapply out_close; eauto.
    + exists k1, k2, mid. repeat split; [|exact B]. eapply out_inside; eauto.
Qed.
Lemma run_app E o ordered m a b : forall st,
  run E o ordered m (a ++ b) st = (do st <- run E o ordered m a st; run E o ordered m b st).
Proof.
  induction a as [|k a IH]; intros st; [reflexivity|]. cbn [app run]. destruct (look_step E o ordered m k st); cbn [bind]; [apply IH|reflexivity].
Qed.
Lemma add_header_grows o ordered m st h st' : add_header o ordered m st h = Ok st' -> exists l, t_toc st' = t_toc st ++ l.
Proof.
  unfold add_header. intros H.
  destruct (if ordered && negb (o_constant o) then _ else _) as [(types & index)|e]; cbn [bind] in H; [|discriminate].
  match type of H with bind ?x _ = _ => destruct x as [((f & lg) & sp)|e] end; cbn [bind] in H; [|discriminate].
  destruct (toc_line_no_indent _ _ _ _ _ _) as [[l|]|e]; cbn [bind] in H; try discriminate.
  destruct (build_toc_line l sp) as [l'|e]; cbn [bind] in H; [|discriminate]. injection H as <-. eexists. reflexivity.
Qed.
Lemma look_step_grows E o ordered m line st st' : look_step E o ordered m line st = Ok st' -> exists l, t_toc st' = t_toc st ++ l.
Proof.
  unfold look_step. intros H. destruct (get_md_header _ _ _ _ _ _) as [(hs & d)|e]; cbn [bind] in H; [|discriminate].
  destruct hs as [|[h|] hs]; [discriminate| |injection H as <-; exists []; symmetry; apply app_nil_r].
  destruct (hd_visible h); [apply add_header_grows in H; exact H|injection H as <-; exists []; symmetry; apply app_nil_r].
Qed.
Lemma run_grows E o ordered m ks : forall st st', run E o ordered m ks st = Ok st' -> exists l, t_toc st' = t_toc st ++ l.
Proof.
  induction ks as [|k ks IH]; intros st st' H; cbn [run] in H; [injection H as <-; exists []; symmetry; apply app_nil_r|].
  destruct (look_step E o ordered m k st) as [s1|] eqn:E1; cbn [bind] in H; [|discriminate]. apply look_step_grows in E1 as (a & A). apply IH in H as (b & ->).
  exists (a ++ b). rewrite A, app_assoc. reflexivity.
Qed.

Lemma examined_app p stdin ls more ks : examined p stdin (ls ++ more) ks -> stdin = true \/ ~ ends_inside p ls ->
  exists k1 k2, examined p stdin ls k1 /\ ks = k1 ++ k2.
Proof.
  intros H Hi. destruct (examined_total p stdin ls) as (k0 & H0).
  remember (ls ++ more) as all eqn:Ea. destruct H as [all ks e Ho _|pre la ks c n Hst Ho Hc Hsm].
  - subst all. apply outside_app_inv in Ho as (k1 & k2 & mid & A & _ & ->). exists k1, k2. split; [|reflexivity]. eapply ex_normal; [exact A|tauto].
  - destruct more as [|x more0] using rev_ind.
    + exists (ks ++ [la]), []. rewrite app_nil_r in *. split; [|reflexivity]. rewrite <- Ea. eapply ex_quirk; eauto.
    + clear IHmore0. rewrite app_assoc in Ea. apply app_inj_tail in Ea as (-> & ->). apply outside_app_inv in Ho as (k1 & k2 & mid & A & _ & ->).
      exists k1, (k2 ++ [x]). rewrite app_assoc. split; [|reflexivity]. eapply ex_normal; [exact A|tauto].
Qed.

(** Adding lines at the end of a document never changes the rows that are already in its table:
    rows are added at the end, or the added lines raise.  A document whose table cannot be built
    keeps raising the same exception. *)
Theorem C51_appending_only_appends : forall E o fn lines more,
  o_skip o = 0%Z -> (1 <= o_keep o)%Z -> Forall file_line (lines ++ more) ->
  fn = lit "-" \/ ~ ends_inside (o_parser o) lines ->
  (forall t, build_toc E o fn (mkDoc (lines ++ more) false) = Ok t ->
     exists t1 t2, build_toc E o fn (mkDoc lines false) = Ok t1 /\ t = t1 ++ t2)
  /\ (forall e, build_toc E o fn (mkDoc lines false) = Err e -> build_toc E o fn (mkDoc (lines ++ more) false) = Err e).
Proof.
  intros E o fn lines more Hs Hk Hfl Hi. destruct (known_dec (o_parser o)) as [Hp|Hp].
  2: { rewrite (build_toc_unknown E o fn (lines ++ more) lines Hp Hs). split; [|auto]. intros t Ht. exists t, []. rewrite app_nil_r. auto. }
  destruct (examined_total (o_parser o) (is_stdin fn) (lines ++ more)) as (ks & Hex).
  assert (Hi' : is_stdin fn = true \/ ~ ends_inside (o_parser o) lines) by (destruct Hi as [->|]; auto).
  destruct (examined_app _ _ _ _ _ Hex Hi') as (k1 & k2 & He1 & ->).
  assert (Hf1 : Forall file_line lines) by (apply Forall_app in Hfl; apply Hfl).
  rewrite (build_toc_run E o fn (lines ++ more) (k1 ++ k2)), (build_toc_run E o fn lines k1); auto using examined_exam.
  rewrite run_app. destruct (run E o (used_ordered o) (used_marker o) k1 (start o)) as [s1|e1]; cbn [bind].
  - split; [|intros e; discriminate]. intros t. destruct (run E o (used_ordered o) (used_marker o) k2 s1) as [s2|] eqn:E2; [|discriminate].
    intros [= <-]. apply run_grows in E2 as (l & ->). exists (concat (t_toc s1)), (concat l). rewrite concat_app. auto.
  - split; [discriminate|congruence].
Qed.
Print Assumptions C51_appending_only_appends.
Example C51_appending_only_appends_ex :
  Forall file_line (fenced_doc ++ [ln "## c"; ln "# d"]) /\ ~ ends_inside Github fenced_doc
  /\ build_toc ascii_env (opts0 Github) (lit "f.md") (mkDoc fenced_doc false) = Ok (ln "- [a](#a)" ++ ln "  - [b](#b)")
  /\ build_toc ascii_env (opts0 Github) (lit "f.md") (mkDoc (fenced_doc ++ [ln "## c"; ln "# d"]) false)
     = Ok ((ln "- [a](#a)" ++ ln "  - [b](#b)") ++ ln "  - [c](#c)" ++ ln "- [d](#d)").
Proof.
  split; [repeat (constructor; [fln|]); constructor|]. split; [eapply ends_none; exact fenced_outside|]. split; vm_compute; reflexivity.
Qed.
(** A file that ends inside a block: its last line is listed, and is not any more when a line follows. *)
Theorem C51_unclosed_block_refuted : exists E o fn lines more t1 t,
  o_skip o = 0%Z /\ (1 <= o_keep o)%Z /\ Forall file_line (lines ++ more)
  /\ build_toc E o fn (mkDoc lines false) = Ok t1 /\ build_toc E o fn (mkDoc (lines ++ more) false) = Ok t
  /\ ~ exists t2, t = t1 ++ t2.
Proof.
  exists ascii_env, (opts0 Cmark), (lit "f.md"), [ln "```"; ln "# x"], [ln "y"], (ln "- [x](#x)"), [].
  split; [reflexivity|]. split; [cbn; lia|]. split; [repeat (constructor; [fln|]); constructor|].
  split; [vm_compute; reflexivity|]. split; [vm_compute; reflexivity|]. intros (t2 & H). discriminate.
Qed.
Print Assumptions C51_unclosed_block_refuted.
