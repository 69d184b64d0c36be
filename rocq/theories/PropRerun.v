(** Properties of running the tool on its own output: C42, C43. *)
From Coq Require Import String List NArith ZArith Bool Arith Lia.
From Verif Require Import Str StrFacts Spec EnvSpec DecFacts Fence Atx Anchor Toc Write Cli AnchorSpec TocSpec DocSpec TableSpec WriteSpec RerunSpec AsciiEnv.
From Verif Require Import AtxProof LabelProof AnchorProof TocProof TocLoop TableProof PropDoc PropTable WriteProof WriteLoop WriteTwice PropWrite PropMulti Inert CliSpec PropNewline.
Import ListNotations.
Local Open Scope list_scope.

Lemma digit_is c : decimal_digit c <-> is_digit c.
Proof. unfold decimal_digit, is_digit. lia. Qed.
Lemma listy_space E c : space_ascii E -> listy c -> e_space E c = false.
Proof.
  intros Hs Hc. assert (G : (33 <= c < 128)%N) by (unfold listy, decimal_digit in Hc; cbn in Hc; intuition (subst; lia)).
  destruct (e_space E c) eqn:Es; [|reflexivity]. apply Hs in Es; lia.
Qed.

(** C42 *)
Theorem C42_rows_are_inert : forall E o fn lines ks t,
  word_ascii E -> o_newline o = [10%N] -> applies E o fn lines ks ->
  build_toc E o fn (mkDoc lines false) = Ok t ->
  exists rs, concat rs = t /\ Forall table_line rs /\ Forall (plain_line (o_parser o)) rs.
Proof.
  intros E o fn lines ks t Hw Hn Ha H. destruct (table_lines E o fn lines ks t Hw Hn Ha H) as (rs & A & B & C & D).
  exists rs. split; [exact A|]. split; [|exact C]. rewrite Forall_forall in *. intros l Hl.
  destruct (D l Hl) as (ws & c & r & -> & Hws & Hc). destruct (proj1 (Forall_forall _ _) B _ Hl) as (s & Hs & E1).
  destruct (exists_last (l := c :: r)) as (r1 & x & E2); [discriminate|].
  assert (x = 10%N /\ s = ws ++ r1) as (-> & ->).
  { rewrite E2, app_assoc in E1. apply app_inj_tail in E1 as (<- & <-). auto. }
  destruct r1 as [|c1 r1].
  - cbn in E2. injection E2 as -> _. exfalso. destruct Hc as [Hc|Hc]; [cbn in Hc; intuition discriminate|unfold decimal_digit in Hc; lia].
  - cbn in E2. injection E2 as <- ->. exists ws, c, r1. split; [reflexivity|]. split; [exact Hws|].
    split; [destruct Hc as [Hc|Hc]; [left; exact Hc|right; apply digit_is; exact Hc]|].
    destruct Hs as (S1 & S2). split; intros X; [apply S1|apply S2]; apply in_or_app; right; right; exact X.
Qed.
Print Assumptions C42_rows_are_inert.

Lemma chomp_app a b : chomp (a ++ b) = chomp a ++ chomp b.
Proof. apply delete_app. Qed.
Lemma chomp_id s : ~ In 10%N s -> chomp s = s.
Proof.
  unfold chomp, delete_char. induction s as [|c s IH]; intros H; [reflexivity|]. cbn. replace (N.eqb c 10) with false by (symmetry; apply N.eqb_neq; intros ->; apply H; left; reflexivity).
  cbn. f_equal. apply IH. intros X. apply H. right. exact X.
Qed.
Lemma chomp_no_lf s : ~ In 10%N (chomp s).
Proof. unfold chomp, delete_char. rewrite filter_In. intros (_ & H). discriminate. Qed.

Lemma item_of_row E o e col num rest : space_ascii E -> digit_ascii E -> known_parser (o_parser o) -> valid_marker o ->
  col <= 3 -> (o_no_links o = true -> exists c r, e_text e = c :: r /\ e_space E c = false) ->
  list_item E (chomp (rstrip (e_space E) (row o e col num ++ rest))).
Proof.
  intros Hs Hd Hp Hv Hc He.
  assert (G : exists c r, entry_label o (e_text e) (e_anchor e) = c :: r /\ e_space E c = false).
  { unfold entry_label. destruct (o_no_links o); [auto|]. exists 91%N. eexists. split; [reflexivity|]. destruct (e_space E 91%N) eqn:X; [|reflexivity]. apply Hs in X; lia. }
  destruct G as (c & r & El & Hcs).
  assert (Hc9 : ~ In c [32%N; 9%N; 11%N]).
  { cbn. intros X. assert (Y : e_space E c = true) by (apply Hs; lia). congruence. }
  assert (Hc10 : c <> 10%N) by (intros ->; assert (Y : e_space E 10%N = true) by (apply Hs; lia); congruence).
  unfold row. rewrite El.
  replace ((repeat 32%N col ++ marker_text o num ++ [32%N] ++ (c :: r) ++ o_newline o) ++ rest)
    with ((repeat 32%N col ++ marker_text o num ++ [32%N]) ++ c :: (r ++ o_newline o ++ rest)) by (rewrite <- !app_assoc; cbn; rewrite <- ?app_assoc; reflexivity).
  destruct (rstrip_keeps (e_space E) (repeat 32%N col ++ marker_text o num ++ [32%N]) c (r ++ o_newline o ++ rest) Hcs) as (b & ->).
  rewrite chomp_app, chomp_id.
  2:{ intros X. pose proof (marker_single o num Hp Hv) as (M & _). apply in_app_or in X as [X|X]; [apply repeat_spec in X; discriminate|]. apply in_app_or in X as [X|[X|[]]]; [auto|discriminate]. }
  exists col, (marker_text o num), (chomp (c :: b)). split; [rewrite <- !app_assoc; reflexivity|]. split; [exact Hc|]. split; [|split].
  - unfold marker_text, valid_marker in *. destruct (used_ordered o) eqn:Ho.
    + right. destruct (used_closing o Ho Hp) as [Hm|[Hm|[]]]; rewrite <- Hm; exists (decN (N.of_nat num)); [exists 46%N|exists 41%N];
        (split; [reflexivity|]); (split; [|split; [|cbn; auto]]); destruct (decN_decimal (N.of_nat num)) as (F & _ & NE).
      1,3: intros X; rewrite X in NE; destruct NE as [NE|(? & ? & NE & _)]; discriminate.
      all: revert F; apply Forall_impl; intros d Hdd; apply Hd; unfold decimal_digit, is_digit in *; lia.
    + left. destruct Hv as [Hv|Hv]; [discriminate|]. cbn in Hv. cbn. intuition.
  - intros x Hx. unfold chomp, delete_char in Hx. cbn in Hx. replace (N.eqb c 10) with false in Hx by (symmetry; apply N.eqb_neq; exact Hc10). cbn in Hx. injection Hx as <-. exact Hc9.
  - apply chomp_no_lf.
Qed.

Theorem C42_table_is_recognised : forall E o fn lines ks t,
  space_ascii E -> digit_ascii E -> applies E o fn lines ks -> recognisable E o ks ->
  build_toc E o fn (mkDoc lines false) = Ok t ->
  t = [] \/ list_item E (chomp (trim_end (e_space E) t)).
Proof.
  intros E o fn lines ks t Hs Hd Ha Hr H. destruct (applies_table _ _ _ _ _ _ Ha H) as (hs & ls & Hh & Hrows & (_ & _ & Ht)).
  assert (Hp : known_parser (o_parser o)) by apply Ha. pose proof (Hr hs) as Hr'.
  destruct (entries (o_parser o) (o_keep o) hs) as [|e es] eqn:Ee; [left; exact Ht|right].
  destruct (Hr' e es Hh eq_refl) as (R1 & R2). assert (Hv : valid_marker o) by (eapply rows_valid; eauto; discriminate).
  cbn [levels map cols_of nums_of table] in Ht. rewrite Ht. apply item_of_row; auto.
  destruct (o_no_indentation o); [lia|]. unfold column. destruct (o_parser o); cbn [column_from]; try lia. specialize (R1 eq_refl eq_refl). lia.
Qed.
Print Assumptions C42_table_is_recognised.
(** With links and a CommonMark parser there is no further condition. *)
Theorem C42_links_recognisable : forall E o ks,
  o_no_links o = false -> o_parser o <> Redcarpet \/ o_no_indentation o = true -> recognisable E o ks.
Proof.
  intros E o ks Hl Hp hs e es _ _. split; [|congruence]. intros A B. destruct Hp as [Hp|Hp]; [contradiction|congruence].
Qed.
Print Assumptions C42_links_recognisable.

(** Not so for redcarpet when the first heading is deep, and not without links. *)
Lemma outside_redcarpet lines : outside Redcarpet None lines lines None.
Proof. induction lines as [|l ls IH]; [apply out_nil|]. apply out_text; [|exact IH]. intros c n (A & _). cbn in A. intuition discriminate. Qed.
Lemma applies_closed E o fn lines ks : o_parser o <> OtherParser -> o_skip o = 0%Z -> (1 <= o_keep o)%Z -> Forall file_line lines ->
  outside (o_parser o) None lines ks None ->
  (o_parser o <> Redcarpet -> no_collision E (line_slugs E (o_parser o) (o_no_links o) ks)) -> applies E o fn lines ks.
Proof.
  intros A B C D F G. repeat (split; [assumption|]). split; [|exact G]. eapply ex_normal; [exact F|]. right. left. eapply ends_none. exact F.
Qed.
Theorem C42_redcarpet_refuted :
  ~ (forall o fn lines ks t, o_no_links o = false -> applies ascii_env o fn lines ks ->
       build_toc ascii_env o fn (mkDoc lines false) = Ok t ->
       t = [] \/ list_item ascii_env (chomp (trim_end (e_space ascii_env) t))).
Proof.
  intros H. destruct (H (opts1 false Redcarpet) (lit "f.md") [ln "## x"] [ln "## x"] (ln "    - [x](#x)")) as [G|G]; try reflexivity; [|discriminate|].
  - apply applies_closed; [discriminate|reflexivity|cbn; lia|repeat (constructor; [fln|]); constructor|apply outside_redcarpet|]. intros X. destruct X. reflexivity.
  - apply detect_iff in G. vm_compute in G. discriminate.
Qed.
Print Assumptions C42_redcarpet_refuted.
Definition opts_plain (p : parser) : opts := mkOpts false true false false 3 p (Some (lit "-")) 0 false [cLF].
Theorem C42_no_links_refuted :
  ~ (forall o fn lines ks t, o_parser o <> Redcarpet -> applies ascii_env o fn lines ks ->
       build_toc ascii_env o fn (mkDoc lines false) = Ok t ->
       t = [] \/ list_item ascii_env (chomp (trim_end (e_space ascii_env) t))).
Proof.
  intros H. set (l := lit "# " ++ [9%N] ++ ln "foo").
  destruct (H (opts_plain Github) (lit "f.md") [l] [l] (lit "- " ++ [9%N] ++ ln "foo")) as [G|G]; try discriminate.
  - apply applies_closed; [discriminate|reflexivity|cbn; lia| | |].
    + constructor; [|constructor]. exists (lit "# " ++ [9%N] ++ lit "foo"). split; [split; cbn; intuition discriminate|left; reflexivity].
    + apply out_text; [apply not_opens; [reflexivity|vm_compute; reflexivity]|apply out_nil].
    + intros _. apply distinct_sha_ok. vm_compute. reflexivity.
  - vm_compute. reflexivity.
  - apply detect_iff in G. vm_compute in G. discriminate.
Qed.
Print Assumptions C42_no_links_refuted.

(** The conditions on the tables of Unicode hold in the example environment. *)
Lemma digit_ascii_ex : digit_ascii ascii_env.
Proof. intros c _. cbn. unfold ascii_digit, in_range, is_digit. rewrite andb_true_iff, !N.leb_le. lia. Qed.
Lemma space_ascii_ex : space_ascii ascii_env.
Proof.
  intros c Hc. cbn. unfold in_range. rewrite !orb_true_iff, !andb_true_iff, !N.leb_le, !N.eqb_eq. lia.
Qed.
Example C42_table_is_recognised_ex : space_ascii ascii_env /\ digit_ascii ascii_env
  /\ applies ascii_env (opts1 true Github) (lit "f.md") doc1 doc1 /\ recognisable ascii_env (opts1 true Github) doc1
  /\ exists t, build_toc ascii_env (opts1 true Github) (lit "f.md") (mkDoc doc1 false) = Ok t /\ t <> [].
Proof.
  split; [apply space_ascii_ex|]. split; [apply digit_ascii_ex|]. split; [apply doc1_applies; reflexivity|].
  split; [apply C42_links_recognisable; [reflexivity|left; discriminate]|]. eexists. split; [vm_compute; reflexivity|discriminate].
Qed.

(** *** C43 *)
Lemma space_not_special E x : space_ascii E -> e_space E x = true -> ~ In x (lit "#`~").
Proof.
  intros Hs Hx X. assert (G : x = 35%N \/ x = 96%N \/ x = 126%N) by (cbn in X; intuition). apply Hs in Hx; lia.
Qed.
Lemma neutral_plain E p marker m : space_ascii E -> neutral_marker E marker -> is_marker E marker m -> plain_line p m.
Proof.
  intros Hs (_ & c & r & Ec & Hc & Hd) Hm. unfold is_marker in Hm. rewrite Ec in Hm.
  destruct (strip_split (e_space E) m) as (a & b & Em & Fa & _ & Hn & _). change (strip (e_space E) m = c :: r) in Hm. rewrite Hm in Em, Hn. cbn in Hn. rewrite Em.
  change ((c :: r) ++ b) with (c :: (r ++ b)). apply blank_prefix_plain.
  - intros x Hx. rewrite Forall_forall in Fa. apply (space_not_special E); auto.
  - intros ->. assert (X : e_space E 32%N = true) by (apply Hs; lia). congruence.
  - intros X. apply Hc. cbn in *. intuition.
Qed.
Lemma row_not_marker E marker ws c r : space_ascii E -> neutral_marker E marker -> Forall (fun x => x = 32%N) ws -> listy c -> ~ is_marker E marker (ws ++ c :: r).
Proof.
  intros Hs (_ & c0 & r0 & Ec & Hc & Hd) Hws Hl Hm. unfold is_marker in Hm. rewrite Ec in Hm.
  destruct (strip_prefix_char (e_space E) ws c r) as (r' & Er).
  - revert Hws. apply Forall_impl. intros x ->. apply Hs; lia.
  - apply listy_space; assumption.
  - change (strip (e_space E) (ws ++ c :: r) = c0 :: r0) in Hm. rewrite Er in Hm. injection Hm as -> _. destruct Hl as [Hl|Hl].
    + apply Hc. cbn in *. intuition.
    + apply Hd. apply digit_is. exact Hl.
Qed.
Lemma full_text ls : full_lines ls -> text_lines ls.
Proof. induction 1 as [|l ls (s & Hs & ->) F IH]; constructor; assumption. Qed.
Lemma text_file_lines ls : text_lines ls -> Forall file_line ls.
Proof.
  induction 1 as [|s Hs Hn|s ls Hs Hl IH]; constructor; auto.
  - exists s. split; [exact Hs|]. right. auto.
  - exists s. split; [exact Hs|]. left. reflexivity.
Qed.
Lemma lf_plain p : plain_line p [10%N].
Proof. apply (blank_prefix_plain p [] 10%N []); [intros x []|discriminate|cbn; intuition discriminate]. Qed.
(** The lines that a write inserts are plain. *)
Lemma new_plain E p marker rs : space_ascii E -> neutral_marker E marker -> full_lines rs ->
  Forall (fun l => exists ws c r, l = ws ++ c :: r /\ Forall (fun x => x = 32%N) ws /\ listy c) rs ->
  Forall (plain_line p) rs -> Forall (plain_line p) (lines_of (final_toc E [10%N] marker (concat rs))).
Proof.
  intros Hs Hm Hf Hr Hp. assert (Hlf : e_space E 10%N = true) by (apply Hs; lia).
  assert (Hml : plain_line p (marker ++ [10%N])).
  { apply (neutral_plain E p marker); auto. unfold is_marker, py_strip. apply (strip_pad (e_space E) [] marker [10%N]); auto. }
  rewrite final_lines by apply Hm. constructor; [exact Hml|].
  assert (Hb : Forall (plain_line p) (lines_of (rstrip (e_space E) (concat rs) ++ [10%N]))).
  { destruct rs as [|r0 rs0] eqn:Ers.
    - cbn. constructor; [apply lf_plain|constructor].
    - rewrite <- Ers in *. destruct (exists_last (l := rs)) as (init & la & E0); [rewrite Ers; discriminate|]. clear Ers. rewrite E0 in *. clear E0 rs.
      apply Forall_app in Hf as (Hf & Hfl). apply Forall_app in Hr as (_ & Hrl). apply Forall_app in Hp as (Hp & Hpl).
      inversion Hrl as [|? ? (ws & c & r & El & Hws & Hc) _]; subst. inversion Hfl as [|? ? (s & Hsl & Es) _]; subst.
      rewrite concat_app. cbn [concat]. rewrite app_nil_r, app_assoc.
      assert (Hcs : e_space E c = false) by (apply listy_space; assumption).
      destruct (rstrip_keeps (e_space E) (concat init ++ ws) c r Hcs) as (b & Hb).
      assert (Hnb : ~ In 10%N b).
      { intros X. destruct (rstrip_split (e_space E) ((concat init ++ ws) ++ c :: r)) as (suf & E1 & _ & Hne).
        rewrite Hb in E1, Hne. rewrite <- !app_assoc in E1. apply app_inv_head in E1. apply app_inv_head in E1. cbn in E1. injection E1 as E1.
        apply in_split in X as (b1 & b2 & Eb).
        destruct (exists_last (l := r)) as (r1 & x & Er). { intros ->. symmetry in E1. apply app_eq_nil in E1 as (-> & _). destruct b1; discriminate. }
        assert (x = 10%N /\ s = ws ++ c :: r1) as (-> & ->).
        { rewrite Er in Es. change (c :: r1 ++ [x]) with ((c :: r1) ++ [x]) in Es. rewrite app_assoc in Es. apply app_inj_tail in Es as (<- & <-). auto. }
        destruct Hsl as (Hsl & _). rewrite Er, Eb in E1.
        destruct b2 as [|y b2].
        - rewrite Eb in Hne. change (c :: b1 ++ [10%N]) with ((c :: b1) ++ [10%N]) in Hne. rewrite app_assoc in Hne. unfold noend in Hne. rewrite rev_app_distr in Hne. cbn in Hne. congruence.
        - apply Hsl. apply in_or_app. right. right. 
          destruct (exists_last (l := (y :: b2) ++ suf)) as (q & z & Eq); [destruct b2; discriminate|].
          assert (r1 = b1 ++ 10%N :: q) as ->.
          { rewrite <- app_assoc in E1. change ((10%N :: y :: b2) ++ suf) with (10%N :: ((y :: b2) ++ suf)) in E1. rewrite Eq in E1.
            change (b1 ++ 10%N :: q ++ [z]) with (b1 ++ (10%N :: q) ++ [z]) in E1. rewrite app_assoc in E1. apply app_inj_tail in E1 as (E1 & _). exact E1. }
          apply in_or_app. right. left. reflexivity. }
      assert (Hw10 : ~ In 10%N (ws ++ c :: b)).
      { intros X. apply in_app_or in X as [X|[X|X]]; [rewrite Forall_forall in Hws; specialize (Hws _ X); discriminate| |auto]. subst c. congruence. }
      replace (rstrip (e_space E) ((concat init ++ ws) ++ c :: r)) with (concat init ++ (ws ++ c :: b)) by (rewrite Hb, app_assoc; reflexivity).
      rewrite <- app_assoc, lines_of_full by exact Hf. apply Forall_app. split; [exact Hp|].
      rewrite <- (app_nil_r ((ws ++ c :: b) ++ [10%N])), lines_of_line by exact Hw10. constructor; [|constructor].
      destruct (listy_facts _ Hc) as (F1 & F2). rewrite <- app_assoc. cbn [app]. apply blank_prefix_plain; auto.
      intros x Hx. rewrite Forall_forall in Hws. rewrite (Hws x Hx). cbn. intuition discriminate. }
  apply Forall_app. split; [|constructor; [exact Hml|constructor]]. constructor; [apply lf_plain|]. apply Forall_app. split; [exact Hb|]. constructor; [apply lf_plain|constructor].
Qed.
Lemma drops_refl p ls : drops p ls ls.
Proof. induction ls; constructor; assumption. Qed.
Lemma drops_mid p pre old post : Forall (plain_line p) old -> drops p (pre ++ old ++ post) (pre ++ post).
Proof.
  intros H. induction pre as [|x pre IH]; cbn; [|constructor; exact IH]. induction H as [|x old Hx H IH]; cbn; [apply drops_refl|]. apply drops_drop; assumption.
Qed.
Lemma drops_none p lines rest ks : drops p lines rest -> outside p None lines ks None -> exists ks', outside p None rest ks' None /\ drops p ks ks'.
Proof. intros Hd Ho. destruct (drops_outside _ _ _ _ _ Ho I (or_intror eq_refl) _ Hd) as (ks' & A & B). eauto. Qed.
(** The replaced lines do not matter for the table. *)
Lemma rebuild E o fn pre old new post ks : o_skip o = 0%Z -> (1 <= o_keep o)%Z -> Forall file_line (pre ++ old ++ post) -> Forall file_line (pre ++ new ++ post) ->
  outside (o_parser o) None (pre ++ old ++ post) ks None -> Forall (plain_line (o_parser o)) old -> Forall (plain_line (o_parser o)) new ->
  build_toc E o fn (mkDoc (pre ++ new ++ post) false) = build_toc E o fn (mkDoc (pre ++ old ++ post) false).
Proof.
  intros Hs Hk F1 F2 Ho H1 H2.
  pose proof (drops_mid _ pre old post H1) as D1. pose proof (drops_mid _ pre new post H2) as D2.
  destruct (drops_none _ _ _ _ D1 Ho) as (ks1 & Ho1 & _).
  destruct (outside_total (o_parser o) (pre ++ new ++ post) None I) as (ks2 & e & Ho2).
  destruct (drops_outside _ _ _ _ _ Ho2 I (or_intror eq_refl) _ D2) as (ks3 & Ho3 & _).
  destruct (outside_fun _ _ _ _ _ Ho1 _ _ Ho3) as (_ & He).
  rewrite (C41_plain_lines_do_not_matter E o fn _ _ Hs Hk F1 D1) by eauto.
  apply (C41_plain_lines_do_not_matter E o fn _ _ Hs Hk F2 D2). right. exists ks2. subst e. exact Ho2.
Qed.
Lemma skipn_pre {A} n (pre rest : list A) : n <= length pre -> skipn n (pre ++ rest) = skipn n pre ++ rest.
Proof. intros H. rewrite skipn_app. replace (n - length pre) with 0 by lia. reflexivity. Qed.
Lemma applies_skip E o n fn lines ks : applies E (with_skip o n) fn lines ks -> n = 0%Z.
Proof. intros (_ & H & _). exact H. Qed.

Theorem C43_second_run_changes_nothing : forall E o fn n marker lines pre old post t0 ks t d b,
  word_ascii E -> digit_ascii E -> space_ascii E ->        (* the tables of Unicode are right on ASCII *)
  line_end (o_newline o) ->                                (* the table has LF or CR LF line ends *)
  neutral_marker E marker ->                               (* the marker looks like no heading, fence or list item *)
  text_lines lines ->
  target E marker lines pre old post t0 ->                 (* there is a marker; [old] is what a write replaces *)
  n <= length pre ->                                       (* the skipped lines end before it *)
  Forall (plain_line (o_parser o)) old ->                  (* no heading or fence is replaced *)
  outside (o_parser o) None (skipn n lines) ks None ->     (* all fenced blocks are closed *)
  applies E (with_skip o 0) fn (skipn n lines) ks ->
  recognisable E o ks ->
  build_toc E (with_skip o (Z.of_nat n)) fn (mkDoc lines false) = Ok t ->    (* first run *)
  write_toc E (o_newline o) t marker (mkDoc lines false) = Ok (d, b) ->
  build_toc E (with_skip o (Z.of_nat n)) fn d = Ok t                         (* second run *)
  /\ exists b', write_toc E (o_newline o) t marker d = Ok (d, b') /\ (o_newline o = [10%N] -> b' = true).
Proof.
  intros E o fn n marker lines pre old post t0 ks t d b Hw Hd Hs Hn Hm Ht Hg Hsk Hold Hout Ha Hrec Hb Hwr.
  assert (Hlf : e_space E 10%N = true) by (apply Hs; lia).
  rewrite C20_skip_drops_first_lines in Hb.
  assert (Hcr : e_space E 13%N = true) by (apply Hs; lia).
  destruct (C48_rows_are_single_lines E (with_skip o 0) fn _ ks t Hw Ha Hb) as (rows & Hrows & Hnl).
  assert (Et0 : t = ended (o_newline o) rows). { specialize (Hnl (o_newline o)). change (with_newline (with_skip o 0) (o_newline o)) with (with_newline (with_skip o 0) (o_newline (with_skip o 0))) in Hnl. rewrite with_newline_same, Hb in Hnl. injection Hnl as ->. reflexivity. }
  set (t' := ended [10%N] rows). assert (Hno : normalized t t') by (rewrite Et0; apply ended_normalized; assumption).
  specialize (Hnl [10%N]). change (concat (map (fun r : list N => r ++ [10%N]) rows)) with t' in Hnl.
  destruct (table_lines E (with_newline (with_skip o 0) [10%N]) fn _ ks t' Hw eq_refl Ha Hnl) as (rs & Et & Hf & Hp & Hr).
  assert (Hmn : py_strip E marker <> []) by (destruct Hm as (_ & c & r & Ec & _); intros X; change (trim (e_space E) marker = []) in X; rewrite Ec in X; discriminate).
  assert (Hnm : no_marker E marker rs).
  { intros l Hl. rewrite Forall_forall in Hr. destruct (Hr l Hl) as (ws & c & r & -> & X & Y). apply row_not_marker; assumption. }
  assert (Hitem : list_item E (chomp (rstrip (e_space E) t')) \/ py_strip E t' = []).
  { destruct (C42_table_is_recognised E (with_newline (with_skip o 0) [10%N]) fn _ ks t' Hs Hd Ha Hrec Hnl) as [X|X]; [right; rewrite X; reflexivity|auto]. }
  split.
  2:{ destruct (C35_write_idempotent E (o_newline o) marker t t' rs lines pre old post t0 d b Hlf Hcr Hn (proj1 Hm) Hmn Hno (full_text _ Hf) Et Hnm Hitem Ht Hg Hwr) as (b' & X1 & X2).
      exists b'. split; [exact X1|]. intros Hl. apply X2. rewrite Et0, Hl. reflexivity. }
  destruct (write_steps_target E (o_newline o) t marker lines pre old post t0 Hn Ht Hg) as (f1 & _ & Hw1).
  destruct (written_target E (o_newline o) marker t t' rs lines pre old post t0 Hn Hno Hlf Hcr (proj1 Hm) Hmn (full_text _ Hf) Et Hnm Hitem Ht Hg) as (Ht2 & Hg2). cbn zeta in Ht2.
  unfold write_toc in Hwr. rewrite Hw1 in Hwr. cbn [bind d_bad d_lines] in Hwr. rewrite last_last in Hwr. injection Hwr as <- _. rewrite C20_skip_drops_first_lines.
  rewrite (target_split _ _ _ _ _ _ _ Hg) in Hb, Hout, Ht. cbn [d_lines]. rewrite skipn_pre in * by assumption. rewrite <- Hb.
  destruct Ha as (A1 & A2 & A3 & A4 & _).
  assert (FL : forall x, text_lines (pre ++ x) -> Forall file_line (skipn n pre ++ x)).
  { intros x X. apply text_file_lines. rewrite <- (firstn_skipn n pre), <- app_assoc in X. exact (text_app_r _ _ X). }
  apply (rebuild E (with_skip o 0) fn (skipn n pre) old _ post ks); auto.
  rewrite universal_final by (assumption || apply Hm). rewrite (universal_is _ _ Hno), <- Et. apply new_plain; assumption.
Qed.
Print Assumptions C43_second_run_changes_nothing.
(** A document with exactly one marker line. *)
Theorem C43_one_marker : forall E o fn n marker pre m post ks t d b,
  word_ascii E -> digit_ascii E -> space_ascii E -> line_end (o_newline o) -> neutral_marker E marker ->
  text_lines (pre ++ [m] ++ post) -> is_marker E marker m -> no_marker E marker pre -> no_marker E marker post ->
  n <= length pre -> outside (o_parser o) None (skipn n (pre ++ [m] ++ post)) ks None ->
  applies E (with_skip o 0) fn (skipn n (pre ++ [m] ++ post)) ks -> recognisable E o ks ->
  build_toc E (with_skip o (Z.of_nat n)) fn (mkDoc (pre ++ [m] ++ post) false) = Ok t ->
  write_toc E (o_newline o) t marker (mkDoc (pre ++ [m] ++ post) false) = Ok (d, b) ->
  build_toc E (with_skip o (Z.of_nat n)) fn d = Ok t
  /\ exists b', write_toc E (o_newline o) t marker d = Ok (d, b') /\ (o_newline o = [10%N] -> b' = true).
Proof.
  intros E o fn n marker pre m post ks t d b H1 H2 H3 H4 H5 H6 H7 H8 H9 H10 H11 H12 H13 H14 H15.
  eapply (C43_second_run_changes_nothing E o fn n marker (pre ++ [m] ++ post) pre [m] post marker ks t d b); auto.
  - constructor; assumption.
  - constructor; [|constructor]. eapply neutral_plain; eauto.
Qed.
Print Assumptions C43_one_marker.
Definition doc_marked : list str := [ln "intro"; ln " <!--TOC--> "; ln ""; ln "# One"; ln "## Two"; lit "end"].
Lemma doc_marked_text : text_lines doc_marked.
Proof.
  unfold doc_marked, ln. repeat (apply tl_line; [split; cbn; intuition discriminate|]). apply tl_last; [split; cbn; intuition discriminate|discriminate].
Qed.
Lemma mk1_neutral : neutral_marker ascii_env mk1.
Proof. split; [split; cbn; intuition discriminate|]. exists 60%N. eexists. split; [vm_compute; reflexivity|]. split; [cbn; intuition discriminate|unfold is_digit; lia]. Qed.
Example C43_one_marker_ex :
  neutral_marker ascii_env mk1 /\ text_lines doc_marked
  /\ is_marker ascii_env mk1 (ln " <!--TOC--> ") /\ no_marker ascii_env mk1 [ln "intro"] /\ no_marker ascii_env mk1 [ln ""; ln "# One"; ln "## Two"; lit "end"]
  /\ outside Github None (skipn 1 doc_marked) (skipn 1 doc_marked) None
  /\ applies ascii_env (opts1 true Github) (lit "f.md") (skipn 1 doc_marked) (skipn 1 doc_marked)
  /\ exists t d, build_toc ascii_env (with_skip (opts1 true Github) 1) (lit "f.md") (mkDoc doc_marked false) = Ok t
     /\ write_toc ascii_env [10%N] t mk1 (mkDoc doc_marked false) = Ok (d, false) /\ d <> mkDoc doc_marked false.
Proof.
  assert (Ho : outside Github None (skipn 1 doc_marked) (skipn 1 doc_marked) None).
  { cbn [skipn doc_marked]. repeat (apply out_text; [apply not_opens; [reflexivity|vm_compute; reflexivity]|]). apply out_nil. }
  split; [apply mk1_neutral|]. split; [apply doc_marked_text|]. split; [vm_compute; reflexivity|].
  split; [apply not_marker_dec; vm_compute; reflexivity|]. split; [apply not_marker_dec; vm_compute; reflexivity|]. split; [exact Ho|]. split.
  - apply applies_closed; [discriminate|reflexivity|cbn; lia| |exact Ho|intros _; apply distinct_sha_ok; vm_compute; reflexivity].
    apply text_file_lines. apply (text_app_r [ln "intro"]). exact doc_marked_text.
  - eexists. eexists. split; [vm_compute; reflexivity|]. split; [vm_compute; reflexivity|discriminate].
Qed.

(** If the skipped lines reach the marker, the table moves them and the second run sees more. *)
Theorem C43_skip_past_marker_refuted :
  ~ (forall lines n t d b, text_lines lines -> outside Github None lines lines None ->
       build_toc ascii_env (with_skip (opts1 false Github) (Z.of_nat n)) (lit "f.md") (mkDoc lines false) = Ok t ->
       write_toc ascii_env [10%N] t mk1 (mkDoc lines false) = Ok (d, b) ->
       build_toc ascii_env (with_skip (opts1 false Github) (Z.of_nat n)) (lit "f.md") d = Ok t).
Proof.
  intros H. specialize (H [ln "<!--TOC-->"; ln "# a"; ln "# b"] 2).
  assert (Ht : text_lines [ln "<!--TOC-->"; ln "# a"; ln "# b"]) by (unfold ln; repeat (apply tl_line; [split; cbn; intuition discriminate|]); constructor).
  assert (Ho : outside Github None [ln "<!--TOC-->"; ln "# a"; ln "# b"] [ln "<!--TOC-->"; ln "# a"; ln "# b"] None)
    by (repeat (apply out_text; [apply not_opens; [reflexivity|vm_compute; reflexivity]|]); apply out_nil).
  specialize (H _ _ _ Ht Ho eq_refl eq_refl). vm_compute in H. discriminate.
Qed.
Print Assumptions C43_skip_past_marker_refuted.

(** The command, run twice in place: the second run changes no file and reports no difference. *)
Definition rerunnable (E : env) (o : opts) (marker name : str) (lines : list str) : Prop :=
  text_lines lines /\ exists pre old post t0 ks n,
    target E marker lines pre old post t0 /\ o_skip o = Z.of_nat n /\ n <= length pre
    /\ Forall (plain_line (o_parser o)) old
    /\ outside (o_parser o) None (skipn n lines) ks None
    /\ applies E (with_skip o 0) name (skipn n lines) ks /\ recognisable E o ks.
Lemma with_skip_same o : with_skip o (o_skip o) = o.
Proof. destruct o. reflexivity. Qed.
Lemma read_tocs_files E o : forall names w ts w', (forall n, In n names -> is_stdin n = false) ->
  read_tocs E o w names = Ok (ts, w') -> w' = w /\ Forall2 (fun n t => exists d, fs_get (w_fs w) n = Some d /\ build_toc E o n d = Ok t) names ts.
Proof.
  induction names as [|n ns IH]; intros w ts w' Hs H; cbn [read_tocs] in H.
  - injection H as <- <-. auto.
  - destruct (read_toc E o w n) as [(t & w1)|] eqn:R; cbn [bind] in H; [|discriminate]. destruct (read_tocs E o w1 ns) as [(ts1 & w2)|] eqn:R2; cbn [bind] in H; [|discriminate]. injection H as <- <-.
    unfold read_toc in R. destruct (_ <? 0)%Z; [discriminate|]. rewrite (Hs n) in R by (left; reflexivity). destruct (fs_get (w_fs w) n) as [d|] eqn:G; [|discriminate].
    destruct (build_toc E o n d) as [t1|] eqn:B; cbn [bind] in R; [|discriminate]. injection R as <- <-.
    destruct (IH _ _ _ (fun m Hm => Hs m (or_intror Hm)) R2) as (-> & F). split; [reflexivity|]. constructor; eauto.
Qed.
Lemma read_tocs_ok E o : (0 <= o_skip o)%Z -> forall names w ts, (forall n, In n names -> is_stdin n = false) ->
  Forall2 (fun n t => exists d, fs_get (w_fs w) n = Some d /\ build_toc E o n d = Ok t) names ts -> read_tocs E o w names = Ok (ts, w).
Proof.
  intros Hsk names w ts Hs F. induction F as [|n t ns ts (d & G & B) F IH]; [reflexivity|]. cbn [read_tocs].
  unfold read_toc. replace (o_skip o <? 0)%Z with false by (symmetry; apply Z.ltb_ge; exact Hsk). rewrite (Hs n) by (left; reflexivity). rewrite G, B. cbn [bind].
  rewrite IH by (intros m Hm; apply Hs; right; exact Hm). reflexivity.
Qed.
Lemma Forall2_combine {A B} (P : A -> B -> Prop) l : forall l', Forall2 P l l' -> forall x y, In (x, y) (combine l l') -> P x y.
Proof. intros l' H. induction H as [|a b l l' Hab H IH]; cbn; [intros ? ? []|]. intros x y [E|Hin]; [injection E as <- <-; exact Hab|auto]. Qed.
Lemma Forall2_of_combine {A B} (P : A -> B -> Prop) l : forall l', length l = length l' -> (forall x y, In (x, y) (combine l l') -> P x y) -> Forall2 P l l'.
Proof. induction l as [|a l IH]; intros [|b l'] H F; try discriminate; constructor; [apply F; left; reflexivity|]. apply IH; [cbn in H; lia|]. intros. apply F. right. assumption. Qed.

Theorem C43_command_twice : forall E a o w f1 r,
  selects a o -> line_end (o_newline o) ->
  word_ascii E -> digit_ascii E -> space_ascii E -> neutral_marker E (a_toc_marker a) ->
  a_in_place a = true -> a_names a <> [] -> NoDup (a_names a) -> ~ In stdin_name (a_names a) ->
  (forall n, In n (a_names a) -> exists lines, fs_get (w_fs w) n = Some (mkDoc lines false) /\ rerunnable E o (a_toc_marker a) n lines) ->
  cli_write_toc E a w = mkEffect [] f1 (Ok r) ->
  let e2 := cli_write_toc E a (mkWorld f1 (w_stdin w)) in
  (exists r2, f_result e2 = Ok r2 /\ (o_newline o = [10%N] -> r2 = false)) /\ forall n, fs_get (f_fs e2) n = fs_get f1 n.
Proof.
  intros E a o w f1 r Hsel Hnl Hw Hd Hs Hm Hip Hne Hnd Hst Hfiles H. cbn zeta. unfold cli_write_toc in *. apply selects_model in Hsel. rewrite <- Hsel in *.
  assert (Hns : forall n, In n (a_names a) -> is_stdin n = false).
  { intros n Hn. destruct (is_stdin n) eqn:X; [|reflexivity]. apply is_stdin_iff in X. subst n. contradiction. }
  assert (Hen : effective_names (a_names a) = a_names a) by (destruct (a_names a); [congruence|reflexivity]).
  unfold build_multiple_tocs in *. rewrite Hen, Hip in *.
  destruct (read_tocs E o w (a_names a)) as [(tocs & w')|] eqn:R; [|discriminate].
  destruct (read_tocs_files _ _ _ _ _ _ Hns R) as (-> & F).
  destruct (write_strings E (cli_newline (a_newline a)) (w_fs w) (a_names a) tocs (a_toc_marker a)) as ([eq1|] & f) eqn:W; cbn [bind] in H; [|discriminate]. injection H as -> _.
  destruct (C38_batch_success _ _ _ _ _ _ _ _ Hnd W) as (Hl & A & _ & _).
  assert (K : forall n t, In (n, t) (combine (a_names a) tocs) ->
    exists d, fs_get f1 n = Some d /\ build_toc E o n d = Ok t /\ exists b', write_toc E (cli_newline (a_newline a)) t (a_toc_marker a) d = Ok (d, b') /\ (o_newline o = [10%N] -> b' = true)).
  { intros n t Hin. destruct (A n t Hin) as (d' & v & (_ & d & G1 & G2) & G3). destruct (Forall2_combine _ _ _ F n t Hin) as (d0 & G4 & G5).
    assert (Hin' : In n (a_names a)) by (eapply in_combine_l; exact Hin). destruct (Hfiles n Hin') as (lines & G6 & Htl & pre & old & post & t0 & ks & k & T1 & T2 & T3 & T4 & T5 & T6 & T7).
    assert (d = mkDoc lines false) by congruence. assert (d0 = mkDoc lines false) by congruence. subst d d0.
    rewrite <- (with_skip_same o) in G5. replace (o_skip o) with (Z.of_nat k) in G5 by (symmetry; exact T2).
    destruct (C43_second_run_changes_nothing E o n k (a_toc_marker a) lines pre old post t0 ks t d' v) as (X & Y); auto.
    { rewrite Hsel. exact G2. }
    exists d'. split; [exact G3|]. replace (cli_newline (a_newline a)) with (o_newline o) by (rewrite Hsel; reflexivity). split; [|exact Y]. rewrite <- (with_skip_same o). replace (o_skip o) with (Z.of_nat k) by (symmetry; exact T2). exact X. }
  assert (Hskip : (0 <= o_skip o)%Z).
  { destruct (a_names a) as [|n ns] eqn:En; [congruence|]. destruct (Hfiles n) as (? & _ & _ & ? & ? & ? & ? & ? & k & _ & T2 & _); [left; reflexivity|]. rewrite T2. lia. }
  rewrite (read_tocs_ok E o Hskip (a_names a) (mkWorld f1 (w_stdin w)) tocs Hns).
  2:{ apply Forall2_of_combine; [exact Hl|]. intros n t Hin. destruct (K n t Hin) as (d & K1 & K2 & _). exists d. auto. }
  cbn [w_fs]. destruct (write_strings E (cli_newline (a_newline a)) f1 (a_names a) tocs (a_toc_marker a)) as ([eq2|e] & f2) eqn:W2; cbn [f_result f_fs bind].
  - destruct (C38_batch_success _ _ _ _ _ _ _ _ Hnd W2) as (_ & A2 & B2 & C2). split.
    + eexists. split; [reflexivity|]. intros Hl0. replace eq2 with true; [reflexivity|]. symmetry. apply C2. intros n t d' v Hin (_ & d & G1 & G2). destruct (K n t Hin) as (d2 & K1 & _ & b' & K3 & K4). specialize (K4 Hl0). congruence.
    + intros n. destruct (in_dec (list_eq_dec N.eq_dec) n (a_names a)) as [Hn|Hn]; [|apply B2; exact Hn].
      rewrite <- (map_fst_combine _ _ Hl) in Hn. apply in_map_iff in Hn as ((n1 & t) & <- & Hin). cbn [fst].
      destruct (A2 n1 t Hin) as (d' & v & (_ & d & G1 & G2) & G3). destruct (K n1 t Hin) as (d2 & K1 & _ & b' & K3 & K4). congruence.
  - exfalso. destruct (C38_batch_failure _ _ _ _ _ _ _ _ Hnd Hl W2) as (l1 & n & t & l2 & El & _ & Fl & _).
    destruct (K n t) as (d & K1 & _ & b' & K3 & _); [rewrite El; apply in_or_app; right; left; reflexivity|].
    destruct Fl as [(X & _)|[(_ & X & _)|(_ & d2 & X & Y)]]; [|congruence|congruence].
    apply Hst. rewrite <- X. eapply in_combine_l. rewrite El. apply in_or_app. right. left. reflexivity.
Qed.
Print Assumptions C43_command_twice.
Example C43_command_twice_ex :
  let a := args1 [lit "f.md"] true true in
  let w := mkWorld [(lit "f.md", mkDoc doc_marked false)] Closed in
  (exists o, selects a o /\ line_end (o_newline o) /\ rerunnable ascii_env o (a_toc_marker a) (lit "f.md") doc_marked)
  /\ exit_status (f_result (cli_write_toc ascii_env a w)) = 128%Z
  /\ exit_status (f_result (cli_write_toc ascii_env a (mkWorld (f_fs (cli_write_toc ascii_env a w)) Closed))) = 0%Z.
Proof.
  cbn zeta. split; [|split; vm_compute; reflexivity]. destruct (C40_options_selected (args1 [lit "f.md"] true true)) as (o & Hsel); [right; right; right; left; reflexivity|].
  exists o. split; [exact Hsel|]. apply selects_model in Hsel. subst o. split; [left; reflexivity|]. split; [exact doc_marked_text|].
  assert (Ho : outside Github None doc_marked doc_marked None).
  { unfold doc_marked. repeat (apply out_text; [apply not_opens; [reflexivity|vm_compute; reflexivity]|]). apply out_nil. }
  exists [ln "intro"], [ln " <!--TOC--> "], [ln ""; ln "# One"; ln "## Two"; lit "end"], mk1, doc_marked, 0.
  assert (Hmk : is_marker ascii_env mk1 (ln " <!--TOC--> ")) by (vm_compute; reflexivity).
  split; [apply (tg_single ascii_env mk1 [ln "intro"] (ln " <!--TOC--> ") [ln ""; ln "# One"; ln "## Two"; lit "end"]); [exact Hmk| |]; apply not_marker_dec; vm_compute; reflexivity|].
  split; [reflexivity|]. split; [lia|]. split; [constructor; [|constructor]; eapply neutral_plain; [exact space_ascii_ex|exact mk1_neutral|exact Hmk]|].
  split; [exact Ho|]. split; [|apply C42_links_recognisable; [reflexivity|left; discriminate]].
  apply applies_closed; [discriminate|reflexivity|cbn; lia|apply text_file_lines; exact doc_marked_text|exact Ho|intros _; apply distinct_sha_ok; vm_compute; reflexivity].
Qed.
