(** Properties of the table that build_toc returns: C14 - C19, C24, C25. *)
From Coq Require Import String List NArith ZArith Bool Arith Lia.
From Verif Require Import Str Fence Atx HtmlRe Inlines Anchor Toc Spec AnchorSpec TocSpec DocSpec TableSpec AsciiEnv.
From Verif Require Import StrFacts FenceProof AtxProof DecFacts AnchorProof TocProof TocLoop TocRun TableProof PropDoc.
Import ListNotations.
Local Open Scope list_scope.

(** build_toc in terms of the rows. *)
Lemma applies_toc E o fn lines ks : applies E o fn lines ks ->
  build_toc E o fn (mkDoc lines false) =
  match toc_lines E o (used_ordered o) (used_marker o) [] [] ks with Ok ls => Ok (concat ls) | Err e => Err e end.
Proof.
  intros (Hp & Hs & Hk & Hf & Hx & Hc). rewrite names_stdin_model in Hx. apply build_toc_refines; auto.
  intros H. apply Hc. intros G. rewrite G in H. discriminate.
Qed.
Lemma applies_rows E o fn lines ks hs : applies E o fn lines ks ->
  headings E (o_parser o) (o_no_links o) ks hs ->
  build_toc E o fn (mkDoc lines false) =
  match rows o (used_ordered o) (used_marker o) [] (entries (o_parser o) (o_keep o) hs) with Ok ls => Ok (concat ls) | Err e => Err e end.
Proof. intros Ha Hh. rewrite (applies_toc _ _ _ _ _ Ha). rewrite (toc_lines_rows E o _ _ ks hs Hh). reflexivity. Qed.
Lemma applies_headings E o fn lines ks t : applies E o fn lines ks ->
  build_toc E o fn (mkDoc lines false) = Ok t -> exists hs, headings E (o_parser o) (o_no_links o) ks hs.
Proof.
  intros Ha H. rewrite (applies_toc _ _ _ _ _ Ha) in H. destruct (toc_lines _ _ _ _ _ _ _) eqn:Et; [|discriminate].
  eapply toc_lines_headings. exact Et.
Qed.

(** The table of a successful run, with the computed columns and numbers. *)
Lemma applies_table E o fn lines ks t : applies E o fn lines ks ->
  build_toc E o fn (mkDoc lines false) = Ok t ->
  exists hs ls, headings E (o_parser o) (o_no_links o) ks hs /\
    rows o (used_ordered o) (used_marker o) [] (entries (o_parser o) (o_keep o) hs) = Ok ls /\
    is_table o (entries (o_parser o) (o_keep o) hs)
      (cols_of o (used_ordered o) (used_marker o) [] (levels (entries (o_parser o) (o_keep o) hs)))
      (nums_of o (used_ordered o) (used_marker o) [] (levels (entries (o_parser o) (o_keep o) hs))) t.
Proof.
  intros Ha H. destruct (applies_headings _ _ _ _ _ _ Ha H) as (hs & Hh). rewrite (applies_rows _ _ _ _ _ _ Ha Hh) in H.
  destruct (rows _ _ _ _ _) as [ls|] eqn:Er; [|discriminate]. injection H as <-. exists hs, ls.
  split; [exact Hh|]. split; [exact Er|]. split; [|split].
  - rewrite cols_length. apply map_length.
  - rewrite nums_length. apply map_length.
  - apply rows_table. exact Er.
Qed.

(** *** C15 *)
Theorem C15_one_row_per_listed_heading : forall E o fn lines ks t,
  applies E o fn lines ks ->
  build_toc E o fn (mkDoc lines false) = Ok t ->
  exists hs cols nums, headings E (o_parser o) (o_no_links o) ks hs
    /\ is_table o (entries (o_parser o) (o_keep o) hs) cols nums t.
Proof.
  intros E o fn lines ks t Ha H. destruct (applies_table _ _ _ _ _ _ Ha H) as (hs & ls & Hh & _ & Ht). eauto.
Qed.
Print Assumptions C15_one_row_per_listed_heading.

(** A line that raises stops the whole run. *)
Theorem C15_no_table_if_a_line_raises : forall E o fn lines ks l e,
  applies E o fn lines ks -> In l ks -> line_heading E (o_parser o) (o_no_links o) l = Err e ->
  exists e', build_toc E o fn (mkDoc lines false) = Err e'.
Proof.
  intros E o fn lines ks l e Ha Hin Hl. destruct (build_toc E o fn (mkDoc lines false)) as [t|e'] eqn:Et; [|eauto]. exfalso.
  destruct (applies_headings _ _ _ _ _ _ Ha Et) as (hs & Hh). clear -Hin Hl Hh.
  induction Hh; cbn in Hin; [contradiction| |]; destruct Hin as [->|Hin]; auto; congruence.
Qed.
Print Assumptions C15_no_table_if_a_line_raises.

(** An example document that is used throughout. *)
Definition doc1 : list str := [ln "# One"; ln "text"; ln "## Two"; ln "## Two"; ln "### Deep"; ln "#### Deeper"; ln "# Last"].
Definition opts1 (ordered : bool) (p : parser) : opts :=
  mkOpts ordered false false false 3 p (Some (lit "-")) 0 false [cLF].
Lemma doc1_outside p : cm_family p = true -> outside p None doc1 doc1 None.
Proof.
  intros H. unfold doc1. destruct p; try discriminate H; repeat (apply out_text; [apply not_opens; [reflexivity|vm_compute; reflexivity]|]); constructor.
Qed.
Definition distinct_sha (E : env) (slugs : list str) : bool :=
  forallb (fun s => forallb (fun t => implb (seqb (e_sha1 E s) (e_sha1 E t)) (seqb s t)) slugs) slugs.
Lemma distinct_sha_ok E slugs : distinct_sha E slugs = true -> no_collision E slugs.
Proof.
  unfold distinct_sha. rewrite forallb_forall. intros H s t Hs Ht Heq. specialize (H s Hs). rewrite forallb_forall in H.
  specialize (H t Ht). replace (seqb (e_sha1 E s) (e_sha1 E t)) with true in H by (symmetry; apply seqb_eq; exact Heq).
  apply seqb_eq. exact H.
Qed.
Lemma doc1_applies ordered p : cm_family p = true -> applies ascii_env (opts1 ordered p) (lit "f.md") doc1 doc1.
Proof.
  intros Hp. split; [intros H; cbn in H; subst; discriminate|]. split; [reflexivity|]. split; [cbn; lia|].
  split; [repeat (constructor; [fln|]); constructor|]. split.
  - eapply ex_normal; [apply doc1_outside; exact Hp|]. right. left. eapply ends_none. apply doc1_outside. exact Hp.
  - intros _. apply distinct_sha_ok. destruct p; try discriminate Hp; vm_compute; reflexivity.
Qed.
Example C15_one_row_per_listed_heading_ex :
  applies ascii_env (opts1 true Github) (lit "f.md") doc1 doc1 /\
  build_toc ascii_env (opts1 true Github) (lit "f.md") (mkDoc doc1 false) =
  Ok (ln "1. [One](#one)" ++ ln "   1. [Two](#two)" ++ ln "   2. [Two](#two-1)" ++ ln "      1. [Deep](#deep)"
      ++ ln "2. [Last](#last)").
Proof. split; [apply doc1_applies; reflexivity|vm_compute; reflexivity]. Qed.
Example C15_no_table_if_a_line_raises_ex :
  line_heading ascii_env Github false (ln "# ") = Err GithubEmptyLinkLabel.
Proof. vm_compute. reflexivity. Qed.

(** *** C14 *)
Lemma table_keep o k es : forall cols nums, table (with_keep o k) es cols nums = table o es cols nums.
Proof. induction es as [|e es IH]; intros [|c cols] [|n nums]; try reflexivity. cbn [table]. rewrite IH. reflexivity. Qed.
Lemma entries_keep p keep hs : entries p keep hs = filter (fun e => listed p keep (e_level e)) (with_anchors p [] hs).
Proof. reflexivity. Qed.
Theorem C14_limit_only_filters : forall E o fn lines ks,
  applies E o fn lines ks ->
  exists all : list entry, forall keep t, (1 <= keep)%Z ->
    build_toc E (with_keep o keep) fn (mkDoc lines false) = Ok t ->
    exists cols nums, is_table o (filter (fun e => listed (o_parser o) keep (e_level e)) all) cols nums t.
Proof.
  intros E o fn lines ks Ha.
  destruct (headings_dec E (o_parser o) (o_no_links o) ks) as [(hs & Hh)|(l & e & Hin & He)].
  - exists (with_anchors (o_parser o) [] hs). intros keep t Hk H.
    destruct Ha as (Hp & Hs & Hk' & Hf & Hx & Hc).
    assert (Ha' : applies E (with_keep o keep) fn lines ks) by (split; [exact Hp|]; repeat (split; [assumption|]); exact Hc).
    destruct (applies_table _ _ _ _ _ _ Ha' H) as (hs' & ls & Hh' & _ & Ht). cbn [o_parser o_no_links with_keep] in Hh'.
    rewrite (headings_fun _ _ _ _ _ Hh _ Hh'). destruct Ht as (A & B & C). rewrite table_keep in C.
    eexists. eexists. split; [exact A|]. split; [exact B|]. exact C.
  - exists []. intros keep t Hk H. exfalso.
    destruct Ha as (Hp & Hs & Hk' & Hf & Hx & Hc).
    assert (Ha' : applies E (with_keep o keep) fn lines ks) by (split; [exact Hp|]; repeat (split; [assumption|]); exact Hc).
    destruct (C15_no_table_if_a_line_raises _ _ _ _ _ _ _ Ha' Hin He) as (e' & G). congruence.
Qed.
Print Assumptions C14_limit_only_filters.
Example C14_limit_only_filters_ex :
  build_toc ascii_env (with_keep (opts1 true Github) 1) (lit "f.md") (mkDoc doc1 false)
    = Ok (ln "1. [One](#one)" ++ ln "2. [Last](#last)") /\
  build_toc ascii_env (with_keep (opts1 true Github) 6) (lit "f.md") (mkDoc doc1 false) =
  Ok (ln "1. [One](#one)" ++ ln "   1. [Two](#two)" ++ ln "   2. [Two](#two-1)" ++ ln "      1. [Deep](#deep)"
      ++ ln "         1. [Deeper](#deeper)" ++ ln "2. [Last](#last)").
Proof. split; vm_compute; reflexivity. Qed.

(** *** C16 *)
Theorem C16_numbered_within_sublists : forall E o fn lines ks t,
  applies E o fn lines ks -> used_ordered o = true -> o_constant o = false ->
  build_toc E o fn (mkDoc lines false) = Ok t ->
  exists hs, headings E (o_parser o) (o_no_links o) ks hs /\
    let es := entries (o_parser o) (o_keep o) hs in
    (coherent (levels es) -> exists cols nums, is_table o es cols nums t /\ numbered_per_sublist (levels es) nums).
Proof.
  intros E o fn lines ks t Ha Ho Hcst H. destruct (applies_table _ _ _ _ _ _ Ha H) as (hs & ls & Hh & _ & Ht).
  exists hs. split; [exact Hh|]. cbn zeta. intros Hc. apply coherent_iff in Hc. eexists. eexists. split; [exact Ht|].
  intros i l Hi.
  assert (Hn : numbered_list o (used_ordered o) = true) by (unfold numbered_list; rewrite Ho, Hcst; reflexivity).
  pose proof (nums_siblings o (used_ordered o) (used_marker o) _ Hn [] I Hc i l Hi) as G. cbn [map] in G. rewrite app_nil_r in G. exact G.
Qed.
Print Assumptions C16_numbered_within_sublists.
Lemma coherent_by ls : coherent_from [] ls -> coherent ls.
Proof. apply coherent_iff. Qed.
Example C16_numbered_within_sublists_ex : coherent [1; 2; 2; 3; 1].
Proof. apply coherent_by. repeat split. Qed.

(** Without coherence the numbers are wrong: the last entry is the first of its sublist. *)
Definition opts_nocoh : opts := mkOpts true false false true 3 Github (Some (lit ".")) 0 false [cLF].
Definition doc_nocoh : list str := [ln "# a"; ln "## b"; ln "# c"; ln "### d"; ln "## e"].
Theorem C16_incoherent_numbering_refuted :
  build_toc ascii_env opts_nocoh (lit "f.md") (mkDoc doc_nocoh false) =
    Ok (ln "1. [a](#a)" ++ ln "   1. [b](#b)" ++ ln "2. [c](#c)" ++ ln "   1. [d](#d)" ++ ln "2. [e](#e)")
  /\ siblings (rev [1; 2; 1; 3]) 2 = 0.
Proof. split; vm_compute; reflexivity. Qed.
Print Assumptions C16_incoherent_numbering_refuted.

(** *** C17 *)
Theorem C17_invalid_levels : forall p d prev curr,
  increase_index p d prev curr = Err ValueError <-> (prev < 0 \/ curr < 1)%Z.
Proof.
  intros p d prev curr. unfold increase_index.
  destruct (Z.ltb_spec prev 0); [split; auto|]. destruct (Z.ltb_spec curr 1); [split; auto|].
  cbn zeta. destruct (limits_index p && _); split; (discriminate || lia).
Qed.
Print Assumptions C17_invalid_levels.
Theorem C17_overflow_exact : forall p d prev curr n,
  (0 <= prev)%Z -> (1 <= curr)%Z -> next_index (tc_get d) prev curr n ->
  (In p [Github; Cmark; Gitlab; Commonmarker] /\ (999999999 < n)%Z ->
     increase_index p d prev curr = Err GithubOverflowOrderedListMarker) /\
  (~ (In p [Github; Cmark; Gitlab; Commonmarker] /\ (999999999 < n)%Z) ->
     exists d', increase_index p d prev curr = Ok d' /\ tc_get d' curr = Some n
       /\ forall k, k <> curr -> tc_get d' k = tc_get d k).
Proof.
  intros p d prev curr n Hp Hc Hn. unfold increase_index.
  replace (prev <? 0)%Z with false by (symmetry; apply Z.ltb_ge; lia).
  replace (curr <? 1)%Z with false by (symmetry; apply Z.ltb_ge; lia). cbn zeta.
  assert (Hnn : (match tc_get d curr with None => 0 | Some v => if ((if prev =? 0 then curr else prev) <? curr)%Z then 0 else v end + 1 = n)%Z).
  { unfold next_index in Hn. destruct (tc_get d curr) as [v|]; [|lia].
    destruct (Z.eqb_spec prev 0) as [->|Hne].
    - cbn [Z.ltb Z.compare andb] in Hn. rewrite Z.ltb_irrefl. lia.
    - replace (0 <? prev)%Z with true in Hn by (symmetry; apply Z.ltb_lt; lia). cbn [andb] in Hn. destruct (prev <? curr)%Z; lia. }
  rewrite Hnn.
  assert (Hl : limits_index p = true <-> In p [Github; Cmark; Gitlab; Commonmarker]).
  { destruct p; cbn; intuition discriminate. }
  split.
  - intros (A & B). apply Hl in A. rewrite A. replace (999999999 <? n)%Z with true by (symmetry; apply Z.ltb_lt; exact B). reflexivity.
  - intros Hno. destruct (limits_index p && (999999999 <? n)%Z) eqn:Eb.
    + exfalso. apply Hno. apply andb_true_iff in Eb as (A & B). apply Hl in A. apply Z.ltb_lt in B. auto.
    + eexists. split; [reflexivity|]. split; [rewrite tc_get_set, Z.eqb_refl; reflexivity|].
      intros k Hk. rewrite tc_get_set. replace (curr =? k)%Z with false by (symmetry; apply Z.eqb_neq; congruence). try reflexivity.
Qed.
Print Assumptions C17_overflow_exact.
Example C17_overflow_exact_ex :
  next_index (tc_get [(2, 999999999)]%Z) 2 2 1000000000 /\ next_index (tc_get [(2, 999999999)]%Z) 1 2 1
  /\ increase_index Github [(2, 999999999)]%Z 2 2 = Err GithubOverflowOrderedListMarker
  /\ increase_index Goldmark [(2, 999999999)]%Z 2 2 = Ok [(2, 1000000000)]%Z.
Proof. repeat split; vm_compute; reflexivity. Qed.

(** *** C18 *)
Theorem C18_nested_under_parent : forall E o fn lines ks t,
  applies E o fn lines ks -> o_parser o <> Redcarpet -> o_no_indentation o = false ->
  build_toc E o fn (mkDoc lines false) = Ok t ->
  exists hs, headings E (o_parser o) (o_no_links o) ks hs /\
    let es := entries (o_parser o) (o_keep o) hs in
    (coherent (levels es) -> exists cols nums, is_table o es cols nums t /\ nested o (levels es) cols nums).
Proof.
  intros E o fn lines ks t Ha Hr Hi H. destruct (applies_table _ _ _ _ _ _ Ha H) as (hs & ls & Hh & _ & Ht).
  exists hs. split; [exact Hh|]. cbn zeta. intros Hc. apply coherent_iff in Hc. eexists. eexists. split; [exact Ht|].
  apply cols_nested; try assumption. destruct Ha as (Hp & _). destruct (o_parser o); try reflexivity; congruence.
Qed.
Print Assumptions C18_nested_under_parent.
Example C18_nested_under_parent_ex :
  nested (opts1 true Github) [1; 2; 2; 3; 1] [0; 3; 3; 6; 0] [1; 1; 2; 1; 2] /\ coherent [1; 2; 2; 3; 1].
Proof.
  split; [|apply coherent_by; repeat split].
  exact (cols_nested (opts1 true Github) [1; 2; 2; 3; 1] eq_refl eq_refl (ltac:(repeat split))).
Qed.

(** With bullets the column is twice the depth below the first entry. *)
Lemma bullet_column o hist l :
  cm_family (o_parser o) = true -> coherent_hist (map fst hist) -> coherent_step (map fst hist) l ->
  Forall (fun x => snd x = 1) hist ->
  column_from true hist l = 2 * (l - last (map fst hist) l).
Proof.
  intros Hp. revert l. induction hist as [|(x & w) h IH]; intros l Hc Hs F.
  - cbn. lia.
  - rewrite column_parent by exact Hc. cbn [map fst] in *. destruct Hc as (Hs' & Hc). inversion F as [|? ? Hw F']; subst. cbn [snd] in Hw. subst w.
    apply incoherent_iff in Hs as [Hs|Hs]; [discriminate|]. cbn [hd] in Hs.
    cbn [parent_column]. destruct (x <? l) eqn:E.
    + apply Nat.ltb_lt in E. rewrite IH by assumption.
      destruct h as [|y h].
      * cbn in *. lia.
      * cbn [map fst] in *. rewrite (last_cons2 x) in *. 
        assert (Hd : forall d, last (fst y :: map fst h) d = last (fst y :: map fst h) 0).
        { clear. generalize (fst y) as a. induction (map fst h) as [|z m IHm]; intros a d; [reflexivity|]. rewrite !(last_cons2 a). apply IHm. }
        rewrite (Hd x), (Hd l).
        apply incoherent_iff in Hs' as [Hs'|Hs']; [discriminate|]. lia.
    + apply Nat.ltb_ge in E.
      destruct h as [|y h].
      * cbn in *. lia.
      * assert (Hl : coherent_step (map fst (y :: h)) l).
        { apply incoherent_iff. right. cbn [map fst] in *. rewrite (last_cons2 x) in Hs. apply incoherent_iff in Hs' as [Hs'|Hs']; [discriminate|]. cbn [hd] in *. lia. }
        rewrite <- column_parent by exact Hc. rewrite IH by assumption. cbn [map]. rewrite (last_cons2 x). reflexivity.
Qed.
Lemma bullet_cols o m ls : cm_family (o_parser o) = true -> o_no_indentation o = false -> length m = 1 -> forall hist,
  coherent_hist (map fst hist) -> coherent_from (map fst hist) ls -> Forall (fun x => snd x = 1) hist ->
  cols_of o false m hist ls = map (fun l => 2 * (l - last (map fst hist) (hd 0 ls))) ls.
Proof.
  intros Hp Hi Hm. induction ls as [|a ls IH]; intros hist Hh Hc F; [reflexivity|]. destruct Hc as (Hs & Hc).
  cbn [cols_of map hd]. rewrite Hi.
  assert (Hcol : forall h l, column (o_parser o) h l = column_from true h l) by (intros; destruct (o_parser o); try discriminate; reflexivity).
  rewrite Hcol, (bullet_column o) by assumption. f_equal.
  rewrite IH.
  - apply map_ext. intros l. cbn [push map fst].
    replace (last (a :: map fst hist) (hd 0 ls)) with (last (map fst hist) a); [reflexivity|].
    destruct hist as [|y h]; [reflexivity|]. cbn [map]. rewrite (last_cons2 a).
    generalize (fst y) as b. induction (map fst h) as [|z q IHq]; intros b; [reflexivity|]. rewrite !(last_cons2 b). apply IHq.
  - split; assumption.
  - exact Hc.
  - constructor; [exact Hm|exact F].
Qed.
Theorem C18_bullets_two_per_level : forall E o fn lines ks t,
  applies E o fn lines ks -> o_parser o <> Redcarpet -> o_no_indentation o = false -> used_ordered o = false ->
  build_toc E o fn (mkDoc lines false) = Ok t ->
  exists hs, headings E (o_parser o) (o_no_links o) ks hs /\
    let es := entries (o_parser o) (o_keep o) hs in
    (coherent (levels es) -> exists nums, is_table o es (map (fun l => 2 * (l - hd 0 (levels es))) (levels es)) nums t).
Proof.
  intros E o fn lines ks t Ha Hr Hi Hu H. destruct (applies_table _ _ _ _ _ _ Ha H) as (hs & ls & Hh & Hrows & Ht).
  exists hs. split; [exact Hh|]. cbn zeta. intros Hc. apply coherent_iff in Hc.
  exists (nums_of o (used_ordered o) (used_marker o) [] (levels (entries (o_parser o) (o_keep o) hs))).
  set (es := entries (o_parser o) (o_keep o) hs) in *.
  destruct Ha as (Hp & _).
  destruct es as [|e es0] eqn:Ees.
  { exact Ht. }
  rewrite <- Ees in *. rewrite Hu in Ht at 1.
  assert (Hm : length (used_marker o) = 1).
  { rewrite Ees in Hrows. cbn [rows] in Hrows. unfold entry_line in Hrows. rewrite Hu in Hrows. unfold numbered_list in Hrows. cbn [andb negb map incoherent] in Hrows.
    rewrite andb_false_r in Hrows. destruct (sin (used_marker o) (bullet_markers (o_parser o))) eqn:Es; [|discriminate].
    assert (Hb : bullet_markers (o_parser o) = [lit "-"; lit "+"; lit "*"]) by (destruct (o_parser o); try reflexivity; congruence).
    rewrite Hb in Es. unfold sin in Es. apply existsb_exists in Es as (x & Hx & Hxe). apply seqb_eq in Hxe. rewrite Hxe.
    cbn in Hx. destruct Hx as [<-|[<-|[<-|[]]]]; reflexivity. }
  assert (Hcm : cm_family (o_parser o) = true) by (destruct (o_parser o); try reflexivity; congruence).
  assert (Hcols : cols_of o false (used_marker o) [] (levels es) = map (fun l => 2 * (l - hd 0 (levels es))) (levels es)).
  { rewrite (bullet_cols o (used_marker o) _ Hcm Hi Hm []); [reflexivity|exact I|exact Hc|constructor]. }
  rewrite Hcols in Ht. exact Ht.
Qed.
Print Assumptions C18_bullets_two_per_level.

Lemma redcarpet_cols o ordered m ls : o_parser o = Redcarpet -> o_no_indentation o = false -> forall hist,
  cols_of o ordered m hist ls = map (fun l => 4 * (l - 1)) ls.
Proof. intros Hp Hi. induction ls as [|a ls IH]; intros hist; [reflexivity|]. cbn [cols_of map]. rewrite Hi, Hp, IH. reflexivity. Qed.
Theorem C18_redcarpet_four_per_level : forall E o fn lines ks t,
  applies E o fn lines ks -> o_parser o = Redcarpet -> o_no_indentation o = false ->
  build_toc E o fn (mkDoc lines false) = Ok t ->
  exists hs nums, headings E (o_parser o) (o_no_links o) ks hs /\
    let es := entries (o_parser o) (o_keep o) hs in
    is_table o es (map (fun l => 4 * (l - 1)) (levels es)) nums t.
Proof.
  intros E o fn lines ks t Ha Hr Hi H. destruct (applies_table _ _ _ _ _ _ Ha H) as (hs & ls & Hh & Hrows & Ht).
  exists hs. eexists. split; [exact Hh|]. cbn zeta. rewrite redcarpet_cols in Ht by assumption. exact Ht.
Qed.
Print Assumptions C18_redcarpet_four_per_level.
Example C18_bullets_two_per_level_ex :
  build_toc ascii_env (opts1 false Cmark) (lit "f.md") (mkDoc doc1 false) =
  Ok (ln "- [One](#one)" ++ ln "  - [Two](#two)" ++ ln "  - [Two](#two-1)" ++ ln "    - [Deep](#deep)" ++ ln "- [Last](#last)")
  /\ applies ascii_env (opts1 false Cmark) (lit "f.md") doc1 doc1.
Proof. split; [vm_compute; reflexivity|apply doc1_applies; reflexivity]. Qed.
Lemma doc2_applies : applies ascii_env (opts1 true Redcarpet) (lit "f.md") doc1 doc1.
Proof.
  split; [discriminate|]. split; [reflexivity|]. split; [cbn; lia|]. split; [repeat (constructor; [fln|]); constructor|].
  assert (Ho : outside Redcarpet None doc1 doc1 None).
  { unfold doc1. repeat (apply out_text; [intros c n (Hq & _); cbn in Hq; intuition discriminate|]). constructor. }
  split; [eapply ex_normal; [exact Ho|]; right; left; eapply ends_none; exact Ho|]. intros H. destruct H. reflexivity.
Qed.
Example C18_redcarpet_four_per_level_ex :
  build_toc ascii_env (opts1 true Redcarpet) (lit "f.md") (mkDoc doc1 false) =
  Ok (ln "1. [One](#one)" ++ ln "    1. [Two](#two)" ++ ln "    2. [Two](#two)" ++ ln "        1. [Deep](#deep)"
      ++ ln "            1. [Deeper](#deeper)" ++ ln "2. [Last](#last)").
Proof. vm_compute. reflexivity. Qed.

(** Without coherence an entry can lose its nesting: b has the parent a, but is not indented. *)
Definition doc_flat : list str := [ln "# a"; ln "### c"; ln "## b"].
Theorem C18_incoherent_nesting_refuted :
  build_toc ascii_env (mkOpts false false false true 3 Github (Some (lit "-")) 0 false [cLF]) (lit "f.md") (mkDoc doc_flat false)
    = Ok (ln "- [a](#a)" ++ ln "  - [c](#c)" ++ ln "- [b](#b)")
  /\ parent [1; 3; 2] 0 2.
Proof.
  split; [vm_compute; reflexivity|]. split; [lia|]. exists 1, 2. repeat split; auto.
  intros k lk Hk. assert (k = 1) by lia. subst. cbn. intros H. injection H as <-. lia.
Qed.
Print Assumptions C18_incoherent_nesting_refuted.

(** *** C19 *)
Theorem C19_accepted_tables_are_coherent : forall E o fn lines ks t,
  applies E o fn lines ks -> o_no_indentation o = false -> o_no_list_coherence o = false ->
  build_toc E o fn (mkDoc lines false) = Ok t ->
  exists hs, headings E (o_parser o) (o_no_links o) ks hs /\ coherent (levels (entries (o_parser o) (o_keep o) hs)).
Proof.
  intros E o fn lines ks t Ha Hi Hn H. destruct (applies_table _ _ _ _ _ _ Ha H) as (hs & ls & Hh & Hrows & Ht).
  exists hs. split; [exact Hh|]. apply coherent_iff. exact (rows_coherent o _ _ _ [] ls Hi Hn Hrows).
Qed.
Print Assumptions C19_accepted_tables_are_coherent.

Lemma overflow_free o n : (Z.of_nat n <= 999999999)%Z -> no_overflow o n.
Proof. intros H. right. right. exact H. Qed.

Theorem C19_check_is_exact : forall E o fn lines ks hs,
  applies E o fn lines ks -> o_no_indentation o = false -> o_no_list_coherence o = false ->
  headings E (o_parser o) (o_no_links o) ks hs ->
  (used_ordered o = true \/ In (used_marker o) [lit "-"; lit "+"; lit "*"]) ->
  (Z.of_nat (length (entries (o_parser o) (o_keep o) hs)) <= 999999999)%Z ->
  (coherent (levels (entries (o_parser o) (o_keep o) hs)) -> exists t, build_toc E o fn (mkDoc lines false) = Ok t) /\
  (~ coherent (levels (entries (o_parser o) (o_keep o) hs)) ->
     build_toc E o fn (mkDoc lines false) = Err TocDoesNotRenderAsCoherentList).
Proof.
  intros E o fn lines ks hs Ha Hi Hn Hh Hm Hov. rewrite (applies_rows _ _ _ _ _ _ Ha Hh). split; intros Hc.
  - rewrite coherent_iff in Hc. destruct Ha as (Hp & _).
    destruct (rows_accept o (entries (o_parser o) (o_keep o) hs) [] Hp Hm (overflow_free _ _ Hov)) as (ls & ->); [auto|eauto].
  - rewrite coherent_iff in Hc. destruct Ha as (Hp & _). rewrite rows_reject; auto. apply overflow_free. exact Hov.
Qed.
Print Assumptions C19_check_is_exact.

Theorem C19_no_check_no_error : forall E o fn lines ks hs,
  applies E o fn lines ks -> o_no_indentation o = true \/ o_no_list_coherence o = true ->
  headings E (o_parser o) (o_no_links o) ks hs ->
  build_toc E o fn (mkDoc lines false) <> Err TocDoesNotRenderAsCoherentList.
Proof.
  intros E o fn lines ks hs Ha Hoff Hh. rewrite (applies_rows _ _ _ _ _ _ Ha Hh).
  generalize (entries (o_parser o) (o_keep o) hs) as es. intros es.
  enough (G : forall hist, rows o (used_ordered o) (used_marker o) hist es <> Err TocDoesNotRenderAsCoherentList).
  { specialize (G []). destruct (rows _ _ _ _ _); [discriminate|]. intros X. apply G. congruence. }
  induction es as [|e es IH]; intros hist; [discriminate|]. cbn [rows]. unfold entry_line.
  destruct (numbered_list _ _ && _ && _); [discriminate|].
  replace (negb (o_no_indentation o) && negb (o_no_list_coherence o)) with false.
  2:{ destruct Hoff as [->| ->]; [reflexivity|symmetry; apply andb_false_r]. }
  cbn [andb]. destruct (negb _ && negb _); [discriminate|]. specialize (IH (push o (used_ordered o) (used_marker o) hist (e_level e))).
  destruct (rows _ _ _ _ _); [discriminate|]. exact IH.
Qed.
Print Assumptions C19_no_check_no_error.
Example C19_check_is_exact_ex :
  build_toc ascii_env (opts1 false Github) (lit "f.md") (mkDoc doc_flat false) = Err TocDoesNotRenderAsCoherentList
  /\ ~ coherent [1; 3; 2]
  /\ build_toc ascii_env (with_no_indentation (opts1 false Github) true) (lit "f.md") (mkDoc doc_flat false)
     = Ok (ln "- [a](#a)" ++ ln "- [c](#c)" ++ ln "- [b](#b)").
Proof.
  split; [vm_compute; reflexivity|]. split; [|vm_compute; reflexivity].
  intros H. specialize (H [1] 3 [2] eq_refl). cbn in H. assert (1 <= 3 <= 2) by (apply H; discriminate). lia.
Qed.

(** *** C24 *)
Lemma table_zero o es (ls : list nat) nums : length ls = length es -> table o es (map (fun _ => 0) ls) nums = table o es (repeat 0 (length es)) nums.
Proof.
  revert ls nums. induction es as [|e es IH]; intros [|l ls] [|n nums] H; try discriminate; try reflexivity.
  cbn [table map length repeat]. f_equal. apply IH. cbn in H. lia.
Qed.
Lemma cols_zero o ordered m ls : o_no_indentation o = true -> forall hist, cols_of o ordered m hist ls = map (fun _ => 0) ls.
Proof. intros Hi. induction ls as [|a ls IH]; intros hist; [reflexivity|]. cbn [cols_of map]. rewrite Hi, IH. reflexivity. Qed.
Lemma nums_no_indent o b ordered m ls : forall hist, nums_of (with_no_indentation o b) ordered m hist ls = nums_of o ordered m hist ls.
Proof.
  induction ls as [|a ls IH]; intros hist; [reflexivity|]. cbn [nums_of]. f_equal. apply IH.
Qed.
Lemma table_no_indent o b es : forall cols nums, table (with_no_indentation o b) es cols nums = table o es cols nums.
Proof. induction es as [|e es IH]; intros [|c cols] [|n nums]; try reflexivity. cbn [table]. rewrite IH. reflexivity. Qed.
Lemma rows_relax o o' ordered m es : o_parser o' = o_parser o -> o_constant o' = o_constant o ->
  (o_no_indentation o' = true \/ (o_no_indentation o' = o_no_indentation o /\ (o_no_list_coherence o' = true))) ->
  forall hist ls, rows o ordered m hist es = Ok ls -> exists ls', rows o' ordered m hist es = Ok ls'.
Proof.
  intros Hp Hc Hr. induction es as [|e es IH]; intros hist ls H; [eexists; reflexivity|]. cbn [rows] in *.
  destruct (entry_line o _ _ _ _ _ _) as [s|] eqn:Es; [|discriminate].
  destruct (rows o _ _ _ _) as [ss|] eqn:Er; [|discriminate].
  assert (Hn : numbered_list o' ordered = numbered_list o ordered) by (unfold numbered_list; rewrite Hc; reflexivity).
  assert (Hnum : entry_number o' ordered hist (e_level e) = entry_number o ordered hist (e_level e)) by (unfold entry_number; rewrite Hn; reflexivity).
  assert (Hmk : entry_marker o' ordered m hist (e_level e) = entry_marker o ordered m hist (e_level e)) by (unfold entry_marker; rewrite Hnum; reflexivity).
  assert (G : exists s', entry_line o' ordered m hist (e_level e) (e_text e) (e_anchor e) = Ok s').
  { unfold entry_line in *. rewrite Hn, Hnum, Hp. destruct (numbered_list o ordered && _ && _); [discriminate|].
    replace (negb (o_no_indentation o') && negb (o_no_list_coherence o')) with false.
    2:{ destruct Hr as [->|(_ & ->)]; [reflexivity|symmetry; apply andb_false_r]. }
    cbn [andb]. destruct (_ && incoherent _ _); [discriminate|]. destruct (negb ordered && _); [discriminate|]. eauto. }
  destruct G as (s' & ->). unfold push in *. rewrite Hmk. destruct (IH _ _ Er) as (ls' & ->). eauto.
Qed.
Theorem C24_no_indentation_only_removes_leading_spaces : forall E o fn lines ks t,
  applies E o fn lines ks -> build_toc E (with_no_indentation o false) fn (mkDoc lines false) = Ok t ->
  exists hs cols nums, headings E (o_parser o) (o_no_links o) ks hs /\
    let es := entries (o_parser o) (o_keep o) hs in
    is_table o es cols nums t /\
    build_toc E (with_no_indentation o true) fn (mkDoc lines false) = Ok (table o es (repeat 0 (length es)) nums).
Proof.
  intros E o fn lines ks t Ha H.
  assert (Ha0 : applies E (with_no_indentation o false) fn lines ks) by exact Ha.
  assert (Ha1 : applies E (with_no_indentation o true) fn lines ks) by exact Ha.
  destruct (applies_table _ _ _ _ _ _ Ha0 H) as (hs & ls & Hh & Hrows & Ht).
  cbn [o_parser o_keep o_no_links with_no_indentation] in *. set (es := entries (o_parser o) (o_keep o) hs) in *.
  change (used_ordered (with_no_indentation o false)) with (used_ordered o) in *.
  change (used_marker (with_no_indentation o false)) with (used_marker o) in *.
  rewrite nums_no_indent in Ht.
  exists hs. eexists. eexists. split; [exact Hh|]. split.
  - destruct Ht as (A & B & C). split; [exact A|]. split; [exact B|]. rewrite C. apply table_no_indent.
  - rewrite (applies_rows _ _ _ _ _ _ Ha1 Hh). cbn [o_parser o_keep with_no_indentation].
    change (used_ordered (with_no_indentation o true)) with (used_ordered o).
    change (used_marker (with_no_indentation o true)) with (used_marker o).
    change (entries (o_parser o) (o_keep o) hs) with es.
    assert (Hr : exists ls', rows (with_no_indentation o true) (used_ordered o) (used_marker o) [] es = Ok ls').
    { eapply rows_relax; [| | |exact Hrows]; try reflexivity. left. reflexivity. }
    destruct Hr as (ls' & Hr). rewrite Hr. f_equal.
    pose proof (rows_table (with_no_indentation o true) es [] ls' Hr) as G.
    change (used_ordered (with_no_indentation o true)) with (used_ordered o) in G.
    change (used_marker (with_no_indentation o true)) with (used_marker o) in G.
    rewrite G, cols_zero, nums_no_indent, table_no_indent by reflexivity. apply table_zero. apply map_length.
Qed.
Print Assumptions C24_no_indentation_only_removes_leading_spaces.

Theorem C24_no_list_coherence_keeps_accepted_tables : forall E o fn lines ks t,
  applies E o fn lines ks -> build_toc E (with_no_list_coherence o false) fn (mkDoc lines false) = Ok t ->
  build_toc E (with_no_list_coherence o true) fn (mkDoc lines false) = Ok t.
Proof.
  intros E o fn lines ks t Ha H.
  assert (Ha0 : applies E (with_no_list_coherence o false) fn lines ks) by exact Ha.
  assert (Ha1 : applies E (with_no_list_coherence o true) fn lines ks) by exact Ha.
  destruct (applies_headings _ _ _ _ _ _ Ha0 H) as (hs & Hh).
  rewrite (applies_rows _ _ _ _ _ _ Ha0 Hh) in H. rewrite (applies_rows _ _ _ _ _ _ Ha1 Hh).
  cbn [o_parser o_keep with_no_list_coherence] in *. revert H. generalize (entries (o_parser o) (o_keep o) hs) as es. intros es.
  destruct (rows (with_no_list_coherence o false) _ _ _ _) as [ls|] eqn:Er; [|discriminate]. intros H. injection H as <-.
  enough (G : rows (with_no_list_coherence o true) (used_ordered (with_no_list_coherence o true)) (used_marker (with_no_list_coherence o true)) [] es = Ok ls) by (rewrite G; reflexivity).
  revert Er. change (used_ordered (with_no_list_coherence o true)) with (used_ordered o). change (used_marker (with_no_list_coherence o true)) with (used_marker o).
  change (used_ordered (with_no_list_coherence o false)) with (used_ordered o). change (used_marker (with_no_list_coherence o false)) with (used_marker o).
  generalize (@nil (nat * nat)) as hist. revert ls. clear. induction es as [|e es IH]; intros ls hist H; [exact H|]. cbn [rows] in *.
  destruct (entry_line (with_no_list_coherence o false) _ _ _ _ _ _) as [s|] eqn:Es; [|discriminate].
  destruct (rows (with_no_list_coherence o false) _ _ _ _) as [ss|] eqn:Er; [|discriminate]. injection H as <-.
  assert (Es' : entry_line (with_no_list_coherence o true) (used_ordered o) (used_marker o) hist (e_level e) (e_text e) (e_anchor e) = Ok s).
  { unfold entry_line in *. cbn [o_parser o_no_indentation o_no_list_coherence with_no_list_coherence] in *.
    change (numbered_list (with_no_list_coherence o true) (used_ordered o)) with (numbered_list (with_no_list_coherence o false) (used_ordered o)).
    change (entry_number (with_no_list_coherence o true)) with (entry_number (with_no_list_coherence o false)).
    destruct (numbered_list (with_no_list_coherence o false) (used_ordered o) && _ && _); [discriminate|]. cbn [negb] in *. rewrite andb_false_r. cbn [andb].
    destruct (negb (o_no_indentation o) && true && incoherent _ _); [discriminate|]. exact Es. }
  rewrite Es'. change (push (with_no_list_coherence o true)) with (push (with_no_list_coherence o false)). rewrite (IH _ _ Er). reflexivity.
Qed.
Print Assumptions C24_no_list_coherence_keeps_accepted_tables.
Example C24_ex :
  build_toc ascii_env (with_no_indentation (opts1 true Github) true) (lit "f.md") (mkDoc doc1 false) =
  Ok (ln "1. [One](#one)" ++ ln "1. [Two](#two)" ++ ln "2. [Two](#two-1)" ++ ln "1. [Deep](#deep)" ++ ln "2. [Last](#last)").
Proof. vm_compute. reflexivity. Qed.

(** *** C25 *)
Lemma loop_marker E o m' stdin ordered m lines bad : forall st,
  toc_loop E (with_marker o m') stdin ordered m lines bad st = toc_loop E o stdin ordered m lines bad st.
Proof.
  induction lines as [|l ls IH]; intros st; [reflexivity|]. cbn [toc_loop]. destruct (negb stdin && _); [reflexivity|].
  change (line_step E (with_marker o m')) with (line_step E o). destruct (line_step _ _ _ _ _ _); cbn [bind]; [apply IH|reflexivity].
Qed.
Lemma loop_ordered E o b stdin ordered m lines bad : forall st,
  toc_loop E (with_ordered o b) stdin ordered m lines bad st = toc_loop E o stdin ordered m lines bad st.
Proof.
  induction lines as [|l ls IH]; intros st; [reflexivity|]. cbn [toc_loop]. destruct (negb stdin && _); [reflexivity|].
  change (line_step E (with_ordered o b)) with (line_step E o). destruct (line_step _ _ _ _ _ _); cbn [bind]; [apply IH|reflexivity].
Qed.
Definition valid_closing (p : parser) (m : str) : Prop :=
  m = lit "." \/ (m = lit ")" /\ p <> Redcarpet).
Lemma closing_iff p m : p <> OtherParser -> (sin m (closing_markers p) = true <-> valid_closing p m).
Proof.
  intros Hp. unfold sin, valid_closing. rewrite existsb_exists. split.
  - intros (x & Hx & He). apply seqb_eq in He. subst x.
    destruct p; try congruence; cbn [closing_markers In] in Hx; (destruct Hx as [<-|Hx]; [left; reflexivity|]); try contradiction; destruct Hx as [<-|[]]; right; (split; [reflexivity|discriminate]).
  - intros [->|(-> & Hr)].
    + exists (lit "."). split; [destruct p; cbn; auto; congruence|apply seqb_eq; reflexivity].
    + exists (lit ")"). split; [destruct p; cbn; auto; congruence|apply seqb_eq; reflexivity].
Qed.
Theorem C25_ordered_marker_defaults_to_dot : forall E o fn d,
  o_parser o <> OtherParser -> used_ordered o = true ->
  (forall m, o_marker o = Some m -> ~ valid_closing (o_parser o) m) ->
  build_toc E o fn d = build_toc E (with_marker o (Some (lit "."))) fn d.
Proof.
  intros E o fn d Hp Ho Hm. unfold build_toc. change (o_skip (with_marker o (Some (lit ".")))) with (o_skip o). change (o_parser (with_marker o (Some (lit ".")))) with (o_parser o).
  assert (G : fix_marker o = fix_marker (with_marker o (Some (lit ".")))).
  { rewrite !fix_marker_used by exact Hp. f_equal. f_equal. rewrite !used_marker_model by exact Hp. cbv zeta.
    change (used_ordered (with_marker o (Some (lit ".")))) with (used_ordered o). rewrite Ho. cbn [o_marker with_marker o_parser].
    replace (sin (match o_marker o with Some m => m | None => [] end) (closing_markers (o_parser o))) with false.
    - destruct (sin (lit ".") _); reflexivity.
    - symmetry. apply not_true_is_false. intros X. apply closing_iff in X; [|exact Hp].
      destruct (o_marker o) as [m|]; [apply (Hm m eq_refl X)|]. destruct X as [X|(X & _)]; discriminate. }
  rewrite <- G. destruct (_ <? 0)%Z; [reflexivity|]. destruct (fix_marker _) as [(ord & mk)|]; cbn [bind]; [|reflexivity].
  destruct (skip _ _) as [d'|]; cbn [bind]; [|reflexivity]. 
  destruct (d_lines d') as [|l0 ls0]; [destruct (d_bad d'); [reflexivity|]|];
    (destruct (init_indentation_log _ _) as [lg|]; cbn [bind]; [|reflexivity]);
    rewrite loop_marker; reflexivity.
Qed.
Print Assumptions C25_ordered_marker_defaults_to_dot.
Theorem C25_constant_implies_ordered : forall E o fn d,
  o_parser o <> OtherParser -> o_constant o = true ->
  build_toc E o fn d = build_toc E (with_ordered o true) fn d.
Proof.
  intros E o fn d Hp Hc. unfold build_toc. change (o_skip (with_ordered o true)) with (o_skip o). change (o_parser (with_ordered o true)) with (o_parser o).
  assert (G : fix_marker o = fix_marker (with_ordered o true)).
  { rewrite !fix_marker_used by exact Hp. unfold used_marker, used_ordered. cbn [o_marker with_ordered o_parser o_ordered o_constant].
    rewrite Hc, orb_true_r. reflexivity. }
  rewrite <- G. destruct (_ <? 0)%Z; [reflexivity|]. destruct (fix_marker _) as [(ord & mk)|]; cbn [bind]; [|reflexivity].
  destruct (skip _ _) as [d'|]; cbn [bind]; [|reflexivity].
  destruct (d_lines d') as [|l0 ls0]; [destruct (d_bad d'); [reflexivity|]|];
    (destruct (init_indentation_log _ _) as [lg|]; cbn [bind]; [|reflexivity]);
    rewrite loop_ordered; reflexivity.
Qed.
Print Assumptions C25_constant_implies_ordered.
Lemma nums_const o m ls : numbered_list o (used_ordered o) = false -> forall hist, nums_of o (used_ordered o) m hist ls = repeat 1 (length ls).
Proof.
  intros H. induction ls as [|a ls IH]; intros hist; [reflexivity|]. cbn [nums_of length repeat]. rewrite IH. unfold entry_number. rewrite H. reflexivity.
Qed.
Theorem C25_constant_numbers_are_one : forall E o fn lines ks t,
  applies E o fn lines ks -> o_constant o = true -> build_toc E o fn (mkDoc lines false) = Ok t ->
  exists hs cols, headings E (o_parser o) (o_no_links o) ks hs /\
    let es := entries (o_parser o) (o_keep o) hs in is_table o es cols (repeat 1 (length es)) t.
Proof.
  intros E o fn lines ks t Ha Hc H. destruct (applies_table _ _ _ _ _ _ Ha H) as (hs & ls & Hh & Hrows & Ht).
  exists hs. eexists. split; [exact Hh|]. cbn zeta. rewrite nums_const in Ht.
  - unfold levels in Ht. rewrite map_length in Ht. exact Ht.
  - unfold numbered_list. rewrite Hc. apply andb_false_r.
Qed.
Print Assumptions C25_constant_numbers_are_one.
Theorem C25_invalid_bullet_raises : forall E o fn lines ks hs,
  applies E o fn lines ks -> o_ordered o = false -> o_constant o = false ->
  ~ In (o_marker o) [Some (lit "-"); Some (lit "+"); Some (lit "*")] ->
  headings E (o_parser o) (o_no_links o) ks hs -> entries (o_parser o) (o_keep o) hs <> [] ->
  build_toc E o fn (mkDoc lines false) = Err ValueError.
Proof.
  intros E o fn lines ks hs Ha Ho Hc Hm Hh Hne. rewrite (applies_rows _ _ _ _ _ _ Ha Hh).
  assert (Hu : used_ordered o = false) by (unfold used_ordered; rewrite Ho, Hc; reflexivity).
  destruct (entries (o_parser o) (o_keep o) hs) as [|e es]; [congruence|]. cbn [rows]. unfold entry_line. rewrite Hu. unfold numbered_list. cbn [andb negb map incoherent].
  rewrite andb_false_r. destruct Ha as (Hp & _).
  destruct (sin (used_marker o) (bullet_markers (o_parser o))) eqn:Es; [|reflexivity]. exfalso. apply Hm.
  assert (Hb : bullet_markers (o_parser o) = [lit "-"; lit "+"; lit "*"]) by (destruct (o_parser o); try reflexivity; congruence).
  rewrite Hb in Es. unfold sin in Es. apply existsb_exists in Es as (x & Hx & Hxe). apply seqb_eq in Hxe.
  unfold used_marker in Hxe. rewrite Hu in Hxe. destruct (o_marker o) as [m|].
  - subst m. cbn in *. intuition congruence.
  - subst x. cbn in Hx. intuition discriminate.
Qed.
Print Assumptions C25_invalid_bullet_raises.
Example C25_ex :
  build_toc ascii_env (with_marker (opts1 true Github) (Some (lit "x"))) (lit "f.md") (mkDoc doc_flat false)
  = build_toc ascii_env (with_marker (opts1 true Github) (Some (lit "."))) (lit "f.md") (mkDoc doc_flat false)
  /\ build_toc ascii_env (mkOpts false false false false 3 Github (Some (lit ")")) 0 true [cLF]) (lit "f.md") (mkDoc doc1 false) =
  Ok (ln "1) [One](#one)" ++ ln "   1) [Two](#two)" ++ ln "   1) [Two](#two-1)" ++ ln "      1) [Deep](#deep)" ++ ln "1) [Last](#last)")
  /\ build_toc ascii_env (with_marker (opts1 false Github) (Some (lit "x"))) (lit "f.md") (mkDoc doc1 false) = Err ValueError.
Proof. repeat split; vm_compute; reflexivity. Qed.
