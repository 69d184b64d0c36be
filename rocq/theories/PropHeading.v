(** Properties of get_atx_heading and replace_and_split_newlines: C01-C05, C33.
    In the statements [line ++ repeat 10 k] is a line followed by any number of LF. *)
From Coq Require Import String List NArith ZArith Bool Arith Lia.
From Verif Require Import Str Fence Atx Spec StrFacts FenceProof AtxProof LabelProof.
Import ListNotations.
Local Open Scope list_scope.

Lemma atx_line_functional p line l r l' r' :
  atx_line p line l r -> atx_line p line l' r' -> l = l' /\ r = r'.
Proof.
  intros H H'. apply atx_line_shape in H as (i & H1 & H2 & H3 & H4 & H5 & H6 & H7).
  apply atx_line_shape in H' as (i' & H1' & H2' & H3' & H4' & H5' & H6' & H7').
  subst i i'. rewrite H4 in H4'. subst l'. rewrite H5 in H5'. subst r'. auto.
Qed.
Lemma sees_true keep level : sees keep true level = true <-> (Z.of_nat level <= keep)%Z.
Proof.
  unfold sees. destruct (Z.of_nat level >? keep)%Z eqn:E.
  - apply Z.gtb_lt in E. split; [discriminate|lia].
  - split; [intros _|reflexivity]. rewrite Z.gtb_ltb in E. apply Z.ltb_ge in E. exact E.
Qed.
Lemma atx_line_rest p line l r : atx_line p line l r -> heading_content p r (cm_text p r).
Proof. intros (i & _ & _ & _ & H). apply content_exists. exact H. Qed.
Lemma content_single p line l r t : single_line line -> atx_line p line l r -> heading_content p r t -> single_line t.
Proof.
  intros (A & B) (i & -> & _ & _ & _) H.
  assert (G : forall x, In x t -> In x r).
  { destruct H; intros x Hx; rewrite ?in_app_iff; tauto. }
  split; intros Hx; [apply A|apply B]; rewrite !in_app_iff; auto.
Qed.

(** C01 *)
Theorem C01_heading_level_exact : forall p keep line k level,
  commonmark_parser p -> (1 <= keep)%Z -> single_line line ->
  ((exists text vis, get_atx_heading p keep true (line ++ repeat 10%N k)
                     = Ok [Some (mkHeading level text vis)])
   <-> exists rest, atx_line p line level rest).
Proof.
  intros p keep line k level Hp Hk Hl. rewrite get_atx_single by assumption. split.
  - intros (text & vis & E). destruct (atx_line_dec p line) as [(l & r & H)|H].
    + rewrite (atx_cm_heading p keep true true line l r H) in E. cbn in E. injection E as -> _ _. eauto.
    + destruct (atx_cm_none p keep true true line H) as (v & G). rewrite G in E. discriminate.
  - intros (rest & H). rewrite (atx_cm_heading p keep true true line level rest H). cbn. eauto.
Qed.
Print Assumptions C01_heading_level_exact.
Example C01_heading_level_exact_ex :
  commonmark_parser Github /\ single_line (lit "  ## Setup ##")
  /\ atx_line Github (lit "  ## Setup ##") 2 (lit " Setup ##")
  /\ get_atx_heading Github 6 true (lit "  ## Setup ##") = Ok [Some (mkHeading 2 (lit "Setup") true)].
Proof.
  split; [cbn; auto|]. split; [split; cbn; intuition discriminate|]. split; [|reflexivity].
  exists 2. repeat split; try lia. right. exists 32%N, (lit "Setup ##"). split; [reflexivity|]. left. reflexivity.
Qed.

Theorem C01_other_lines_give_no_heading : forall p keep no_links line k,
  commonmark_parser p -> (1 <= keep)%Z -> single_line line ->
  (forall level rest, ~ atx_line p line level rest) ->
  get_atx_heading p keep no_links (line ++ repeat 10%N k) = Ok [None].
Proof.
  intros p keep no_links line k Hp Hk Hl H. rewrite get_atx_single by assumption.
  destruct (atx_cm_none p keep no_links true line) as (v & ->); [|reflexivity].
  intros (l & r & G). exact (H l r G).
Qed.
Print Assumptions C01_other_lines_give_no_heading.
Example C01_other_lines_give_no_heading_ex :
  (forall level rest, ~ atx_line Github (lit "    # x") level rest)
  /\ get_atx_heading Github 6 false (lit "    # x") = Ok [None]
  /\ get_atx_heading Github 6 false (lit "#x") = Ok [None]
  /\ get_atx_heading Github 6 false (lit "####### x") = Ok [None]
  /\ get_atx_heading Github 6 false (9%N :: lit "# x") = Ok [None].
Proof.
  split; [|repeat split]. intros level rest H.
  apply atx_line_shape in H as (i & H1 & H2 & _). vm_compute in H1. lia.
Qed.

(** Any other value of keep_header_levels is rejected. *)
Theorem C01_invalid_limit : forall p keep no_links line,
  (keep < 1)%Z -> get_atx_heading p keep no_links line = Err ValueError.
Proof. intros p keep nl line H. unfold get_atx_heading. apply Z.ltb_lt in H. rewrite H. reflexivity. Qed.
Print Assumptions C01_invalid_limit.
Example C01_invalid_limit_ex : get_atx_heading Cmark 0 true (lit "# x") = Err ValueError.
Proof. reflexivity. Qed.

(** C02: every heading line has exactly one CommonMark content ... *)
Theorem C02_content_exists_unique : forall p line level rest,
  atx_line p line level rest ->
  exists text, heading_content p rest text /\ forall t, heading_content p rest t -> t = text.
Proof.
  intros p line level rest H. exists (cm_text p rest). pose proof (atx_line_rest _ _ _ _ H) as G.
  split; [exact G|]. intros t Ht. eapply content_unique; eassumption.
Qed.
Print Assumptions C02_content_exists_unique.
Example C02_content_exists_unique_ex :
  atx_line Cmark (lit "# a #b #") 1 (lit " a #b #")
  /\ heading_content Cmark (lit " a #b #") (lit "a #b").
Proof.
  split.
  - exists 0. repeat split; try lia. right. exists 32%N, (lit "a #b #"). split; [reflexivity|left; reflexivity].
  - assert (B : blank Cmark 32%N) by (left; reflexivity).
    apply (content_closed Cmark [32%N] (lit "a #b") [32%N] 1 []); try (repeat constructor; assumption).
    + discriminate.
    + split.
      * intros c r E. cbn in E. injection E as <- _. unfold blank. intuition discriminate.
      * intros c r E. change (lit "a #b") with (lit "a #" ++ [98%N]) in E. apply app_inj_tail in E as (_ & <-).
        unfold blank. intuition discriminate.
    + right. discriminate.
Qed.

(** ... and, with links disabled, that content is reported, unless it consists of hashes only;
    then the reported text is empty.  C03 is part of the same equation: the heading is visible
    exactly when its level does not exceed the limit. *)
Theorem C02_heading_text : forall p keep line k level rest text,
  commonmark_parser p -> (1 <= keep)%Z -> single_line line ->
  atx_line p line level rest -> heading_content p rest text ->
  (text = [] \/ exists c, In c text /\ c <> 35%N) ->
  get_atx_heading p keep true (line ++ repeat 10%N k)
  = Ok [Some (mkHeading level text (Z.of_nat level <=? keep)%Z)].
Proof.
  intros p keep line k level rest text Hp Hk Hl H Ht Hc. rewrite get_atx_single by assumption.
  rewrite (atx_cm_heading p keep true true line level rest H). cbn [bind fst].
  rewrite (content_functional p rest text Ht).
  replace (reported text) with text.
  - do 4 f_equal. unfold sees. rewrite Z.gtb_ltb, Z.leb_antisym. destruct (keep <? Z.of_nat level)%Z; reflexivity.
  - destruct Hc as [-> | Hc]; [reflexivity|]. symmetry. apply reported_nonhash. exact Hc.
Qed.
Print Assumptions C02_heading_text.
Example C02_heading_text_ex :
  heading_content Cmark (lit " a #b #") (lit "a #b")
  /\ get_atx_heading Cmark 6 true (lit "# a #b #") = Ok [Some (mkHeading 1 (lit "a #b") true)].
Proof. split; [apply C02_content_exists_unique_ex|reflexivity]. Qed.

Theorem C02_hash_only_content : forall p keep line k level rest n,
  commonmark_parser p -> (1 <= keep)%Z -> single_line line ->
  atx_line p line level rest -> heading_content p rest (repeat 35%N n) ->
  get_atx_heading p keep true (line ++ repeat 10%N k)
  = Ok [Some (mkHeading level [] (Z.of_nat level <=? keep)%Z)].
Proof.
  intros p keep line k level rest n Hp Hk Hl H Ht. rewrite get_atx_single by assumption.
  rewrite (atx_cm_heading p keep true true line level rest H). cbn [bind fst].
  rewrite (content_functional p rest _ Ht), reported_hash.
  do 4 f_equal. unfold sees. rewrite Z.gtb_ltb, Z.leb_antisym. destruct (keep <? Z.of_nat level)%Z; reflexivity.
Qed.
Print Assumptions C02_hash_only_content.
(** The claim "the reported text is the CommonMark content" is false: the content of
    '# # #' is '#', the code reports the empty text. *)
Theorem C02_text_refuted :
  exists line rest text, atx_line Cmark line 1 rest /\ heading_content Cmark rest text
  /\ single_line line
  /\ get_atx_heading Cmark 6 true line <> Ok [Some (mkHeading 1 text true)].
Proof.
  exists (lit "# # #"), (lit " # #"), (lit "#").
  assert (B : blank Cmark 32%N) by (left; reflexivity).
  split; [|split; [|split]].
  - exists 0. repeat split; try lia. right. exists 32%N, (lit "# #"). split; [reflexivity|left; reflexivity].
  - apply (content_closed Cmark [32%N] (lit "#") [32%N] 1 []); try (repeat constructor; assumption).
    + discriminate.
    + split.
      * intros c r E. cbn in E. injection E as <- _. unfold blank. intuition discriminate.
      * intros c r E. change (lit "#") with (@nil N ++ [35%N]) in E. apply app_inj_tail in E as (_ & <-).
        unfold blank. intuition discriminate.
    + right. discriminate.
  - split; cbn; intuition discriminate.
  - vm_compute. discriminate.
Qed.
Print Assumptions C02_text_refuted.

(** C03 *)
Theorem C03_visible_iff_level_kept : forall p keep no_links line k h,
  commonmark_parser p -> single_line line ->
  get_atx_heading p keep no_links (line ++ repeat 10%N k) = Ok [Some h] ->
  (h_visible h = true <-> (Z.of_nat (h_level h) <= keep)%Z).
Proof.
  intros p keep no_links line k h Hp Hl E.
  assert (Hk : (1 <= keep)%Z).
  { destruct (Z_lt_le_dec keep 1) as [G|G]; [|exact G]. rewrite C01_invalid_limit in E by exact G. discriminate. }
  rewrite get_atx_single in E by assumption.
  destruct (atx_line_dec p line) as [(l & r & H)|H].
  - rewrite (atx_cm_heading p keep no_links true line l r H) in E.
    destruct (if no_links then _ else _) as [t|e]; cbn in E; [|discriminate].
    injection E as <-. cbn [h_visible h_level]. apply sees_true.
  - destruct (atx_cm_none p keep no_links true line H) as (v & G). rewrite G in E. discriminate.
Qed.
Print Assumptions C03_visible_iff_level_kept.
Example C03_visible_iff_level_kept_ex :
  get_atx_heading Github 2 false (lit "### a") = Ok [Some (mkHeading 3 (lit "a") false)]
  /\ get_atx_heading Github 3 false (lit "### a") = Ok [Some (mkHeading 3 (lit "a") true)].
Proof. split; reflexivity. Qed.
(** redcarpet ignores the limit *)
Theorem C03_redcarpet_refuted :
  exists line h, get_atx_heading Redcarpet 2 false line = Ok [Some h]
  /\ h_visible h = true /\ ~ (Z.of_nat (h_level h) <= 2)%Z.
Proof.
  exists (lit "### a"), (mkHeading 3 (lit "a") true). split; [reflexivity|]. split; [reflexivity|]. cbn. lia.
Qed.
Print Assumptions C03_redcarpet_refuted.
(** and with several lines in one string a hidden heading hides the later ones *)
Theorem C03_several_lines_refuted :
  exists line h1 h2, get_atx_heading Github 2 false line = Ok [Some h1; Some h2]
  /\ h_visible h2 = false /\ (Z.of_nat (h_level h2) <= 2)%Z.
Proof.
  exists (lit "### a" ++ [10%N] ++ lit "# b"), (mkHeading 3 (lit "a") false), (mkHeading 1 (lit "b") false).
  split; [reflexivity|]. split; [reflexivity|]. cbn. lia.
Qed.
Print Assumptions C03_several_lines_refuted.

(** C04: with links enabled.  [text] is the CommonMark content; the hypothesis on it is the
    one of C02_heading_text.  [label] is the text, followed by a space if it ends with a
    backslash. *)
Theorem C04_label_errors : forall p keep line k level rest text label,
  commonmark_parser p -> (1 <= keep)%Z -> single_line line ->
  atx_line p line level rest -> heading_content p rest text ->
  (text = [] \/ exists c, In c text /\ c <> 35%N) ->
  protected text label ->
  let result := get_atx_heading p keep false (line ++ repeat 10%N k) in
  (result = Err GithubEmptyLinkLabel <-> blank_label text)
  /\ (result = Err GithubOverflowCharsLinkLabel <-> ~ blank_label text /\ 999 < length label)
  /\ ((exists t, escapes false label t
         /\ result = Ok [Some (mkHeading level t (Z.of_nat level <=? keep)%Z)])
      <-> ~ blank_label text /\ length label <= 999).
Proof.
  intros p keep line k level rest text label Hp Hk Hl H Ht Hc Hpr result.
  assert (Hs : single_line text) by (eapply content_single; eassumption).
  assert (E : result = bind (link_label text) (fun t => Ok [Some (mkHeading level t (Z.of_nat level <=? keep)%Z)])).
  { unfold result. rewrite get_atx_single by assumption.
    rewrite (atx_cm_heading p keep false true line level rest H).
    rewrite (content_functional p rest text Ht).
    replace (reported text) with text.
    - destruct (link_label text); cbn; [|reflexivity]. do 4 f_equal.
      unfold sees. rewrite Z.gtb_ltb, Z.leb_antisym. destruct (keep <? Z.of_nat level)%Z; reflexivity.
    - destruct Hc as [-> | Hc]; [reflexivity|]. symmetry. apply reported_nonhash. exact Hc. }
  clearbody result. subst result.
  destruct (link_label_spec text (proj1 Hs) (proj2 Hs) label Hpr) as (A & B & C).
  assert (D : blank_label text \/ ~ blank_label text).
  { rewrite <- (strip_blanks_nil text (proj1 Hs) (proj2 Hs)). destruct (strip_blanks text); [left; reflexivity|right; discriminate]. }
  assert (X : forall (e : exn) (Q : str -> list (option heading)), ~ exists t, escapes false label t /\ Err e = Ok (Q t)).
  { intros e Q (t & _ & G). discriminate. }
  destruct D as [D|D].
  - rewrite (A D). cbn. split; [tauto|]. split; [split; [discriminate|tauto]|]. split; [|tauto].
    intros G. exfalso. exact (X _ _ G).
  - destruct (le_lt_dec (length label) 999) as [G|G].
    + destruct (C D G) as (u & E & Hu). rewrite E. cbn. split; [split; [discriminate|tauto]|].
      split; [split; [discriminate|lia]|]. split; [auto|]. intros _. exists u. auto.
    + rewrite (B D G). cbn. split; [split; [discriminate|tauto]|]. split; [tauto|]. split; [|lia].
      intros G'. exfalso. exact (X _ _ G').
Qed.
Print Assumptions C04_label_errors.
Example C04_label_errors_ex :
  get_atx_heading Github 6 false (lit "#") = Err GithubEmptyLinkLabel
  /\ get_atx_heading Github 6 false (35%N :: 32%N :: repeat 97%N 1000) = Err GithubOverflowCharsLinkLabel
  /\ get_atx_heading Github 6 false (35%N :: 32%N :: repeat 97%N 999)
     = Ok [Some (mkHeading 1 (repeat 97%N 999) true)]
  /\ get_atx_heading Github 6 false (lit "# a [b\] c\")
     = Ok [Some (mkHeading 1 (lit "a \[b\] c\ ") true)]
  /\ protected (lit "a [b\] c\") (lit "a [b\] c\ ").
Proof. repeat split; try (vm_compute; reflexivity). left. exists (lit "a [b\] c"). split; reflexivity. Qed.

(** A content of hashes only is reported as the empty text (C02), so it is an empty label. *)
Theorem C04_hash_only_content : forall p keep line k level rest n,
  commonmark_parser p -> (1 <= keep)%Z -> single_line line ->
  atx_line p line level rest -> heading_content p rest (repeat 35%N n) ->
  get_atx_heading p keep false (line ++ repeat 10%N k) = Err GithubEmptyLinkLabel.
Proof.
  intros p keep line k level rest n Hp Hk Hl H Ht. rewrite get_atx_single by assumption.
  rewrite (atx_cm_heading p keep false true line level rest H).
  rewrite (content_functional p rest _ Ht), reported_hash. reflexivity.
Qed.
Print Assumptions C04_hash_only_content.
Example C04_hash_only_content_ex :
  heading_content Cmark (lit " # #") (repeat 35%N 1)
  /\ get_atx_heading Cmark 6 false (lit "# # #") = Err GithubEmptyLinkLabel.
Proof.
  split; [|vm_compute; reflexivity]. assert (B : blank Cmark 32%N) by (left; reflexivity).
  apply (content_closed Cmark [32%N] (lit "#") [32%N] 1 []); try (repeat constructor; assumption).
  - discriminate.
  - split.
    + intros c r E. cbn in E. injection E as <- _. unfold blank. intuition discriminate.
    + intros c r E. change (lit "#") with (@nil N ++ [35%N]) in E. apply app_inj_tail in E as (_ & <-).
      unfold blank. intuition discriminate.
  - right. discriminate.
Qed.

(** With links disabled nothing is raised. *)
Theorem C04_no_links_never_raises : forall p keep line k,
  commonmark_parser p -> (1 <= keep)%Z -> single_line line ->
  exists r, get_atx_heading p keep true (line ++ repeat 10%N k) = Ok [r].
Proof.
  intros p keep line k Hp Hk Hl. rewrite get_atx_single by assumption.
  destruct (atx_line_dec p line) as [(l & r & H)|H].
  - rewrite (atx_cm_heading p keep true true line l r H). cbn. eauto.
  - destruct (atx_cm_none p keep true true line H) as (v & ->). cbn. eauto.
Qed.
Print Assumptions C04_no_links_never_raises.
Example C04_no_links_never_raises_ex : get_atx_heading Github 6 true (lit "#") = Ok [Some (mkHeading 1 [] true)].
Proof. reflexivity. Qed.

(** "Every label made of blanks only is rejected" is false. *)
Theorem C04_blank_labels_refuted :
  exists line h, get_atx_heading Github 6 false line = Ok [Some h]
  /\ Forall (fun c => c = 32%N \/ c = 9%N) (h_text h).
Proof.
  exists (lit "# " ++ [9; 32; 9]%N), (mkHeading 1 [9; 32; 9]%N true).
  split; [reflexivity|]. cbn [h_text]. repeat (apply Forall_cons; [auto|]). apply Forall_nil.
Qed.
Print Assumptions C04_blank_labels_refuted.

(** C05: labels are escaped.  [label] is again the content, possibly protected by a space. *)
Theorem C05_labels_are_escaped : forall p keep line k h,
  commonmark_parser p -> single_line line ->
  get_atx_heading p keep false (line ++ repeat 10%N k) = Ok [Some h] ->
  exists rest text label,
    atx_line p line (h_level h) rest /\ heading_content p rest text
    /\ (exists c, In c text /\ c <> 35%N)
    /\ protected text label /\ escapes false label (h_text h)
    (* every bracket is escaped *)
    /\ (forall pre c post, h_text h = pre ++ c :: post -> bracket_char c -> odd_backslashes pre)
    (* the text does not end with a backslash *)
    /\ (forall r, h_text h <> r ++ [92%N])
    (* so the link label "[text]" ends where it should, whatever follows it *)
    /\ (forall after, label_end false (h_text h ++ [93%N] ++ after) = Some after).
Proof.
  intros p keep line k h Hp Hl E.
  assert (Hk : (1 <= keep)%Z).
  { destruct (Z_lt_le_dec keep 1) as [G|G]; [|exact G]. rewrite C01_invalid_limit in E by exact G. discriminate. }
  rewrite get_atx_single in E by assumption.
  destruct (atx_line_dec p line) as [(l & r & H)|H].
  2:{ destruct (atx_cm_none p keep false true line H) as (v & G). rewrite G in E. discriminate. }
  rewrite (atx_cm_heading p keep false true line l r H) in E.
  pose proof (atx_line_rest _ _ _ _ H) as Ht. set (text := cm_text p r) in *. clearbody text.
  assert (Hs : single_line text) by (eapply content_single; eassumption).
  destruct (reported_cases text) as [Er|(_ & Er)]; rewrite Er in E; [|discriminate].
  assert (Hc : text = [] \/ exists c, In c text /\ c <> 35%N).
  { unfold reported in Er. destruct (forallb is_hash text) eqn:F; [left; symmetry; exact Er|right].
    clear -F. induction text as [|c text IH]; [discriminate|]. cbn in F. apply andb_false_iff in F as [F|F].
    - exists c. split; [left; reflexivity|]. unfold is_hash, cHASH in F. apply N.eqb_neq in F. congruence.
    - destruct (IH F) as (x & Hx & Hn). exists x. split; [right; exact Hx|exact Hn]. }
  destruct Hc as [-> | Hc]; [discriminate|].
  set (label := if N.eqb (last text 0%N) cBS then text ++ [cSP] else text).
  assert (Hpr : protected text label) by (apply protect_spec; reflexivity). clearbody label.
  destruct (link_label_spec text (proj1 Hs) (proj2 Hs) label Hpr) as (A & B & C).
  destruct (link_label text) as [u|e] eqn:El; cbn in E; [|discriminate].
  assert (Hu : escapes false label u).
  { assert (D : blank_label text \/ ~ blank_label text).
    { rewrite <- (strip_blanks_nil text (proj1 Hs) (proj2 Hs)). destruct (strip_blanks text); [left; reflexivity|right; discriminate]. }
    destruct D as [D|D]; [specialize (A D); discriminate|].
    destruct (le_lt_dec (length label) 999) as [G|G]; [|specialize (B D G); discriminate].
    destruct (C D G) as (u' & E' & Hu). injection E' as <-. exact Hu. }
  injection E as <-. cbn [h_level h_text].
  pose proof (protected_no_final_backslash _ _ Hpr) as Hnb.
  exists r, text, label. repeat split; try assumption.
  - intros pre c post Eu Hb. change pre with ([] ++ pre). eapply escapes_brackets_escaped; try eassumption.
    split; [discriminate|]. intros (q & n & E' & _). exfalso. destruct q; [|discriminate].
    replace (2 * n + 1) with (S (2 * n)) in E' by lia. discriminate.
  - apply (escapes_no_final_backslash _ _ _ Hu Hnb).
  - intros after. apply (escapes_label_end _ _ _ after Hu); [reflexivity|exact Hnb].
Qed.
Print Assumptions C05_labels_are_escaped.
Example C05_labels_are_escaped_ex :
  get_atx_heading Github 6 false (lit "# a [b\] \\[c\\\]\\")
  = Ok [Some (mkHeading 1 (lit "a \[b\] \\\[c\\\]\\ ") true)].
Proof. reflexivity. Qed.
(** redcarpet does not escape brackets *)
Theorem C05_redcarpet_refuted :
  exists line h, get_atx_heading Redcarpet 6 false line = Ok [Some h]
  /\ label_end false (h_text h ++ [93%N]) <> Some [].
Proof.
  exists (lit "# a]b"), (mkHeading 1 (lit "a]b") true). split; [reflexivity|]. vm_compute. discriminate.
Qed.
Print Assumptions C05_redcarpet_refuted.

(** C33 *)
Theorem C33_newline_splitting : forall s,
  exists t pre suf,
    normalized s t
    /\ t = repeat 10%N pre ++ separated [10%N] (replace_and_split_newlines s) ++ repeat 10%N suf
    /\ hd_error (separated [10%N] (replace_and_split_newlines s)) <> Some 10%N
    /\ hd_error (rev (separated [10%N] (replace_and_split_newlines s))) <> Some 10%N
    /\ (forall piece, In piece (replace_and_split_newlines s) -> single_line piece)
    /\ replace_and_split_newlines s <> [].
Proof. exact split_newlines_spec. Qed.
Print Assumptions C33_newline_splitting.
Example C33_newline_splitting_ex :
  replace_and_split_newlines ([10%N] ++ lit "a" ++ [13; 10; 13]%N ++ lit "b" ++ [10; 13]%N)
  = [lit "a"; []; lit "b"].
Proof. reflexivity. Qed.
