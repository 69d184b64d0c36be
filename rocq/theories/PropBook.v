(** Whole documents and their tables (C60). *)
From Coq Require Import String List NArith ZArith Bool Arith Lia.
From Verif Require Import Str Regex HtmlRe Fence Atx Entity Inlines Anchor Toc Spec EnvSpec AnchorSpec TocSpec TableSpec DocSpec
  HelperSpec EmphSpec DelimSpec LinkSpec SafeSpec HeadSpec PlainSpec BookSpec StrFacts FenceProof AtxProof LabelProof AnchorProof TocProof TocLoop TableProof SafeProof
  AsciiEnv InlineRead InlinePair PropPairs PropHeading PropAnchor PropDoc PropTable PropEmphasis PropLinks PropHtml PropErrors PropArgs PropLines PropPlain PropMarked.
From Verif Require HtmlSpec.
Import ListNotations.
Local Open Scope list_scope.

Lemma ended_repeat line l : ended line l -> exists k, l = line ++ repeat 10%N k.
Proof. intros (_ & [->|(-> & _)]); [exists 1; reflexivity|exists 0; rewrite app_nil_r; reflexivity]. Qed.
Lemma escapes_in b s t : Spec.escapes b s t -> forall c, In c t -> c = 92%N \/ In c s.
Proof.
  induction 1; intros x Hx; cbn in *; auto; try (destruct Hx as [<-|Hx]; auto; apply IHescapes in Hx; tauto).
  destruct Hx as [<-|[<-|Hx]]; auto. apply IHescapes in Hx. tauto.
Qed.
Lemma hex_model n : hex_numeral n = hexN n.
Proof. unfold hex_numeral, hexN. generalize (N.to_hex_uint n). induction u; cbn [hex_digits hexuint_str]; f_equal; auto. Qed.
Lemma lowered_low w v : Forall2 ascii_lowered w v -> v = low w.
Proof.
  intros H. assert (G := low_lowered w). revert G. generalize (low w). induction H as [|c d w v Hc _ IH]; intros u G; inversion G as [|? e ? u' He Hu]; subst; [reflexivity|].
  f_equal; [|apply IH; exact Hu]. destruct Hc as [(A & ->)|(A & ->)], He as [(B & ->)|(B & ->)]; auto; contradiction.
Qed.
Lemma separated_join sep l : separated sep l = join sep l.
Proof. induction l as [|a [|b l] IH]; [reflexivity|reflexivity|]. cbn [separated join] in *. rewrite IH. reflexivity. Qed.

(** The base slug of a text. *)
Lemma named_base E p text name : python_tables E -> zs_ascii E -> word_ascii E -> entity_tables E -> single_line text ->
  named E p text name -> base_slug E p text name.
Proof.
  intros Ht Hz Hw He Hs [Hp Hsf Hc Hb|pieces ts out Hp El Hpr Hal Et H0 Hsc Hu|words lowered Hp Hn Hr Hl|Hp Hn Hk].
  - apply C56_no_delimiters; auto.
  - exact (C56_as_commonmark E p text pieces ts out Ht Hz Hw He Hs Hp El Hpr Hal Et H0 Hsc Hu).
  - subst p. exists []. unfold build_anchor_link.
    pose proof (split_newlines_single text 0 Hs) as G. cbn [repeat] in G. rewrite app_nil_r in G. rewrite G. cbn.
    destruct (rc_anchor_runs text words Hr) as (A & _). rewrite (A Hn). unfold joined.
    assert (L : lowered = map low words); [|rewrite L; f_equal; f_equal; f_equal; symmetry; apply separated_join].
    clear -Hl. induction Hl as [|w v ws vs H _ IH]; [reflexivity|]. cbn. f_equal; [apply lowered_low; exact H|exact IH].
  - subst p. exists []. unfold build_anchor_link.
    pose proof (split_newlines_single text 0 Hs) as G. cbn [repeat] in G. rewrite app_nil_r in G. rewrite G. cbn.
    assert (R : runs redcarpet_keeps (filter (fun c => negb (N.eqb c 60 || N.eqb c 38)) text) []).
    { apply runs_end. apply Forall_forall. intros c Hc. apply filter_In in Hc as (Hc & Hf). apply negb_true_iff, orb_false_iff in Hf as (A & B). apply N.eqb_neq in A, B.
      destruct (Hk c Hc) as [X|[X|X]]; [exact X|congruence|congruence]. }
    destruct (rc_anchor_runs text [] R) as (_ & A & _). rewrite (A eq_refl Hn). unfold rc_hash. rewrite rc_hash_djb2, <- hex_model. reflexivity.
Qed.

Lemma heading_single p links line level label : single_line line -> title p links line level label -> single_line label.
Proof.
  intros Hs [rest text whole lab Hp _ Ha Hc _ _ Hpr _ He|rest text Hp _ Ha Hc _|text Hp Hr].
  - assert (St : single_line text) by (eapply content_single; eassumption).
    assert (Sw : single_line whole).
    { destruct St as (A & B). destruct Hpr as [(r & -> & ->)|(_ & ->)]; [|split; assumption]. split; rewrite in_app_iff; intros [X|[X|[]]]; auto; discriminate. }
    destruct Sw as (A & B). split; intros X; apply (escapes_in _ _ _ He) in X as [X|X]; auto; discriminate.
  - eapply content_single; eassumption.
  - assert (St : single_line text).
    { destruct Hr as (k & j & m & -> & _). destruct Hs as (A & B). split; intros X; [apply A|apply B]; rewrite !in_app_iff; auto. }
    destruct (links && _); [|exact St]. destruct St as (A & B). split; rewrite in_app_iff; intros [X|[X|[]]]; auto; discriminate.
Qed.
Lemma title_line_found E p links line l level label name : p <> OtherParser -> python_tables E -> zs_ascii E -> word_ascii E -> entity_tables E ->
  ended line l -> title p links line level label -> named E p label name ->
  line_heading E p (negb links) l = Ok (Some (mkFound level label name)).
Proof.
  intros Hp Ht Hz Hw He Hl Hti Hn. pose proof Hl as (Hs & _). destruct (ended_repeat _ _ Hl) as (k & ->).
  pose proof (named_base E p label name Ht Hz Hw He (heading_single _ _ _ _ _ Hs Hti) Hn) as (d & Hb).
  assert (G : get_atx_heading p 6 (negb links) (line ++ repeat 10%N k) = Ok [Some (mkHeading level label (match p with Redcarpet => true | _ => (Z.of_nat level <=? 6)%Z end))]).
  { destruct Hti as [rest text whole lab Hcm -> Ha Hc Hex Hnb Hpr Hlen Hes|rest text Hcm -> Ha Hc Hex|text -> Hr].
    - destruct (C04_label_errors p 6 line k level rest text whole Hcm ltac:(lia) Hs Ha Hc (or_intror Hex) Hpr) as (_ & _ & _ & G).
      destruct (G (conj Hnb Hlen)) as (t & Het & G'). cbn [negb]. rewrite G', (escapes_functional _ _ _ Het _ Hes). destruct Hcm as [<-|[<-|[<-|[<-|[<-|[]]]]]]; reflexivity.
    - cbn [negb]. rewrite (C02_heading_text p 6 line k level rest text Hcm ltac:(lia) Hs Ha Hc Hex). destruct Hcm as [<-|[<-|[<-|[<-|[<-|[]]]]]]; reflexivity.
    - apply C54_redcarpet_heading_exact; [lia|exact Hs|]. split; [reflexivity|]. exists text. split; [exact Hr|].
      destruct links; cbn [negb andb]; [destruct (N.eqb_spec (last line 0%N) 92) as [X|X]; [left; auto|right; split; [tauto|reflexivity]]|right; split; [intros (X & _); discriminate|reflexivity]]. }
  unfold line_heading. rewrite G. cbn [h_text h_level]. rewrite Hb. reflexivity.
Qed.
Lemma text_line_none E p links line l : p <> OtherParser -> ended line l -> no_title p line -> line_heading E p (negb links) l = Ok None.
Proof.
  intros Hp Hl (A & B). pose proof Hl as (Hs & _). destruct (ended_repeat _ _ Hl) as (k & ->). unfold line_heading.
  assert (G : get_atx_heading p 6 (negb links) (line ++ repeat 10%N k) = Ok [None]); [|rewrite G; reflexivity].
  assert (D : commonmark_parser p \/ p = Redcarpet) by (unfold commonmark_parser; destruct p; cbn; auto 8; congruence).
  destruct D as [D| ->]; [apply C01_other_lines_give_no_heading; auto; lia|apply C54_other_lines_give_no_heading; auto; lia].
Qed.

(** ** The lines of a document *)
Lemma title_not_opens p links line l level label : ended line l -> title p links line level label -> forall c n, ~ opens p l c n.
Proof.
  intros Hl Ht c n (Hp & ind & info & E0 & _ & Hn & Hc). assert (Hcc : c = 96%N \/ c = 126%N) by tauto.
  assert (A : exists i m r, line = repeat 32%N i ++ repeat 35%N (S m) ++ r).
  { destruct Ht as [rest text whole lab _ _ (i & -> & _ & Hlv & _) _ _ _ _ _ _|rest text _ _ (i & -> & _ & Hlv & _) _ _|text -> _];
      [exists i, (level - 1), rest|exists i, (level - 1), rest|destruct Hp as [|[|[|[|[|[]]]]]]; discriminate]; replace (S (level - 1)) with level by lia; reflexivity. }
  destruct A as (i & m & r & ->). destruct (ended_repeat _ _ Hl) as (k & ->). rewrite <- !app_assoc in E0.
  clear -E0 Hn Hcc. revert ind E0. induction i as [|i IH]; intros [|ind] E0; cbn in E0.
  - destruct n; [lia|]. cbn in E0. injection E0 as E0 _. destruct Hcc; congruence.
  - discriminate.
  - destruct n; [lia|]. cbn in E0. injection E0 as E0 _. destruct Hcc; congruence.
  - injection E0 as E0. exact (IH ind E0).
Qed.
Definition found_of (h : heading) : found := mkFound (b_level h) (b_label h) (b_name h).
Lemma ended_file_line line l : ended line l -> file_line l.
Proof. intros (Hs & H). exists line. auto. Qed.
Lemma document_lines E p links b lines hs : p <> OtherParser -> python_tables E -> zs_ascii E -> word_ascii E -> entity_tables E ->
  document E p links b lines hs ->
  Forall file_line lines /\ exists ks, outside p b lines ks None /\ headings E p (negb links) ks (map found_of hs)
    /\ line_slugs E p (negb links) ks = map b_name hs.
Proof.
  intros Hp Ht Hz Hw He. induction 1 as [|line l level label name ls hs Hl Hti Hn _ (F & ks & O & HH & SS)|line l ls hs Hl Hnt Hno _ (F & ks & O & HH & SS)
    |line l c n ls hs Hl Ho _ (F & ks & O & HH & SS)|line l c n ls hs Hl Hc _ (F & ks & O & HH & SS)|line l c n ls hs Hl Hc _ (F & ks & O & HH & SS)].
  - split; [constructor|]. exists []. split; [constructor|split; [constructor|reflexivity]].
  - split; [constructor; [exact (ended_file_line _ _ Hl)|exact F]|]. exists (l :: ks). pose proof (title_line_found E p links line l level label name Hp Ht Hz Hw He Hl Hti Hn) as G.
    split; [apply out_text; [exact (title_not_opens _ _ _ _ _ _ Hl Hti)|exact O]|]. split; [apply hs_heading; [exact G|exact HH]|].
    unfold line_slugs in *. cbn [flat_map map]. rewrite G. cbn [app f_slug]. f_equal. exact SS.
  - split; [constructor; [exact (ended_file_line _ _ Hl)|exact F]|]. exists (l :: ks). pose proof (text_line_none E p links line l Hp Hl Hnt) as G.
    split; [apply out_text; assumption|]. split; [apply hs_other; assumption|]. unfold line_slugs in *. cbn [flat_map map]. rewrite G. exact SS.
  - split; [constructor; [exact (ended_file_line _ _ Hl)|exact F]|]. exists ks. split; [eapply out_open; eassumption|auto].
  - split; [constructor; [exact (ended_file_line _ _ Hl)|exact F]|]. exists ks. split; [apply out_inside; assumption|auto].
  - split; [constructor; [exact (ended_file_line _ _ Hl)|exact F]|]. exists ks. split; [eapply out_close; eassumption|auto].
Qed.
Lemma document_applies E o fn lines hs : o_parser o <> OtherParser -> (1 <= o_keep o)%Z -> o_skip o = 0%Z ->
  python_tables E -> zs_ascii E -> word_ascii E -> entity_tables E ->
  document E (o_parser o) (negb (o_no_links o)) None lines hs -> (o_parser o <> Redcarpet -> no_collision E (map b_name hs)) ->
  exists ks, applies E o fn lines ks /\ headings E (o_parser o) (o_no_links o) ks (map found_of hs).
Proof.
  intros Hp Hk Hs Ht Hz Hw He Hd Hc. destruct (document_lines _ _ _ _ _ _ Hp Ht Hz Hw He Hd) as (F & ks & O & HH & SS). rewrite negb_involutive in *.
  exists ks. split; [|exact HH]. split; [exact Hp|]. split; [exact Hs|]. split; [exact Hk|]. split; [exact F|]. split; [|intros R; rewrite SS; exact (Hc R)].
  apply (ex_normal _ _ _ _ None O). right. left. exact (ends_none _ _ _ O).
Qed.

(** ** Numbers and columns: [path] stands for the history. *)
Definition width (o : opts) (n : nat) : nat := length (marker_text o n).
Definition follows (o : opts) (hist : history) (first : nat) (path : list nat) : Prop :=
  match hist with
  | [] => path = []
  | (x, _) :: _ =>
      first <= x /\ length path = S (x - first)
      /\ (forall d, d < length path -> last_number (map fst hist) (first + d) = nth d path 0)
      /\ (forall d, d <= length path -> column_from true hist (first + d) =
            list_sum (map (fun n => width o (if numbered_list o (used_ordered o) then n else 1) + 1) (firstn d path)))
  end.

Lemma firstn_snoc_le {A} d k (l : list A) x : d <= k -> k <= length l -> firstn d (firstn k l ++ [x]) = firstn d l.
Proof.
  intros H K. rewrite firstn_app, firstn_firstn. replace (Nat.min d k) with d by lia. rewrite firstn_length. replace (d - Nat.min k (length l)) with 0 by lia.
  cbn. apply app_nil_r.
Qed.
Lemma column_direct h x w l : l <= x -> column_from false ((x, w) :: h) l = column_from true ((x, w) :: h) l.
Proof. intros H. cbn [column_from]. replace (x <? l) with false by (symmetry; apply Nat.ltb_ge; exact H). reflexivity. Qed.
Lemma follows_step o hist first path l : follows o hist first path -> coherent_step (map fst hist) l ->
  first <= l -> (hist = [] -> first = l) ->
  let path' := advance path (l - first) in
  entry_number o (used_ordered o) hist l = (if numbered_list o (used_ordered o) then last path' 0 else 1)
  /\ column_from true hist l = list_sum (map (fun n => width o (if numbered_list o (used_ordered o) then n else 1) + 1) (removelast path'))
  /\ follows o (push o (used_ordered o) (used_marker o) hist l) first path'.
Proof.
  intros Hf Hs Hl H0 path'. set (d := l - first) in *. assert (Ed : l = first + d) by lia.
  assert (Hd : d <= length path).
  { destruct hist as [|(x & w) h]; [specialize (H0 eq_refl); lia|]. destruct Hf as (Hx & Hlen & _). apply incoherent_iff in Hs as [Hs|Hs]; [discriminate|]. cbn [map fst hd] in Hs. lia. }
  assert (Hla : last path' 0 = S (nth d path 0)) by (unfold path', advance; apply last_last).
  assert (Hrm : removelast path' = firstn d path) by (unfold path', advance; apply removelast_last).
  assert (Hnum : number (map fst hist) l = S (nth d path 0)).
  { destruct hist as [|(x & w) h]; [cbn in Hf; subst path; destruct d; reflexivity|]. destruct Hf as (Hx & Hlen & Hn & _). cbn [map fst number].
    destruct (Nat.ltb_spec x l).
    - rewrite nth_overflow by lia. reflexivity.
    - rewrite Ed at 1. cbn [map fst] in Hn. rewrite Hn by lia. reflexivity. }
  assert (Hcol : column_from true hist l = list_sum (map (fun n => width o (if numbered_list o (used_ordered o) then n else 1) + 1) (firstn d path))).
  { destruct hist as [|(x & w) h]; [cbn in Hf; subst path; destruct d; reflexivity|]. destruct Hf as (Hx & Hlen & _ & Hc). rewrite Ed. apply Hc. exact Hd. }
  assert (Hen : entry_number o (used_ordered o) hist l = (if numbered_list o (used_ordered o) then last path' 0 else 1)).
  { unfold entry_number. rewrite Hla, Hnum. reflexivity. }
  split; [exact Hen|]. split; [rewrite Hrm; exact Hcol|].
  assert (Hlen' : length path' = S d) by (unfold path', advance; rewrite app_length, firstn_length; cbn; lia).
  unfold push. cbn [follows]. split; [exact Hl|]. split; [rewrite Hlen'; lia|]. split.
  - intros e He. rewrite Hlen' in He. cbn [map fst last_number]. destruct (Nat.eqb_spec l (first + e)) as [E|E].
    + assert (e = d) by lia. subst e. replace (nth d path' 0) with (last path' 0).
      * rewrite Hla, <- Hnum, <- E. unfold number. destruct (map fst hist); reflexivity.
      * unfold path', advance. rewrite last_last, app_nth2; rewrite firstn_length; [|lia]. replace (d - Nat.min d (length path)) with 0 by lia. reflexivity.
    + assert (e < d) by lia. unfold path', advance. rewrite app_nth1 by (rewrite firstn_length; lia).
      destruct hist as [|(x & w) h]; [specialize (H0 eq_refl); lia|]. destruct Hf as (Hx & Hlen & Hn & _). cbn [map fst] in *. rewrite Hn by lia.
      rewrite <- (firstn_skipn d path) at 1. rewrite app_nth1 by (rewrite firstn_length; lia). reflexivity.
  - intros e He. rewrite Hlen' in He. cbn [column_from]. destruct (Nat.ltb_spec l (first + e)) as [E|E].
    + assert (e = S d) by lia. subst e. rewrite Hcol. rewrite (firstn_all2 (n := S d)) by lia. unfold path', advance. rewrite map_app, list_sum_app. cbn [map list_sum fold_right].
      rewrite <- Hla, <- Hen. unfold width, entry_marker, marker_text. change numeral with decN. destruct (used_ordered o); lia.
    + destruct (Nat.eqb_spec l (first + e)) as [E2|E2].
      * assert (e = d) by lia. subst e. rewrite <- Ed, Hcol. unfold path', advance. rewrite firstn_snoc_le by lia. reflexivity.
      * assert (e < d) by lia. unfold path', advance. rewrite firstn_snoc_le by lia.
        destruct hist as [|(x & w) h]; [specialize (H0 eq_refl); lia|]. destruct Hf as (Hx & Hlen & _ & Hc). rewrite column_direct by lia. apply Hc. lia.
Qed.

(** ** The table *)
Lemma column_redcarpet o hist l : o_parser o = Redcarpet -> column (o_parser o) hist l = 4 * (l - 1).
Proof. intros ->. reflexivity. Qed.
Lemma last_map {A B} (f : A -> B) l d : l <> [] -> last (map f l) (f d) = f (last l d).
Proof. induction l as [|a [|b l] IH]; intros H; [congruence|reflexivity|]. apply IH. discriminate. Qed.
Lemma removelast_map {A B} (f : A -> B) l : removelast (map f l) = map f (removelast l).
Proof. induction l as [|a [|b l] IH]; [reflexivity|reflexivity|]. cbn [map removelast] in *. f_equal. exact IH. Qed.
Lemma advance_nonempty path d : advance path d <> [].
Proof. unfold advance. destruct (firstn d path); discriminate. Qed.
(** A row of the program's table is the row one expects. *)
Lemma row_shown o hist path h a : o_parser o <> OtherParser ->
  entry_number o (used_ordered o) hist (b_level h) = (if numbered_list o (used_ordered o) then last path 0 else 1) ->
  column_from true hist (b_level h) = list_sum (map (fun n => width o (if numbered_list o (used_ordered o) then n else 1) + 1) (removelast path)) ->
  path <> [] ->
  row o (mkEntry (b_level h) (b_label h) a) (if o_no_indentation o then 0 else column (o_parser o) hist (b_level h)) (entry_number o (used_ordered o) hist (b_level h))
  = shown_row o path h a.
Proof.
  intros Hp Hn Hc Hne. unfold row, shown_row, entry_label. cbn [e_text e_anchor].
  assert (M : marker_text o (entry_number o (used_ordered o) hist (b_level h)) = marker_text o (last (if o_constant o then map (fun _ => 1) path else path) 0)).
  { rewrite Hn. unfold marker_text, numbered_list. destruct (used_ordered o) eqn:Eo; [|reflexivity]. cbn [andb]. destruct (o_constant o); cbn [negb]; [|reflexivity].
    replace (last (map (fun _ : nat => 1) path) 0) with 1; [reflexivity|]. clear -Hne. induction path as [|x [|y path] IH]; [congruence|reflexivity|]. apply IH. discriminate. }
  rewrite M. f_equal. f_equal. unfold start_column. destruct (o_no_indentation o); [reflexivity|].
  assert (C : list_sum (map (fun n => length (marker_text o n) + 1) (removelast (if o_constant o then map (fun _ => 1) path else path))) = column_from true hist (b_level h)).
  { rewrite Hc. unfold numbered_list, width, marker_text. destruct (o_constant o).
    - rewrite removelast_map, map_map, andb_false_r. reflexivity.
    - rewrite andb_true_r. destruct (used_ordered o); reflexivity. }
  destruct (o_parser o) eqn:Ep; try (rewrite C; reflexivity); try reflexivity.
Qed.
Lemma book_table o first : o_parser o <> OtherParser -> forall hs hist path seen,
  let es := filter (fun e => listed (o_parser o) (o_keep o) (e_level e)) (with_anchors (o_parser o) seen (map found_of hs)) in
  follows o hist first path -> coherent_from (map fst hist) (levels es) -> (hist = [] -> hd first (levels es) = first) -> (hist <> [] -> last (map fst hist) 0 = first) ->
  table o es (cols_of o (used_ordered o) (used_marker o) hist (levels es)) (nums_of o (used_ordered o) (used_marker o) hist (levels es))
  = concat (book_rows o first path seen hs).
Proof.
  intros Hp. induction hs as [|h hs IH]; intros hist path seen es Hf Hc H0 H1; [reflexivity|].
  subst es. cbn [map with_anchors filter e_level found_of f_level f_slug f_text book_rows] in *.
  destruct (listed (o_parser o) (o_keep o) (b_level h)) eqn:El; [|apply IH; assumption].
  cbn [levels map e_level cols_of nums_of table concat] in *. destruct Hc as (Hs & Hc).
  assert (Hl : first <= b_level h).
  { destruct hist as [|x hist]; [specialize (H0 eq_refl); cbn in H0; lia|]. apply incoherent_iff in Hs as [Hs|Hs]; [discriminate|]. rewrite H1 in Hs by discriminate. lia. }
  assert (H0' : hist = [] -> first = b_level h) by (intros X; specialize (H0 X); cbn in H0; congruence).
  destruct (follows_step o hist first path (b_level h) Hf Hs Hl H0') as (A & B & C).
  cbv zeta. f_equal.
  - rewrite (row_shown o hist _ h _ Hp A B (advance_nonempty _ _)). reflexivity.
  - apply IH; [exact C|exact Hc|discriminate|]. intros _. rewrite push_levels. destruct hist as [|x hist]; [cbn; symmetry; apply H0'; reflexivity|].
    cbn [map]. rewrite last_cons2. apply H1. discriminate.
Qed.
Lemma row_levels_entries o hs : forall seen,
  levels (filter (fun e => listed (o_parser o) (o_keep o) (e_level e)) (with_anchors (o_parser o) seen (map found_of hs))) = row_levels o hs.
Proof.
  unfold row_levels, levels. induction hs as [|h hs IH]; intros seen; [reflexivity|].
  cbn [map with_anchors filter e_level found_of f_level f_slug f_text]. destruct (listed _ _ _); cbn [map e_level]; [f_equal|]; apply IH.
Qed.

Lemma book_rows_skip o n first hs : forall path seen, book_rows (with_skip o n) first path seen hs = book_rows o first path seen hs.
Proof.
  induction hs as [|h hs IH]; intros path seen; [reflexivity|]. cbn [book_rows]. change (o_parser (with_skip o n)) with (o_parser o). change (o_keep (with_skip o n)) with (o_keep o).
  destruct (listed _ _ _); [|apply IH]. cbv zeta. rewrite IH. reflexivity.
Qed.

(** *** C60 *)
Theorem C60_whole_table : forall E o fn lines hs,
  o_parser o <> OtherParser -> (1 <= o_keep o)%Z -> (0 <= o_skip o)%Z -> marker_valid o ->
  python_tables E -> zs_ascii E -> word_ascii E -> entity_tables E ->
  document E (o_parser o) (negb (o_no_links o)) None (skipn (Z.to_nat (o_skip o)) lines) hs ->
  (o_parser o <> Redcarpet -> no_collision E (map b_name hs)) ->
  (Z.of_nat (length hs) <= 999999999)%Z ->
  (coherent (row_levels o hs) ->
   build_toc E o fn (mkDoc lines false) = Ok (concat (book_rows o (hd 0 (row_levels o hs)) [] [] hs)))
  /\ (~ coherent (row_levels o hs) -> o_no_indentation o = false -> o_no_list_coherence o = false ->
   build_toc E o fn (mkDoc lines false) = Err TocDoesNotRenderAsCoherentList).
Proof.
  intros E o fn lines hs Hp Hk Hs Hm Ht Hz Hw He Hd Hc Hn.
  set (o' := with_skip o 0). assert (Eo : build_toc E o fn (mkDoc lines false) = build_toc E o' fn (mkDoc (skipn (Z.to_nat (o_skip o)) lines) false)).
  { unfold o'. rewrite <- C20_skip_drops_first_lines. rewrite Z2Nat.id by exact Hs. destruct o; reflexivity. }
  rewrite Eo. clear Eo.
  destruct (document_applies E o' fn _ hs Hp Hk eq_refl Ht Hz Hw He Hd Hc) as (ks & Ha & Hh).
  rewrite (applies_rows _ _ _ _ _ _ Ha Hh). change (o_parser o') with (o_parser o). change (o_keep o') with (o_keep o).
  set (es := entries (o_parser o) (o_keep o) (map found_of hs)).
  assert (Hes : levels es = row_levels o hs) by (apply row_levels_entries).
  assert (Hkn : known_parser (o_parser o')) by exact (proj1 Ha).
  assert (Hm' : valid_marker o').
  { unfold valid_marker. destruct (used_ordered o') eqn:Eu; [left; reflexivity|right]. destruct Hm as [X|[X|(m & X & Y)]].
    - unfold used_ordered in Eu. cbn in Eu. rewrite X in Eu. discriminate.
    - unfold used_ordered in Eu. cbn in Eu. rewrite X, orb_true_r in Eu. discriminate.
    - unfold used_marker. rewrite Eu. cbn [o_marker o' with_skip]. rewrite X. exact Y. }
  assert (Hov : no_overflow o' (length (@nil (nat * nat)) + length es)).
  { right. right. cbn [length Nat.add]. assert (L : length es <= length hs); [|lia].
    unfold es, entries. rewrite <- (map_length found_of hs).
    assert (G : forall fs seen, length (with_anchors (o_parser o) seen fs) = length fs) by (induction fs as [|f fs IH]; intros seen; [reflexivity|cbn; rewrite IH; reflexivity]).
    rewrite <- (G (map found_of hs) []). generalize (with_anchors (o_parser o) [] (map found_of hs)). clear. induction l as [|a l IH]; [reflexivity|]. cbn [filter]. destruct (listed _ _ _); cbn [length]; lia. }
  split.
  - intros Hco. rewrite coherent_iff in Hco. rewrite <- Hes in Hco.
    destruct (rows_accept o' es [] Hkn Hm' Hov) as (ls & Hr); [auto|]. rewrite Hr. f_equal. rewrite (rows_table o' es [] ls Hr).
    pose proof (book_table o' (hd 0 (row_levels o hs)) Hp hs [] [] []) as G. cbv zeta in G. change (o_parser o') with (o_parser o) in G. change (o_keep o') with (o_keep o) in G.
    fold (entries (o_parser o) (o_keep o) (map found_of hs)) in G. fold es in G. rewrite G.
    + unfold o'. rewrite book_rows_skip. reflexivity.
    + reflexivity.
    + exact Hco.
    + intros _. rewrite Hes. destruct (row_levels o hs); reflexivity.
    + congruence.
  - intros Hco Hi Hl. rewrite coherent_iff in Hco. rewrite <- Hes in Hco. rewrite (rows_reject o' es [] Hkn Hm' Hov Hi Hl Hco). reflexivity.
Qed.
Print Assumptions C60_whole_table.

(** ** A document with code, emphasis, tags, brackets and hidden levels. *)
Lemma title_by p line level rest text label : commonmark_parser p -> atx_line p line level rest -> cm_text p rest = text ->
  existsb (fun c => negb (N.eqb c 35)) text = true -> existsb (fun c => negb (cin c [9; 11; 12; 32]%N)) text = true ->
  last text 0%N <> 92%N -> length text <= 999 -> Spec.escapes false text label -> title p true line level label.
Proof.
  intros Hp Ha Hc H1 H2 H3 H4 He. apply (title_linked p true line level rest text text label); auto.
  - rewrite <- Hc. eapply atx_line_rest. exact Ha.
  - apply existsb_exists in H1 as (c & Hin & G). exists c. split; [exact Hin|]. intros ->. discriminate.
  - intros (a & b & c & d & e & f & g & Et). apply existsb_exists in H2 as (x & Hx & G). rewrite negb_true_iff, cin_not_In in G. apply G.
    rewrite Et in Hx. rewrite !in_app_iff in Hx. repeat destruct Hx as [Hx|Hx]; apply repeat_spec in Hx; subst; cbn; auto.
  - right. split; [|reflexivity]. intros r ->. rewrite last_last in H3. congruence.
Qed.
Lemma no_title_by p line : commonmark_parser p -> (forall k, get_atx_heading p 6 true (line ++ repeat 10%N k) = Ok [None]) -> single_line line -> no_title p line.
Proof.
  intros Hp H Hs. split; [|intros ->; destruct Hp as [|[|[|[|[|[]]]]]]; discriminate]. intros _ level rest Ha.
  destruct (proj2 (C01_heading_level_exact p 6 line 0 level Hp ltac:(lia) Hs)) as (t & v & G); [eauto|]. rewrite (H 0) in G. discriminate.
Qed.
Local Ltac flag := first [rewrite <- opens_iff | rewrite <- closes_iff]; vm_compute; tauto.
Local Ltac no_fit := let x := fresh in let H := fresh in intros x H; cbn [In] in H;
  repeat match type of H with _ \/ _ => destruct H as [H|H] | False => destruct H end; try (subst x; rewrite <- fitsb_iff; vm_compute; discriminate).
Local Ltac pass := apply paired_pass; [no_fit|].
Local Ltac pair m o b := apply (paired_pair m o b); [apply fitsb_iff; vm_compute; reflexivity|no_fit|]; cbv [map app shut open_with close_with strength r_left r_size r_closed r_opened Nat.sub Nat.leb andb Nat.add r_start r_char r_opens r_closes].
Local Ltac words := apply scans_words; [discriminate|apply inert_b; vm_compute; reflexivity|exact I|vm_compute; intros; discriminate|].
Local Ltac marks o cl := apply (scans_marks _ _ _ _ _ _ o cl);
  [unfold delimiter; auto|lia|vm_compute; discriminate|flag|flag|first [exact I|split; [apply not_tail_unmistaken; vm_compute; intros (? & ?); congruence|intros X; first [discriminate X|let A := fresh in let B := fresh in intros ? ? A B; cbn in A, B; intuition (subst; cbn in *; congruence)]]]|].
Local Ltac esc := match goal with |- Spec.escapes ?b ?s ?t => let s' := eval vm_compute in s in let t' := eval vm_compute in t in change (Spec.escapes b s' t') end;
  repeat first [apply Spec.esc_nil | apply Spec.esc_insert; [left; reflexivity|] | apply Spec.esc_insert; [right; reflexivity|]
    | apply Spec.esc_other; [unfold Spec.bracket_char; intuition discriminate|discriminate|]].
Local Ltac whole_line := split; [split; vm_compute; intuition discriminate|left; vm_compute; reflexivity].
Local Ltac is_title rest text := apply (title_by _ _ _ rest text); [cbn; auto 8|exists 0; split; [vm_compute; reflexivity|split; [lia|split; [lia|right; eexists 32%N, _; split; [vm_compute; reflexivity|left; reflexivity]]]]|vm_compute; reflexivity|reflexivity|reflexivity|discriminate|vm_compute; repeat constructor|esc].
Local Ltac plain_name := apply named_plain; [cbn; auto 8|apply safe_line_b; reflexivity| |].

Definition guide : list str :=
  [ln "intro"; ln "# One *two*"; ln "text"; ln "```"; ln "# no"; ln "```"; ln "## <b>Tag</b> ##"; ln "#### Deep"; ln "## [x]"; ln "# Deep"].
Definition guide_headings : list heading :=
  [Heading 1 (lit "One *two*") (lit "one-two"); Heading 2 (lit "<b>Tag</b>") (lit "tag"); Heading 4 (lit "Deep") (lit "deep");
   Heading 2 (lit "\[x\]") (lit "x"); Heading 1 (lit "Deep") (lit "deep")].
Lemma chars_by (P : N -> bool) s : forallb P s = true -> forall c, In c s -> P c = true.
Proof. apply forallb_forall. Qed.
Lemma guide_document : document ascii_env Github true None (skipn 1 guide) guide_headings.
Proof.
  unfold guide, guide_headings. cbn [skipn].
  apply (doc_title _ _ _ (lit "# One *two*")); [whole_line|is_title (lit " One *two*") (lit "One *two*")| |].
  { change (lit "one-two") with (hyphenate ascii_env Github (without r_left [mkRun 4 42 1 true false 0 1; mkRun 8 42 1 false true 1 0] 0 [Piece (Words (lit "one ")); Piece (Marks 42 1); Piece (Words (lit "two")); Piece (Marks 42 1)])).
    apply (named_marked _ _ _ [HtmlSpec.Text (lit "one *two*")]); [cbn; auto|vm_compute; reflexivity|constructor; [vm_compute; intuition discriminate|constructor]|repeat constructor|vm_compute; reflexivity|vm_compute; intuition discriminate| |intros r Hr; cbn in Hr; intuition (subst r; cbn; auto)].
    words. marks true false. words. marks false true. apply scans_end. cbn [runs_of flat_map app rev]. pass. pair (@nil run) (mkRun 4 42 1 true false 0 0) (@nil run). pass. apply paired_end. }
  apply (doc_text _ _ _ (lit "text")); [whole_line|apply no_title_by; [cbn; auto|intros [|k]; [reflexivity|]|split; vm_compute; intuition discriminate]|apply not_opens; reflexivity|].
  { apply C01_other_lines_give_no_heading; [cbn; auto|lia|split; vm_compute; intuition discriminate|]. intros level rest (i & E0 & _ & Hl & _). destruct i; [destruct level; [lia|]|]; discriminate. }
  apply (doc_open _ _ _ (lit "```") _ 96%N 3); [whole_line|apply does_open; [reflexivity|vm_compute; reflexivity|lia]|].
  apply (doc_code _ _ _ (lit "# no")); [whole_line|apply not_closes; auto; vm_compute; reflexivity|].
  apply (doc_close _ _ _ (lit "```")); [whole_line|apply does_close; auto; vm_compute; reflexivity|].
  apply (doc_title _ _ _ (lit "## <b>Tag</b> ##")); [whole_line|is_title (lit " <b>Tag</b> ##") (lit "<b>Tag</b>")| |].
  { change (lit "tag") with (hyphenate ascii_env Github (without r_left [] 0 [Piece (Words (lit "tag"))])).
    assert (B : HtmlSpec.tag_name (lit "b")) by (exists 98%N, []; split; [reflexivity|split; [unfold is_letter; lia|constructor]]).
    assert (F : ~ HtmlSpec.forbidden (lit "b")).
    { intros (w & u & v & Hw & E0 & F2 & Hv). cbn in Hw. intuition (subst w; repeat match goal with X : Forall2 _ _ (_ :: _) |- _ => inversion X; subst; clear X end; discriminate). }
    apply (named_marked _ _ _ [HtmlSpec.Open (lit "b") [] [] false; HtmlSpec.Text (lit "tag"); HtmlSpec.Close (lit "b") []]); [cbn; auto|vm_compute; reflexivity| | |vm_compute; reflexivity|vm_compute; intuition discriminate| |intros r []].
    - constructor; [split; [exact B|split; constructor]|]. constructor; [vm_compute; intuition discriminate|]. constructor; [split; [exact B|constructor]|constructor].
    - constructor; [exact F|]. constructor; [exact I|]. constructor; [split; [exact F|cbn; lia]|constructor].
    - words. apply scans_end. apply paired_end. }
  apply (doc_title _ _ _ (lit "#### Deep")); [whole_line|is_title (lit " Deep") (lit "Deep")| |].
  { change (lit "deep") with (plain_slug ascii_env Github (lit "Deep")). plain_name; [|left; vm_compute; intuition discriminate].
    intros c Hc X. cbn in Hc, X. intuition (subst; discriminate). }
  apply (doc_title _ _ _ (lit "## [x]")); [whole_line|is_title (lit " [x]") (lit "[x]")| |].
  { change (lit "x") with (plain_slug ascii_env Github (lit "\[x\]")). plain_name; [|right; exists (lit "[x]"); esc].
    intros c Hc X. cbn in Hc, X. intuition (subst; discriminate). }
  apply (doc_title _ _ _ (lit "# Deep")); [whole_line|is_title (lit " Deep") (lit "Deep")| |apply doc_end].
  { change (lit "deep") with (plain_slug ascii_env Github (lit "Deep")). plain_name; [|left; vm_compute; intuition discriminate].
    intros c Hc X. cbn in Hc, X. intuition (subst; discriminate). }
Qed.
Lemma keeps_by b s : forallb (fun c => Bool.eqb b ((c <=? 127)%N && negb (cin c (lit " -&+$,/:;=?@""#{}|^~[]`\*()%.!'<")))) s = true ->
  Forall (fun c => if b then redcarpet_keeps c else ~ redcarpet_keeps c) s.
Proof.
  intros H. rewrite forallb_forall in H. apply Forall_forall. intros c Hc. specialize (H c Hc). apply Bool.eqb_prop in H.
  unfold redcarpet_keeps. destruct b; symmetry in H.
  - rewrite andb_true_iff, negb_true_iff, cin_not_In, N.leb_le in H. exact H.
  - intros (A & B). apply N.leb_le in A. apply cin_not_In in B. rewrite A, B in H. discriminate.
Qed.
Definition guide_options (keep : Z) : opts := mkOpts true false false false keep Github (Some (lit ".")) 1 false [10%N].
Definition notes : list str := [ln "# A-b (c)"; ln "## ???"].
Definition notes_headings : list heading := [Heading 1 (lit "A-b (c)") (lit "a-b-c"); Heading 2 (lit "???") (lit "part-b87c742")].
Definition notes_options : opts := mkOpts false false false false 3 Redcarpet (Some (lit "-")) 0 false [10%N].
Lemma notes_document : document ascii_env Redcarpet true None notes notes_headings.
Proof.
  apply (doc_title _ _ _ (lit "# A-b (c)")); [whole_line| | |].
  - apply (title_redcarpet Redcarpet true (lit "# A-b (c)") 1 (lit "A-b (c)") eq_refl). exists 0, 0, 0. repeat split; try lia; discriminate.
  - change (lit "a-b-c") with (separated [45%N] [lit "a"; lit "b"; lit "c"]).
    apply (named_redcarpet _ _ _ [lit "A"; lit "b"; lit "c"]); [reflexivity|discriminate| |].
    + change (filter _ _) with ([] ++ lit "A" ++ (lit "-" ++ lit "b" ++ (lit " (" ++ lit "c" ++ lit ")"))).
      apply runs_word; [apply Forall_nil|discriminate|apply (keeps_by true); reflexivity|intros c r X; injection X as <- _; match goal with |- ~ redcarpet_keeps ?c => exact (Forall_inv (keeps_by false [c] eq_refl)) end|].
      apply runs_word; [apply (keeps_by false); reflexivity|discriminate|apply (keeps_by true); reflexivity|intros c r X; injection X as <- _; match goal with |- ~ redcarpet_keeps ?c => exact (Forall_inv (keeps_by false [c] eq_refl)) end|].
      apply runs_word; [apply (keeps_by false); reflexivity|discriminate|apply (keeps_by true); reflexivity|intros c r X; injection X as <- _; match goal with |- ~ redcarpet_keeps ?c => exact (Forall_inv (keeps_by false [c] eq_refl)) end|].
      apply runs_end. apply (keeps_by false). reflexivity.
    + repeat apply Forall2_cons; try apply Forall2_nil; vm_compute; first [left; split; [split; discriminate|reflexivity] | right; split; [intros (X & Y); apply Y; reflexivity|reflexivity]].
  - apply (doc_title _ _ _ (lit "## ???")); [whole_line| | |apply doc_end].
    + apply (title_redcarpet Redcarpet true (lit "## ???") 2 (lit "???") eq_refl). exists 0, 0, 0. repeat split; try lia; discriminate.
    + change (lit "part-b87c742") with (lit "part-" ++ hex_numeral (djb2 5381 (lit "???"))). apply named_hash; [reflexivity|discriminate|].
      intros c Hc. left. revert c Hc. apply Forall_forall. apply (keeps_by false). reflexivity.
Qed.

Example C60_whole_table_ex :
  document ascii_env Github true None (skipn 1 guide) guide_headings
  /\ python_tables ascii_env /\ zs_ascii ascii_env /\ word_ascii ascii_env /\ entity_tables ascii_env
  /\ marker_valid (guide_options 3) /\ no_collision ascii_env (map b_name guide_headings)
  /\ coherent (row_levels (guide_options 3) guide_headings)
  /\ concat (book_rows (guide_options 3) 1 [] [] guide_headings) =
     ln "1. [One *two*](#one-two)" ++ ln "   1. [<b>Tag</b>](#tag)" ++ ln "   2. [\[x\]](#x)" ++ ln "2. [Deep](#deep-1)"
  /\ build_toc ascii_env (guide_options 3) (lit "guide.md") (mkDoc guide false) = Ok (concat (book_rows (guide_options 3) 1 [] [] guide_headings))
  /\ ~ coherent (row_levels (guide_options 6) guide_headings)
  /\ document ascii_env Redcarpet true None notes notes_headings
  /\ concat (book_rows notes_options 1 [] [] notes_headings) = ln "- [A-b (c)](#a-b-c)" ++ ln "    - [???](#part-b87c742)".
Proof.
  split; [exact guide_document|]. split; [exact python_tables_ascii|]. split; [exact zs_ascii_ex|]. split; [exact word_ascii_ex|]. split; [exact ascii_entities|].
  split; [left; reflexivity|]. split; [apply titles_slugs_distinct|]. split; [apply coherent_by; repeat split|]. split; [vm_compute; reflexivity|].
  split; [vm_compute; reflexivity|]. split; [|split; [exact notes_document|vm_compute; reflexivity]].
  intros H. specialize (H [1; 2] 4 [2; 1] eq_refl). assert (X : 1 <= 4 <= 3) by (apply H; discriminate). lia.
Qed.
