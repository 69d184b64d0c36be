(** Anchors of plain text (C56) and tables of ordinary documents (C57). *)
From Coq Require Import String List NArith ZArith Bool Arith Lia.
From Verif Require Import Str Regex HtmlRe Fence Atx Entity Inlines Anchor Toc Spec EnvSpec AnchorSpec TocSpec TableSpec DocSpec
  HelperSpec EmphSpec HtmlSpec SafeSpec PlainSpec StrFacts FenceProof AtxProof LabelProof AnchorProof TocProof TocLoop TableProof SafeProof
  AsciiEnv PropHeading PropAnchor PropTable PropEmphasis PropHtml PropErrors PropArgs.
Import ListNotations.
Local Open Scope list_scope.

Lemma squeeze_model s : squeeze false s = squeeze_dashes s /\ forall c, c = 45%N -> c :: squeeze true s = squeeze_dashes (c :: s).
Proof.
  induction s as [|x s (IH1 & IH2)].
  - split; [reflexivity|]. intros c ->. reflexivity.
  - split.
    + cbn [squeeze]. destruct (N.eqb_spec x 45) as [->|Hx]; [apply IH2; reflexivity|].
      cbn [squeeze_dashes]. destruct (N.eqb_spec x cDASH) as [G|_]; [contradiction|]. rewrite IH1. reflexivity.
    + intros c ->. cbn [squeeze]. change (squeeze_dashes (45%N :: x :: s)) with
        (if N.eqb x cDASH then squeeze_dashes (x :: s) else 45%N :: squeeze_dashes (x :: s)).
      unfold cDASH. destruct (N.eqb_spec x 45) as [->|Hx]; [apply IH2; reflexivity|].
      f_equal. cbn [squeeze_dashes]. destruct (N.eqb_spec x cDASH) as [G|_]; [contradiction|]. rewrite IH1. reflexivity.
Qed.
Lemma hyphenate_model E p s : commonmark_parser p ->
  hyphenate E p s = (let t := replace_char cSP cDASH (filter (anchor_char E) s) in match p with Gitlab => squeeze_dashes t | _ => t end).
Proof.
  intros Hp. unfold hyphenate. cbv zeta. unfold replace_char.
  change (fun c => e_word E c || N.eqb c 45 || N.eqb c 32) with (anchor_char E).
  destruct Hp as [<-|[<-|[<-|[<-|[<-|[]]]]]]; try reflexivity. apply squeeze_model.
Qed.

(** *** C56 *)
Theorem C56_anchor_from_text : forall E p text slug,
  commonmark_parser p -> single_line text ->
  (base_slug E p text slug <->
   exists t, remove_emphasis E p (remove_html_tags E p (e_lower E text)) = Ok t /\ slug = hyphenate E p t).
Proof.
  intros E p text s Hp Hs. pose proof Hp as Hf. apply cm_family_iff in Hf.
  assert (Hn : (1 <? length (replace_and_split_newlines text)) = false).
  { pose proof (split_newlines_single text 0 Hs) as G. cbn [repeat] in G. rewrite app_nil_r in G. rewrite G. reflexivity. }
  unfold base_slug, build_anchor_link. rewrite Hn, Hf. unfold slug.
  destruct (remove_emphasis E p _) as [t|e]; cbn [bind].
  - unfold anchor_link_punctuation_filter. rewrite Hf. cbn [bind]. unfold number_anchor. cbn [dup_get Z.ltb Z.compare].
    split.
    + intros (d & G). injection G as <- _. exists t. split; [reflexivity|]. symmetry. apply hyphenate_model. exact Hp.
    + intros (t' & G & ->). injection G as <-. eexists. rewrite hyphenate_model by exact Hp. reflexivity.
  - split; [intros (d & G); discriminate|]. intros (t & G & _). discriminate.
Qed.
Print Assumptions C56_anchor_from_text.

Lemma lower_inert E text ws : Forall2 (lowered E) text ws -> Forall (fun c => quiet c \/ c = 95%N) text ->
  Forall (fun c => inert c \/ c = 95%N) (concat ws).
Proof.
  induction 1 as [|c w s ws Hl Hr IH]; intros F; [constructor|]. inversion F as [|? ? Hc F']; subst.
  cbn [concat]. apply Forall_app. split; [|apply IH; exact F']. clear IH F F' Hr.
  destruct Hl as (H1 & H2 & H3). destruct (N.lt_ge_cases c 128) as [Hlt|Hge].
  - assert (D : (65 <= c <= 90)%N \/ ~ (65 <= c <= 90)%N) by lia. destruct D as [D|D].
    + rewrite (H1 D). constructor; [|constructor]. left. unfold inert. cbn. repeat split; try lia.
    + rewrite (H2 Hlt D). constructor; [|constructor]. destruct Hc as [(A & B & C & G)| ->]; [|right; reflexivity].
      left. unfold inert. repeat split; auto. lia.
  - destruct (H3 Hge) as (_ & G). eapply Forall_impl; [|exact G]. intros d ([A|A] & B & _); left; unfold inert; cbn.
    + unfold is_letter in A. repeat split; try lia.
    + repeat split; try lia.
Qed.

Theorem C56_plain_text : forall E p text,
  commonmark_parser p -> lower_chars E -> zs_ascii E ->
  Forall (fun c => quiet c \/ c = 95%N) text -> all_idle E (e_lower E text) ->
  base_slug E p text (plain_slug E p text).
Proof.
  intros E p text Hp Hl Hz Hq Hi.
  assert (Hs : single_line text).
  { split; intros X; rewrite Forall_forall in Hq; destruct (Hq _ X) as [(_ & _ & A & B)|A]; congruence. }
  apply C56_anchor_from_text; [exact Hp|exact Hs|].
  destruct (Hl text) as (ws & Hw & Ew).
  pose proof (lower_inert E text ws Hw Hq) as F. rewrite <- Ew in F.
  exists (e_lower E text). split; [|reflexivity].
  rewrite C31_no_bracket_unchanged.
  - apply C29_idle_delimiters_survive; auto. eapply Forall_impl; [|exact F]. intros c [H|H]; [left; exact H|right; right; exact H].
  - left. intros X. rewrite Forall_forall in F. destruct (F _ X) as [(A & _)|A]; [|discriminate]. apply A. cbn. auto 8.
Qed.
Print Assumptions C56_plain_text.
Example C56_ex :
  Forall (fun c => quiet c \/ c = 95%N) (lit "The my_file  API - v2.0 (beta)!")
  /\ plain_slug ascii_env Github (lit "The my_file  API - v2.0 (beta)!") = lit "the-my_file--api---v20-beta"
  /\ plain_slug ascii_env Gitlab (lit "The my_file  API - v2.0 (beta)!") = lit "the-my_file-api-v20-beta"
  /\ build_anchor_link ascii_env Gitlab [] (lit "The my_file  API - v2.0 (beta)!")
     = Ok (Some (lit "the-my_file-api-v20-beta"), [(lit "the-my_file-api-v20-beta", 1%Z)])
  /\ base_slug ascii_env Cmark (lit "*a* <b>b</b> \*c") (lit "a-b-c").
Proof.
  split; [|split; [reflexivity|split; [reflexivity|split; [vm_compute; reflexivity|eexists; vm_compute; reflexivity]]]].
  repeat (apply Forall_cons; [(right; reflexivity) || (left; unfold quiet; cbn; intuition discriminate)|]). apply Forall_nil.
Qed.


(** Text without delimiters and tags. *)
Lemma deletes_id P s t : deletes P s t -> (forall c, In c s -> ~ P c) -> t = s.
Proof.
  induction 1 as [|c s t _ IH|c s t Hc _ _]; intros H; [reflexivity| |].
  - f_equal. apply IH. intros x Hx. apply H. right. exact Hx.
  - exfalso. exact (H c (or_introl eq_refl) Hc).
Qed.
Lemma lower_in E s ws : Forall2 (lowered E) s ws -> forall d, In d (concat ws) -> (d < 128)%N -> ~ is_letter d -> In d s.
Proof.
  induction 1 as [|c w s ws Hw _ IH]; intros d Hd Hlt Hnl; [contradiction|]. cbn [concat] in Hd. apply in_app_iff in Hd as [Hd|Hd]; [|right; auto].
  left. destruct Hw as (H1 & H2 & H3). unfold is_letter in Hnl. destruct (N.lt_ge_cases c 128) as [L|L].
  - assert (D : (65 <= c <= 90)%N \/ ~ (65 <= c <= 90)%N) by lia. destruct D as [D|D].
    + rewrite (H1 D) in Hd. destruct Hd as [<-|[]]. lia.
    + rewrite (H2 L D) in Hd. destruct Hd as [<-|[]]. reflexivity.
  - destruct (H3 L) as (_ & F). rewrite Forall_forall in F. destruct (F d Hd) as ([A|A] & _); [exfalso; apply Hnl; exact A|lia].
Qed.
Theorem C56_no_delimiters : forall E p text,
  commonmark_parser p -> python_tables E -> single_line text -> safe_line E text ->
  (forall c, In c text -> ~ In c (lit "*_<")) ->
  (~ In 93%N text \/ exists label, Spec.escapes false label text) ->
  base_slug E p text (plain_slug E p text).
Proof.
  intros E p text Hp Ht Hs (H0 & Hd & Hb) Hc Hcl. apply C56_anchor_from_text; [exact Hp|exact Hs|].
  assert (Hsc : Forall (safe_char E) text).
  { apply Forall_forall. intros c Hin. split; [intros ->; contradiction|]. destruct Hs as (S1 & S2). split; [intros ->; contradiction|]. split; [intros ->; contradiction|]. apply Hd. exact Hin. }
  assert (Hclb : closed_b false text = true).
  { destruct Hcl as [Hcl|(label & Hcl)]; [apply closed_none; exact Hcl|eapply escapes_closed; exact Hcl]. }
  assert (Hbb : bsl_b false text = true) by (apply bsl_iff; [exact Hb|discriminate]).
  pose proof (slug_total E p text Ht (proj2 (cm_family_iff p) Hp) Hsc Hclb Hbb) as (s & G).
  unfold slug in G. destruct Ht as (Hl & _). destruct (Hl text) as (ws & Hw & Ew).
  pose proof (lower_in E text ws Hw) as Hin. rewrite <- Ew in Hin.
  assert (Hno : forall c, In c (lit "*_<") -> ~ In c (e_lower E text)).
  { intros c X Y. apply (Hc c); [|exact X]. apply Hin; [exact Y| |]; cbn in X; destruct X as [<-|[<-|[<-|[]]]]; unfold is_letter; lia. }
  rewrite C31_no_bracket_unchanged in * by (left; apply Hno; cbn; auto).
  destruct (remove_emphasis E p (e_lower E text)) as [t|e] eqn:Er; cbn [bind] in G; [|discriminate].
  exists t. split; [reflexivity|]. unfold plain_slug. f_equal. symmetry.
  destruct (C26_only_delimiters_removed E p _ t Er) as (_ & D). destruct D as (D & _).
  { intros ->. destruct Hp as [|[|[|[|[|[]]]]]]; discriminate. }
  apply (deletes_id _ _ _ D). intros c X [[->| ->]| ->].
  - exact (Hno 42%N (or_introl eq_refl) X).
  - exact (Hno 95%N (or_intror (or_introl eq_refl)) X).
  - apply H0. apply Hin; [exact X|lia|unfold is_letter; lia].
Qed.
Print Assumptions C56_no_delimiters.
Example C56_no_delimiters_ex :
  safe_line ascii_env (lit "`f(x)` & \[more\]") /\ Spec.escapes false (lit "`f(x)` & [more]") (lit "`f(x)` & \[more\]")
  /\ plain_slug ascii_env Github (lit "`f(x)` & \[more\]") = lit "fx--more"
  /\ build_anchor_link ascii_env Github [] (lit "`f(x)` & \[more\]") = Ok (Some (lit "fx--more"), [(lit "fx--more", 1%Z)]).
Proof.
  split; [apply safe_line_b; reflexivity|]. split; [|split; [reflexivity|vm_compute; reflexivity]].
  repeat first [apply Spec.esc_nil | apply Spec.esc_insert; [left; reflexivity|] | apply Spec.esc_insert; [right; reflexivity|]
    | apply Spec.esc_other; [unfold Spec.bracket_char; intuition discriminate|discriminate|]].
Qed.

Lemma plain_slug_base E p text : commonmark_parser p -> python_tables E -> zs_ascii E -> plain_title E text ->
  base_slug E p text (plain_slug E p text).
Proof.
  intros Hp Ht Hz (F & [(A & B)|(A & B)]).
  - rewrite Forall_forall in F. apply C56_no_delimiters; auto.
    + split; intros X; destruct (F _ X) as (_ & _ & Y & Z); congruence.
    + split; [intros X; destruct (F _ X) as (_ & Y & _); congruence|]. split; [exact B|].
      intros a b ->. destruct (F 92%N) as (X & _); [apply in_app_iff; right; left; reflexivity|]. apply X. cbn. auto 8.
    + intros c X Y. cbn in Y. destruct Y as [<-|[<-|[<-|[]]]]; [|contradiction|]; destruct (F _ X) as (Z & _); apply Z; cbn; auto 8.
    + left. intros X. destruct (F _ X) as (Z & _). apply Z. cbn. auto 8.
  - apply C56_plain_text; auto. exact (proj1 Ht).
Qed.

(** *** C57 *)
Definition default_opts (p : parser) (keep : Z) : opts := mkOpts false false false false keep p (Some (lit "-")) 0 false [10%N].

Lemma quiet_single E text : plain_title E text -> single_line text.
Proof. intros (F & _). rewrite Forall_forall in F. split; intros X; destruct (F _ X) as (_ & _ & A & B); congruence. Qed.
Lemma quiet_escapes text : Forall (fun c => ~ In c (lit "\<[]*") /\ c <> 0%N /\ c <> 10%N /\ c <> 13%N) text -> Spec.escapes false text text.
Proof.
  induction text as [|c text IH]; intros F; [constructor|]. inversion F as [|? ? (A & _) F']; subst.
  apply Spec.esc_other; [| |apply IH; exact F']; cbn in A; unfold Spec.bracket_char; intuition.
Qed.
Lemma quiet_protected E text : plain_title E text -> protected text text.
Proof.
  intros (F & _). right. split; [|reflexivity]. intros r ->. apply Forall_app in F as (_ & F). inversion F as [|? ? (A & _) _]; subst. apply A. cbn. auto 12.
Qed.
Lemma hd_default (s : str) d d' : s <> [] -> hd d s = hd d' s.
Proof. destruct s; [congruence|reflexivity]. Qed.
Lemma last_default' (s : str) d d' : s <> [] -> last s d = last s d'.
Proof. intros H. destruct (exists_last_str s H) as (r & x & ->). rewrite !last_last. reflexivity. Qed.

Lemma title_heading E p keep level text : commonmark_parser p -> (1 <= keep)%Z -> ordinary E (Title level text) ->
  get_atx_heading p keep false (shown (Title level text)) = Ok [Some (mkHeading level text (Z.of_nat level <=? keep)%Z)].
Proof.
  intros Hp Hk (Hl & Hq & Hh & Hn & H1 & H2).
  assert (Hne : text <> []) by (intros ->; cbn in Hn; lia).
  assert (Hat : atx_line p (repeat 35%N level ++ [32%N] ++ text) level ([32%N] ++ text)).
  { exists 0. split; [reflexivity|]. split; [lia|]. split; [exact Hl|]. right. exists 32%N, text. split; [reflexivity|left; reflexivity]. }
  assert (Htr : trimmed_text p text).
  { split.
    - intros c r -> [->|(-> & _)]; apply H1; cbn; auto 8.
    - intros c r -> [->|(-> & _)]; apply H2; rewrite last_last; cbn; auto 8. }
  assert (Hct : heading_content p ([32%N] ++ text) text).
  { rewrite <- (app_nil_r text) at 1. apply (content_plain p [32%N] text []).
    - constructor; [left; reflexivity|constructor].
    - discriminate.
    - exact Htr.
    - constructor.
    - intros n ->. apply Hh. left. reflexivity.
    - intros t b n _ ->. apply Hh. rewrite !in_app_iff. right. right. left. reflexivity. }
  assert (Hnh : exists c, In c text /\ c <> 35%N).
  { destruct text as [|c r]; [congruence|]. exists c. split; [left; reflexivity|]. intros ->. apply Hh. left. reflexivity. }
  assert (Hsl : single_line (repeat 35%N level ++ [32%N] ++ text)).
  { apply (quiet_single E) in Hq as (A & B). split; rewrite !in_app_iff; intros [X|[[X|[]]|X]]; try (apply repeat_spec in X); try discriminate; auto. }
  destruct (C04_label_errors p keep _ 1 level _ text text Hp Hk Hsl Hat Hct (or_intror Hnh) (quiet_protected E text Hq)) as (_ & _ & G).
  assert (Hnb : ~ blank_label text).
  { intros (a & b & c & d & e & f & g & Et).
    assert (F : Forall (fun x => In x [9; 11; 12; 32]%N) text).
    { rewrite Et. repeat (apply Forall_app; split); apply Forall_forall; intros x Hx; apply repeat_spec in Hx; subst; cbn; auto 8. }
    destruct text as [|x r]; [congruence|]. inversion F; subst. contradiction. }
  destruct G as (_ & G). destruct (G (conj Hnb (proj2 Hn))) as (t & He & Hr).
  rewrite (escapes_functional _ _ _ He _ (quiet_escapes text (proj1 Hq))) in Hr.
  replace (shown (Title level text)) with ((repeat 35%N level ++ [32%N] ++ text) ++ repeat 10%N 1); [exact Hr|].
  cbn [shown repeat]. rewrite <- !app_assoc. reflexivity.
Qed.

Lemma title_line E p level text : commonmark_parser p -> python_tables E -> zs_ascii E -> ordinary E (Title level text) ->
  line_heading E p false (shown (Title level text)) = Ok (Some (mkFound level text (plain_slug E p text))).
Proof.
  intros Hp Hl Hz Ho. unfold line_heading. rewrite (title_heading E) by (auto; lia). cbn [h_text h_level].
  destruct Ho as (_ & Hq & _). destruct (plain_slug_base E p text Hp Hl Hz Hq) as (d & ->). reflexivity.
Qed.
Lemma prose_first text : ~ In (hd 0%N text) (lit " #`~") -> forall n (c : N) r, In c (lit " #`~") -> text ++ [10%N] <> repeat c (S n) ++ r.
Proof.
  intros H n c r Hc E. destruct text as [|x text]; cbn in E.
  - injection E as <- _. cbn in Hc. intuition discriminate.
  - injection E as -> _. contradiction.
Qed.
Lemma prose_line E p text : commonmark_parser p -> ordinary E (Prose text) ->
  line_heading E p false (shown (Prose text)) = Ok None.
Proof.
  intros Hp (Hs & Hh). unfold line_heading. cbn [shown]. change [10%N] with (repeat 10%N 1).
  rewrite C01_other_lines_give_no_heading; auto; [lia|]. intros level rest (ind & E0 & _ & Hl & _).
  assert (E1 : text ++ [10%N] = repeat 32%N ind ++ repeat 35%N level ++ rest ++ [10%N]) by (rewrite E0, <- !app_assoc; reflexivity).
  destruct ind as [|ind]; [destruct level; [lia|]|]; eapply (prose_first text Hh); try exact E1; cbn; auto 8.
Qed.
Lemma ordinary_not_opens E p x : ordinary E x -> forall c n, ~ opens p (shown x) c n.
Proof.
  intros Ho c n (_ & ind & info & E0 & _ & Hn & Hc).
  assert (Hcc : c = 96%N \/ c = 126%N) by tauto.
  destruct x as [level text|text].
  - destruct Ho as (Hl & _). cbn [shown] in E0. destruct level; [lia|]. destruct ind; [destruct n; [lia|]|]; cbn in E0; injection E0 as E0 _; [destruct Hcc; congruence|discriminate].
  - destruct Ho as (Hs & Hh). cbn [shown] in E0.
    destruct ind as [|ind]; [destruct n; [lia|]|]; eapply (prose_first text Hh); try exact E0; cbn; destruct Hcc as [-> | ->]; auto 8.
Qed.
Lemma ordinary_outside E p l : Forall (ordinary E) l -> outside p None (map shown l) (map shown l) None.
Proof.
  induction 1 as [|x l Hx Hl IH]; [constructor|]. cbn [map]. apply out_text; [apply (ordinary_not_opens E); exact Hx|exact IH].
Qed.
Lemma ordinary_file_line E x : ordinary E x -> file_line (shown x).
Proof.
  destruct x as [level text|text]; cbn [shown].
  - intros (Hl & Hq & _). exists (repeat 35%N level ++ [32%N] ++ text). split.
    + apply (quiet_single E) in Hq as (A & B). split; rewrite !in_app_iff; intros [X|[[X|[]]|X]]; try (apply repeat_spec in X); try discriminate; auto.
    + left. rewrite <- !app_assoc. reflexivity.
  - intros (Hs & _). exists text. split; [exact Hs|left; reflexivity].
Qed.
Definition founds (E : env) (p : parser) (l : list (nat * str)) : list found :=
  map (fun x => mkFound (fst x) (snd x) (plain_slug E p (snd x))) l.
Lemma ordinary_headings E p l : commonmark_parser p -> python_tables E -> zs_ascii E -> Forall (ordinary E) l ->
  headings E p false (map shown l) (founds E p (titles l))
  /\ line_slugs E p false (map shown l) = map (fun x => plain_slug E p (snd x)) (titles l).
Proof.
  intros Hp Hl Hz. induction 1 as [|x l Hx H (IH1 & IH2)]; [split; [constructor|reflexivity]|].
  unfold line_slugs in *. destruct x as [level text|text]; cbn [map titles flat_map founds app].
  - rewrite (title_line E p level text Hp Hl Hz Hx). split; [apply hs_heading; [apply title_line; assumption|exact IH1]|].
    cbn [app f_slug]. f_equal. exact IH2.
  - rewrite (prose_line E p text Hp Hx). split; [apply hs_other; [apply prose_line; assumption|exact IH1]|exact IH2].
Qed.
Lemma listed_cm p keep n : commonmark_parser p -> listed p keep n = (Z.of_nat n <=? keep)%Z.
Proof. intros [<-|[<-|[<-|[<-|[<-|[]]]]]]; reflexivity. Qed.
Lemma anchor_of_cm p s seen : commonmark_parser p -> anchor_of p s seen = label_number s (occurrences s seen).
Proof. intros [<-|[<-|[<-|[<-|[<-|[]]]]]]; reflexivity. Qed.
Lemma listed_levels_entries E p keep l : commonmark_parser p -> forall seen,
  levels (filter (fun e => listed p keep (e_level e)) (with_anchors p seen (founds E p l))) = listed_levels keep l.
Proof.
  intros Hp. unfold listed_levels, levels. induction l as [|(n & t) l IH]; intros seen; [reflexivity|].
  cbn [founds map with_anchors filter e_level fst snd f_level f_slug f_text]. rewrite (listed_cm p keep n Hp).
  destruct (Z.of_nat n <=? keep)%Z; cbn [map e_level]; [f_equal|]; apply IH.
Qed.
Lemma contents_table E p keep first l : commonmark_parser p -> forall seen nums,
  let es := filter (fun e => listed p keep (e_level e)) (with_anchors p seen (founds E p l)) in
  length nums = length es ->
  table (default_opts p keep) es (map (fun n => 2 * (n - first)) (levels es)) nums = concat (contents E p keep first seen l).
Proof.
  intros Hp. induction l as [|(n & t) l IH]; intros seen nums es; [reflexivity|].
  subst es. cbn [founds map with_anchors filter e_level fst snd f_level f_slug f_text contents]. rewrite (listed_cm p keep n Hp).
  fold (founds E p l). destruct (Z.of_nat n <=? keep)%Z; [|apply IH].
  intros Hlen. destruct nums as [|m nums]; [discriminate|]. cbn [levels map e_level table concat].
  rewrite <- (IH (seen ++ [plain_slug E p t]) nums) by (cbn in Hlen; lia). f_equal.
  unfold row. cbn [e_text e_anchor]. rewrite (anchor_of_cm p _ _ Hp). unfold entry_label.
  cbn [o_no_links default_opts o_newline]. replace (marker_text (default_opts p keep) m) with (lit "-") by reflexivity.
  rewrite <- ?app_assoc. reflexivity.
Qed.

Theorem C57_ordinary_documents : forall E p keep fn items,
  commonmark_parser p -> python_tables E -> zs_ascii E -> (1 <= keep)%Z ->
  Forall (ordinary E) items ->
  no_collision E (map (fun x => plain_slug E p (snd x)) (titles items)) ->
  let levels := listed_levels keep (titles items) in
  (coherent levels ->
   build_toc E (default_opts p keep) fn (mkDoc (map shown items) false)
   = Ok (concat (contents E p keep (hd 0 levels) [] (titles items))))
  /\ (~ coherent levels ->
   build_toc E (default_opts p keep) fn (mkDoc (map shown items) false) = Err TocDoesNotRenderAsCoherentList).
Proof.
  intros E p keep fn items Hp Hl Hz Hk Ho Hc levels.
  destruct (ordinary_headings E p items Hp Hl Hz Ho) as (Hh & Hsl).
  assert (Ha : applies E (default_opts p keep) fn (map shown items) (map shown items)).
  { split; [intros X; cbn in X; subst; destruct Hp as [|[|[|[|[|[]]]]]]; discriminate|]. split; [reflexivity|]. split; [exact Hk|]. split.
    - apply Forall_forall. intros s Hs. apply in_map_iff in Hs as (x & <- & Hx). apply (ordinary_file_line E). rewrite Forall_forall in Ho. auto.
    - split; [|intros _; cbn [o_parser default_opts o_no_links]; rewrite Hsl; exact Hc].
      apply (ex_normal p (names_stdin fn) _ _ None); [apply (ordinary_outside E); exact Ho|].
      right. left. intros (pre & la & ks & c & n & E0 & O & _). pose proof (ordinary_outside E p items Ho) as O2.
      (* no block is ever open *)
      assert (G : forall b ls ks e, outside p b ls ks e -> b = None -> (forall x, In x ls -> forall c n, ~ opens p x c n) -> e = None).
      { clear. induction 1; intros Hb Hno; auto; try discriminate.
        - exfalso. exact (Hno l (or_introl eq_refl) c n H).
        - apply IHoutside; [reflexivity|]. intros x Hx. apply Hno. right. exact Hx. }
      specialize (G _ _ _ _ O eq_refl). assert (X : Some (c, n) = None); [|discriminate]. apply G.
      intros x Hx. assert (Hx' : In x (map shown items)) by (rewrite E0; apply in_app_iff; auto).
      apply in_map_iff in Hx' as (y & <- & Hy). apply (ordinary_not_opens E). rewrite Forall_forall in Ho. auto. }
  assert (Hes : TableSpec.levels (entries p keep (founds E p (titles items))) = levels) by (apply listed_levels_entries; exact Hp).
  rewrite (applies_rows _ _ _ _ _ _ Ha Hh). cbn [o_parser default_opts o_keep].
  set (es := entries p keep (founds E p (titles items))) in *.
  assert (Hkn : known_parser (o_parser (default_opts p keep))) by exact (proj1 Ha).
  assert (Hm : valid_marker (default_opts p keep)) by (right; left; reflexivity).
  assert (Hov : forall n, no_overflow (default_opts p keep) n) by (left; reflexivity).
  split; intros Hco; rewrite coherent_iff in Hco; rewrite <- Hes in Hco.
  - destruct (rows_accept (default_opts p keep) es [] Hkn Hm (Hov _)) as (ls & Hr); [auto|]. rewrite Hr. f_equal.
    rewrite (rows_table (default_opts p keep) es [] ls Hr).
    pose proof Hp as Hf. apply cm_family_iff in Hf.
    change (used_ordered (default_opts p keep)) with false.
    rewrite (bullet_cols (default_opts p keep) (used_marker (default_opts p keep)) (TableSpec.levels es) Hf eq_refl eq_refl []); [|exact I|exact Hco|constructor].
    cbn [map last]. replace (hd 0 (TableSpec.levels es)) with (hd 0 levels) by (rewrite Hes; reflexivity). apply (contents_table E p keep (hd 0 levels) (titles items) Hp []).
    fold (entries p keep (founds E p (titles items))). fold es.
    assert (L : forall ls hist, length (nums_of (default_opts p keep) false (used_marker (default_opts p keep)) hist ls) = length ls).
    { induction ls0 as [|a ls0 IH]; intros hist; [reflexivity|]. cbn [nums_of length]. rewrite IH. reflexivity. }
    rewrite L. unfold TableSpec.levels. apply map_length.
  - rewrite (rows_reject (default_opts p keep) es [] Hkn Hm (Hov _) eq_refl eq_refl Hco). reflexivity.
Qed.
Print Assumptions C57_ordinary_documents.

Definition sample : list item :=
  [Title 1 (lit "User guide"); Prose (lit "Some *prose*."); Prose []; Title 2 (lit "Set-up & `run`?"); Title 3 (lit "Too deep"); Title 2 (lit "Notes"); Title 2 (lit "Notes")].
Definition sample2 : list item := [Title 2 (lit "Notes"); Title 1 (lit "User guide")].

Lemma titles_slugs_distinct slugs : no_collision ascii_env slugs.
Proof. intros s t _ _ H. exact H. Qed.
Lemma plain_title_ascii text :
  forallb (fun c => negb (cin c (lit "\<[]*_")) && negb (cin c [0; 10; 13]%N)) text = true -> plain_title ascii_env text.
Proof.
  rewrite forallb_forall. intros H.
  assert (G : forall c, In c text -> ~ In c (lit "\<[]*_") /\ ~ In c [0; 10; 13]%N).
  { intros c Hc. apply H in Hc. apply andb_true_iff in Hc as (A & B). rewrite negb_true_iff in *. rewrite cin_not_In in *. auto. }
  split.
  - apply Forall_forall. intros c Hc. destruct (G c Hc) as (A & B). cbn in *. intuition.
  - left. split; [intros X; destruct (G _ X) as (A & _); apply A; cbn; auto 8|].
    intros c _ Hd. apply ascii_digit_range. exact Hd.
Qed.
Example C57_ordinary_documents_ex :
  Forall (ordinary ascii_env) sample /\ coherent (listed_levels 2 (titles sample))
  /\ concat (contents ascii_env Github 2 1 [] (titles sample)) =
     ln "- [User guide](#user-guide)" ++ ln "  - [Set-up & `run`?](#set-up--run)" ++ ln "  - [Notes](#notes)" ++ ln "  - [Notes](#notes-1)"
  /\ Forall (ordinary ascii_env) sample2 /\ ~ coherent (listed_levels 2 (titles sample2)).
Proof.
  assert (T : forall level s, 1 <= level <= 6 -> forallb (fun c => negb (cin c (lit "\<[]*_")) && negb (cin c [0; 10; 13]%N)) s = true ->
    negb (cin 35 s) && (1 <=? length s) && (length s <=? 999) && negb (cin (hd 32%N s) [9; 11; 12; 32]%N) && negb (cin (last s 32%N) [9; 11; 12; 32]%N) = true ->
    ordinary ascii_env (Title level s)).
  { intros level s Hl A B. rewrite !andb_true_iff, !negb_true_iff, !cin_not_In, !Nat.leb_le in B. cbn [ordinary].
    split; [exact Hl|]. split; [apply plain_title_ascii; exact A|]. tauto. }
  assert (P : forall s, negb (cin 10 s) && negb (cin 13 s) && negb (cin (hd 0%N s) (lit " #`~")) = true -> ordinary ascii_env (Prose s)).
  { intros s B. rewrite !andb_true_iff, !negb_true_iff, !cin_not_In in B. cbn [ordinary]. unfold single_line. tauto. }
  split; [unfold sample; repeat (apply Forall_cons; [((apply T; [lia|reflexivity|reflexivity]) || (apply P; reflexivity))|]); apply Forall_nil|].
  split; [apply coherent_by; repeat split|]. split; [reflexivity|].
  split; [unfold sample2; repeat (apply Forall_cons; [apply T; [lia|reflexivity|reflexivity]|]); apply Forall_nil|].
  intros H. specialize (H [2] 1 [] eq_refl). assert (2 <= 1) by (apply H; discriminate). lia.
Qed.
