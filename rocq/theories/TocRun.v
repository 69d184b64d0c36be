(** build_toc as a plain fold over the lines that are looked at; used for the relational
    properties, which need no assumption about SHA-1. *)
From Coq Require Import String List NArith ZArith Bool Arith Lia.
From Verif Require Import Str Fence Atx HtmlRe Inlines Anchor Toc Spec AnchorSpec TocSpec.
From Verif Require Import StrFacts FenceProof AtxProof DecFacts AnchorProof TocProof TocLoop.
Import ListNotations.
Local Open Scope list_scope.

Definition eqst (a b : state) : Prop :=
  t_toc a = t_toc b /\ t_types a = t_types b /\ t_prev a = t_prev b /\ t_first a = t_first b
  /\ t_dups a = t_dups b /\ t_log a = t_log b.
Definition same_res (a b : res state) : Prop :=
  match a, b with
  | Ok x, Ok y => eqst x y
  | Err e, Err e' => e = e'
  | _, _ => False
  end.

Lemma eqst_refl a : eqst a a. Proof. repeat split. Qed.
Lemma eqst_sym a b : eqst a b -> eqst b a. Proof. unfold eqst. intuition. Qed.
Lemma eqst_trans a b c : eqst a b -> eqst b c -> eqst a c. Proof. unfold eqst. intuition congruence. Qed.
Lemma same_refl a : same_res a a. Proof. destruct a; cbn; [apply eqst_refl|reflexivity]. Qed.
Lemma same_sym a b : same_res a b -> same_res b a.
Proof. destruct a, b; cbn; auto using eqst_sym. Qed.
Lemma same_trans a b c : same_res a b -> same_res b c -> same_res a c.
Proof. destruct a, b, c; cbn; try tauto; [apply eqst_trans|congruence]. Qed.

Lemma add_header_eqst o ordered m a b h : eqst a b -> same_res (add_header o ordered m a h) (add_header o ordered m b h).
Proof.
  intros (H1 & H2 & H3 & H4 & H5 & H6). unfold add_header. rewrite H2, H3, H4, H6.
  destruct (if ordered && negb (o_constant o) then _ else _) as [(types & index)|e]; cbn [bind same_res]; [|reflexivity].
  match goal with |- same_res (bind ?x _) _ => destruct x as [((f & lg) & sp)|e] end; cbn [bind same_res]; [|reflexivity].
  destruct (toc_line_no_indent _ _ _ _ _ _) as [[l|]|e]; cbn [bind same_res]; [|reflexivity|reflexivity].
  destruct (build_toc_line l sp) as [l'|e]; cbn [bind same_res]; [|reflexivity].
  repeat split; cbn; congruence.
Qed.

Lemma look_step_eqst E o ordered m line a b :
  eqst a b -> same_res (look_step E o ordered m line a) (look_step E o ordered m line b).
Proof.
  intros H. pose proof H as (H1 & H2 & H3 & H4 & H5 & H6). unfold look_step. rewrite H5.
  destruct (get_md_header _ _ _ _ _ _) as [(hs & d)|e]; cbn [bind same_res]; [|reflexivity].
  assert (G : eqst (set_dups a d) (set_dups b d)) by (repeat split; cbn; assumption).
  destruct hs as [|[h|] hs]; [reflexivity| |exact G].
  destruct (hd_visible h); [apply add_header_eqst|]; exact G.
Qed.

Fixpoint run (E : env) (o : opts) (ordered : bool) (m : str) (ks : list str) (st : state) : res state :=
  match ks with
  | [] => Ok st
  | k :: ks' => do st <- look_step E o ordered m k st; run E o ordered m ks' st
  end.

Lemma run_eqst E o ordered m ks : forall a b, eqst a b -> same_res (run E o ordered m ks a) (run E o ordered m ks b).
Proof.
  induction ks as [|k ks IH]; intros a b H; [exact H|]. cbn [run].
  pose proof (look_step_eqst E o ordered m k a b H) as G.
  destruct (look_step E o ordered m k a), (look_step E o ordered m k b); cbn [bind same_res] in *; try contradiction; auto.
Qed.

Definition no_heading (p : parser) (nl : bool) (line : str) : Prop :=
  get_atx_heading p 6 nl line = Ok [None].

Lemma no_heading_look E o ordered m line st :
  known_parser (o_parser o) -> (1 <= o_keep o)%Z -> file_line line -> no_heading (o_parser o) (o_no_links o) line ->
  exists st', look_step E o ordered m line st = Ok st' /\ eqst st' st
    /\ t_in st' = t_in st /\ t_fence st' = t_fence st /\ t_end st' = t_end st.
Proof.
  intros Hp Hk Hl Hn. unfold look_step, get_md_header.
  pose proof (get_atx_keep (o_parser o) (o_keep o) (o_no_links o) line Hp Hk Hl) as G.
  rewrite Hn in G. destruct G as (_ & ->). cbn. eexists. split; [reflexivity|]. repeat split.
Qed.

Lemma opening_no_heading' p nl line c n :
  commonmark_parser p -> file_line line -> opening_fence_line line c n -> no_heading p nl line.
Proof.
  intros Hp Hl Ho. destruct (file_line_split line Hl) as (s & k & Hs & -> & Hne).
  unfold no_heading. rewrite get_atx_single by (assumption || lia).
  destruct (atx_cm_none p 6 nl true s (opening_not_atx p s k c n Ho)) as (v & ->). reflexivity.
Qed.

Lemma look_step_flags E o ordered m line st st' :
  look_step E o ordered m line st = Ok st' -> t_in st' = t_in st /\ t_fence st' = t_fence st /\ t_end st' = t_end st.
Proof.
  unfold look_step. destruct (get_md_header _ _ _ _ _ _) as [(hs & d)|e]; cbn [bind]; [|discriminate].
  destruct hs as [|[h|] hs]; [discriminate| |intros G; injection G as <-; auto].
  destruct (hd_visible h); [|intros G; injection G as <-; auto].
  unfold add_header. destruct (if ordered && negb (o_constant o) then _ else _) as [(types & index)|e]; cbn [bind]; [|discriminate].
  match goal with |- bind ?x _ = _ -> _ => destruct x as [((f & lg) & sp)|e] end; cbn [bind]; [|discriminate].
  destruct (toc_line_no_indent _ _ _ _ _ _) as [[l|]|e]; cbn [bind]; try discriminate.
  destruct (build_toc_line l sp) as [l'|e]; cbn [bind]; [|discriminate].
  intros G; injection G as <-; auto.
Qed.

Definition loop_same (a : res (option state)) (b : res state) : Prop :=
  match a, b with
  | Ok (Some x), Ok y => eqst x y
  | Err e, Err e' => e = e'
  | _, _ => False
  end.
Lemma loop_same_trans a b c : loop_same a b -> same_res b c -> loop_same a c.
Proof. destruct a as [[x|]|e], b, c; cbn; try tauto; [apply eqst_trans|congruence]. Qed.

Lemma toc_loop_run E o ordered m stdin :
  known_parser (o_parser o) -> (1 <= o_keep o)%Z ->
  forall b lines ks, exam (o_parser o) stdin b lines ks ->
  forall st, fence_char b -> (commonmark_parser (o_parser o) \/ b = None) -> block_state b st ->
  (lines <> [] -> t_end st = false) -> Forall file_line lines ->
  loop_same (toc_loop E o stdin ordered m lines false st) (run E o ordered m ks st).
Proof.
  intros Hp Hk b lines ks H.
  induction H as [b|l c n ls ks Ho H IH|l ls ks Ho H IH|l c n ls ks Hc H IH|l c n ls ks Hc Hx H IH|l c n Hc Hstd Hs];
    intros st Hfc Hcm Hb Hte Hfl.
  - cbn. apply eqst_refl.
  - rewrite toc_loop_cons. inversion Hfl as [|? ? Hl Hfl' Eq]; subst. specialize (Hte ltac:(discriminate)).
    assert (Hb1 : t_in (mark_end stdin ls st) = false) by (unfold mark_end; destruct (last_flag stdin ls); exact Hb).
    rewrite line_step_look. unfold fence_step. rewrite Hb1.
    assert (Eo : is_opening_code_fence (o_parser o) l = Some (repeat c n)).
    { destruct Ho as (Hcp & Ho). apply is_opening_iff; eauto. }
    rewrite Eo. cbn [negb orb bind].
    eapply loop_same_trans.
    + apply IH.
      * eapply opens_char; eauto.
      * left. apply Ho.
      * cbn. auto.
      * intros Hne. unfold mark_end, last_flag. destruct ls; [congruence|]. rewrite andb_false_r. exact Hte.
      * exact Hfl'.
    + apply run_eqst. unfold mark_end. destruct (last_flag stdin ls); repeat split.
  - rewrite toc_loop_cons. inversion Hfl as [|? ? Hl Hfl' Eq]; subst. specialize (Hte ltac:(discriminate)).
    assert (Hb1 : t_in (mark_end stdin ls st) = false) by (unfold mark_end; destruct (last_flag stdin ls); exact Hb).
    rewrite line_step_look. unfold fence_step. rewrite Hb1.
    assert (Eo : is_opening_code_fence (o_parser o) l = None).
    { destruct (is_opening_code_fence (o_parser o) l) as [f|] eqn:Eo; [|reflexivity]. exfalso.
      destruct (cm_family (o_parser o)) eqn:Ecm.
      - apply cm_family_iff in Ecm. apply is_opening_iff in Eo as (c & n & -> & Eo); [|exact Ecm]. apply (Ho c n). split; assumption.
      - rewrite is_opening_other in Eo; [discriminate|]. intros G. apply cm_family_iff in G. congruence. }
    rewrite Eo. cbn [negb orb run].
    pose proof (look_step_eqst E o ordered m l (set_fence (mark_end stdin ls st) false None) st) as G.
    assert (G0 : eqst (set_fence (mark_end stdin ls st) false None) st) by (unfold mark_end; destruct (last_flag stdin ls); repeat split).
    specialize (G G0).
    destruct (look_step E o ordered m l (set_fence (mark_end stdin ls st) false None)) as [s1|e1] eqn:E1,
       (look_step E o ordered m l st) as [s2|e2]; cbn [same_res bind] in *; try contradiction; [|cbn; exact G].
    apply look_step_flags in E1 as (F1 & F2 & F3).
    eapply loop_same_trans; [apply IH; auto|apply run_eqst; exact G].
    intros Hne. rewrite F3. cbn. unfold mark_end, last_flag. destruct ls; [congruence|]. rewrite andb_false_r. exact Hte.
  - rewrite toc_loop_cons. inversion Hfl as [|? ? Hl Hfl' Eq]; subst. specialize (Hte ltac:(discriminate)).
    destruct Hcm as [Hcm|Hcm]; [|discriminate]. destruct Hfc as (Hch & H3). destruct Hb as (Hb & Hb').
    assert (Hb1 : t_in (mark_end stdin ls st) = true) by (unfold mark_end; destruct (last_flag stdin ls); exact Hb).
    assert (Hb2 : t_fence (mark_end stdin ls st) = Some (repeat c n)) by (unfold mark_end; destruct (last_flag stdin ls); exact Hb').
    rewrite line_step_look. unfold fence_step. rewrite Hb1, Hb2.
    assert (Ec : is_closing_code_fence (o_parser o) l (repeat c n) (t_end (mark_end stdin ls st)) = true).
    { destruct (t_end (mark_end stdin ls st)).
      - apply is_closing_end; try assumption. apply (closing_small_indent (o_parser o) l c n); [split; assumption|exact Hc].
      - apply is_closing_iff; assumption. }
    rewrite Ec. cbn [negb orb].
    destruct (closing_is_opening _ _ _ _ Hch H3 Hc) as (k & Hok).
    match goal with |- context [look_step E o ordered m l ?s] =>
      destruct (no_heading_look E o ordered m l s Hp Hk Hl (opening_no_heading' _ _ _ _ _ Hcm Hl Hok)) as (s1 & -> & G & F1 & F2 & F3) end.
    cbn [bind].
    eapply loop_same_trans.
    + apply IH; auto.
      * exact I.
      * intros Hne. rewrite F3. cbn. unfold mark_end, last_flag. destruct ls; [congruence|]. rewrite andb_false_r. exact Hte.
    + apply run_eqst. eapply eqst_trans; [exact G|]. unfold mark_end. destruct (last_flag stdin ls); repeat split.
  - rewrite toc_loop_cons. inversion Hfl as [|? ? Hl Hfl' Eq]; subst. specialize (Hte ltac:(discriminate)).
    destruct Hcm as [Hcm|Hcm]; [|discriminate]. pose proof Hfc as (Hch & H3). destruct Hb as (Hb & Hb').
    assert (Hb1 : t_in (mark_end stdin ls st) = true) by (unfold mark_end; destruct (last_flag stdin ls); exact Hb).
    assert (Hb2 : t_fence (mark_end stdin ls st) = Some (repeat c n)) by (unfold mark_end; destruct (last_flag stdin ls); exact Hb').
    assert (Te1 : t_end (mark_end stdin ls st) = last_flag stdin ls) by (unfold mark_end; destruct (last_flag stdin ls) eqn:?; auto).
    rewrite line_step_look. unfold fence_step. rewrite Hb1, Hb2.
    assert (Ec : is_closing_code_fence (o_parser o) l (repeat c n) (t_end (mark_end stdin ls st)) = false).
    { rewrite Te1. apply not_true_iff_false. intros Ec. unfold last_flag in Ec.
      destruct (negb stdin && match ls with [] => true | _ => false end) eqn:Ef.
      - apply is_closing_end in Ec; try assumption. destruct Hx as [->|[Hx|Hx]]; [discriminate| |contradiction].
        destruct ls; [congruence|rewrite andb_false_r in Ef; discriminate].
      - apply is_closing_iff in Ec; try assumption. contradiction. }
    rewrite Ec. cbn [negb orb bind].
    eapply loop_same_trans.
    + apply IH; auto.
      * cbn. auto.
      * intros Hne. cbn. rewrite Te1. unfold last_flag. destruct ls; [congruence|apply andb_false_r].
    + apply run_eqst. unfold mark_end. destruct (last_flag stdin ls); repeat split.
  - rewrite toc_loop_cons. inversion Hfl as [|? ? Hl Hfl' Eq]; subst. specialize (Hte ltac:(discriminate)).
    destruct Hcm as [Hcm|Hcm]; [|discriminate]. pose proof Hfc as (Hch & H3). destruct Hb as (Hb & Hb').
    unfold mark_end. cbn [last_flag negb andb].
    rewrite line_step_look. unfold fence_step. cbn [set_end t_in t_fence t_end]. rewrite Hb, Hb'.
    assert (Ec : is_closing_code_fence (o_parser o) l (repeat c n) true = true) by (apply is_closing_end; assumption).
    rewrite Ec. cbn [negb orb run toc_loop].
    match goal with |- context [look_step E o ordered m l (set_fence ?s ?i ?f)] =>
      pose proof (look_step_eqst E o ordered m l (set_fence s i f) st) as G;
      assert (G0 : eqst (set_fence s i f) st) by (repeat split); specialize (G G0);
      destruct (look_step E o ordered m l (set_fence s i f)) as [s1|e1],
       (look_step E o ordered m l st) as [s2|e2] end; cbn [same_res bind] in *; try contradiction; cbn; exact G.
Qed.

Definition start (o : opts) : state := init_state (repeat (mkIlog 0 (used_marker o) 0) 6).

Lemma build_toc_unknown E o fn lines lines' :
  ~ known_parser (o_parser o) -> o_skip o = 0%Z ->
  build_toc E o fn (mkDoc lines false) = build_toc E o fn (mkDoc lines' false).
Proof.
  intros Hp Hs. unfold build_toc. rewrite Hs. cbn [Z.ltb Z.compare Z.to_nat skip].
  destruct (fix_marker o) as [(ord & mk)|e]; cbn [bind]; [|reflexivity].
  assert (Hk : known (o_parser o) = false) by (destruct (o_parser o); try reflexivity; exfalso; apply Hp; discriminate).
  unfold init_indentation_log. rewrite Hk. cbn [d_lines d_bad bind].
  destruct lines, lines'; reflexivity.
Qed.

Lemma build_toc_run E o fn lines ks :
  known_parser (o_parser o) -> o_skip o = 0%Z -> (1 <= o_keep o)%Z -> Forall file_line lines ->
  exam (o_parser o) (is_stdin fn) None lines ks ->
  build_toc E o fn (mkDoc lines false) =
  match run E o (used_ordered o) (used_marker o) ks (start o) with Ok st => Ok (concat (t_toc st)) | Err e => Err e end.
Proof.
  intros Hp Hs Hk Hfl Hex. unfold build_toc. rewrite Hs. cbn [Z.ltb Z.compare Z.to_nat skip].
  rewrite fix_marker_used by exact Hp. cbn [bind d_lines d_bad]. unfold init_indentation_log.
  replace (known (o_parser o)) with true by (destruct (o_parser o); try reflexivity; destruct Hp; reflexivity).
  cbn [bind]. fold (start o).
  pose proof (toc_loop_run E o (used_ordered o) (used_marker o) (is_stdin fn) Hp Hk
     None lines ks Hex (start o) I (or_intror eq_refl) eq_refl (fun _ => eq_refl) Hfl) as G.
  unfold start in G. destruct lines as [|l0 lines0];
  match type of G with loop_same ?x ?y => change (start o) with (init_state (repeat (mkIlog 0 (used_marker o) 0) 6)); destruct x as [[x1|]|e1], y as [y1|e2]; cbn [loop_same bind] in *; try contradiction end;
    try (destruct G as (-> & _)); try rewrite G; reflexivity.
Qed.
