(** The loop of build_toc: code fences, and the refinement theorem. *)
From Coq Require Import String List NArith ZArith Bool Arith Lia.
From Verif Require Import Str Fence Atx HtmlRe Inlines Anchor Toc Spec AnchorSpec TocSpec.
From Verif Require Import StrFacts FenceProof AtxProof DecFacts AnchorProof TocProof.
Import ListNotations.
Local Open Scope list_scope.

(** ** Fence lines are never headings *)
Lemma opening_not_atx p s k c n : opening_fence_line (s ++ repeat 10%N k) c n ->
  ~ exists lev r, atx_line p s lev r.
Proof.
  intros (ind & info & E & Hi & Hn & Hc) (lev & r & ind' & Es & Hi' & Hl & _).
  rewrite Es in E. rewrite <- !app_assoc in E. destruct lev as [|lev]; [lia|]. destruct n as [|n]; [lia|].
  pose proof (f_equal (leading 32) E) as L. rewrite !leading_unique in L.
  - subst ind'. apply app_inv_head in E. cbn in E. injection E as <- _. destruct Hc as [(H & _)|(H & _)]; discriminate.
  - cbn. destruct Hc as [(-> & _)|(-> & _)]; discriminate.
  - cbn. discriminate.
Qed.

Lemma opening_no_heading E p nl line c n :
  commonmark_parser p -> file_line line -> opening_fence_line line c n -> line_heading E p nl line = Ok None.
Proof.
  intros Hp Hl Ho. destruct (file_line_split line Hl) as (s & k & Hs & -> & Hne).
  unfold line_heading. rewrite get_atx_single by (assumption || lia).
  destruct (atx_cm_none p 6 nl true s (opening_not_atx p s k c n Ho)) as (v & ->). reflexivity.
Qed.

Lemma small_indent_iff l : small_indent l <-> leading 32 l <= 3.
Proof.
  unfold small_indent. split.
  - intros (ind & r & -> & Hi & Hr). rewrite leading_unique by exact Hr. exact Hi.
  - intros H. destruct (indent_split l) as (r & Hl & Hr & _). exists (leading 32 l), r.
    split; [exact Hl|]. split; [exact H|exact Hr].
Qed.

(** ** Decidability of the fence relations *)
Definition fence_char (b : block) : Prop :=
  match b with None => True | Some (c, n) => (c = 96 \/ c = 126)%N /\ 3 <= n end.
Lemma opens_char p l c n : opens p l c n -> fence_char (Some (c, n)).
Proof. intros (_ & i & f & _ & _ & Hn & Hc). cbn. tauto. Qed.

Lemma opens_dec p l : (exists c n, opens p l c n) \/ (forall c n, ~ opens p l c n).
Proof.
  destruct (cm_family p) eqn:Hc.
  - apply cm_family_iff in Hc. destruct (is_opening_code_fence p l) as [f|] eqn:E.
    + apply is_opening_iff in E as (c & n & -> & H); [|exact Hc]. left. exists c, n. split; assumption.
    + right. intros c n (_ & H). assert (G : is_opening_code_fence p l = Some (repeat c n)).
      { apply is_opening_iff; [exact Hc|]. eauto. } congruence.
  - right. intros c n (H & _). apply cm_family_iff in H. congruence.
Qed.
Lemma opens_fun p l c n c' n' : opens p l c n -> opens p l c' n' -> c = c' /\ n = n'.
Proof.
  intros A B. assert (G : repeat c n = repeat c' n').
  { destruct A as (Hp & A), B as (_ & B).
    assert (GA : is_opening_code_fence p l = Some (repeat c n)) by (apply is_opening_iff; eauto).
    assert (GB : is_opening_code_fence p l = Some (repeat c' n')) by (apply is_opening_iff; eauto). congruence. }
  apply opens_char in A as (_ & A), B as (_ & B).
  assert (n = n') by (rewrite <- (repeat_length c n), <- (repeat_length c' n'), G; reflexivity). subst.
  destruct n'; [lia|]. cbn in G. injection G as -> _. auto.
Qed.
Lemma blank_dec p c : blank p c \/ ~ blank p c.
Proof. destruct (blankb p c) eqn:E; [left; apply blankb_iff|right; apply blankb_not]; exact E. Qed.

Lemma closing_dec p l c n : fence_char (Some (c, n)) -> closing_fence_line p l c n \/ ~ closing_fence_line p l c n.
Proof.
  intros (Hc & Hn). destruct (cm_family p) eqn:Hp.
  - apply cm_family_iff in Hp. destruct (is_closing_code_fence p l (repeat c n) false) eqn:E.
    + left. apply is_closing_iff in E; assumption.
    + right. intros H. apply (is_closing_iff p l c n) in H; try assumption. congruence.
  - (* the shape does not depend on whether the parser knows fences: only on what is blank *)
    assert (exists q, commonmark_parser q /\ forall x, blank p x <-> blank q x) as (q & Hq & Hb).
    { exists Cmark. split; [cbn; auto|]. intros x. unfold blank. destruct p; try discriminate; intuition congruence. }
    assert (G : closing_fence_line p l c n <-> closing_fence_line q l c n).
    { split; intros (ind & m & tail & E & Hi & Hm & F); exists ind, m, tail; repeat split; auto;
        (eapply Forall_impl; [|exact F]); cbn; intros x; rewrite Hb; auto. }
    rewrite G. destruct (is_closing_code_fence q l (repeat c n) false) eqn:E.
    + left. apply is_closing_iff in E; assumption.
    + right. intros H. apply (is_closing_iff q l c n) in H; try assumption. congruence.
Qed.

Lemma outside_total p lines : forall b, fence_char b -> exists ks e, outside p b lines ks e.
Proof.
  induction lines as [|l ls IH]; intros b Hb; [do 2 eexists; constructor|].
  destruct b as [(c & n)|].
  - destruct (closing_dec p l c n Hb) as [H|H].
    + destruct (IH None I) as (ks & e & G). do 2 eexists. eapply out_close; eauto.
    + destruct (IH (Some (c, n)) Hb) as (ks & e & G). do 2 eexists. eapply out_inside; eauto.
  - destruct (opens_dec p l) as [(c & n & H)|H].
    + destruct (IH (Some (c, n)) (opens_char _ _ _ _ H)) as (ks & e & G). do 2 eexists. eapply out_open; eauto.
    + destruct (IH None I) as (ks & e & G). do 2 eexists. eapply out_text; eauto.
Qed.
Lemma outside_fun p b lines ks e : outside p b lines ks e -> forall ks' e', outside p b lines ks' e' -> ks = ks' /\ e = e'.
Proof.
  induction 1 as [b|l c n ls ks e Ho H IH|l ls ks e Ho H IH|l c n ls ks e Ho H IH|l c n ls ks e Ho H IH]; intros ks' e' G;
    inversion G as [|l1 c1 n1 ls1 ks1 e1 Ho1 G1|l1 ls1 ks1 e1 Ho1 G1|l1 c1 n1 ls1 ks1 e1 Ho1 G1|l1 c1 n1 ls1 ks1 e1 Ho1 G1]; subst; auto;
    try contradiction.
  - destruct (opens_fun _ _ _ _ _ _ Ho Ho1); subst. auto.
  - exfalso. eapply Ho1; eauto.
  - exfalso. eapply Ho; eauto.
  - destruct (IH _ _ G1); subst; auto.
Qed.

(** ** Lines that are looked at, with an arbitrary initial block *)
Inductive exam (p : parser) (stdin : bool) : block -> list str -> list str -> Prop :=
| exam_nil : forall b, exam p stdin b [] []
| exam_open : forall l c n ls ks, opens p l c n -> exam p stdin (Some (c, n)) ls ks -> exam p stdin None (l :: ls) ks
| exam_text : forall l ls ks, (forall c n, ~ opens p l c n) -> exam p stdin None ls ks -> exam p stdin None (l :: ls) (l :: ks)
| exam_close : forall l c n ls ks, closing_fence_line p l c n -> exam p stdin None ls ks ->
    exam p stdin (Some (c, n)) (l :: ls) ks
| exam_inside : forall l c n ls ks, ~ closing_fence_line p l c n ->
    (stdin = true \/ ls <> [] \/ ~ small_indent l) -> exam p stdin (Some (c, n)) ls ks ->
    exam p stdin (Some (c, n)) (l :: ls) ks
| exam_quirk : forall l c n, ~ closing_fence_line p l c n -> stdin = false -> small_indent l ->
    exam p stdin (Some (c, n)) [l] [l].

Definition ends_inside_from (p : parser) (b : block) (lines : list str) : Prop :=
  exists pre last ks c n, lines = pre ++ [last] /\ outside p b pre ks (Some (c, n))
    /\ ~ closing_fence_line p last c n.

Lemma outside_exam p stdin b lines ks e :
  outside p b lines ks e ->
  (stdin = true \/ ~ ends_inside_from p b lines \/ exists pre last, lines = pre ++ [last] /\ ~ small_indent last) ->
  exam p stdin b lines ks.
Proof.
  induction 1 as [b|l c n ls ks e Ho H IH|l ls ks e Ho H IH|l c n ls ks e Ho H IH|l c n ls ks e Ho H IH];
    intros Hx.
  - constructor.
  - eapply exam_open; [exact Ho|]. destruct ls as [|l2 ls]; [inversion H; subst; constructor|]. apply IH.
    destruct Hx as [Hx|[Hx|(pre & la & E & Hx)]]; auto; right; [left|right].
    + intros (pre & la & ks1 & c1 & n1 & E & A & B). apply Hx. exists (l :: pre), la, ks1, c1, n1. split; [rewrite E; reflexivity|].
      split; [|exact B]. eapply out_open; eauto.
    + destruct pre as [|a pre]; [discriminate|]. injection E as <- E. exists pre, la. auto.
  - eapply exam_text; [exact Ho|]. destruct ls as [|l2 ls]; [inversion H; subst; constructor|]. apply IH.
    destruct Hx as [Hx|[Hx|(pre & la & E & Hx)]]; auto; right; [left|right].
    + intros (pre & la & ks1 & c1 & n1 & E & A & B). apply Hx. exists (l :: pre), la, (l :: ks1), c1, n1. split; [rewrite E; reflexivity|].
      split; [|exact B]. eapply out_text; eauto.
    + destruct pre as [|a pre]; [discriminate|]. injection E as <- E. exists pre, la. auto.
  - eapply exam_close; [exact Ho|]. destruct ls as [|l2 ls]; [inversion H; subst; constructor|]. apply IH.
    destruct Hx as [Hx|[Hx|(pre & la & E & Hx)]]; auto; right; [left|right].
    + intros (pre & la & ks1 & c1 & n1 & E & A & B). apply Hx. exists (l :: pre), la, ks1, c1, n1. split; [rewrite E; reflexivity|].
      split; [|exact B]. eapply out_close; eauto.
    + destruct pre as [|a pre]; [discriminate|]. injection E as <- E. exists pre, la. auto.
  - destruct ls as [|l2 ls].
    + inversion H; subst. eapply exam_inside; [exact Ho| |constructor].
      destruct Hx as [Hx|[Hx|(pre & la & E & Hx)]]; auto.
      * exfalso. apply Hx. exists [], l, [], c, n. split; [reflexivity|]. split; [constructor|exact Ho].
      * right. right. destruct pre as [|a [|b pre]]; try discriminate. cbn in E. injection E as ->. exact Hx.
    + eapply exam_inside; [exact Ho|right; left; discriminate|]. apply IH.
      destruct Hx as [Hx|[Hx|(pre & la & E & Hx)]]; auto; right; [left|right].
      * intros (pre & la & ks1 & c1 & n1 & E & A & B). apply Hx. exists (l :: pre), la, ks1, c1, n1. split; [rewrite E; reflexivity|].
        split; [|exact B]. eapply out_inside; eauto.
      * destruct pre as [|a pre]; [discriminate|]. injection E as <- E. exists pre, la. auto.
Qed.
Lemma outside_exam_quirk p b pre ks e la :
  outside p b pre ks e -> forall c n, e = Some (c, n) -> ~ closing_fence_line p la c n -> small_indent la ->
  exam p false b (pre ++ [la]) (ks ++ [la]).
Proof.
  induction 1 as [b|l c n ls ks e Ho H IH|l ls ks e Ho H IH|l c n ls ks e Ho H IH|l c n ls ks e Ho H IH];
    intros c1 n1 E Hc Hs; cbn [app].
  - subst. apply exam_quirk; auto.
  - eapply exam_open; eauto.
  - eapply exam_text; eauto.
  - eapply exam_close; eauto.
  - eapply exam_inside; eauto. right. left. destruct ls; discriminate.
Qed.
Lemma examined_exam p stdin lines ks : examined p stdin lines ks -> exam p stdin None lines ks.
Proof.
  intros [lines' ks' e H Hx|pre la ks' c n -> H Hc Hs].
  - eapply outside_exam; [exact H|]. exact Hx.
  - eapply outside_exam_quirk; eauto.
Qed.
Lemma examined_total p stdin lines : exists ks, examined p stdin lines ks.
Proof.
  destruct (outside_total p lines None I) as (ks & e & H).
  destruct stdin; [exists ks; eapply ex_normal; eauto|].
  destruct lines as [|l0 lines0] eqn:El.
  { exists ks. eapply ex_normal; [exact H|]. right. left. intros (pre & la & ks1 & c1 & n1 & E & _). destruct pre; discriminate. }
  rewrite <- El in *. assert (Hne : lines <> []) by (rewrite El; discriminate). clear El.
  destruct (exists_last Hne) as (pre & la & E).
  destruct (outside_total p pre None I) as (ks0 & e0 & H0).
  destruct e0 as [(c & n)|].
  - assert (Hfc : fence_char (Some (c, n))).
    { clear -H0. remember (Some (c, n)) as e eqn:Ee.
      assert (G : forall b, fence_char b -> forall ls ks e, outside p b ls ks e -> fence_char e).
      { intros b Hb ls ks e' H. revert Hb. induction H; intros Hb; auto; apply IHoutside; auto; [eapply opens_char; eauto|exact I]. }
      eapply (G None I); eassumption. }
    destruct (closing_dec p la c n Hfc) as [Hc|Hc].
    + exists ks. eapply ex_normal; [exact H|]. right. left. intros (pre' & la' & ks1 & c1 & n1 & E' & A & B).
      rewrite E in E'. apply app_inj_tail in E' as (<- & <-). destruct (outside_fun _ _ _ _ _ H0 _ _ A) as (_ & G). injection G as <- <-. contradiction.
    + destruct (Nat.le_gt_cases (leading 32 la) 3) as [Hs|Hs].
      * exists (ks0 ++ [la]). rewrite E. eapply ex_quirk; eauto. apply small_indent_iff. exact Hs.
      * exists ks. eapply ex_normal; [exact H|]. right. right. exists pre, la. split; [exact E|]. rewrite small_indent_iff. lia.
  - exists ks. eapply ex_normal; [exact H|]. right. left. intros (pre' & la' & ks1 & c1 & n1 & E' & A & B).
    rewrite E in E'. apply app_inj_tail in E' as (<- & <-). destruct (outside_fun _ _ _ _ _ H0 _ _ A) as (_ & G). discriminate.
Qed.

(** ** One step *)
Definition look_step (E : env) (o : opts) (ordered : bool) (m : str) (line : str) (st : state) : res state :=
  do '(hs, d) <- get_md_header E (o_parser o) (o_keep o) (o_no_links o) (t_dups st) line;
  let st := set_dups st d in
  match hs with
  | [] => Err IndexError
  | None :: _ => Ok st
  | Some h :: _ => if hd_visible h then add_header o ordered m st h else Ok st
  end.

Definition good (E : env) (o : opts) (ordered : bool) (m : str) (seen : list str) (hist : list (nat * nat)) (st : state) : Prop :=
  inv o ordered m hist st /\ dups_ok (o_parser o) E seen (t_dups st).

Lemma good_fence E o ordered m seen hist st i f :
  good E o ordered m seen hist st -> good E o ordered m seen hist (set_fence st i f).
Proof. intros ([Il Ip If It Ig] & D). split; [constructor; assumption|exact D]. Qed.
Lemma good_end E o ordered m seen hist st :
  good E o ordered m seen hist st -> good E o ordered m seen hist (set_end st).
Proof. intros ([Il Ip If It Ig] & D). split; [constructor; assumption|exact D]. Qed.

Lemma look_step_spec E o ordered m seen hist line st :
  known_parser (o_parser o) -> (1 <= o_keep o)%Z -> (ordered = true -> sin m (closing_markers (o_parser o)) = true) ->
  file_line line -> good E o ordered m seen hist st ->
  match line_heading E (o_parser o) (o_no_links o) line with
  | Err e => look_step E o ordered m line st = Err e
  | Ok None => exists st', look_step E o ordered m line st = Ok st' /\ t_toc st' = t_toc st
      /\ good E o ordered m seen hist st' /\ t_in st' = t_in st /\ t_fence st' = t_fence st /\ t_end st' = t_end st
  | Ok (Some f) =>
      (cm_family (o_parser o) = true -> no_collision E (seen ++ [f_slug f])) ->
      if listed (o_parser o) (o_keep o) (f_level f) then
        match entry_line o ordered m hist (f_level f) (f_text f) (anchor_of (o_parser o) (f_slug f) seen) with
        | Err e => look_step E o ordered m line st = Err e
        | Ok s => exists st', look_step E o ordered m line st = Ok st' /\ t_toc st' = t_toc st ++ [s]
            /\ good E o ordered m (seen ++ [f_slug f])
                 ((f_level f, length (entry_marker o ordered m hist (f_level f))) :: hist) st'
            /\ t_in st' = t_in st /\ t_fence st' = t_fence st /\ t_end st' = t_end st
        end
      else exists st', look_step E o ordered m line st = Ok st' /\ t_toc st' = t_toc st
            /\ good E o ordered m (seen ++ [f_slug f]) hist st' /\ t_in st' = t_in st /\ t_fence st' = t_fence st /\ t_end st' = t_end st
  end.
Proof.
  intros Hp Hk Hm Hl (HI & HD). unfold look_step.
  pose proof (md_header_line E (o_parser o) (o_keep o) (o_no_links o) (t_dups st) line seen Hp Hk Hl HD) as G.
  destruct (line_heading E (o_parser o) (o_no_links o) line) as [[f|]|e].
  - destruct G as (Hlev & G). intros Hn. destruct (G Hn) as (d' & -> & HD'). cbn [bind hd_visible].
    assert (HI' : inv o ordered m hist (set_dups st d')).
    { destruct HI; constructor; assumption. }
    destruct (listed _ _ _).
    + pose proof (add_header_spec o ordered m hist (set_dups st d')
         (mkHeader (f_level f) (f_text f) (Some (anchor_of (o_parser o) (f_slug f) seen)) true)
         (anchor_of (o_parser o) (f_slug f) seen) Hp Hm HI' Hlev eq_refl) as A.
      cbn [hd_level hd_text] in A. destruct (entry_line _ _ _ _ _ _ _) as [s|e]; [|exact A].
      destruct A as (st' & A & B & C & D & F1 & F2 & F3). exists st'. split; [exact A|]. split; [exact B|].
      split; [|auto]. split; [exact C|]. rewrite D. exact HD'.
    + eexists. split; [reflexivity|]. split; [reflexivity|]. split; [|auto]. split; assumption.
  - rewrite G. cbn [bind]. eexists. split; [reflexivity|]. split; [reflexivity|]. split; [|auto].
    split; [destruct HI; constructor; assumption|exact HD].
  - rewrite G. reflexivity.
Qed.

Definition block_state (b : block) (st : state) : Prop :=
  match b with
  | None => t_in st = false
  | Some (c, n) => t_in st = true /\ t_fence st = Some (repeat c n)
  end.

Lemma line_step_look E o ordered m line st :
  line_step E o ordered m line st =
  let '(look, inside, fence) := fence_step (o_parser o) line st in
  if look then look_step E o ordered m line (set_fence st inside fence) else Ok (set_fence st inside fence).
Proof. reflexivity. Qed.

Lemma no_collision_prefix E a b : no_collision E (a ++ b) -> no_collision E a.
Proof. intros H x y Hx Hy. apply H; apply in_or_app; auto. Qed.

Lemma look_cont E o ordered m seen hist line ks st (K : state -> res (option state)) :
  known_parser (o_parser o) -> (1 <= o_keep o)%Z -> (ordered = true -> sin m (closing_markers (o_parser o)) = true) ->
  file_line line -> good E o ordered m seen hist st ->
  (cm_family (o_parser o) = true -> no_collision E (seen ++ line_slugs E (o_parser o) (o_no_links o) (line :: ks))) ->
  (forall seen hist st', good E o ordered m seen hist st' ->
     t_in st' = t_in st -> t_fence st' = t_fence st -> t_end st' = t_end st ->
     (cm_family (o_parser o) = true -> no_collision E (seen ++ line_slugs E (o_parser o) (o_no_links o) ks)) ->
     match toc_lines E o ordered m seen hist ks with
     | Err e => K st' = Err e
     | Ok ls => exists st'', K st' = Ok (Some st'') /\ t_toc st'' = t_toc st' ++ ls
     end) ->
  match toc_lines E o ordered m seen hist (line :: ks) with
  | Err e => (do s <- look_step E o ordered m line st; K s) = Err e
  | Ok ls => exists st'', (do s <- look_step E o ordered m line st; K s) = Ok (Some st'') /\ t_toc st'' = t_toc st ++ ls
  end.
Proof.
  intros Hp Hk Hm Hl HG Hn IH.
  pose proof (look_step_spec E o ordered m seen hist line st Hp Hk Hm Hl HG) as G.
  cbn [toc_lines]. unfold line_slugs in Hn. cbn [flat_map] in Hn. fold (line_slugs E (o_parser o) (o_no_links o) ks) in Hn.
  destruct (line_heading E (o_parser o) (o_no_links o) line) as [[f|]|e].
  - specialize (G (fun H => no_collision_prefix E _ _ (eq_ind _ (no_collision E) (Hn H) _ (app_assoc _ [f_slug f] _)))).
    assert (Hn' : cm_family (o_parser o) = true -> no_collision E ((seen ++ [f_slug f]) ++ line_slugs E (o_parser o) (o_no_links o) ks)).
    { intros H. rewrite <- app_assoc. exact (Hn H). }
    destruct (listed _ _ _).
    + destruct (entry_line _ _ _ _ _ _ _) as [s|e]; [|rewrite G; reflexivity].
      destruct G as (st' & -> & T & G' & F1 & F2 & F3). cbn [bind].
      specialize (IH _ _ st' G' F1 F2 F3 Hn').
      destruct (toc_lines _ _ _ _ _ _ _) as [ls|e]; [|exact IH].
      destruct IH as (st'' & A & B). exists st''. split; [exact A|]. rewrite B, T, <- app_assoc. reflexivity.
    + destruct G as (st' & -> & T & G' & F1 & F2 & F3). cbn [bind].
      specialize (IH _ _ st' G' F1 F2 F3 Hn').
      destruct (toc_lines _ _ _ _ _ _ _) as [ls|e]; [|exact IH].
      destruct IH as (st'' & A & B). exists st''. split; [exact A|]. rewrite B, T. reflexivity.
  - destruct G as (st' & -> & T & G' & F1 & F2 & F3). cbn [bind].
    specialize (IH _ _ st' G' F1 F2 F3 Hn).
    destruct (toc_lines _ _ _ _ _ _ _) as [ls|e]; [|exact IH].
    destruct IH as (st'' & A & B). exists st''. split; [exact A|]. rewrite B, T. reflexivity.
  - rewrite G. reflexivity.
Qed.

Lemma closing_small_indent p l c n : fence_char (Some (c, n)) -> closing_fence_line p l c n -> small_indent l.
Proof.
  intros (Hc & Hn) (ind & k & tail & -> & Hi & Hk & _). exists ind, (repeat c k ++ tail).
  split; [reflexivity|]. split; [exact Hi|]. destruct k as [|k]; [lia|]. cbn. destruct Hc; subst; discriminate.
Qed.

Definition last_flag (stdin : bool) (rest : list str) : bool :=
  negb stdin && match rest with [] => true | _ => false end.
Definition mark_end (stdin : bool) (rest : list str) (st : state) : state :=
  if last_flag stdin rest then set_end st else st.
Lemma toc_loop_cons E o stdin ordered m line rest st :
  toc_loop E o stdin ordered m (line :: rest) false st =
  do st <- line_step E o ordered m line (mark_end stdin rest st); toc_loop E o stdin ordered m rest false st.
Proof. cbn [toc_loop]. destruct rest; rewrite ?andb_false_r; unfold mark_end, last_flag; rewrite ?andb_false_r; reflexivity. Qed.

Lemma mark_end_facts E o ordered m seen hist b stdin rest st :
  good E o ordered m seen hist st -> block_state b st -> t_end st = false ->
  good E o ordered m seen hist (mark_end stdin rest st) /\ block_state b (mark_end stdin rest st)
  /\ t_end (mark_end stdin rest st) = last_flag stdin rest /\ t_toc (mark_end stdin rest st) = t_toc st.
Proof.
  intros G B Te. unfold mark_end. destruct (last_flag stdin rest).
  - split; [apply good_end; exact G|]. split; [exact B|]. auto.
  - auto.
Qed.

(** ** The loop *)
Lemma toc_loop_spec E o ordered m stdin :
  known_parser (o_parser o) -> (1 <= o_keep o)%Z -> (ordered = true -> sin m (closing_markers (o_parser o)) = true) ->
  forall b lines ks, exam (o_parser o) stdin b lines ks ->
  forall seen hist st, fence_char b -> (commonmark_parser (o_parser o) \/ b = None) -> block_state b st ->
  (lines <> [] -> t_end st = false) ->
  Forall file_line lines -> good E o ordered m seen hist st ->
  (cm_family (o_parser o) = true -> no_collision E (seen ++ line_slugs E (o_parser o) (o_no_links o) ks)) ->
  match toc_lines E o ordered m seen hist ks with
  | Err e => toc_loop E o stdin ordered m lines false st = Err e
  | Ok ls => exists st', toc_loop E o stdin ordered m lines false st = Ok (Some st') /\ t_toc st' = t_toc st ++ ls
  end.
Proof.
  intros Hp Hk Hm b lines ks H.
  induction H as [b|l c n ls ks Ho H IH|l ls ks Ho H IH|l c n ls ks Hc H IH|l c n ls ks Hc Hx H IH|l c n Hc Hstd Hs];
    intros seen hist st Hfc Hcm Hb Hte Hfl HG Hn.
  - cbn. exists st. rewrite app_nil_r. auto.
  - rewrite toc_loop_cons. inversion Hfl as [|? ? Hl Hfl' Eq]; subst.
    destruct (mark_end_facts E o ordered m seen hist None stdin ls st HG Hb (Hte ltac:(discriminate))) as (HG1 & Hb1 & Te1 & Tt1).
    rewrite line_step_look. unfold fence_step. cbn [block_state] in Hb1. rewrite Hb1.
    assert (Eo : is_opening_code_fence (o_parser o) l = Some (repeat c n)).
    { destruct Ho as (Hcp & Ho). apply is_opening_iff; eauto. }
    rewrite Eo. cbn [negb orb bind].
    specialize (IH seen hist (set_fence (mark_end stdin ls st) true (Some (repeat c n)))).
    rewrite <- Tt1. apply IH.
    + eapply opens_char; eauto.
    + left. apply Ho.
    + cbn. auto.
    + intros Hne. cbn. rewrite Te1. unfold last_flag. destruct ls; [congruence|apply andb_false_r].
    + exact Hfl'.
    + apply good_fence. exact HG1.
    + exact Hn.
  - rewrite toc_loop_cons. inversion Hfl as [|? ? Hl Hfl' Eq]; subst.
    destruct (mark_end_facts E o ordered m seen hist None stdin ls st HG Hb (Hte ltac:(discriminate))) as (HG1 & Hb1 & Te1 & Tt1).
    rewrite line_step_look. unfold fence_step. cbn [block_state] in Hb1. rewrite Hb1.
    assert (Eo : is_opening_code_fence (o_parser o) l = None).
    { destruct (is_opening_code_fence (o_parser o) l) as [f|] eqn:Eo; [|reflexivity]. exfalso.
      destruct (cm_family (o_parser o)) eqn:Ecm.
      - apply cm_family_iff in Ecm. apply is_opening_iff in Eo as (c & n & -> & Eo); [|exact Ecm]. apply (Ho c n). split; assumption.
      - rewrite is_opening_other in Eo; [discriminate|]. intros G. apply cm_family_iff in G. congruence. }
    rewrite Eo. cbn [negb orb]. rewrite <- Tt1.
    change (t_toc (mark_end stdin ls st)) with (t_toc (set_fence (mark_end stdin ls st) false None)).
    apply look_cont; try assumption; [apply good_fence; exact HG1|].
    intros seen' hist' st' HG' F1 F2 F3 Hn'. apply IH; try assumption; auto.
    intros Hne. rewrite F3. cbn. rewrite Te1. unfold last_flag. destruct ls; [congruence|apply andb_false_r].
  - rewrite toc_loop_cons. inversion Hfl as [|? ? Hl Hfl' Eq]; subst.
    destruct Hcm as [Hcm|Hcm]; [|discriminate]. destruct Hfc as (Hch & H3).
    destruct (mark_end_facts E o ordered m seen hist (Some (c, n)) stdin ls st HG Hb (Hte ltac:(discriminate))) as (HG1 & (Hb1 & Hb2) & Te1 & Tt1).
    rewrite line_step_look. unfold fence_step. rewrite Hb1, Hb2.
    assert (Ec : is_closing_code_fence (o_parser o) l (repeat c n) (t_end (mark_end stdin ls st)) = true).
    { destruct (t_end (mark_end stdin ls st)).
      - apply is_closing_end; try assumption. apply (closing_small_indent (o_parser o) l c n); [split; assumption|exact Hc].
      - apply is_closing_iff; assumption. }
    rewrite Ec. cbn [negb orb].
    destruct (closing_is_opening _ _ _ _ Hch H3 Hc) as (k & Hok).
    pose proof (look_step_spec E o ordered m seen hist l (set_fence (mark_end stdin ls st) false (Some (repeat c n))) Hp Hk Hm Hl (good_fence _ _ _ _ _ _ _ _ _ HG1)) as G.
    rewrite (opening_no_heading E (o_parser o) (o_no_links o) l c k Hcm Hl Hok) in G.
    destruct G as (st' & EG & T & G' & F1 & F2 & F3).
    match goal with |- context [look_step ?a ?b ?c ?d ?e ?f] => assert (EG' : look_step a b c d e f = Ok st') by exact EG end.
    rewrite EG'. cbn [bind].
    rewrite <- Tt1. change (t_toc (mark_end stdin ls st)) with (t_toc (set_fence (mark_end stdin ls st) false (Some (repeat c n)))).
    rewrite <- T. apply IH; try assumption; auto.
    + exact I.
    + intros Hne. rewrite F3. cbn. rewrite Te1. unfold last_flag. destruct ls; [congruence|apply andb_false_r].
  - rewrite toc_loop_cons. inversion Hfl as [|? ? Hl Hfl' Eq]; subst.
    destruct Hcm as [Hcm|Hcm]; [|discriminate]. pose proof Hfc as (Hch & H3).
    destruct (mark_end_facts E o ordered m seen hist (Some (c, n)) stdin ls st HG Hb (Hte ltac:(discriminate))) as (HG1 & (Hb1 & Hb2) & Te1 & Tt1).
    rewrite line_step_look. unfold fence_step. rewrite Hb1, Hb2.
    assert (Ec : is_closing_code_fence (o_parser o) l (repeat c n) (t_end (mark_end stdin ls st)) = false).
    { rewrite Te1. apply not_true_iff_false. intros Ec. unfold last_flag in Ec.
      destruct (negb stdin && match ls with [] => true | _ => false end) eqn:Ef.
      - apply is_closing_end in Ec; try assumption. destruct Hx as [->|[Hx|Hx]]; [discriminate| |contradiction].
        destruct ls; [congruence|rewrite andb_false_r in Ef; discriminate].
      - apply is_closing_iff in Ec; try assumption. contradiction. }
    rewrite Ec. cbn [negb orb bind]. rewrite <- Tt1.
    change (t_toc (mark_end stdin ls st)) with (t_toc (set_fence (mark_end stdin ls st) true (Some (repeat c n)))).
    apply IH; try assumption; auto.
    + cbn. auto.
    + intros Hne. cbn. rewrite Te1. unfold last_flag. destruct ls; [congruence|apply andb_false_r].
    + apply good_fence. exact HG1.
  - rewrite toc_loop_cons. inversion Hfl as [|? ? Hl Hfl' Eq]; subst.
    destruct Hcm as [Hcm|Hcm]; [|discriminate]. pose proof Hfc as (Hch & H3).
    destruct (mark_end_facts E o ordered m seen hist (Some (c, n)) false [] st HG Hb (Hte ltac:(discriminate))) as (HG1 & (Hb1 & Hb2) & Te1 & Tt1).
    rewrite line_step_look. unfold fence_step. rewrite Hb1, Hb2, Te1. cbn [last_flag negb andb].
    assert (Ec : is_closing_code_fence (o_parser o) l (repeat c n) true = true) by (apply is_closing_end; assumption).
    rewrite Ec. cbn [negb orb]. rewrite <- Tt1.
    change (t_toc (mark_end false [] st)) with (t_toc (set_fence (mark_end false [] st) false (Some (repeat c n)))).
    apply look_cont; try assumption; [apply good_fence; exact HG1|].
    intros seen' hist' st' HG' F1 F2 F3 Hn'. cbn. exists st'. rewrite app_nil_r. auto.
Qed.

(** ** build_toc *)
Lemma names_stdin_model fn : names_stdin fn = is_stdin fn.
Proof.
  unfold names_stdin, is_stdin. destruct (list_eq_dec N.eq_dec fn (lit "-")) as [->|H]; [reflexivity|]. destruct (seqb fn [cDASH]) eqn:E; [|reflexivity]. apply seqb_eq in E. contradiction.
Qed.
Lemma used_marker_model o : known_parser (o_parser o) -> used_marker o =
  let m := match o_marker o with Some m => m | None => [] end in
  if used_ordered o then (if sin m (closing_markers (o_parser o)) then m else lit ".") else m.
Proof.
  intros Hp. unfold used_marker. set (m := match o_marker o with Some m => m | None => [] end). cbv zeta. destruct (used_ordered o); [|reflexivity].
  match goal with |- context[in_dec _ m ?l] => replace l with (closing_markers (o_parser o)) by (destruct (o_parser o); try reflexivity; destruct Hp; reflexivity) end.
  destruct (in_dec (list_eq_dec N.eq_dec) m (closing_markers (o_parser o))) as [Hi|Hi]; destruct (sin m (closing_markers (o_parser o))) eqn:Hs; try reflexivity; exfalso.
  - unfold sin in Hs. rewrite <- not_true_iff_false in Hs. apply Hs. apply existsb_exists. exists m. split; [exact Hi|apply seqb_refl].
  - apply Hi. unfold sin in Hs. apply existsb_exists in Hs as (x & Hx & Ex). apply seqb_eq in Ex as ->. exact Hx.
Qed.
Lemma fix_marker_used o : known_parser (o_parser o) -> fix_marker o = Ok (used_ordered o, used_marker o).
Proof.
  intros Hp. rewrite used_marker_model by exact Hp. unfold fix_marker, used_ordered.
  replace (known (o_parser o)) with true by (destruct (o_parser o); try reflexivity; destruct Hp; reflexivity).
  destruct (o_marker o) as [mk|].
  - destruct (o_ordered o); cbn [bind orb]; [|destruct (o_constant o); reflexivity].
    destruct (seqb mk (lit "-")) eqn:Es; [|reflexivity]. apply seqb_eq in Es as ->.
    destruct (o_parser o); reflexivity.
  - destruct (o_ordered o), (o_constant o); cbn [bind orb]; reflexivity.
Qed.
Lemma used_marker_closing o :
  known_parser (o_parser o) -> used_ordered o = true -> sin (used_marker o) (closing_markers (o_parser o)) = true.
Proof.
  intros Hp H. rewrite used_marker_model by exact Hp. rewrite H. set (mk := match o_marker o with Some m => m | None => [] end). cbv zeta.
  destruct (sin mk (closing_markers (o_parser o))) eqn:E; [exact E|].
  destruct (o_parser o); try reflexivity. destruct Hp; reflexivity.
Qed.

Lemma init_good E o m log :
  length log = 6 -> (forall e, In e log -> e = mkIlog 0 m 0) ->
  good E o (used_ordered o) m [] [] (init_state log).
Proof.
  intros Hlen Hall. split.
  - constructor; cbn; auto.
    + intros _ l _. reflexivity.
    + intros _. split; [exact Hlen|]. intros _. split; [exact Hlen|]. intros l Hl.
      destruct (nth_error log (l - 1)) as [e|] eqn:En; [|apply nth_error_None in En; lia].
      exists e. split; [reflexivity|]. rewrite (Hall e (nth_error_In _ _ En)). cbn. repeat split. discriminate.
  - intros _. apply counts_nil.
Qed.

Theorem build_toc_refines E o fn lines ks :
  known_parser (o_parser o) -> o_skip o = 0%Z -> (1 <= o_keep o)%Z -> Forall file_line lines ->
  examined (o_parser o) (is_stdin fn) lines ks ->
  (cm_family (o_parser o) = true -> no_collision E (line_slugs E (o_parser o) (o_no_links o) ks)) ->
  build_toc E o fn (mkDoc lines false) =
  match toc_lines E o (used_ordered o) (used_marker o) [] [] ks with Ok ls => Ok (concat ls) | Err e => Err e end.
Proof.
  intros Hp Hs Hk Hfl Hex Hn. unfold build_toc. rewrite Hs. cbn [Z.ltb Z.compare Z.to_nat skip].
  rewrite fix_marker_used by exact Hp. cbn [bind d_lines d_bad]. unfold init_indentation_log.
  replace (known (o_parser o)) with true by (destruct (o_parser o); try reflexivity; destruct Hp; reflexivity).
  cbn [bind]. set (log := repeat (mkIlog 0 (used_marker o) 0) 6).
  pose proof (toc_loop_spec E o (used_ordered o) (used_marker o) (is_stdin fn) Hp Hk (used_marker_closing o Hp)
     None lines ks (examined_exam _ _ _ _ Hex) [] [] (init_state log) I (or_intror eq_refl) eq_refl (fun _ => eq_refl) Hfl) as G.
  specialize (G (init_good E o _ log eq_refl (fun e H => repeat_spec _ _ _ H))). cbn [app] in G. specialize (G Hn).
  assert (R : (match lines with [] => fun x => x | _ :: _ => fun x => x end)
     (do r <- toc_loop E o (is_stdin fn) (used_ordered o) (used_marker o) lines false (init_state log);
        match r with None => Ok (binary_comment fn) | Some st => Ok (concat (t_toc st)) end) =
     match toc_lines E o (used_ordered o) (used_marker o) [] [] ks with Ok ls => Ok (concat ls) | Err e => Err e end).
  { destruct (toc_lines E o (used_ordered o) (used_marker o) [] [] ks) as [ls|e].
    - destruct G as (st' & G & T). rewrite G. cbn [bind]. rewrite T. destruct lines; reflexivity.
    - rewrite G. destruct lines; reflexivity. }
  destruct lines; exact R.
Qed.
