(** Properties of the newline string: C48. *)
From Coq Require Import String List NArith ZArith Bool Arith Lia.
From Verif Require Import Str StrFacts Spec EnvSpec DecFacts Fence Atx Anchor Toc Write AnchorSpec TocSpec DocSpec TableSpec WriteSpec AsciiEnv.
From Verif Require Import AtxProof LabelProof AnchorProof TocProof TocLoop TableProof PropTable WriteProof WriteLoop Inert.
Import ListNotations.
Local Open Scope list_scope.

(** Rows, each ended by [nl]. *)
Definition ended (nl : str) (rows : list str) : str := concat (map (fun r => r ++ nl) rows).

Definition nl_state (nl : str) (st : state) : state :=
  mkState (map (fun r => r ++ nl) (t_toc st)) (t_types st) (t_prev st) (t_first st) (t_dups st) (t_log st) (t_in st) (t_fence st) (t_end st).
Definition nl_res (nl : str) (r : res state) : res state := match r with Ok s => Ok (nl_state nl s) | Err e => Err e end.

Lemma add_header_nl o nl ordered m st h : add_header (with_newline o nl) ordered m (nl_state nl st) h = nl_res nl (add_header (with_newline o []) ordered m st h).
Proof.
  unfold add_header. cbn [with_newline o_parser o_constant o_no_indentation o_no_list_coherence o_no_links o_newline nl_state t_types t_prev t_first t_log t_toc t_dups t_in t_fence t_end].
  match goal with |- context [bind ?a _] => destruct a as [(types & index)|]; cbn [bind]; [|reflexivity] end.
  match goal with |- context [bind ?a _] => destruct a as [((first & log) & spaces)|]; cbn [bind]; [|reflexivity] end.
  match goal with |- context [bind ?a _] => destruct a as [[line|]|]; cbn [bind]; [|reflexivity|reflexivity] end.
  destruct (build_toc_line line spaces) as [t|]; cbn [bind nl_res]; [|reflexivity]. unfold nl_state. cbn [t_types t_prev t_first t_log t_toc t_dups t_in t_fence t_end]. rewrite map_app. cbn [map]. rewrite app_nil_r. reflexivity.
Qed.
Lemma line_step_nl E o nl ordered m line st : line_step E (with_newline o nl) ordered m line (nl_state nl st) = nl_res nl (line_step E (with_newline o []) ordered m line st).
Proof.
  unfold line_step. cbn [with_newline o_parser o_keep o_no_links].
  change (fence_step (o_parser o) line (nl_state nl st)) with (fence_step (o_parser o) line st).
  destruct (fence_step (o_parser o) line st) as ((look & inside) & fence). destruct look; [|reflexivity].
  change (t_dups (set_fence (nl_state nl st) inside fence)) with (t_dups (set_fence st inside fence)).
  destruct (get_md_header E (o_parser o) (o_keep o) (o_no_links o) (t_dups (set_fence st inside fence)) line) as [(hs & d)|]; cbn [bind]; [|reflexivity].
  destruct hs as [|[h|] hs]; [reflexivity| |reflexivity]. destruct (hd_visible h); [|reflexivity].
  change (set_dups (set_fence (nl_state nl st) inside fence) d) with (nl_state nl (set_dups (set_fence st inside fence) d)). apply add_header_nl.
Qed.
Lemma toc_loop_nl E o nl stdin ordered m bad : forall lines st,
  toc_loop E (with_newline o nl) stdin ordered m lines bad (nl_state nl st)
  = match toc_loop E (with_newline o []) stdin ordered m lines bad st with Ok (Some s) => Ok (Some (nl_state nl s)) | Ok None => Ok None | Err e => Err e end.
Proof.
  induction lines as [|line rest IH]; intros st; cbn [toc_loop]; [destruct bad; reflexivity|].
  match goal with |- context [if ?c then Ok None else _] => destruct c; [reflexivity|] end.
  match goal with |- context [if ?c then set_end st else st] => set (b := c) end.
  replace (if b then set_end (nl_state nl st) else nl_state nl st) with (nl_state nl (if b then set_end st else st)) by (destruct b; reflexivity).
  rewrite line_step_nl. destruct (line_step E (with_newline o []) ordered m line _) as [s|]; cbn [nl_res bind]; [|reflexivity]. apply IH.
Qed.
Lemma build_toc_nl E o fn d :
  (exists e, forall nl, build_toc E (with_newline o nl) fn d = Err e)
  \/ (forall nl, build_toc E (with_newline o nl) fn d = Ok (binary_comment fn))
  \/ (exists rows, forall nl, build_toc E (with_newline o nl) fn d = Ok (ended nl rows)).
Proof.
  unfold build_toc. cbn [with_newline o_skip o_parser].
  destruct (_ <? 0)%Z; [left; eauto|].
  assert (F : forall nl, fix_marker (with_newline o nl) = fix_marker o) by reflexivity.
  destruct (fix_marker o) as [(ordered & m)|e] eqn:Ef; [|left; exists e; intros; rewrite F; reflexivity].
  destruct (skip _ d) as [d'|e] eqn:Es; [|left; exists e; intros; rewrite F; reflexivity].
  assert (G : (exists e, forall nl, (do log <- init_indentation_log (o_parser o) m;
        do r <- toc_loop E (with_newline o nl) (is_stdin fn) ordered m (d_lines d') (d_bad d') (init_state log);
        match r with None => Ok (binary_comment fn) | Some st => Ok (concat (t_toc st)) end) = Err e)
     \/ (forall nl, (do log <- init_indentation_log (o_parser o) m;
        do r <- toc_loop E (with_newline o nl) (is_stdin fn) ordered m (d_lines d') (d_bad d') (init_state log);
        match r with None => Ok (binary_comment fn) | Some st => Ok (concat (t_toc st)) end) = Ok (binary_comment fn))
     \/ (exists rows, forall nl, (do log <- init_indentation_log (o_parser o) m;
        do r <- toc_loop E (with_newline o nl) (is_stdin fn) ordered m (d_lines d') (d_bad d') (init_state log);
        match r with None => Ok (binary_comment fn) | Some st => Ok (concat (t_toc st)) end) = Ok (ended nl rows))).
  { destruct (init_indentation_log (o_parser o) m) as [log|e]; cbn [bind]; [|left; eauto].
    assert (L : forall nl, toc_loop E (with_newline o nl) (is_stdin fn) ordered m (d_lines d') (d_bad d') (init_state log)
      = match toc_loop E (with_newline o []) (is_stdin fn) ordered m (d_lines d') (d_bad d') (init_state log) with Ok (Some s) => Ok (Some (nl_state nl s)) | Ok None => Ok None | Err e => Err e end).
    { intros nl'. rewrite <- toc_loop_nl. reflexivity. }
    destruct (toc_loop E (with_newline o []) (is_stdin fn) ordered m (d_lines d') (d_bad d') (init_state log)) as [[s|]|e].
    - right. right. exists (t_toc s). intros nl'. rewrite L. reflexivity.
    - right. left. intros nl'. rewrite L. reflexivity.
    - left. exists e. intros nl'. rewrite L. reflexivity. }
  destruct (d_lines d') as [|l ls] eqn:El; destruct (d_bad d') eqn:Ed.
  - right. left. intros nl'. rewrite F. cbn [bind]. rewrite El, Ed. reflexivity.
  - destruct G as [(e & G)|[G|(rows & G)]]; [left; exists e|right; left|right; right; exists rows]; intros nl'; rewrite F; cbn [bind]; rewrite El, Ed; apply G.
  - destruct G as [(e & G)|[G|(rows & G)]]; [left; exists e|right; left|right; right; exists rows]; intros nl'; rewrite F; cbn [bind]; rewrite El, Ed; apply G.
  - destruct G as [(e & G)|[G|(rows & G)]]; [left; exists e|right; left|right; right; exists rows]; intros nl'; rewrite F; cbn [bind]; rewrite El, Ed; apply G.
Qed.

(** C48: the newline string decides nothing but how the rows end. *)
Theorem C48_newline_ends_the_rows : forall E o fn d,
  (exists e, forall nl, build_toc E (with_newline o nl) fn d = Err e)
  \/ (forall nl, build_toc E (with_newline o nl) fn d = Ok (lit "<!--stop reading " ++ fn ++ lit ": probably a binary file-->"))
  \/ (exists rows, forall nl, build_toc E (with_newline o nl) fn d = Ok (concat (map (fun r => r ++ nl) rows))).
Proof. intros E o fn d. exact (build_toc_nl E o fn d). Qed.
Print Assumptions C48_newline_ends_the_rows.

Fixpoint row_texts (o : opts) (es : list entry) (cols nums : list nat) : list str :=
  match es, cols, nums with
  | e :: es', c :: cols', n :: nums' => row_text o e c n :: row_texts o es' cols' nums'
  | _, _, _ => []
  end.
Lemma table_ended o es : forall cols nums, table o es cols nums = ended (o_newline o) (row_texts o es cols nums).
Proof.
  induction es as [|e es IH]; intros [|c cols] [|n nums]; cbn; try reflexivity. rewrite IH. unfold row, row_text, ended. rewrite <- !app_assoc. reflexivity.
Qed.
Lemma row_texts_in o es : forall cols nums r, In r (row_texts o es cols nums) -> exists e c n, In e es /\ r = row_text o e c n.
Proof.
  induction es as [|e es IH]; intros [|c cols] [|n nums] r; cbn; try tauto. intros [<-|H]; [eauto 10|]. destruct (IH _ _ _ H) as (e' & c' & n' & A & B). eauto 10.
Qed.
Lemma row_texts_newline o nl es : forall cols nums, row_texts (with_newline o nl) es cols nums = row_texts o es cols nums.
Proof. induction es as [|e es IH]; intros [|c cols] [|n nums]; cbn; try reflexivity. rewrite IH. reflexivity. Qed.
Lemma cols_newline o nl ordered m ls : forall hist, cols_of (with_newline o nl) ordered m hist ls = cols_of o ordered m hist ls.
Proof. induction ls as [|l ls IH]; intros hist; [reflexivity|]. cbn [cols_of]. rewrite IH. reflexivity. Qed.
Lemma nums_newline o nl ordered m ls : forall hist, nums_of (with_newline o nl) ordered m hist ls = nums_of o ordered m hist ls.
Proof. induction ls as [|l ls IH]; intros hist; [reflexivity|]. cbn [nums_of]. rewrite IH. reflexivity. Qed.
Lemma applies_newline E o nl fn lines ks : applies E o fn lines ks -> applies E (with_newline o nl) fn lines ks.
Proof. intros H. exact H. Qed.
Lemma with_newline_same o : with_newline o (o_newline o) = o.
Proof. destruct o. reflexivity. Qed.

(** No row contains a line end of its own. *)
Theorem C48_rows_are_single_lines : forall E o fn lines ks t,
  word_ascii E -> applies E o fn lines ks -> build_toc E o fn (mkDoc lines false) = Ok t ->
  exists rows, Forall single_line rows /\ forall nl, build_toc E (with_newline o nl) fn (mkDoc lines false) = Ok (concat (map (fun r => r ++ nl) rows)).
Proof.
  intros E o fn lines ks t Hw Ha H.
  assert (Hall : forall nl, exists t', build_toc E (with_newline o nl) fn (mkDoc lines false) = Ok t').
  { intros nl. destruct (build_toc_nl E o fn (mkDoc lines false)) as [(e & G)|[G|(rows & G)]]; [|eauto|eauto].
    specialize (G (o_newline o)). rewrite with_newline_same in G. congruence. }
  destruct (applies_table _ _ _ _ _ _ Ha H) as (hs & ls & Hh & Hrows & (_ & _ & Ht)).
  pose proof (entries_single E _ _ _ _ (o_keep o) Hw Hh) as Hs. assert (Hp : known_parser (o_parser o)) by apply Ha.
  set (es := entries (o_parser o) (o_keep o) hs) in *.
  exists (row_texts o es (cols_of o (used_ordered o) (used_marker o) [] (levels es)) (nums_of o (used_ordered o) (used_marker o) [] (levels es))). split.
  - apply Forall_forall. intros r Hr. destruct (row_texts_in _ _ _ _ _ Hr) as (e & c & n & He & ->). rewrite Forall_forall in Hs. destruct (Hs e He).
    apply row_text_single; try assumption. apply (rows_valid o es ls Hp Hrows). intros X. rewrite X in He. destruct He.
  - intros nl. destruct (Hall nl) as (t' & Ht'). rewrite Ht'. f_equal.
    destruct (applies_table _ _ _ _ _ _ (applies_newline E o nl fn lines ks Ha) Ht') as (hs' & ls' & Hh' & _ & (_ & _ & Ht2)).
    rewrite <- (headings_fun _ _ _ _ _ Hh _ Hh') in Ht2. rewrite Ht2, table_ended, row_texts_newline, cols_newline, nums_newline. reflexivity.
Qed.
Print Assumptions C48_rows_are_single_lines.
Lemma ended_normalized nl rows : line_end nl -> Forall single_line rows -> normalized (ended nl rows) (ended [10%N] rows).
Proof.
  intros Hnl. induction 1 as [|r rows (H1 & H2) F IH]; [constructor|]. unfold ended in *. cbn [map concat]. rewrite <- !app_assoc.
  apply normalized_app; [rewrite <- (universal_id r) at 2 by exact H2; apply normalized_universal| |left; intros X; apply H2; exact (hd_rev_in _ _ X)].
  destruct Hnl as [<-|[<-|[]]]; [cbn [app]; constructor; [discriminate|exact IH]|]. cbn [app]. constructor. exact IH.
Qed.
Example C48_ex :
  applies ascii_env (opts1 true Github) (lit "f.md") doc1 doc1
  /\ build_toc ascii_env (with_newline (opts1 true Github) [13; 10]%N) (lit "f.md") (mkDoc doc1 false)
     = Ok (ended [13; 10]%N [lit "1. [One](#one)"; lit "   1. [Two](#two)"; lit "   2. [Two](#two-1)"; lit "      1. [Deep](#deep)"; lit "2. [Last](#last)"]).
Proof. split; [apply doc1_applies; reflexivity|vm_compute; reflexivity]. Qed.
