(** The first problem of a document decides what build_toc raises, and each exception needs its
    options (C19, C47). *)
From Coq Require Import String List NArith ZArith Bool Arith Lia.
From Verif Require Import Str Fence Atx HtmlRe Inlines Anchor Toc Spec EnvSpec AnchorSpec TocSpec DocSpec TableSpec EmphSpec SafeSpec AsciiEnv.
From Verif Require Import StrFacts FenceProof AtxProof LabelProof DecFacts AnchorProof TocProof TocLoop TocRun TableProof Inert PropDoc PropTable PropErrors.
Import ListNotations.
Local Open Scope list_scope.

(** ** Lines one after the other *)
Lemma toc_lines_prefix_err E o ordered m pre post e : forall seen hist,
  toc_lines E o ordered m seen hist pre = Err e -> toc_lines E o ordered m seen hist (pre ++ post) = Err e.
Proof.
  induction pre as [|l pre IH]; intros seen hist; cbn [app toc_lines]; [discriminate|].
  destruct (line_heading _ _ _ l) as [[f|]|x]; [|apply IH|exact (fun H => H)]. cbv zeta. destruct (listed _ _ _); [|apply IH].
  destruct (entry_line _ _ _ _ _ _ _) as [s|x]; [|exact (fun H => H)].
  destruct (toc_lines _ _ _ _ _ _ pre) as [ss|x] eqn:Et; [discriminate|]. intros H. injection H as ->. rewrite (IH _ _ Et). reflexivity.
Qed.
Lemma toc_lines_prefix_ok E o ordered m pre l post e : line_heading E (o_parser o) (o_no_links o) l = Err e -> forall seen hist ls,
  toc_lines E o ordered m seen hist pre = Ok ls -> toc_lines E o ordered m seen hist (pre ++ l :: post) = Err e.
Proof.
  intros He. induction pre as [|k pre IH]; intros seen hist ls; cbn [app toc_lines]; [rewrite He; reflexivity|].
  destruct (line_heading _ _ _ k) as [[f|]|x]; [|apply IH|discriminate]. cbv zeta. destruct (listed _ _ _); [|apply IH].
  destruct (entry_line _ _ _ _ _ _ _) as [s|x]; [|discriminate].
  destruct (toc_lines _ _ _ _ _ _ pre) as [ss|x] eqn:Et; [|discriminate]. intros _. rewrite (IH _ _ _ Et). reflexivity.
Qed.
(** The lines up to some point can be read.  If their levels are not coherent, nothing after them
    matters.  Otherwise, if the next line raises, that is what is raised. *)
Theorem C19_first_problem : forall E o fn lines pre post hs,
  applies E o fn lines (pre ++ post) -> headings E (o_parser o) (o_no_links o) pre hs ->
  (used_ordered o = true \/ In (used_marker o) [lit "-"; lit "+"; lit "*"]) ->
  (Z.of_nat (length (entries (o_parser o) (o_keep o) hs)) <= 999999999)%Z ->
  let checked := o_no_indentation o = false /\ o_no_list_coherence o = false in
  let fine := coherent (levels (entries (o_parser o) (o_keep o) hs)) in
  (checked -> ~ fine -> build_toc E o fn (mkDoc lines false) = Err TocDoesNotRenderAsCoherentList)
  /\ ((checked -> fine) -> forall l rest e, post = l :: rest -> line_heading E (o_parser o) (o_no_links o) l = Err e ->
        build_toc E o fn (mkDoc lines false) = Err e).
Proof.
  intros E o fn lines pre post hs Ha Hh Hm Hov checked fine. rewrite (applies_toc _ _ _ _ _ Ha). destruct Ha as (Hp & _).
  pose proof (toc_lines_rows E o (used_ordered o) (used_marker o) pre hs Hh [] []) as R. fold (entries (o_parser o) (o_keep o) hs) in R. split.
  - intros (Hi & Hn) Hc. unfold fine in Hc. rewrite coherent_iff in Hc. rewrite rows_reject in R; auto; [|apply overflow_free; exact Hov].
    rewrite (toc_lines_prefix_err _ _ _ _ _ _ _ _ _ R). reflexivity.
  - intros Hc l rest e -> Hl.
    destruct (rows_accept o (entries (o_parser o) (o_keep o) hs) [] Hp Hm (overflow_free _ _ Hov)) as (ls & Hr).
    + destruct (o_no_indentation o) eqn:Ei; [auto|]. destruct (o_no_list_coherence o) eqn:En; [auto|]. right. right. apply coherent_iff, Hc. split; auto.
    + rewrite Hr in R. rewrite (toc_lines_prefix_ok _ _ _ _ _ _ _ _ Hl _ _ _ R). reflexivity.
Qed.
Print Assumptions C19_first_problem.

(** ** Which options an exception needs *)
Definition needs (o : opts) (e : exn) : Prop :=
  match e with
  | TocDoesNotRenderAsCoherentList => o_no_indentation o = false /\ o_no_list_coherence o = false
  | GithubOverflowOrderedListMarker => used_ordered o = true /\ o_constant o = false /\ In (o_parser o) [Github; Cmark; Gitlab; Commonmarker]
  | GithubEmptyLinkLabel | GithubOverflowCharsLinkLabel => o_no_links o = false /\ o_parser o <> Redcarpet
  | _ => True
  end.
Definition fit {A} (o : opts) (r : res A) : Prop := match r with Err e => needs o e | Ok _ => True end.
Lemma fit_bind {A B} o (r : res A) (f : A -> res B) : fit o r -> (forall a, fit o (f a)) -> fit o (bind r f).
Proof. intros H K. destruct r; [apply K|exact H]. Qed.
Lemma fit_log_get o l i : fit o (log_get l i).
Proof. unfold log_get. destruct (i <? 1)%Z; [exact I|]. destruct (nth_error _ _); exact I. Qed.
Lemma fit_log_upd o l i f : fit o (log_upd l i f).
Proof. apply fit_bind; [apply fit_log_get|intros; exact I]. Qed.
Lemma fit_indentation o p ordered m log curr prev index : fit o (compute_indentation p ordered m log curr prev index).
Proof.
  unfold compute_indentation. destruct (curr <? 1)%Z; [exact I|]. destruct (prev <? 0)%Z; [exact I|]. destruct (_ && _); [exact I|]. destruct (index <? 1)%Z; [exact I|].
  destruct (negb _); [exact I|]. destruct (cm_family p).
  - apply fit_bind; [destruct (_ && _); [apply fit_bind; [apply fit_log_get|intros; exact I]|exact I]|]. intros n. apply fit_bind.
    + destruct (prev =? 0)%Z; [apply fit_log_upd|]. destruct (prev <? curr)%Z; [apply fit_bind; [apply fit_log_get|intros; apply fit_log_upd]|]. destruct (curr <? prev)%Z; exact I.
    + intros l. apply fit_bind; [destruct ordered; [apply fit_log_upd|exact I]|intros; apply fit_log_upd].
  - destruct p; try exact I. apply fit_log_upd.
Qed.
Lemma fit_add_header o m st h : fit o (add_header o (used_ordered o) m st h).
Proof.
  unfold add_header. cbv zeta. apply fit_bind.
  - destruct (used_ordered o && negb (o_constant o)) eqn:Eo; [|exact I]. apply andb_true_iff in Eo as (Eo & Ec). apply negb_true_iff in Ec.
    apply fit_bind; [|intros; exact I]. unfold increase_index. destruct (_ <? 0)%Z; [exact I|]. destruct (_ <? 1)%Z; [exact I|]. cbv zeta.
    destruct (limits_index (o_parser o)) eqn:El; [|exact I]. destruct (_ <? _)%Z; [|exact I]. cbn. split; [exact Eo|]. split; [exact Ec|]. destruct (o_parser o); try discriminate El; cbn; auto.
  - intros (t & i). apply fit_bind.
    + destruct (o_no_indentation o) eqn:Ei; [exact I|]. apply fit_bind.
      * destruct (o_no_list_coherence o) eqn:En; [exact I|]. cbv zeta. destruct (_ || _); [cbn; auto|exact I].
      * intros (f & pv). apply fit_bind; [apply fit_indentation|]. intros l. apply fit_bind; [apply fit_log_get|intros; exact I].
    + intros ((f & l) & s). apply fit_bind.
      * unfold toc_line_no_indent. destruct (_ <? 1)%Z; [exact I|]. destruct (i <? 1)%Z; [exact I|]. destruct (negb _); [exact I|]. destruct (known _); [|exact I].
        cbv zeta. apply fit_bind; [destruct (o_no_links o); [exact I|]; destruct (hd_anchor h); exact I|intros; exact I].
      * intros [line|]; [|exact I]. apply fit_bind; [unfold build_toc_line; destruct (_ <? 0)%Z; exact I|intros; exact I].
Qed.
Lemma fit_md_header E o d line : known_parser (o_parser o) -> file_line line -> fit o (get_md_header E (o_parser o) (o_keep o) (o_no_links o) d line).
Proof.
  intros Hp Hl. destruct (Z.ltb_spec (o_keep o) 1) as [Hk|Hk].
  { unfold get_md_header, get_atx_heading. destruct (Z.ltb_spec (o_keep o) 1); [exact I|lia]. }
  unfold get_md_header. destruct (get_atx_heading (o_parser o) (o_keep o) (o_no_links o) line) as [l|e] eqn:G; cbn [bind].
  - destruct (header_shape _ _ _ line l Hp Hk Hl G) as [->|(h & -> & Hh)]; cbn [md_headers bind]; [exact I|].
    destruct (build_anchor_link E (o_parser o) d (h_text h)) as [(a & d1)|e] eqn:B; cbn [bind]; [exact I|].
    cbn [fit]. assert (Ht : single_line (h_text h)) by (eapply heading_text_single; [exact G|left; reflexivity]).
    destruct (anchor_known_errors E (o_parser o) d (h_text h) e Hp Ht B) as [->|[->| ->]]; exact I.
  - destruct (get_atx_errors _ _ _ line e Hp Hk Hl G) as (L & N0). destruct L as [->| ->]; cbn; (split; [exact N0|]); intros Hr; rewrite Hr in G; destruct (file_line_split line Hl) as (s & k & Hs & -> & Hne);
      rewrite get_atx_redcarpet in G by (assumption || lia); discriminate.
Qed.
Lemma fit_line_step E o m line st : known_parser (o_parser o) -> file_line line -> fit o (line_step E o (used_ordered o) m line st).
Proof.
  intros Hp Hl. unfold line_step. destruct (fence_step _ _ _) as ((look & inside) & fence). cbv zeta. destruct look; [|exact I].
  apply fit_bind; [apply fit_md_header; assumption|]. intros (hs & d). destruct hs as [|[h|] hs]; [exact I| |exact I]. destruct (hd_visible h); [apply fit_add_header|exact I].
Qed.
Lemma fit_toc_loop E o stdin m bad lines : known_parser (o_parser o) -> Forall file_line lines -> forall st, fit o (toc_loop E o stdin (used_ordered o) m lines bad st).
Proof.
  intros Hp Hf. induction Hf as [|l ls Hl Hf IH]; intros st; cbn [toc_loop]; [exact I|]. destruct (_ && _); [exact I|]. cbv zeta. apply fit_bind; [apply fit_line_step; assumption|exact IH].
Qed.
Lemma skip_fits o n : forall d, Forall file_line (d_lines d) -> fit o (skip n d) /\ forall d', skip n d = Ok d' -> Forall file_line (d_lines d').
Proof.
  induction n as [|n IH]; intros d Hf; cbn [skip]; [split; [exact I|intros d' H; injection H as <-; exact Hf]|].
  destruct (d_lines d) as [|l ls] eqn:Ed.
  - destruct (d_bad d); [split; [exact I|discriminate]|]. split; [exact I|]. intros d' H. injection H as <-. rewrite Ed. constructor.
  - apply IH. inversion Hf; assumption.
Qed.
(** Each of the documented exceptions needs the options its documentation ties it to: the
    incoherent list with both the indentation and the coherence check, the overflowing number with
    a numbered list of one of the four parsers, the link label with links, and not for redcarpet. *)
Theorem C47_errors_need_options : forall E o fn d e, known_parser (o_parser o) -> Forall file_line (d_lines d) ->
  build_toc E o fn d = Err e ->
  (e = TocDoesNotRenderAsCoherentList -> o_no_indentation o = false /\ o_no_list_coherence o = false)
  /\ (e = GithubOverflowOrderedListMarker -> o_ordered o = true /\ o_constant o = false /\ In (o_parser o) [Github; Cmark; Gitlab; Commonmarker])
  /\ (e = GithubEmptyLinkLabel \/ e = GithubOverflowCharsLinkLabel -> o_no_links o = false /\ In (o_parser o) [Github; Cmark; Gitlab; Commonmarker; Goldmark]).
Proof.
  intros E o fn d e Hp Hf H. assert (N0 : needs o e).
  { assert (G : fit o (build_toc E o fn d)); [|rewrite H in G; exact G]. unfold build_toc. destruct (_ <? 0)%Z; [exact I|].
    destruct (fix_marker_ok o Hp) as (ordered & m & Hm & _). assert (ordered = used_ordered o) as -> by (unfold fix_marker in Hm; rewrite (known_true _ Hp) in Hm; unfold used_ordered; destruct (o_ordered o), (o_constant o); cbn in Hm; injection Hm as <- _; reflexivity). rewrite Hm. cbn [bind].
    destruct (skip_fits o (Z.to_nat (o_skip o)) d Hf) as (S & S2). destruct (skip _ d) as [d'|x] eqn:Es; [|exact S]. cbn [bind]. specialize (S2 d' eq_refl).
    assert (K : fit o (do log <- init_indentation_log (o_parser o) m; do r <- toc_loop E o (is_stdin fn) (used_ordered o) m (d_lines d') (d_bad d') (init_state log);
        match r with None => Ok (binary_comment fn) | Some st => Ok (concat (t_toc st)) end)).
    { apply fit_bind; [unfold init_indentation_log; destruct (known _); exact I|]. intros log. apply fit_bind; [apply fit_toc_loop; assumption|]. intros [st|]; exact I. }
    destruct (d_lines d') as [|l ls]; [destruct (d_bad d'); [exact I|exact K]|exact K]. }
  split; [intros ->; exact N0|]. split.
  - intros ->. destruct N0 as (A & B & C). unfold used_ordered in A. rewrite B, orb_false_r in A. auto.
  - intros [->| ->]; destruct N0 as (A & B); (split; [exact A|]); unfold known_parser in Hp; destruct (o_parser o); cbn; try tauto; congruence.
Qed.
Print Assumptions C47_errors_need_options.
(** The two orders of the same problems give the two exceptions. *)
Definition doc_jump : list str := [ln "# a"; ln "### c"].
Definition doc_empty : list str := [ln "# "; ln "# z"].
Example C19_first_problem_ex :
  (applies ascii_env (opts1 false Github) (lit "f.md") (doc_jump ++ doc_empty) (doc_jump ++ doc_empty)
   /\ exists hs, headings ascii_env Github false doc_jump hs /\ ~ coherent (levels (entries Github 3 hs)))
  /\ build_toc ascii_env (opts1 false Github) (lit "f.md") (mkDoc (doc_jump ++ doc_empty) false) = Err TocDoesNotRenderAsCoherentList
  /\ build_toc ascii_env (opts1 false Github) (lit "f.md") (mkDoc ([ln "# a"] ++ doc_empty ++ doc_jump) false) = Err GithubEmptyLinkLabel
  /\ line_heading ascii_env Github false (ln "# ") = Err GithubEmptyLinkLabel.
Proof.
  split; [|vm_compute; repeat split; reflexivity]. assert (O : outside Github None (doc_jump ++ doc_empty) (doc_jump ++ doc_empty) None).
  { cbn [app doc_jump doc_empty]. repeat (apply out_text; [apply not_opens; [reflexivity|vm_compute; reflexivity]|]); constructor. }
  split.
  - split; [discriminate|]. split; [reflexivity|]. split; [cbn; lia|]. split; [repeat (constructor; [fln|]); constructor|]. split.
    + eapply ex_normal; [exact O|]. right. left. eapply ends_none. exact O.
    + intros _. apply distinct_sha_ok. vm_compute. reflexivity.
  - eexists. split; [eapply hs_heading; [vm_compute; reflexivity|]; eapply hs_heading; [vm_compute; reflexivity|]; constructor|].
    intros H. specialize (H [1] 3 [] eq_refl). cbn in H. assert (1 <= 3 <= 2) by (apply H; discriminate). lia.
Qed.
(** Each exception is raised with its options and not without them. *)
Example C47_errors_need_options_ex :
  Forall file_line (doc_jump ++ doc_empty)
  /\ build_toc ascii_env (opts1 false Github) (lit "f.md") (mkDoc doc_jump false) = Err TocDoesNotRenderAsCoherentList
  /\ build_toc ascii_env (with_no_indentation (opts1 false Github) true) (lit "f.md") (mkDoc doc_jump false) = Ok (ln "- [a](#a)" ++ ln "- [c](#c)")
  /\ build_toc ascii_env (opts1 false Github) (lit "f.md") (mkDoc doc_empty false) = Err GithubEmptyLinkLabel
  /\ build_toc ascii_env (opts1 false Redcarpet) (lit "f.md") (mkDoc doc_empty false) = Ok (ln "- [z](#z)").
Proof. split; [repeat (constructor; [fln|]); constructor|vm_compute; repeat split; reflexivity]. Qed.
