(** The anchor of a text with tags and emphasis (C56). *)
From Coq Require Import String List NArith ZArith Bool Arith Lia Permutation.
From Verif Require Import Str Regex HtmlRe Atx Entity Inlines Anchor Toc Spec EnvSpec AnchorSpec TocSpec HelperSpec EmphSpec DelimSpec LinkSpec SafeSpec PlainSpec
  StrFacts AnchorProof AsciiEnv InlineRead InlinePair InlineLink PropPairs PropAnchor PropEmphasis PropLinks PropHtml PropErrors PropPlain.
From Verif Require HtmlSpec.
Import ListNotations.
Local Open Scope list_scope.

(** No underscore run is used both ways; of stars nothing is seen in an anchor. *)
Lemma without_same (f : N -> bool) out : f 42%N = false -> Forall sound out -> (forall r, In r out -> r_char r = 95%N -> r_closed r = 0 \/ r_opened r = 0) -> forall ts p pre, Forall solid ts ->
  (forall r, In r out -> In (shape r) (pre ++ spots p ts)) -> Forall (fun x => fst (fst x) < p) pre ->
  Forall (fun t => match t with Piece (Marks c _) => delimiter c | _ => True end) ts ->
  filter f (without leaves out p ts) = filter f (without r_left out p ts).
Proof.
  intros Hf So Ow. induction ts as [|t ts IH]; intros p pre Hs Hin Hpre Hd; [reflexivity|]. inversion Hs as [|? ? Ht Hs']; subst. inversion Hd as [|? ? Hc Hd']; subst.
  assert (Text : spots p (t :: ts) = spots (p + length (spelt t)) ts -> filter f (spelt t ++ without leaves out (p + length (spelt t)) ts) = filter f (spelt t ++ without r_left out (p + length (spelt t)) ts)).
  { intros Es. rewrite Es in Hin. rewrite !filter_app. f_equal. apply (IH _ pre); try assumption. eapply Forall_impl; [|exact Hpre]. cbn. intros. lia. }
  destruct t as [[w|c|n w|c n]| | | |d|n| |w| |x0]; cbn [without]; try (apply Text; reflexivity). clear Text. cbn [spots solid] in *.
  rewrite !filter_app. f_equal.
  - destruct Hc as [->| ->].
    + assert (Z : forall m, filter f (repeat 42%N m) = []) by (induction m as [|m IHm]; [reflexivity|]; cbn; rewrite Hf; exact IHm). rewrite !Z. reflexivity.
    + f_equal. f_equal. unfold kept. destruct (find _ out) as [r|] eqn:Fd; [|reflexivity]. apply List.find_some in Fd as (Hr & Hst). apply Nat.eqb_eq in Hst.
      rewrite Forall_forall in So, Hpre. apply leaves_left; [apply So; exact Hr|]. assert (Ec : r_char r = 95%N).
      { specialize (Hin r Hr). apply in_app_or in Hin as [X|[X|X]]; [specialize (Hpre _ X); cbn in Hpre; lia|unfold shape in X; congruence|apply spots_from in X; cbn in X; lia]. }
      exact (Ow r Hr Ec).
  - apply (IH _ (pre ++ [(p, c, n)])); try assumption.
    + intros r Hr. rewrite <- app_assoc. exact (Hin r Hr).
    + apply Forall_app. split; [eapply Forall_impl; [|exact Hpre]; cbn; intros; lia|]. constructor; [cbn; lia|constructor].
Qed.
Lemma scans_delimiters E g a it ts out : scans E g a it ts out -> Forall (fun t => match t with Piece (Marks c _) => delimiter c | _ => True end) ts.
Proof. induction 1; constructor; auto. Qed.
Lemma allowed_stripped l : Forall HtmlSpec.allowed l -> exists k, HtmlSpec.stripped l k /\ HtmlSpec.html k = HtmlSpec.texts l.
Proof.
  induction 1 as [|x l Hx _ (k & S & H)]; [exists []; split; [constructor|reflexivity]|].
  destruct x as [w|n a t s|n t|w|w|n g w|w]; [exists (HtmlSpec.Text w :: k); split; [constructor; exact S|unfold HtmlSpec.html, HtmlSpec.texts in *; cbn; rewrite H; reflexivity]|..];
    (exists k; split; [apply HtmlSpec.stripped_gone; [discriminate|exact Hx|exact S]|exact H]).
Qed.
Lemma tags_dropped E p l : commonmark_parser p -> word_ascii E -> Forall HtmlSpec.proper l -> Forall HtmlSpec.allowed l ->
  remove_html_tags E p (HtmlSpec.html l) = HtmlSpec.texts l.
Proof.
  intros Hp W F A. destruct Hp as [<-|[<-|[<-|[<-|[<-|[]]]]]].
  2,3,5: apply C31_tags_removed; [cbn; auto|exact F].
  all: destruct (allowed_stripped l A) as (k & S & <-); apply (C31_gfm_tags_removed E _ l k); auto; cbn; auto.
Qed.
(** C56: tags dropped, then the emphasis of CommonMark; nothing else is asked. *)
Theorem C56_as_commonmark : forall E p text pieces ts out, python_tables E -> zs_ascii E -> word_ascii E -> entity_tables E -> single_line text ->
  commonmark_parser p -> e_lower E text = HtmlSpec.html pieces -> Forall HtmlSpec.proper pieces -> Forall HtmlSpec.allowed pieces ->
  HtmlSpec.texts pieces = text_of ts -> ~ In 0%N (text_of ts) -> scans E (calm E) [] [] ts out ->
  (forall r, In r out -> r_char r = 95%N -> r_closed r = 0 \/ r_opened r = 0) ->
  base_slug E p text (hyphenate E p (without r_left out 0 ts)).
Proof.
  intros E p text pieces ts out Ht Hz Hw He Hs Hp El Hpr Hal Et H0 Hsc Hu.
  apply C56_anchor_from_text; auto. exists (without leaves out 0 ts). split.
  - rewrite El, (tags_dropped E p pieces Hp Hw Hpr Hal), Et. apply C59_links_exact; auto. intros ->. destruct Hp as [|[|[|[|[|[]]]]]]; discriminate.
  - unfold hyphenate. destruct (scans_shape _ _ _ _ _ _ Hsc) as (Sh & So). specialize (So ltac:(constructor)).
    rewrite (without_same (fun c => e_word E c || N.eqb c 45 || N.eqb c 32) out) with (pre := []); [reflexivity| |exact So|exact Hu|eapply scans_solid; exact Hsc| |constructor|eapply scans_delimiters; exact Hsc].
    + assert (X : e_word E 42 = false); [|rewrite X; reflexivity]. apply not_true_is_false. intros X. apply Hw in X; [|reflexivity]. unfold is_letter, is_digit in X. lia.
    + intros r Hr. apply (Permutation_in _ Sh). cbn [runs_of flat_map map app]. apply in_map. exact Hr.
Qed.
Print Assumptions C56_as_commonmark.

Local Ltac flag := first [rewrite <- opens_iff | rewrite <- closes_iff]; vm_compute; tauto.
Local Ltac no_fit := let x := fresh in let H := fresh in intros x H; cbn [In] in H;
  repeat match type of H with _ \/ _ => destruct H as [H|H] | False => destruct H end; try (subst x; rewrite <- fitsb_iff; vm_compute; discriminate).
Local Ltac pass := apply paired_pass; [no_fit|].
Local Ltac pair m o b := apply (paired_pair m o b); [apply fitsb_iff; vm_compute; reflexivity|no_fit|]; cbv [map app shut open_with close_with strength r_left r_size r_closed r_opened Nat.sub Nat.leb andb Nat.add r_start r_char r_opens r_closes].
Local Ltac words := apply scans_words; [discriminate|apply inert_b; vm_compute; reflexivity|exact I|vm_compute; intros; discriminate|].
Local Ltac marks o cl := apply (scans_marks _ _ _ _ _ _ o cl);
  [unfold delimiter; auto|lia|vm_compute; discriminate|flag|flag|first [exact I|split; [apply not_tail_unmistaken; vm_compute; intros (? & ?); congruence|intros X; first [discriminate X|let A := fresh in let B := fresh in intros ? ? A B; cbn in A, B; intuition (subst; cbn in *; congruence)]]]|].
(** A run that closes one emphasis and opens another: CommonMark uses all its stars.  The program keeps one,
    but the anchor does not show it. *)
Example C56_as_commonmark_ex :
  let ts := [Piece (Marks 42 1); Piece (Words (lit "a")); Piece (Marks 42 3); Piece (Words (lit "b")); Piece (Marks 42 2)] in
  let out := [mkRun 0 42 1 true false 0 1; mkRun 2 42 3 true true 1 2; mkRun 6 42 2 false true 2 0] in
  e_lower ascii_env (lit "*A***B**") = HtmlSpec.html [HtmlSpec.Text (text_of ts)] /\ HtmlSpec.proper (HtmlSpec.Text (text_of ts))
  /\ ~ In 0%N (text_of ts) /\ scans ascii_env (calm ascii_env) [] [] ts out
  /\ without r_left out 0 ts = lit "ab" /\ remove_emphasis ascii_env Github (text_of ts) = Ok (lit "a*b")
  /\ base_slug ascii_env Github (lit "*A***B**") (lit "ab").
Proof.
  cbv zeta.
  assert (S : scans ascii_env (calm ascii_env) [] [] [Piece (Marks 42 1); Piece (Words (lit "a")); Piece (Marks 42 3); Piece (Words (lit "b")); Piece (Marks 42 2)] [mkRun 0 42 1 true false 0 1; mkRun 2 42 3 true true 1 2; mkRun 6 42 2 false true 2 0]).
  { marks true false. words. marks true true. words. marks false true. apply scans_end. cbn [runs_of flat_map app rev]. pass.
    pair (@nil run) (mkRun 0 42 1 true false 0 0) (@nil run). pass. pair (@nil run) (mkRun 2 42 3 true true 1 0) [mkRun 0 42 1 true false 0 1]. pass. apply paired_end. }
  split; [vm_compute; reflexivity|]. split; [vm_compute; intuition discriminate|]. split; [vm_compute; intuition discriminate|]. split; [exact S|].
  split; [vm_compute; reflexivity|]. split; [vm_compute; reflexivity|]. eexists. vm_compute. reflexivity.
Qed.
