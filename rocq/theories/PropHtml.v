(** C31: removal of HTML tags from heading text (api.remove_html_tags). *)
From Coq Require Import String List NArith Bool Arith Lia.
From Verif Require Import Str StrFacts EnvSpec AsciiEnv Regex HtmlRe HtmlSpec HtmlProof HtmlRaw.
Import ListNotations.
Local Open Scope list_scope.

(** Whatever the text, everything that is removed begins with '<' and ends with '>'. *)
Theorem C31_only_bracketed_removed : forall E p s, cut_down s (remove_html_tags E p s).
Proof. exact html_cut. Qed.
Print Assumptions C31_only_bracketed_removed.

(** So a text without '<', or without '>', is unchanged. *)
Theorem C31_no_bracket_unchanged : forall E p s, ~ In 60%N s \/ ~ In 62%N s -> remove_html_tags E p s = s.
Proof.
  intros E p s H. pose proof (html_cut E p s) as C. remember (remove_html_tags E p s) as t eqn:Et. clear Et. destruct C as [s|a v b t C]; [reflexivity|]. exfalso. destruct H as [H|H]; apply H; apply in_app_iff; right; [left; reflexivity|]. right. apply in_app_iff. right. left. reflexivity.
Qed.
Print Assumptions C31_no_bracket_unchanged.
Example C31_no_bracket_unchanged_ex : ~ In 60%N (lit "a > b &lt; c").
Proof. cbn. intuition discriminate. Qed.

(** With cmark, gitlab and goldmark all the tags, comments, instructions, declarations and sections are removed, and nothing else. *)
Theorem C31_tags_removed : forall E p l, In p [Cmark; Gitlab; Goldmark] -> Forall proper l -> remove_html_tags E p (html l) = texts l.
Proof.
  intros E p l Hp Hl. unfold remove_html_tags, html_regexes. replace (cm_family p) with true by (destruct Hp as [<-|[<-|[<-|[]]]]; reflexivity). replace (gfm p) with false by (destruct Hp as [<-|[<-|[<-|[]]]]; reflexivity). apply cmark_removed; assumption.
Qed.
Print Assumptions C31_tags_removed.

(** With github and commonmarker all of these are removed except the tags whose name GFM disallows, and closing tags with two blanks at the end, and nothing else. *)
Theorem C31_gfm_tags_removed : forall E p l k, In p [Github; Commonmarker] -> word_ascii E -> Forall proper l -> stripped l k -> remove_html_tags E p (html l) = html k.
Proof.
  intros E p l k Hp W Hl Hs. assert (Hg : gfm p = true) by (destruct Hp as [<-|[<-|[]]]; reflexivity). unfold remove_html_tags, html_regexes. rewrite Hg. replace (cm_family p) with true by (destruct p; try discriminate; reflexivity). apply github_removed; assumption.
Qed.
Print Assumptions C31_gfm_tags_removed.

Lemma word_ascii_ex : word_ascii ascii_env.
Proof.
  intros c Hc. cbn. unfold is_letter, is_digit, ascii_alnum, ascii_alpha, ascii_upper, ascii_lower, ascii_digit, in_range.
  rewrite !orb_true_iff, !andb_true_iff, !N.leb_le, N.eqb_eq. lia.
Qed.
(** Whatever the text, every piece that is removed is raw HTML in CommonMark's sense;
    with github and commonmarker no piece is a tag whose name GFM disallows. *)
Definition removable (p : parser) (name : str) : Prop := In p [Github; Commonmarker] -> ~ forbidden name.
Lemma gfm_iff p : gfm p = true <-> In p [Github; Commonmarker].
Proof. destruct p; cbn; intuition discriminate. Qed.
Theorem C31_only_raw_html_removed : forall E p s, word_ascii E -> cut_raw (removable p) s (remove_html_tags E p s).
Proof.
  intros E p s W. pose proof (html_raw E p s W) as C. assert (L : forall k, raw (fun n => gfm p = true -> ~ forbidden n) k -> raw (removable p) k).
  { intros k K. unfold removable. destruct K; [apply raw_open|apply raw_close|apply raw_comment|apply raw_instruction|apply raw_declaration|apply raw_section]; try assumption; rewrite <- gfm_iff; assumption. }
  induction C as [s|a k b t K C IH]; [constructor|]. apply cut_raw_one; [apply L; exact K|exact IH].
Qed.
Print Assumptions C31_only_raw_html_removed.
Example C31_only_raw_html_removed_ex : word_ascii ascii_env /\ remove_html_tags ascii_env Github (lit "a <b c>d</b> <script> <!--->") = lit "a d <script> <!--->".
Proof. split; [exact word_ascii_ex|vm_compute; reflexivity]. Qed.

(** So a text in which no raw HTML occurs is unchanged. *)
Theorem C31_no_raw_html_unchanged : forall E p s, word_ascii E -> (forall a k b, s = a ++ k ++ b -> ~ raw (removable p) k) -> remove_html_tags E p s = s.
Proof.
  intros E p s W H. pose proof (C31_only_raw_html_removed E p s W) as C. remember (remove_html_tags E p s) as t eqn:Et. clear Et. destruct C as [s|a k b t K C]; [reflexivity|]. destruct (H a k b eq_refl K).
Qed.
Print Assumptions C31_no_raw_html_unchanged.

(** In particular a text is unchanged when no '<' in it comes before a letter, '/', '!' or '?'. *)
Theorem C31_lone_brackets_unchanged : forall E p s, word_ascii E -> (forall a c b, s = a ++ 60%N :: c :: b -> ~ is_letter c /\ ~ In c (lit "/!?")) -> remove_html_tags E p s = s.
Proof.
  intros E p s W H. apply C31_no_raw_html_unchanged; [exact W|]. intros a k b -> K. apply raw_head in K as (c & r & -> & Hc). destruct (H a c (r ++ b) eq_refl) as (H1 & H2). tauto.
Qed.
Print Assumptions C31_lone_brackets_unchanged.
Fixpoint lone (s : str) : bool :=
  match s with
  | c :: (d :: _) as t => (negb (c =? 60)%N || negb (ascii_alpha d || cin d (lit "/!?"))) && lone t
  | _ => true
  end.
Lemma lone_sound s : lone s = true -> forall a c b, s = a ++ 60%N :: c :: b -> ~ is_letter c /\ ~ In c (lit "/!?").
Proof.
  intros H a. revert s H. induction a as [|x a IH]; intros s H c b ->.
  - cbn [app lone] in H. apply andb_true_iff in H as (H & _). cbn [negb N.eqb orb] in H. apply negb_true_iff, orb_false_iff in H as (H1 & H2). split.
    + rewrite <- alpha_iff, H1. discriminate.
    + apply cin_not_In. exact H2.
  - apply (IH (a ++ 60%N :: c :: b)) with (b := b); [|reflexivity]. cbn [app] in H. destruct (a ++ 60%N :: c :: b) as [|d t] eqn:Et; [reflexivity|]. cbn [lone] in H. apply andb_true_iff in H as (_ & H). exact H.
Qed.
Example C31_lone_brackets_unchanged_ex : word_ascii ascii_env /\ (forall a c b, lit "1 < 2, <3>, < b>, <>, <" = a ++ 60%N :: c :: b -> ~ is_letter c /\ ~ In c (lit "/!?")).
Proof. split; [exact word_ascii_ex|]. apply lone_sound. reflexivity. Qed.
Example C31_no_raw_html_unchanged_ex : word_ascii ascii_env /\ (forall a k b, lit "1 < 2, <3>" = a ++ k ++ b -> ~ raw (removable Github) k).
Proof.
  split; [exact word_ascii_ex|]. intros a k b H K. apply raw_head in K as (c & r & -> & Hc). destruct (lone_sound _ (eq_refl : lone (lit "1 < 2, <3>") = true) a c (r ++ b) H) as (H1 & H2). tauto.
Qed.
Definition quoted (n v : str) : attribute := Attr [32%N] n (Some ([], [], Double v)).
Definition tagged : list piece :=
  [Text (lit "see ");
   Open (lit "a") [quoted (lit "href") (lit "x > y <"); Attr [9%N; 32%N] (lit "data-id") None; Attr [32%N] (lit "title") (Some ([32%N], [32%N], Single [34%N; 62%N]))] [32%N] false;
   Text (lit "the "); Open (lit "my-tag") [Attr [32%N] (lit "w") (Some ([], [], Bare (lit "5/")))] [] true; Close (lit "a") [32%N];
   Comment (lit " a - b "); Instruction (lit "php a > b ?"); Declaration (lit "DOCTYPE") [32%N] (lit "html"); Cdata (lit "a ]] > b");
   Open (lit "ScripT") [quoted (lit "src") (lit "u")] [] false; Text (lit "1 > 0"); Close (lit "SCRIPT-x") []; Close (lit "b") [32%N; 32%N]].
Example C31_tagged_shown : html tagged =
  lit "see <a href=" ++ [34%N] ++ lit "x > y <" ++ [34%N; 9%N] ++ lit " data-id title = '" ++ [34%N] ++ lit ">' >the <my-tag w=5//></a ><!-- a - b --><?php a > b ??><!DOCTYPE html><![CDATA[a ]] > b]]><ScripT src=" ++ [34%N] ++ lit "u" ++ [34%N] ++ lit ">1 > 0</SCRIPT-x></b  >".
Proof. vm_compute. reflexivity. Qed.
Fixpoint occurs (w s : str) : bool := startswith w s || match s with [] => false | _ :: s' => occurs w s' end.
Lemma occurs_without w s : occurs w s = false -> without w s.
Proof.
  intros H a b ->. induction a as [|c a IH].
  - cbn [app] in H. assert (G : startswith w (w ++ b) = true) by (clear; induction w as [|c w IH]; [reflexivity|]; cbn [startswith app]; rewrite N.eqb_refl; exact IH).
    destruct (w ++ b); cbn [occurs] in H; rewrite G in H; discriminate.
  - cbn [app occurs] in H. apply orb_false_iff in H as (_ & H). exact (IH H).
Qed.
Lemma tagged_proper : Forall proper tagged.
Proof.
  assert (L : forall c r, (forallb tag_rest r && ascii_alpha c)%bool = true -> tag_name (c :: r)).
  { intros c r H. apply andb_true_iff in H as (A & B). exists c, r. split; [reflexivity|]. split; [apply alpha_iff; exact B|]. apply Forall_forall. intros x Hx. rewrite forallb_forall in A. apply tag_rest_iff. auto. }
  assert (K : forall c r, (forallb attr_rest r && attr_first c)%bool = true -> attr_name (c :: r)).
  { intros c r H. apply andb_true_iff in H as (A & B). exists c, r. split; [reflexivity|]. split; [apply attr_first_iff; exact B|]. apply Forall_forall. intros x Hx. rewrite forallb_forall in A. apply attr_rest_iff. auto. }
  assert (B1 : blanks [32%N]) by (repeat constructor; auto). assert (B2 : blanks [9%N; 32%N]) by (repeat constructor; auto). assert (B3 : blanks [32%N; 32%N]) by (repeat constructor; auto). assert (B0 : blanks []) by constructor.
  assert (Q : forall n v, attr_name n -> ~ In 34%N v -> ~ In 0%N v -> good_attr (quoted n v)).
  { intros n v Hn H1 H2. split; [discriminate|]. split; [exact B1|]. split; [exact Hn|]. split; [exact B0|]. split; [exact B0|]. split; assumption. }
  assert (O : forall w s, occurs w s = false -> without w s) by exact occurs_without.
  repeat apply Forall_cons; [..|apply Forall_nil]; cbn [proper].
  - cbn; intuition discriminate.
  - split; [apply L; reflexivity|]. split; [|exact B1]. apply Forall_cons; [apply Q; [apply K; reflexivity|cbn; intuition discriminate..]|]. apply Forall_cons; [split; [discriminate|]; split; [exact B2|]; split; [apply K; reflexivity|exact I]|].
    apply Forall_cons; [|apply Forall_nil]. split; [discriminate|]. split; [exact B1|]. split; [apply K; reflexivity|]. split; [exact B1|]. split; [exact B1|]. cbn; intuition discriminate.
  - cbn; intuition discriminate.
  - split; [apply L; reflexivity|]. split; [|exact B0]. apply Forall_cons; [|apply Forall_nil]. split; [discriminate|]. split; [exact B1|]. split; [apply K; reflexivity|]. split; [exact B0|]. split; [exact B0|]. split; [discriminate|]. cbn. repeat apply Forall_cons; [..|apply Forall_nil]; intuition discriminate.
  - split; [apply L; reflexivity|exact B1].
  - split; [cbn; lia|]. split; [cbn; intuition discriminate|]. split; [cbn; intuition discriminate|]. split; [apply O; reflexivity|cbn; discriminate].
  - split; [cbn; intuition discriminate|apply O; reflexivity].
  - split; [discriminate|]. split; [cbn; repeat apply Forall_cons; [..|apply Forall_nil]; lia|]. split; [discriminate|]. split; [exact B1|]. split; [discriminate|]. cbn; intuition discriminate.
  - split; [discriminate|]. split; [cbn; intuition discriminate|apply O; reflexivity].
  - split; [apply L; reflexivity|]. split; [|exact B0]. apply Forall_cons; [apply Q; [apply K; reflexivity|cbn; intuition discriminate..]|apply Forall_nil].
  - cbn; intuition discriminate.
  - split; [apply L; reflexivity|exact B0].
  - split; [apply L; reflexivity|exact B3].
Qed.
Example C31_tags_removed_ex : In Cmark [Cmark; Gitlab; Goldmark] /\ Forall proper tagged /\ texts tagged = lit "see the 1 > 0".
Proof. split; [left; reflexivity|]. split; [exact tagged_proper|vm_compute; reflexivity]. Qed.
Example C31_gfm_tags_removed_ex : In Github [Github; Commonmarker] /\ word_ascii ascii_env /\ Forall proper tagged /\
  stripped tagged [Text (lit "see "); Text (lit "the "); Open (lit "ScripT") [quoted (lit "src") (lit "u")] [] false; Text (lit "1 > 0"); Close (lit "SCRIPT-x") []; Close (lit "b") [32%N; 32%N]].
Proof.
  split; [left; reflexivity|]. split; [apply word_ascii_ex|]. split; [exact tagged_proper|].
  assert (F : forall n, forb n = true -> forbidden n) by (intros n; apply forb_iff). assert (A : forall n, forb n = false -> ~ forbidden n) by (intros n; apply forb_not).
  unfold tagged. apply stripped_text. apply stripped_gone; [discriminate|apply A; vm_compute; reflexivity|]. apply stripped_text. apply stripped_gone; [discriminate|apply A; vm_compute; reflexivity|].
  apply stripped_gone; [discriminate|split; [apply A; vm_compute; reflexivity|cbn; lia]|]. do 4 (apply stripped_gone; [discriminate|exact I|]). apply stripped_kept; [split; [apply F; vm_compute; reflexivity|]|].
  - cbn. intuition discriminate.
  - apply stripped_text. apply stripped_kept; [left; apply F; vm_compute; reflexivity|]. apply stripped_kept; [right; cbn; lia|apply stripped_nil].
Qed.

(** One might expect that every comment is removed.  It does not hold: those with a single character, and those with a '>' inside, stay. *)
Theorem C31_comments_refuted : forall p, In p [Github; Cmark; Gitlab; Commonmarker; Goldmark] ->
  Forall (fun s => remove_html_tags ascii_env p s = s) [lit "<!--a-->"; lit "<!-- a > b -->"; lit "<!---->"].
Proof. intros p Hp. repeat (destruct Hp as [<-|Hp]; [repeat apply Forall_cons; [..|apply Forall_nil]; vm_compute; reflexivity|]). destruct Hp. Qed.
Print Assumptions C31_comments_refuted.
Example C31_comments_refuted_ex : In Cmark [Github; Cmark; Gitlab; Commonmarker; Goldmark] /\ remove_html_tags ascii_env Cmark (lit "<!--ab-->") = [].
Proof. split; [right; left; reflexivity|vm_compute; reflexivity]. Qed.

(** Redcarpet, and parsers that are not known: nothing is removed. *)
Theorem C31_other_parsers_unchanged : forall E p s, ~ In p [Github; Cmark; Gitlab; Commonmarker; Goldmark] -> remove_html_tags E p s = s.
Proof. intros E p s H. unfold remove_html_tags. replace (cm_family p) with false by (destruct p; try reflexivity; exfalso; apply H; cbn; tauto). reflexivity. Qed.
Print Assumptions C31_other_parsers_unchanged.
Example C31_other_parsers_unchanged_ex : ~ In Redcarpet [Github; Cmark; Gitlab; Commonmarker; Goldmark].
Proof. cbn. intuition discriminate. Qed.

(** One might expect that a second removal finds nothing: it does not hold. *)
Theorem C31_idempotent_refuted : exists s, remove_html_tags ascii_env Github (remove_html_tags ascii_env Github s) <> remove_html_tags ascii_env Github s.
Proof. exists (lit "<<b>i>x"). vm_compute. discriminate. Qed.
Print Assumptions C31_idempotent_refuted.
