(** What can happen to a command line that argparse accepts: C49. *)
From Coq Require Import String List NArith ZArith Bool Arith Lia.
From Verif Require Import Str StrFacts Fence Atx HtmlRe Inlines Anchor Toc Write Cli Args Spec EnvSpec AnchorSpec TocSpec EmphSpec SafeSpec WriteSpec CliSpec AsciiEnv.
From Verif Require Import DecFacts WriteProof WriteLoop TocProof PropErrors PropWrite PropMulti TocLoop.
Import ListNotations.
Local Open Scope list_scope.

Lemma sin_iff s l : sin s l = true <-> In s l.
Proof.
  unfold sin. rewrite existsb_exists. split; [intros (x & Hx & E); apply seqb_eq in E; subst; exact Hx|intros H; exists s; split; [exact H|apply seqb_eq; reflexivity]].
Qed.

(** The arguments that the command offers: the parsers, -u or -o with a marker of the parser, up
    to six levels, not both of --no-list-coherence and --no-indentation, three newline strings. *)
Definition offered (a : cli_args) : Prop :=
  a_parser a <> OtherParser
  /\ In (a_unordered_marker a) [lit "-"; lit "+"; lit "*"]
  /\ (forall m, a_ordered_marker a = Some m ->
        a_unordered_marker a = lit "-" /\ (m = lit "." \/ (m = lit ")" /\ a_parser a <> Redcarpet)))
  /\ (1 <= a_levels a <= 6)%Z
  /\ (a_no_indentation a = true -> a_no_list_coherence a = true -> False)
  /\ In (a_newline a) [lit "\n"; lit "\r"; lit "\r\n"; [10%N]].

Theorem C49_accepted_arguments : forall a, accepted a = true <-> offered a.
Proof.
  intros a. unfold accepted, offered. rewrite !andb_true_iff. unfold cli_unordered, cli_newlines, cli_levels, cli_exclusive. rewrite !sin_iff, andb_true_iff, !Z.leb_le, negb_true_iff, andb_false_iff.
  assert (A : cli_parser (a_parser a) = true <-> a_parser a <> OtherParser) by (destruct (a_parser a); cbn; split; congruence).
  rewrite A. clear A. assert (B : a_parser a <> OtherParser -> bullet_markers (a_parser a) = [lit "-"; lit "+"; lit "*"]) by (destruct (a_parser a); congruence || reflexivity).
  assert (C : a_parser a <> OtherParser -> cli_ordered (a_parser a) (a_ordered_marker a) (a_unordered_marker a) = true <->
      (forall m, a_ordered_marker a = Some m -> a_unordered_marker a = lit "-" /\ (m = lit "." \/ (m = lit ")" /\ a_parser a <> Redcarpet)))).
  { intros H. unfold cli_ordered. destruct (a_ordered_marker a) as [m|]; [|split; [discriminate|reflexivity]]. rewrite andb_true_iff, sin_iff, seqb_eq. split.
    - intros (X & Y) m' Eq. injection Eq as <-. split; [exact Y|]. destruct (a_parser a); try congruence; cbn in X; repeat (destruct X as [<-|X]; [solve [left; reflexivity|right; split; [reflexivity|discriminate]]|]); destruct X.
    - intros X. destruct (X m eq_refl) as (Y & Z). split; [|exact Y]. destruct Z as [-> |(-> & Z)]; destruct (a_parser a); try congruence; cbn; auto. }
  split.
  - intros (((((H1 & H2) & H3) & H4) & H5) & H6). rewrite B in H2 by exact H1. rewrite C in H3 by exact H1. change cLF with 10%N in H6. repeat (split; [solve [auto | intros; destruct H5; congruence]|]). exact H6.
  - intros (H1 & H2 & H3 & H4 & H5 & H6). rewrite B by exact H1. rewrite C by exact H1. split; [split; [split; [split; [split|]|]|]|]; auto.
    destruct (a_no_indentation a), (a_no_list_coherence a); auto. exfalso. auto.
Qed.
Print Assumptions C49_accepted_arguments.

(** Accepted arguments select options that build_toc can use. *)
Theorem C49_accepted_options_are_usable : forall a, accepted a = true -> exists o,
  selects a o /\ known_parser (o_parser o) /\ (1 <= o_keep o <= 6)%Z /\ marker_valid o
  /\ In (o_newline o) [[10%N]; [13%N]; [13%N; 10%N]].
Proof.
  intros a H. apply C49_accepted_arguments in H as (H1 & H2 & H3 & H4 & _ & H6). destruct (C40_options_selected a H6) as (o & Ho). exists o. split; [exact Ho|].
  destruct Ho as (S1 & S2 & S3 & _ & _ & _ & S7 & S8 & _ & _ & S11). split; [rewrite S8; exact H1|]. split; [rewrite S7; exact H4|]. split.
  - unfold marker_valid. destruct (a_ordered_marker a) as [m|] eqn:M; [left; apply S1; congruence|]. right. right. exists (a_unordered_marker a). auto.
  - inversion S11; cbn; auto.
Qed.
Print Assumptions C49_accepted_options_are_usable.

(** Everything that can be read is a text. *)
Definition texts (w : world) : Prop :=
  (forall n d, fs_get (w_fs w) n = Some d -> text_lines (d_lines d)) /\ (forall d, w_stdin w = Fresh d -> text_lines (d_lines d)).

Lemma text_file_lines ls : text_lines ls -> Forall file_line ls.
Proof. induction 1 as [|s Hs Hn|s ls Hs _ IH]; [constructor|constructor; [exists s; auto|constructor]|constructor; [exists s; auto|exact IH]]. Qed.

(** Which exceptions a write on the disk can raise. *)
Lemma write_toc_errors E nl toc marker d e : text_lines (d_lines d) -> write_toc E nl toc marker d = Err e -> e = UnicodeDecodeError /\ d_bad d = true.
Proof.
  intros Ht H. destruct d as [ls [|]]; cbn in Ht; [|destruct (write_total E nl toc marker ls Ht) as (ls' & b & W & _); congruence].
  rewrite (proj2 (C36_undecodable E nl toc marker ls)) in H. injection H as <-. auto.
Qed.
Lemma tocs_equal_errors E toc marker d e : text_lines (d_lines d) -> tocs_equal E toc marker d = Err e -> e = UnicodeDecodeError /\ d_bad d = true.
Proof.
  intros Ht H. destruct d as [ls [|]]; cbn in Ht; [|destruct (C36_same_verdict E [10%N] toc marker ls Ht) as (b & W & _); congruence].
  rewrite (proj1 (C36_undecodable E [10%N] toc marker ls)) in H. injection H as <-. auto.
Qed.
Definition fs_texts (f : fs) : Prop := forall n d, fs_get f n = Some d -> text_lines (d_lines d).
Lemma write_texts E nl toc marker d d' b : text_lines (d_lines d) -> write_toc E nl toc marker d = Ok (d', b) -> text_lines (d_lines d') /\ d_bad d' = false /\ d_bad d = false.
Proof.
  intros Ht H. destruct d as [ls [|]]; cbn in Ht; [rewrite (proj2 (C36_undecodable E nl toc marker ls)) in H; discriminate|].
  destruct (write_total E nl toc marker ls Ht) as (ls' & b' & W & X). rewrite W in H. injection H as <- _. auto.
Qed.
Definition fs_readable (f : fs) (l : list (str * str)) : Prop :=
  forall n t, In (n, t) l -> n <> stdin_name /\ exists d, fs_get f n = Some d /\ d_bad d = false.
Lemma write_loop_errors E nl marker : forall l f acc, fs_texts f ->
  match fst (write_loop E nl f l marker acc) with
  | Ok _ => True
  | Err e => In e [FileNotFoundError; UnicodeDecodeError; StdinIsNotAFileToBeWritten] /\ ~ fs_readable f l
  end.
Proof.
  induction l as [|(n & t) l IH]; intros f acc Hf; cbn [write_loop]; [exact I|].
  pose proof (write_one_spec E nl f n t marker) as W. destruct (write_one E nl f n t marker) as [[v|e] f1].
  - destruct W as (d' & (Hn & d & G & W) & ->). destruct (write_texts _ _ _ _ _ _ _ (Hf _ _ G) W) as (T & B & _).
    assert (Hf' : fs_texts (fs_set f n d')).
    { intros m x Hm. destruct (list_eq_dec N.eq_dec m n) as [->|Hne]; [rewrite fs_get_same in Hm; injection Hm as <-; exact T|]. rewrite fs_get_other in Hm by congruence. eapply Hf. exact Hm. }
    specialize (IH (fs_set f n d') (acc && v) Hf'). destruct (fst (write_loop E nl (fs_set f n d') l marker (acc && v))) as [b|e]; [exact I|].
    destruct IH as (A & C). split; [exact A|]. intros R. apply C. intros m s Hin. destruct (R m s (or_intror Hin)) as (R1 & x & R2 & R3). split; [exact R1|].
    destruct (list_eq_dec N.eq_dec m n) as [->|Hne]; [exists d'; rewrite fs_get_same; auto|]. exists x. rewrite fs_get_other by congruence. auto.
  - cbn [fst]. destruct W as ([(Hn & ->)|[(Hn & G & ->)|(Hn & d & G & W)]] & _).
    + split; [cbn; auto|]. intros R. destruct (R n t (or_introl eq_refl)). contradiction.
    + split; [cbn; auto|]. intros R. destruct (R n t (or_introl eq_refl)) as (_ & x & X & _). congruence.
    + apply write_toc_errors in W as (-> & Bd); [|eapply Hf; exact G]. split; [cbn; auto|]. intros R. destruct (R n t (or_introl eq_refl)) as (_ & x & X & Y). congruence.
Qed.
Lemma print_loop_errors E a f : fs_texts f -> forall l acc, match snd (print_loop E a f l acc) with
  | Ok _ => True
  | Err e => In e [FileNotFoundError; UnicodeDecodeError] /\ a_diff a = true /\ ~ (forall n t, In (n, t) l -> exists d, fs_get f n = Some d /\ d_bad d = false)
  end.
Proof.
  intros Hf. induction l as [|(n & t) l IH]; intros acc; cbn [print_loop]; [exact I|]. destruct (a_diff a) eqn:Hd.
  - destruct (fs_get f n) as [d|] eqn:G.
    + destruct (tocs_equal E t (a_toc_marker a) d) as [b|e] eqn:T.
      * specialize (IH (acc && b)). destruct (print_loop E a f l (acc && b)) as (out & [r|e]); cbn [snd] in *; [exact I|]. destruct IH as (A & B & C). split; [exact A|]. split; [reflexivity|].
        intros R. apply C. intros m s Hin. apply (R m s). right. exact Hin.
      * cbn [snd]. apply tocs_equal_errors in T as (-> & B); [|eapply Hf; exact G]. split; [cbn; auto|]. split; [reflexivity|]. intros R. destruct (R n t (or_introl eq_refl)) as (x & X & Y). congruence.
    + cbn [snd]. split; [cbn; auto|]. split; [reflexivity|]. intros R. destruct (R n t (or_introl eq_refl)) as (x & X & Y). congruence.
  - specialize (IH acc). destruct (print_loop E a f l acc) as (out & [r|e]); cbn [snd] in *; [exact I|]. destruct IH as (A & B & C). congruence.
Qed.
Lemma inputs_effective a : inputs a = effective_names (a_names a).
Proof. unfold inputs, effective_names. destruct (a_names a); reflexivity. Qed.
Lemma inputs_nonempty a : inputs a <> [].
Proof. unfold inputs. destruct (a_names a); discriminate. Qed.

Lemma read_tocs_err E o : forall names w e, read_tocs E o w names = Err e ->
  exists pre n post w1, names = pre ++ n :: post /\ read_toc E o w1 n = Err e /\ w_fs w1 = w_fs w
    /\ (w_stdin w1 = w_stdin w \/ ((forall d, w_stdin w1 <> Fresh d) /\ In stdin_name pre)).
Proof.
  induction names as [|n names IH]; intros w e H; cbn [read_tocs] in H; [discriminate|].
  destruct (read_toc E o w n) as [(t & w1)|x] eqn:R; cbn [bind] in H; [|injection H as ->; exists [], n, names, w; auto].
  destruct (read_toc_fs _ _ _ _ _ _ R) as (F1 & F2 & F3).
  destruct (read_tocs E o w1 names) as [(ts & w2)|x] eqn:R2; cbn [bind] in H; [discriminate|]. injection H as ->.
  destruct (IH w1 e R2) as (pre & m & post & w3 & -> & A & B & C). exists (n :: pre), m, post, w3. split; [reflexivity|]. split; [exact A|]. split; [congruence|].
  destruct (is_stdin n) eqn:Hn.
  - destruct (F3 eq_refl) as (d & Hd & _ & Hnd). right. apply is_stdin_iff in Hn. split; [|left; exact Hn]. destruct C as [->|(C & _)]; [exact Hnd|exact C].
  - rewrite (F2 eq_refl) in *. destruct C as [C|(C & D)]; [left; exact C|right; split; [exact C|right; exact D]].
Qed.

(** What build_multiple_tocs can raise for the options of accepted arguments. *)
Lemma build_errors E a o w e : selects a o -> known_parser (o_parser o) -> (1 <= o_keep o)%Z -> marker_valid o -> texts w ->
  build_multiple_tocs E o w (a_names a) = Err e ->
  (exists n, In n (inputs a) /\ (
     (e = ValueError /\ (a_skip a < 0)%Z)
     \/ (n <> stdin_name /\ e = FileNotFoundError /\ fs_get (w_fs w) n = None)
     \/ exists d, (if names_stdin n then w_stdin w = Fresh d else fs_get (w_fs w) n = Some d)
         /\ (documented e \/ (e = UnicodeDecodeError /\ d_bad d = true) \/ (scanner_error e /\ ~ anchors_safe E (a_parser a) (a_no_links a) (d_lines d)))))
  \/ (In stdin_name (inputs a) /\ (forall d, w_stdin w <> Fresh d) /\ In e [ValueError; UnicodeDecodeError])
  \/ (~ stdin_once (inputs a) /\ In e [ValueError; UnicodeDecodeError]).
Proof.
  intros Hsel Hp Hk Hv (Tf & Ts) H. unfold build_multiple_tocs in H. rewrite <- inputs_effective in H.
  destruct (read_tocs_err _ _ _ _ _ H) as (pre & n & post & w1 & En & R & F & S). clear H.
  pose proof Hsel as (_ & _ & _ & S4 & _ & _ & S7 & S8 & S9 & _).
  assert (Hin : In n (inputs a)) by (rewrite En; apply in_or_app; right; left; reflexivity).
  unfold read_toc in R. rewrite S9 in R. destruct (Z.ltb_spec (a_skip a) 0) as [Hs|Hs].
  { injection R as <-. left. exists n. split; [exact Hin|]. left. auto. }
  assert (K : forall d, text_lines (d_lines d) -> build_toc E o n d = Err e -> documented e \/ (e = UnicodeDecodeError /\ d_bad d = true) \/ (scanner_error e /\ ~ anchors_safe E (a_parser a) (a_no_links a) (d_lines d))).
  { intros d Td Hb. destruct (build_toc_errors E o n d e Hp Hk) as [A|[(A & B & _)|[(_ & B)|(A & B)]]]; auto; [lia|apply text_file_lines; exact Td|contradiction|]. rewrite S4, S8 in B. auto. }
  destruct (is_stdin n) eqn:Hn.
  - assert (Hn' : n = stdin_name) by (apply is_stdin_iff; exact Hn). destruct (fix_marker_ok o Hp) as (ordered & m & Hm & _). rewrite Hm in R. cbn [bind] in R.
    destruct (w_stdin w1) as [d| |] eqn:W.
    + destruct S as [S|(S & _)]; [|destruct (S d eq_refl)]. destruct (build_toc E o n d) as [t|x] eqn:Bt; cbn [bind] in R; [discriminate|]. injection R as ->.
      left. exists n. split; [exact Hin|]. right. right. exists d. rewrite names_stdin_model, Hn. split; [congruence|]. apply K; [apply Ts; congruence|exact Bt].
    + injection R as <-. right. destruct S as [S|(_ & S)]; [left; split; [congruence|]; split; [intros d; congruence|cbn; auto]|right].
      split; [|cbn; auto]. intros X. subst n. apply in_split in S as (x & y & ->). rewrite <- app_assoc in En. cbn in En. apply (X _ _ En). apply in_or_app. right. left. reflexivity.
    + injection R as <-. right. destruct S as [S|(_ & S)]; [left; split; [congruence|]; split; [intros d; congruence|cbn; auto]|right].
      split; [|cbn; auto]. intros X. subst n. apply in_split in S as (x & y & ->). rewrite <- app_assoc in En. cbn in En. apply (X _ _ En). apply in_or_app. right. left. reflexivity.
  - assert (Hn' : n <> stdin_name) by (intros X; apply is_stdin_iff in X; congruence). rewrite F in R. left. exists n. split; [exact Hin|]. right.
    destruct (fs_get (w_fs w) n) as [d|] eqn:G; [right|left; split; [exact Hn'|]; split; [congruence|reflexivity]].
    destruct (build_toc E o n d) as [t|x] eqn:Bt; cbn [bind] in R; [discriminate|]. injection R as ->. exists d. rewrite names_stdin_model, Hn. split; [reflexivity|]. apply K; [eapply Tf; exact G|exact Bt].
Qed.

(** The exceptions that can end a command: those announced for documents that cannot be rendered,
    the missing or undecodable file, the attempt to write standard input, and what comes from a
    negative number of lines to skip, a '-' that is read twice, or the anchor of a heading. *)
Theorem C49_exceptions_of_the_command : forall E a w e, accepted a = true -> texts w ->
  f_result (cli_write_toc E a w) = Err e ->
  documented e \/ In e [FileNotFoundError; UnicodeDecodeError; StdinIsNotAFileToBeWritten; ValueError; IndexError; KeyError].
Proof.
  intros E a w e Ha Ht H. destruct (C49_accepted_options_are_usable a Ha) as (o & Hsel & Hp & Hk & Hv & _). pose proof (selects_model a o Hsel) as Eo.
  unfold cli_write_toc in H. rewrite <- Eo in H. destruct (build_multiple_tocs E o w (a_names a)) as [(tocs & w')|x] eqn:B.
  - rewrite <- inputs_effective in H. destruct (a_in_place a).
    + unfold write_strings in H. rewrite inputs_effective in H. rewrite (built_length _ _ _ _ _ _ B), Nat.eqb_refl in H.
      pose proof (write_loop_errors E (cli_newline (a_newline a)) (a_toc_marker a) (combine (effective_names (a_names a)) tocs) (w_fs w) true (proj1 Ht)) as W.
      destruct (write_loop _ _ _ _ _ _) as ([b|x] & f); cbn [f_result bind fst] in *; [discriminate|]. injection H as ->. right. destruct W as (W & _). cbn in *. tauto.
    + pose proof (print_loop_errors E a (w_fs w) (proj1 Ht) (combine (inputs a) tocs) true) as W.
      destruct (print_loop _ _ _ _ _) as (out & [b|x]); cbn [f_result bind snd] in *; [discriminate|]. injection H as ->. right. destruct W as (W & _). cbn in *. tauto.
  - cbn [f_result] in H. injection H as ->. destruct (build_errors E a o w e Hsel Hp (proj1 Hk) Hv Ht B) as [(n & _ & [(-> & _)|[(_ & -> & _)|(d & _ & [X|[(-> & _)|(X & _)]])]])|[(_ & _ & X)|(_ & X)]]; unfold scanner_error in *; cbn in *; auto 10; intuition (subst; auto 10).
Qed.
Print Assumptions C49_exceptions_of_the_command.

(** The documents of a command can be read and their anchors cannot fail. *)
Definition readable (E : env) (a : cli_args) (w : world) : Prop :=
  texts w /\ (0 <= a_skip a)%Z /\ stdin_once (inputs a)
  /\ (In (lit "-") (inputs a) -> a_in_place a = false /\ a_diff a = false)
  /\ forall n, In n (inputs a) -> exists d,
       (if names_stdin n then w_stdin w = Fresh d else fs_get (w_fs w) n = Some d)
       /\ d_bad d = false /\ anchors_safe E (a_parser a) (a_no_links a) (d_lines d).

(** Then the command is all or nothing: it succeeds, or a document cannot be rendered for a
    documented reason, nothing is printed and no file is touched. *)
Theorem C49_all_or_nothing : forall E a w, accepted a = true -> readable E a w ->
  (exists b, f_result (cli_write_toc E a w) = Ok b)
  \/ (exists e, documented e /\ cli_write_toc E a w = mkEffect [] (w_fs w) (Err e)).
Proof.
  intros E a w Ha (Ht & Hs & Ho & Hstd & Hr). destruct (C49_accepted_options_are_usable a Ha) as (o & Hsel & Hp & Hk & Hv & _). pose proof (selects_model a o Hsel) as Eo.
  destruct (build_multiple_tocs E o w (a_names a)) as [(tocs & w')|e] eqn:B.
  - left. unfold cli_write_toc. rewrite <- Eo, B, <- inputs_effective. pose proof (built_length _ _ _ _ _ _ B) as Hl. rewrite <- inputs_effective in Hl.
    assert (Hall : (a_in_place a = true \/ a_diff a = true) -> fs_readable (w_fs w) (combine (inputs a) tocs)).
    { intros Hx n t Hin. apply in_combine_l in Hin. assert (Hn : n <> stdin_name) by (intros ->; destruct (Hstd Hin); intuition congruence). split; [exact Hn|].
      destruct (Hr n Hin) as (d & A & Bd & _). rewrite names_stdin_model in A. destruct (is_stdin n) eqn:Hi; [apply is_stdin_iff in Hi; contradiction|]. eauto. }
    destruct (a_in_place a).
    + unfold write_strings. rewrite Hl, Nat.eqb_refl.
      pose proof (write_loop_errors E (cli_newline (a_newline a)) (a_toc_marker a) (combine (inputs a) tocs) (w_fs w) true (proj1 Ht)) as W.
      destruct (write_loop _ _ _ _ _ _) as ([b|x] & f); cbn [f_result bind fst] in *; [eauto|]. exfalso. apply W. apply Hall. auto.
    + pose proof (print_loop_errors E a (w_fs w) (proj1 Ht) (combine (inputs a) tocs) true) as W.
      destruct (print_loop _ _ _ _ _) as (out & [b|x]); cbn [f_result bind snd] in *; [eauto|]. exfalso. destruct W as (_ & Hd & W). apply W. intros n t Hin. destruct (Hall (or_intror Hd) n t Hin). assumption.
  - right. exists e. split; [|apply (C40_failed_build_touches_nothing E a o w e Hsel B)].
    destruct (build_errors E a o w e Hsel Hp (proj1 Hk) Hv Ht B) as [(n & Hin & X)|[(Hin & X & _)|(X & _)]]; [| |contradiction].
    + destruct (Hr n Hin) as (d & A & Bd & S). destruct X as [(_ & X)|[(Hn & _ & X)|(d' & A' & X)]]; [lia| |].
      * rewrite names_stdin_model in A. destruct (is_stdin n) eqn:Hi; [apply is_stdin_iff in Hi; contradiction|congruence].
      * assert (d' = d) by (destruct (names_stdin n); congruence). subst d'. destruct X as [X|[(_ & X)|(_ & X)]]; [exact X|congruence|contradiction].
    + exfalso. destruct (Hr _ Hin) as (d & A & _). rewrite names_stdin_model in A. cbn in A. exact (X d A).
Qed.
Print Assumptions C49_all_or_nothing.
Definition args_ip (names : list str) : cli_args :=
  mkArgs names (Some (lit ")")) (lit "-") false true false 3 Gitlab 0 false true true (lit "<!--TOC-->") (lit "\r\n").
Definition w_ip : world := mkWorld [(lit "a", mkDoc [ln "# A *b* [c]"; ln "<!--TOC-->"] false); (lit "b", mkDoc [ln "<!--TOC-->"; ln "#"] false); (lit "c", mkDoc [ln "# C"] false)] Closed.
Lemma safe_ascii s : forallb (fun c => negb (N.eqb c 0) && negb (N.eqb c 92)) s = true -> safe_line ascii_env s.
Proof.
  intros H. rewrite forallb_forall in H. split; [intros X; specialize (H _ X); discriminate|]. split; [intros c _ X; apply ascii_digit_range; exact X|].
  intros a b ->. specialize (H 92%N). cbn in H. discriminate H. apply in_or_app. right. left. reflexivity.
Qed.
Example C49_ex : accepted (args_ip [lit "a"; lit "c"]) = true /\ readable ascii_env (args_ip [lit "a"; lit "c"]) w_ip
  /\ f_result (cli_write_toc ascii_env (args_ip [lit "a"; lit "c"]) w_ip) = Ok true
  /\ readable ascii_env (args_ip [lit "a"; lit "b"]) w_ip
  /\ cli_write_toc ascii_env (args_ip [lit "a"; lit "b"]) w_ip = mkEffect [] (w_fs w_ip) (Err GithubEmptyLinkLabel).
Proof.
  assert (Hl : forall d, In d (map snd (w_fs w_ip)) -> text_lines (d_lines d) /\ d_bad d = false /\ anchors_safe ascii_env Gitlab false (d_lines d)).
  { cbn [map snd w_fs w_ip]. intros d Hd. repeat (destruct Hd as [<-|Hd]; [cbn [d_lines d_bad]|]); [| | |destruct Hd];
      (split; [match goal with |- text_lines ?l => change (text_lines (lines_of (concat l))) end; apply text_lines_of; cbn; intuition discriminate|]; split; [reflexivity|]; right; split; [exact python_tables_ascii|]; split; [|discriminate];
       repeat (constructor; [apply safe_ascii; vm_compute; reflexivity|]); constructor). }
  assert (Hg : forall n d, fs_get (w_fs w_ip) n = Some d -> In d (map snd (w_fs w_ip))).
  { intros n d. cbn [fs_get w_fs w_ip map snd]. repeat (destruct (seqb _ n); [intros X; injection X as <-; cbn; auto|]). discriminate. }
  assert (Hr : forall x, In x [lit "b"; lit "c"] -> readable ascii_env (args_ip [lit "a"; x]) w_ip).
  { intros x Hx. split; [split; [intros n d Hn; apply Hl; eapply Hg; exact Hn|discriminate]|]. split; [cbn; lia|].
    assert (Hin : forall n, In n (inputs (args_ip [lit "a"; x])) -> In n [lit "a"; lit "b"; lit "c"]) by (intros n [<-|[<-|[]]]; [left; reflexivity|right; exact Hx]).
    split; [intros p q E Y; assert (Z : In stdin_name (inputs (args_ip [lit "a"; x]))) by (rewrite E; apply in_or_app; right; left; reflexivity); apply Hin in Z; cbn in Z; intuition discriminate|].
    split; [intros Z; apply Hin in Z; cbn in Z; intuition discriminate|].
    intros n Hn. apply Hin in Hn. destruct Hn as [<-|[<-|[<-|[]]]]; (eexists; split; [vm_compute; reflexivity|]; eapply Hl; cbn; auto). }
  split; [vm_compute; reflexivity|]. split; [apply Hr; cbn; auto|]. split; [vm_compute; reflexivity|]. split; [apply Hr; cbn; auto|]. vm_compute. reflexivity.
Qed.
