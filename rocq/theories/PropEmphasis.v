(** Properties of remove_emphasis: C26 to C30, C45 and C46. *)
From Coq Require Import String List NArith ZArith Bool Arith Lia.
From Verif Require Import Str StrFacts Spec EnvSpec Regex HtmlRe Fence Atx Entity Inlines AsciiEnv HelperSpec EntityProof EmphSpec
  InlineProof InlineTotal InlineRun InlineEmph InlineOpaque.
Import ListNotations.
Local Open Scope list_scope.

Lemma zs_ascii_ex : zs_ascii ascii_env.
Proof.
  intros c Hc. cbn. rewrite orb_true_iff, !N.eqb_eq. split; [intros [->| ->]; [reflexivity|lia]|auto].
Qed.
Lemma delete_nul s : ~ In 0%N s -> delete_char 0 s = s.
Proof.
  unfold delete_char. induction s as [|c s IH]; intros H; [reflexivity|]. cbn [filter]. destruct (N.eqb_spec c 0) as [->|_]; [exfalso; apply H; left; reflexivity|]. cbn. rewrite IH; [reflexivity|].
  intros X. apply H. right. exact X.
Qed.
Lemma deletes_refl P s : deletes P s s.
Proof. induction s; constructor; assumption. Qed.
Lemma deletes_nul s t : deletes delimiter (delete_char 0 s) t -> deletes (fun c => delimiter c \/ c = 0%N) s t /\ ~ In 0%N t.
Proof.
  unfold delete_char. revert t. induction s as [|c s IH]; intros t H; cbn [filter] in H.
  - inversion H; subst. split; [constructor|intros []].
  - destruct (N.eqb_spec c 0) as [->|Hc]; cbn [negb] in H.
    + destruct (IH _ H) as (A & B). split; [apply del_drop; auto|exact B].
    + inversion H as [|x s' t' H' E1 E2|x s' t' Hd H' E1 E2]; subst.
      * destruct (IH _ H') as (A & B). split; [apply del_keep; exact A|]. intros [X|X]; [congruence|contradiction].
      * destruct (IH _ H') as (A & B). split; [apply del_drop; auto|exact B].
Qed.

(** ** C26: what is removed *)
(** Whatever the text, the only characters that disappear are NUL, star and underscore, and the
    others stay in their order.  For an unknown parser the text is returned as it is. *)
Theorem C26_only_delimiters_removed : forall E p line t,
  remove_emphasis E p line = Ok t ->
  (p = OtherParser -> t = line) /\
  (p <> OtherParser -> deletes (fun c => delimiter c \/ c = 0%N) line t /\ ~ In 0%N t).
Proof.
  intros E p line t H. split; [intros ->; cbn in H; congruence|]. intros Hp. apply deletes_nul. unfold remove_emphasis in H.
  assert (G : (do ign <- parse_inlines E (delete_char 0 line); Ok (filter_indices_from_line (delete_char 0 line) ign)) = Ok t) by (destruct p; try exact H; congruence).
  clear H. pose proof (parse_inlines_ok E (delete_char 0 line)) as K. destruct (parse_inlines E (delete_char 0 line)) as [ign|e]; cbn [bind] in G; [|discriminate]. injection G as <-.
  apply (filter_from_deletes anywhere (delete_char 0 line)); [auto|exact K].
Qed.
Print Assumptions C26_only_delimiters_removed.
Example C26_only_delimiters_removed_ex :
  remove_emphasis ascii_env Github (lit "a *b* c_d" ++ [0%N] ++ lit " __e__ `*`") = Ok (lit "a b c_d e `*`").
Proof. vm_compute. reflexivity. Qed.
(** The removed delimiters are not balanced: of the six stars of this text five are removed. *)
Theorem C26_balanced_refuted : exists s t, remove_emphasis ascii_env Github s = Ok t /\
  length (filter (N.eqb 42) s) = 6 /\ length (filter (N.eqb 42) t) = 1 /\ s = lit "*a***b**" /\ t = lit "a*b".
Proof. exists (lit "*a***b**"), (lit "a*b"). vm_compute. auto. Qed.
Print Assumptions C26_balanced_refuted.

(** ** C27: termination and the exceptions that can occur *)
Theorem C27_terminates : forall E p line e,
  remove_emphasis E p line = Err e -> e = IndexError \/ e = KeyError \/ e = ValueError.
Proof.
  intros E p line e H. unfold remove_emphasis in H. pose proof (parse_inlines_ok E (delete_char 0 line)) as K. destruct p; try discriminate;
    (destruct (parse_inlines E (delete_char 0 line)) as [ign|x]; cbn [bind] in H; [discriminate|injection H as <-; exact K]).
Qed.
Print Assumptions C27_terminates.
Example C27_terminates_ex : remove_emphasis ascii_env Github (lit "[a][b") = Err KeyError
  /\ remove_emphasis ascii_env Github (lit "[a](b ""c""") = Err IndexError /\ remove_emphasis ascii_env Github (repeat 42%N 50 ++ lit "a" ++ repeat 42%N 51) = Ok (lit "a*").
Proof. vm_compute. auto. Qed.

(** ** C28: when it does not raise *)
Theorem C28_harmless_text_never_raises : forall E p line,
  e_entities E <> [] -> ~ In 0%N line -> harmless E line ->
  exists t, remove_emphasis E p line = Ok t.
Proof.
  intros E p line He H0 Hh. unfold remove_emphasis. rewrite delete_nul by exact H0. destruct (parse_inlines_total E line He H0 Hh) as (ign & ->). destruct p; eexists; reflexivity.
Qed.
Print Assumptions C28_harmless_text_never_raises.
(** A way to compute that a text has no unescaped link tail. *)
Fixpoint no_link_b (esc : bool) (s : str) : bool :=
  match s with
  | [] => true
  | c :: s' => (if N.eqb c 93 && negb esc then match s' with d :: _ => negb (N.eqb d 40 || N.eqb d 91) | [] => true end else true)
               && no_link_b (N.eqb c 92 && negb esc) s'
  end.
Lemma no_link_b_ok s : forall q k, last q 0%N <> 92%N -> no_link_b (Nat.odd k) s = true -> forall a b c, s = a ++ 93%N :: c :: b -> c = 40%N \/ c = 91%N -> escapes (q ++ repeat 92%N k ++ a).
Proof.
  induction s as [|x s IH]; intros q k Hq H a b c Es Hc; [destruct a; discriminate|]. cbn [no_link_b] in H. apply andb_true_iff in H as (H1 & H2). destruct a as [|y a]; cbn in Es; injection Es as -> ->.
  - rewrite app_nil_r. destruct (Nat.odd k) eqn:O; [apply Nat.odd_spec in O as (n & ->); exists q, n; split; [f_equal; f_equal; lia|exact Hq]|].
    cbn in H1. destruct Hc as [->| ->]; discriminate.
  - destruct (N.eqb_spec y 92) as [->|Hy]; cbn [andb] in H2.
    + replace (repeat 92%N k ++ 92%N :: a) with (repeat 92%N (S k) ++ a) by (cbn [repeat]; rewrite repeat_cons, <- app_assoc; reflexivity). eapply IH; [exact Hq| |reflexivity|exact Hc].
      rewrite Nat.odd_succ, <- Nat.negb_odd. exact H2.
    + replace (q ++ repeat 92%N k ++ y :: a) with ((q ++ repeat 92%N k ++ [y]) ++ repeat 92%N 0 ++ a) by (rewrite <- !app_assoc; reflexivity).
      eapply IH; [rewrite app_assoc, last_last; exact Hy|exact H2|reflexivity|exact Hc].
Qed.
Lemma no_link_yes s : no_link_b false s = true -> no_link s.
Proof. intros H a b c Es Hc. exact (no_link_b_ok s [] 0 ltac:(discriminate) H a b c Es Hc). Qed.
Example C28_harmless_text_never_raises_ex : let s := lit "[x] **a &amp; [\\\](u ""t"" <b *c* `d\" in e_entities ascii_env <> [] /\ ~ In 0%N s /\ harmless ascii_env s.
Proof.
  cbv zeta. split; [discriminate|]. split; [cbn; intuition discriminate|]. split; [cbn; intuition discriminate|]. split; [cbn; intuition discriminate|]. split.
  - intros c Hc. cbn in Hc. cbn. unfold ascii_digit. intros H. apply in_range_iff in H. exact H.
  - apply no_link_yes. vm_compute. reflexivity.
Qed.
(** Each condition is needed: a reference link, an unfinished inline link, U+0100, a code span that
    ends in CR, and a digit outside ASCII in a hexadecimal character reference. *)
Definition arabic_digits : env := mkEnv (e_lower ascii_env) (e_word ascii_env) (fun c => e_digit ascii_env c || in_range 1632 1641 c)
  (e_space ascii_env) (e_zs ascii_env) (e_punct ascii_env) (e_sha1 ascii_env) (e_entities ascii_env).
Theorem C28_all_text_refuted :
  remove_emphasis ascii_env Github (lit "[a][b") = Err KeyError
  /\ remove_emphasis ascii_env Github (lit "[a](b ""c""") = Err IndexError
  /\ remove_emphasis ascii_env Github [97%N; 256%N] = Err IndexError
  /\ remove_emphasis ascii_env Github (lit "`a" ++ [13%N] ++ lit "`") = Err IndexError
  /\ remove_emphasis arabic_digits Github (lit "&#x" ++ [1638%N; 59%N]) = Err ValueError.
Proof. vm_compute. auto 6. Qed.
Print Assumptions C28_all_text_refuted.

(** ** C29: delimiters without meaning survive *)
Theorem C29_idle_delimiters_survive : forall E p s,
  zs_ascii E -> Forall (fun c => inert c \/ delimiter c) s -> all_idle E s ->
  remove_emphasis E p s = Ok s.
Proof.
  intros E p s Hz Hs Hi. unfold remove_emphasis. rewrite delete_nul.
  - rewrite (parse_inlines_idle E s Hz Hs Hi). cbn [bind]. unfold filter_indices_from_line. rewrite filter_from_nil. destruct p; reflexivity.
  - intros X. rewrite Forall_forall in Hs. destruct (Hs _ X) as [(_ & Y & _)|[Y|Y]]; [congruence|discriminate|discriminate].
Qed.
Print Assumptions C29_idle_delimiters_survive.
(** In particular snake_case words made of ASCII letters, digits and underscores. *)
Definition alnum (c : N) : Prop := is_letter c \/ is_digit c.
Definition alnum_wordlike (E : env) : Prop := forall c, alnum c -> e_zs E c = false /\ e_punct E c = false.
Lemma alnum_word E c : alnum_wordlike E -> alnum c -> wordlike E c.
Proof.
  intros H Hc. destruct (H c Hc) as (A & B). unfold alnum, is_letter, is_digit in Hc. unfold wordlike, space_char, punct_char, tail_like. rewrite A, B. cbn. repeat split; [intros [X|X]; [discriminate|lia]|intros [X|X]; [discriminate|lia]|lia].
Qed.
Lemma alnum_inert c : alnum c -> inert c.
Proof. unfold alnum, is_letter, is_digit, inert. cbn. lia. Qed.
Theorem C29_snake_case : forall E p s,
  zs_ascii E -> alnum_wordlike E -> s <> [] ->
  Forall (fun c => alnum c \/ c = 95%N) s -> alnum (hd 0%N s) -> alnum (last s 0%N) ->
  remove_emphasis E p s = Ok s.
Proof.
  intros E p s Hz Hw Hne Hs Hh Hl. apply C29_idle_delimiters_survive; [exact Hz| |].
  - eapply Forall_impl; [|exact Hs]. intros c [H|H]; [left; apply alnum_inert; exact H|right; right; exact H].
  - intros a c n b Es Dc La Hb. left.
    assert (Hc : c = 95%N). { rewrite Es in Hs. apply Forall_app in Hs as (_ & Hs). inversion Hs as [|? ? [X|X] _]; [|exact X]. exfalso. apply (inert_not_delim c (alnum_inert c X) Dc). }
    subst c. split; [reflexivity|]. rewrite Es in Hs, Hh, Hl. apply Forall_app in Hs as (Ha & Hs). apply Forall_app in Hs as (_ & Hs). split; apply (alnum_word E _ Hw).
    + destruct a as [|x a]; [exfalso; cbn in Hh; unfold alnum, is_letter, is_digit in Hh; lia|]. destruct (last_Forall _ (x :: a) 10%N ltac:(discriminate) Ha) as [X|X]; [exact X|contradiction].
    + destruct b as [|x b]; [exfalso; rewrite app_nil_r, last_app_ne in Hl by discriminate; rewrite last_repeat in Hl by lia; unfold alnum, is_letter, is_digit in Hl; lia|].
      inversion Hs as [|? ? [X|X] _]; subst; [exact X|]. cbn in Hb. contradiction.
Qed.
Print Assumptions C29_snake_case.
Lemma alnum_wordlike_ex : alnum_wordlike ascii_env.
Proof.
  intros c Hc. unfold alnum, is_letter, is_digit in Hc. cbn. split; [apply orb_false_iff; split; apply N.eqb_neq; lia|]. apply andb_false_iff. left.
  unfold ascii_punct, in_range. destruct Hc as [[Hc|Hc]|Hc]; rewrite !orb_false_iff; repeat split; apply andb_false_iff; rewrite !N.leb_gt; lia.
Qed.
Example C29_idle_delimiters_survive_ex : remove_emphasis ascii_env Github (lit "a_b__c * d ** _e") = Ok (lit "a_b__c * d ** _e")
  /\ remove_emphasis ascii_env Github (lit "_a b_") = Ok (lit "a b").
Proof. vm_compute. auto. Qed.
Example C29_snake_case_ex : remove_emphasis ascii_env Github (lit "snake_case__name_2") = Ok (lit "snake_case__name_2").
Proof.
  refine (C29_snake_case ascii_env Github (lit "snake_case__name_2") zs_ascii_ex alnum_wordlike_ex _ _ _ _); [discriminate| | |].
  - unfold lit. cbn. repeat (apply Forall_cons; [unfold alnum, is_letter, is_digit; lia|]). apply Forall_nil.
  - unfold lit. cbn. unfold alnum, is_letter, is_digit. lia.
  - unfold lit. cbn. unfold alnum, is_letter, is_digit. lia.
Qed.

(** ** C30: emphasis is removed *)
Theorem C30_nested_emphasis_removed : forall E p s t,
  zs_ascii E -> emphasised E s t -> remove_emphasis E p s = if match p with OtherParser => true | _ => false end then Ok s else Ok t.
Proof.
  intros E p s t Hz H.
  assert (H0 : ~ In 0%N s).
  { induction H as [w Hw|c k pre body body' post post' Hc Hk Hpre Ex Hb1 Hb2 Ey H1 IH1 H2 IH2].
    - intros X. rewrite Forall_forall in Hw. destruct (Hw _ X) as (_ & Y & _). congruence.
    - rewrite !in_app_iff. intros [X|[X|[X|[X|X]]]]; try tauto.
      + rewrite Forall_forall in Hpre. destruct (Hpre _ X) as (_ & Y & _). congruence.
      + apply repeat_spec in X. destruct Hc as [->| ->]; discriminate.
      + apply repeat_spec in X. destruct Hc as [->| ->]; discriminate. }
  unfold remove_emphasis. rewrite delete_nul by exact H0. destruct (emph_removed E s t Hz H) as (ign & -> & F). cbn [bind]. rewrite F. destruct p; reflexivity.
Qed.
Print Assumptions C30_nested_emphasis_removed.
(** In particular a single word between [k] delimiters on either side. *)
Theorem C30_word : forall E p c k w, p <> OtherParser ->
  zs_ascii E -> alnum_wordlike E -> delimiter c -> 1 <= k -> w <> [] -> Forall alnum w ->
  remove_emphasis E p (repeat c k ++ w ++ repeat c k) = Ok w.
Proof.
  intros E p c k w Hp Hz Hw Hc Hk Hne Ha. assert (Hwl : Forall (wordlike E) w) by (eapply Forall_impl; [|exact Ha]; intros x; apply alnum_word; exact Hw).
  assert (H : emphasised E ([] ++ repeat c k ++ w ++ repeat c k ++ []) ([] ++ w ++ [])).
  { assert (Ed : edge E 10%N). { split; [left; right; cbn; auto|]. split; [unfold tail_like; lia|]. intros [X|X]; discriminate. }
    apply emph_span; auto; [|apply last_Forall; assumption|apply emph_text; eapply Forall_impl; [|exact Ha]; exact alnum_inert|apply emph_text; constructor].
    destruct w as [|x w']; [congruence|]. inversion Hwl; assumption. }
  rewrite !app_nil_r in H. cbn [app] in H. rewrite (C30_nested_emphasis_removed E p _ _ Hz H). destruct p; try reflexivity. congruence.
Qed.
Print Assumptions C30_word.
Example C30_nested_emphasis_removed_ex : emphasised ascii_env (lit "see **a *b* c** and _d_.") (lit "see a b c and d.").
Proof.
  assert (I : forall w, forallb (fun c => negb (cin c (lit "`\&<[]*_")) && N.ltb 13 c && N.ltb c 256) w = true -> Forall inert w).
  { intros w Hw. rewrite forallb_forall in Hw. apply Forall_forall. intros c Hc. specialize (Hw c Hc). rewrite !andb_true_iff, negb_true_iff, !N.ltb_lt in Hw. destruct Hw as ((A & B) & C).
    apply cin_not_In in A. unfold inert. repeat split; [exact A|lia..]. }
  assert (W : forall c, cm_space ascii_env c || uc_punct ascii_env c || looks_continuation c = false -> wordlike ascii_env c).
  { intros c H. rewrite !orb_false_iff in H. destruct H as ((A & B) & C). split; [apply space_not; exact A|split; [apply punct_not; exact B|apply tail_not; exact C]]. }
  assert (D : forall c, (cm_space ascii_env c || uc_punct ascii_env c) && negb (looks_continuation c) && negb (N.eqb c 42) && negb (N.eqb c 95) = true -> edge ascii_env c).
  { intros c H. rewrite !andb_true_iff, orb_true_iff, !negb_true_iff, !N.eqb_neq in H. destruct H as (((A & B) & C) & F). split; [destruct A as [A|A]; [left; apply space_iff; exact A|right; apply punct_iff; exact A]|].
    split; [apply tail_not; exact B|]. intros [X|X]; contradiction. }
  apply (emph_span ascii_env 42%N 2 (lit "see ") (lit "a *b* c") (lit "a b c") (lit " and _d_.") (lit " and d.")); try (apply I; reflexivity); try (apply W; reflexivity); try (apply D; reflexivity); [left; reflexivity|lia| |].
  - apply (emph_span ascii_env 42%N 1 (lit "a ") (lit "b") (lit "b") (lit " c") (lit " c")); try (apply emph_text); try (apply I; reflexivity); try (apply W; reflexivity); try (apply D; reflexivity); [left; reflexivity|lia].
  - apply (emph_span ascii_env 95%N 1 (lit " and ") (lit "d") (lit "d") (lit ".") (lit ".")); try (apply emph_text); try (apply I; reflexivity); try (apply W; reflexivity); try (apply D; reflexivity); [right; reflexivity|lia].
Qed.
Example C30_word_ex : remove_emphasis ascii_env Gitlab (lit "***word***") = Ok (lit "word") /\ remove_emphasis ascii_env Gitlab (lit "____word____") = Ok (lit "word").
Proof. vm_compute. auto. Qed.

(** ** C45: an escaped delimiter is never removed *)
Theorem C45_escaped_delimiters_survive : forall E p a c b t,
  delimiter c -> escapes a -> ~ In 0%N (a ++ c :: b) ->
  remove_emphasis E p (a ++ c :: b) = Ok t ->
  exists a' b', t = a' ++ c :: b' /\ deletes delimiter a a' /\ deletes delimiter b b'.
Proof.
  intros E p a c b t Hc He H0 H. unfold remove_emphasis in H. rewrite delete_nul in H by exact H0.
  destruct p; try (injection H as <-; exists a, b; split; [reflexivity|]; split; apply deletes_refl).
  all: pose proof (escape_ranges E (a ++ c :: b) H0) as K; destruct (parse_inlines E (a ++ c :: b)) as [ign|]; cbn [bind] in H; [|discriminate]; injection H as <-;
    apply (filter_middle (free (a ++ c :: b)) a [c] b); [exact K|]; intros i Hi; cbn [length] in Hi; replace i with (length a) by lia; apply escapes_not_free; exact He.
Qed.
Print Assumptions C45_escaped_delimiters_survive.
Example C45_escaped_delimiters_survive_ex : escapes (lit "*a\\\") /\ remove_emphasis ascii_env Github (lit "*a\\\" ++ 42%N :: lit "b*") = Ok (lit "a\\\*b")
  /\ remove_emphasis ascii_env Github (lit "*a\\" ++ 42%N :: lit "b*") = Ok (lit "*a\\b").
Proof. split; [exists (lit "*a"), 1; split; [reflexivity|discriminate]|]. vm_compute. auto. Qed.

(** ** C46: nothing is removed from a code span *)
Theorem C46_code_spans_survive : forall E p n pre w post t,
  zs_ascii E -> 1 <= n <= 1000 ->
  Forall (fun c => inert c \/ delimiter c) pre ->
  hd 96%N w <> 96%N -> last w 0%N <> 96%N -> no_ticks_of n w -> hd 0%N post <> 96%N ->
  ~ In 0%N w -> ~ In 0%N post ->
  remove_emphasis E p (pre ++ repeat 96%N n ++ w ++ repeat 96%N n ++ post) = Ok t ->
  exists pre' post', t = pre' ++ repeat 96%N n ++ w ++ repeat 96%N n ++ post' /\ deletes delimiter pre pre' /\ deletes delimiter post post'.
Proof.
  intros E p n pre w post t Hz Hn Hpre W1 W2 W3 Hp H0w H0p H. unfold remove_emphasis in H. rewrite delete_nul in H.
  2:{ rewrite !in_app_iff. intros [X|[X|[X|[X|X]]]]; try tauto; try (apply repeat_spec in X; discriminate).
      rewrite Forall_forall in Hpre. destruct (Hpre _ X) as [(_ & Y & _)|[Y|Y]]; [congruence|discriminate|discriminate]. }
  destruct p; try (injection H as <-; exists pre, post; split; [reflexivity|]; split; apply deletes_refl).
  all: pose proof (code_ranges E pre w post n Hz Hpre Hn W1 W2 W3 Hp) as K;
    destruct (parse_inlines E (pre ++ repeat 96%N n ++ w ++ repeat 96%N n ++ post)) as [ign|]; cbn [bind] in H; [|discriminate]; injection H as <-;
    replace (pre ++ repeat 96%N n ++ w ++ repeat 96%N n ++ post) with (pre ++ (repeat 96%N n ++ w ++ repeat 96%N n) ++ post) in * by (rewrite <- !app_assoc; reflexivity);
    destruct (filter_middle _ pre (repeat 96%N n ++ w ++ repeat 96%N n) post ign K) as (a' & b' & -> & A & B);
    [intros i Hi; rewrite !app_length, repeat_length in Hi; unfold in_text; lia|];
    exists a', b'; rewrite <- !app_assoc; auto.
Qed.
Print Assumptions C46_code_spans_survive.
Example C46_code_spans_survive_ex : remove_emphasis ascii_env Github (lit "*a* " ++ repeat 96%N 2 ++ lit "*b* ` \* _c_" ++ repeat 96%N 2 ++ lit " *d*")
   = Ok (lit "a " ++ repeat 96%N 2 ++ lit "*b* ` \* _c_" ++ repeat 96%N 2 ++ lit " d")
  /\ no_ticks_of 2 (lit "*b* ` \* _c_").
Proof.
  split; [vm_compute; reflexivity|]. intros a b H. unfold lit in H. cbn in H. exfalso.
  repeat (destruct a as [|? a]; [cbn in H; discriminate|cbn in H; injection H as ? H; subst]).
  destruct a; discriminate.
Qed.
