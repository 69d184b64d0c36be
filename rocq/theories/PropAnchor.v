(** Properties of build_anchor_link: C09-C13. *)
From Coq Require Import String List NArith ZArith Bool Arith Lia.
From Verif Require Import Str Fence Atx HtmlRe Inlines Anchor AsciiEnv Spec EnvSpec AnchorSpec.
From Verif Require Import StrFacts FenceProof AtxProof DecFacts AnchorProof.
Import ListNotations.
Local Open Scope list_scope.

Definition dup_example : list str := [lit "Usage"; lit "API"; lit "usage"; lit "Api"; lit "USAGE"].
Definition dup_example_anchors : list (option str) :=
  [Some (lit "usage"); Some (lit "api"); Some (lit "usage-1"); Some (lit "api-1"); Some (lit "usage-2")].

(** C09: the anchors of successive headings. *)
Theorem C09_duplicates_numbered_in_order : forall E p texts anchors d,
  commonmark_parser p ->
  anchor_calls E p [] texts = Ok (anchors, d) ->
  exists slugs,
    Forall2 (base_slug E p) texts slugs /\ length anchors = length texts /\
    (no_collision E slugs ->
     forall i s, nth_error slugs i = Some s ->
       exists a, nth_error anchors i = Some (Some a) /\ numbered s (occurrences s (firstn i slugs)) a).
Proof.
  intros E p texts anchors d Hp H. apply cm_family_iff in Hp.
  destruct (calls_spec E p texts [] [] anchors d Hp (counts_nil E) H) as (slugs & F & Hl & _ & Hv).
  exists slugs. repeat split; auto. intros Hn i s Hi. eexists. split; [apply Hv; [exact Hn|exact Hi]|].
  apply label_number_numbered.
Qed.
Print Assumptions C09_duplicates_numbered_in_order.
Example C09_duplicates_numbered_in_order_ex :
  (exists d, anchor_calls ascii_env Github [] dup_example = Ok (dup_example_anchors, d))
  /\ (forall slugs, no_collision ascii_env slugs).
Proof.
  split; [eexists; vm_compute; reflexivity|]. intros slugs s t _ _ H. exact H.
Qed.

(** The base slug of a text is unique, and every text whose anchor can be built has one. *)
Theorem C09_base_slug_unique : forall E p text s t,
  base_slug E p text s -> base_slug E p text t -> s = t.
Proof. exact base_slug_unique. Qed.
Print Assumptions C09_base_slug_unique.
Example C09_base_slug_unique_ex : base_slug ascii_env Gitlab (lit "a - b") (lit "a-b").
Proof. eexists. vm_compute. reflexivity. Qed.

(** C10: no two headings get the same anchor, provided no base slug is another one followed
    by '-' and a positive number. *)
Theorem C10_anchors_distinct : forall E p texts slugs anchors d,
  commonmark_parser p ->
  anchor_calls E p [] texts = Ok (anchors, d) ->
  Forall2 (base_slug E p) texts slugs ->
  no_collision E slugs ->
  (forall s t n num, In s slugs -> In t slugs -> (0 < n)%N -> decimal n num -> s <> t ++ [45%N] ++ num) ->
  NoDup anchors.
Proof.
  intros E p texts slugs anchors d Hp H F Hn Hm.
  destruct (C09_duplicates_numbered_in_order E p texts anchors d Hp H) as (slugs' & F' & Hl & Hv).
  assert (slugs' = slugs) as ->.
  { clear -F F'. revert slugs F. induction F'; intros slugs F; inversion F; subst; [reflexivity|].
    f_equal; [eapply base_slug_unique; eassumption|auto]. }
  specialize (Hv Hn).
  assert (Hlen : length slugs = length anchors) by (rewrite Hl; symmetry; clear -F; induction F; cbn; congruence).
  apply NoDup_nth_error. intros i j Hi Eij.
  assert (Hj : j < length anchors) by (apply nth_error_Some; rewrite <- Eij; apply nth_error_Some; exact Hi).
  destruct (nth_error slugs i) as [s|] eqn:Ei; [|apply nth_error_None in Ei; lia].
  destruct (nth_error slugs j) as [t|] eqn:Ej; [|apply nth_error_None in Ej; lia].
  destruct (Hv i s Ei) as (a & Ea & Na). destruct (Hv j t Ej) as (b & Eb & Nb).
  assert (b = a) by congruence. subst b.
  destruct (numbered_inj _ _ _ _ _ Na Nb) as (Est & Ek).
  { intros n num G D. apply Hm with (n := n); auto; eapply nth_error_In; eassumption. }
  { intros n num G D. apply Hm with (n := n); auto; eapply nth_error_In; eassumption. }
  subst t.
  assert (Hlt : forall i j, i < j -> nth_error slugs i = Some s -> occurrences s (firstn i slugs) < occurrences s (firstn j slugs)).
  { clear. intros i j Hij E. replace j with (i + S (j - S i)) by lia.
    apply nth_error_split in E as (l1 & l2 & -> & <-).
    rewrite firstn_app_2, (firstn_app_len l1), occurrences_app. cbn [firstn occurrences].
    destruct (list_eq_dec N.eq_dec s s); [lia|congruence]. }
  destruct (lt_eq_lt_dec i j) as [[G|G]|G]; [|exact G|].
  - specialize (Hlt i j G Ei). lia.
  - specialize (Hlt j i G Ej). lia.
Qed.
Print Assumptions C10_anchors_distinct.
Example C10_anchors_distinct_ex :
  Forall2 (base_slug ascii_env Github) dup_example [lit "usage"; lit "api"; lit "usage"; lit "api"; lit "usage"]
  /\ (forall s t n num, In s [lit "usage"; lit "api"; lit "usage"; lit "api"; lit "usage"] ->
        In t [lit "usage"; lit "api"; lit "usage"; lit "api"; lit "usage"] ->
        (0 < n)%N -> decimal n num -> s <> t ++ [45%N] ++ num).
Proof.
  split.
  - repeat (constructor; [eexists; vm_compute; reflexivity|]). constructor.
  - intros s t n num Hs _ _ _ E. assert (G : In 45%N s) by (rewrite E; apply in_or_app; right; left; reflexivity).
    cbn in Hs. repeat destruct Hs as [<-|Hs]; cbn in G; intuition discriminate.
Qed.
(** Without that condition anchors can coincide. *)
Theorem C10_distinct_refuted :
  exists texts anchors d, anchor_calls ascii_env Github [] texts = Ok (anchors, d) /\ ~ NoDup anchors.
Proof.
  exists [lit "a"; lit "a"; lit "a-1"], [Some (lit "a"); Some (lit "a-1"); Some (lit "a-1")]. eexists.
  split; [vm_compute; reflexivity|]. intros H. inversion H; subst. inversion H3; subst. apply H4. left. reflexivity.
Qed.
Print Assumptions C10_distinct_refuted.
(** redcarpet never disambiguates: the counter is neither used nor changed. *)
Theorem C10_redcarpet_not_numbered : forall E d d' text a1 a2 r1 r2,
  build_anchor_link E Redcarpet d text = Ok (a1, r1) -> build_anchor_link E Redcarpet d' text = Ok (a2, r2) ->
  a1 = a2 /\ r1 = d /\ r2 = d'.
Proof.
  intros E d d' text a1 a2 r1 r2. unfold build_anchor_link. cbn [cm_family].
  destruct (1 <? _); [discriminate|]. intros H1 H2. injection H1 as <- <-. injection H2 as <- <-. auto.
Qed.
Print Assumptions C10_redcarpet_not_numbered.
Example C10_redcarpet_not_numbered_ex :
  anchor_calls ascii_env Redcarpet [] [lit "a b"; lit "a b"] = Ok ([Some (lit "a-b"); Some (lit "a-b")], []).
Proof. reflexivity. Qed.

(** C11 *)
Theorem C11_anchor_alphabet : forall E p d text a d',
  commonmark_parser p -> word_ascii E ->
  build_anchor_link E p d text = Ok (Some a, d') ->
  Forall (fun c => e_word E c = true \/ c = 45%N) a
  /\ Forall (fun c => (c < 128)%N -> is_letter c \/ is_digit c \/ c = 95%N \/ c = 45%N) a.
Proof.
  intros E p d text a d' Hp Hw H. apply cm_family_iff in Hp.
  assert (G : Forall (fun c => e_word E c = true \/ c = 45%N) a).
  { apply build_anchor_cm in H as (s & E1 & _ & _ & Hs); [|exact Hp]. injection E1 as ->.
    pose proof (slug_chars E p text s Hp Hs) as F. unfold number_anchor. cbn [fst].
    destruct (0 <? dup_get d (e_sha1 E s))%Z eqn:G; [|exact F].
    apply Z.ltb_lt in G. rewrite dec_nonneg by lia.
    eapply (numbered_chars E s (Z.to_nat (dup_get d (e_sha1 E s)))); auto. right. split; [lia|].
    eexists. split; [apply decN_decimal|]. rewrite Z_nat_N. reflexivity. }
  split; [exact G|]. eapply Forall_impl; [|exact G]. intros c [Hc|Hc] Hlt; [|auto].
  apply Hw in Hc; [|exact Hlt]. tauto.
Qed.
Print Assumptions C11_anchor_alphabet.
Example C11_anchor_alphabet_ex :
  word_ascii ascii_env
  /\ (exists d, build_anchor_link ascii_env Github [] (lit "What's [new](url) in *v2.0*?") = Ok (Some (lit "whats-newurl-in-v20"), d)).
Proof.
  split; [|eexists; vm_compute; reflexivity].
  intros c Hc. cbn. unfold is_letter, is_digit, ascii_alnum, ascii_alpha, ascii_upper, ascii_lower, ascii_digit, in_range.
  rewrite !orb_true_iff, !andb_true_iff, !N.leb_le, N.eqb_eq. lia.
Qed.

(** C12 *)
Theorem C12_gitlab_no_double_hyphen : forall E text slug,
  base_slug E Gitlab text slug -> forall pre post, slug <> pre ++ [45%N; 45%N] ++ post.
Proof.
  intros E text s H pre post. apply base_slug_slug in H; [|reflexivity]. unfold Anchor.slug in H.
  destruct (remove_emphasis _ _ _) as [t|e]; cbn [bind] in H; [|discriminate].
  cbn [bind anchor_link_punctuation_filter cm_family] in H. injection H as <-. apply squeeze_no_double.
Qed.
Print Assumptions C12_gitlab_no_double_hyphen.
Example C12_gitlab_no_double_hyphen_ex :
  base_slug ascii_env Gitlab (lit "a  -- b") (lit "a-b") /\ base_slug ascii_env Github (lit "a  -- b") (lit "a-----b").
Proof. split; eexists; vm_compute; reflexivity. Qed.
Theorem C12_numbered_anchors_refuted :
  exists texts anchors d pre post,
    anchor_calls ascii_env Gitlab [] texts = Ok (anchors, d)
    /\ nth_error anchors 1 = Some (Some (pre ++ [45%N; 45%N] ++ post)).
Proof.
  exists [lit "a -"; lit "a -"], [Some (lit "a-"); Some (lit "a--1")]. eexists. exists (lit "a"), (lit "1").
  split; vm_compute; reflexivity.
Qed.
Print Assumptions C12_numbered_anchors_refuted.

(** C13: the redcarpet anchor joins, by single hyphens, the lower-cased maximal runs of the
    surviving characters of the text (from which '<' and '&' are removed first).  If nothing
    survives it is 'part-' and the hash of the text in hexadecimal. *)
Theorem C13_redcarpet_anchor : forall E d text a d',
  build_anchor_link E Redcarpet d text = Ok (a, d') ->
  exists words lowered,
    runs redcarpet_keeps (filter (fun c => negb (N.eqb c 60 || N.eqb c 38)) text) words
    /\ Forall2 (Forall2 ascii_lowered) words lowered
    /\ (words <> [] -> a = Some (separated [45%N] lowered))
    /\ (words = [] -> text <> [] ->
        exists num, a = Some (lit "part-" ++ num) /\ Forall lower_hex num /\ hex_value 0 num = djb2 5381 text)
    /\ (text = [] -> a = Some []).
Proof.
  intros E d text a d' H. unfold build_anchor_link in H. destruct (1 <? _); [discriminate|]. cbn in H. injection H as <- <-.
  destruct (runs_exist redcarpet_keeps keeps_decidable (filter (fun c => negb (N.eqb c 60 || N.eqb c 38)) text)) as (ws & R).
  destruct (rc_anchor_runs text ws R) as (A & B & C).
  exists ws, (map low ws). split; [exact R|]. split.
  { clear. induction ws; cbn; constructor; auto using low_lowered. }
  split; [intros G; rewrite (A G); reflexivity|]. split.
  - intros G1 G2. rewrite (B G1 G2). exists (hexN (rc_hash text)). split; [reflexivity|]. split; [apply hexuint_digits|].
    rewrite hexN_value. unfold rc_hash. apply rc_hash_djb2.
  - intros G. rewrite (C G). reflexivity.
Qed.
Print Assumptions C13_redcarpet_anchor.
Example C13_redcarpet_anchor_ex :
  build_anchor_link ascii_env Redcarpet [] (lit " What's a <b>new</b> -- Thing?! ") = Ok (Some (lit "what-s-a-b>new-b>-thing"), [])
  /\ build_anchor_link ascii_env Redcarpet [] (lit "?!") = Ok (Some (lit "part-597285"), []).
Proof. split; vm_compute; reflexivity. Qed.

(** Hence a redcarpet anchor is never empty, has no doubled, leading or trailing hyphen ... *)
Theorem C13_redcarpet_alphabet : forall E d text a d',
  build_anchor_link E Redcarpet d text = Ok (Some a, d') -> text <> [] ->
  a <> [] /\ Forall (fun c => (c <= 127)%N /\ ~ (65 <= c <= 90)%N
                              /\ ~ In c (lit " &+$,/:;=?@""#{}|^~[]`\*()%.!'<")) a.
Proof.
  intros E d text a d' H Ht.
  destruct (C13_redcarpet_anchor E d text (Some a) d' H) as (ws & lw & R & F & A & B & _).
  assert (K : forall c e, redcarpet_keeps c -> ascii_lowered c e ->
     (e <= 127)%N /\ ~ (65 <= e <= 90)%N /\ ~ In e (lit " &+$,/:;=?@""#{}|^~[]`\*()%.!'<")).
  { intros c e (K1 & K2) [(L1 & ->)|(L1 & ->)].
    - split; [lia|]. split; [lia|]. intros G. cbn in G. lia.
    - split; [lia|]. split; [exact L1|]. intros G. apply K2. cbn in G |- *. tauto. }
  destruct ws as [|w ws].
  - destruct (B eq_refl Ht) as (num & E1 & Fh & _). injection E1 as ->. split; [discriminate|].
    repeat (apply Forall_cons; [cbn; lia|]).
    eapply Forall_impl; [|exact Fh]. intros c Hc. unfold lower_hex, is_digit in Hc. cbn. lia.
  - assert (E1 : a = join [45%N] lw) by (assert (G : Some a = Some (join [45%N] lw)) by (apply A; discriminate); congruence).
    subst a. inversion F as [|w' u ws' lw' F1 F2]; subst. inversion R as [|g w0 s ws0 Fg Hw Fw Hs R']; subst.
    split.
    { inversion F1; subst; [congruence|]. cbn. destruct lw'; discriminate. }
    assert (D : (45 <= 127)%N /\ ~ (65 <= 45 <= 90)%N /\ ~ In 45%N (lit " &+$,/:;=?@""#{}|^~[]`\*()%.!'<")) by (cbn; lia).
    assert (Q : Forall (Forall (fun c => (c <= 127)%N /\ ~ (65 <= c <= 90)%N /\ ~ In c (lit " &+$,/:;=?@""#{}|^~[]`\*()%.!'<"))) (u :: lw')).
    { assert (Fk : Forall (Forall redcarpet_keeps) (w :: ws)).
      { clear -R. remember (w :: ws) as l. clear Heql. induction R; constructor; auto. }
      clear -F Fk K. revert Fk. induction F; intros Fk; constructor; inversion Fk; subst; auto.
      clear -H K H2. revert H2. induction H; intros Fk; constructor; inversion Fk; subst; eauto. }
    clear -Q D. revert Q. generalize (u :: lw'). induction l as [|x [|y l] IH]; intros Q; cbn [join].
    + constructor.
    + inversion Q; assumption.
    + inversion Q; subst. apply Forall_app. split; [assumption|]. apply Forall_app. split; [constructor; auto|]. apply IH. assumption.
Qed.
Print Assumptions C13_redcarpet_alphabet.
Example C13_redcarpet_alphabet_ex :
  exists a, build_anchor_link ascii_env Redcarpet [] (lit "A [x](y)!") = Ok (Some a, []) /\ a = lit "a-x-y".
Proof. eexists. split; vm_compute; reflexivity. Qed.
