(** C28 for texts with links. *)
From Coq Require Import String List NArith ZArith Bool Arith Lia.
From Verif Require Import Str StrFacts Spec EnvSpec Regex HtmlRe Fence Atx Entity Inlines HelperSpec EmphSpec TameSpec AsciiEnv InlineProof InlineRun InlineOpaque LinkTotal PropEmphasis.
Import ListNotations.
Local Open Scope list_scope.

(** ** C28: texts with links *)
Theorem C28_links_never_raise : forall E p line,
  e_entities E <> [] -> zs_ascii E -> ~ In 0%N line -> tame E line ->
  exists t, remove_emphasis E p line = Ok t.
Proof.
  intros E p line He Hz H0 Ht. unfold remove_emphasis. rewrite delete_nul by exact H0. destruct (parse_inlines_tame E line He Hz H0 Ht) as (ign & ->). destruct p; eexists; reflexivity.
Qed.
Print Assumptions C28_links_never_raise.

(** A way to compute that a text is tame. *)
Fixpoint brackets_b (Q : str -> bool) (esc : bool) (s : str) : bool :=
  match s with
  | [] => true
  | c :: s' => (if N.eqb c 93 && negb esc then Q s' else true) && brackets_b Q (N.eqb c 92 && negb esc) s'
  end.
Lemma brackets_ok Q s : forall q k, last q 0%N <> 92%N -> brackets_b Q (Nat.odd k) s = true -> forall a b, s = a ++ 93%N :: b -> escapes (q ++ repeat 92%N k ++ a) \/ Q b = true.
Proof.
  induction s as [|x s IH]; intros q k Hq H a b Es; [destruct a; discriminate|]. cbn [brackets_b] in H. apply andb_true_iff in H as (H1 & H2). destruct a as [|y a]; cbn in Es; injection Es as -> ->.
  - rewrite app_nil_r. destruct (Nat.odd k) eqn:O; [left; apply Nat.odd_spec in O as (n & ->); exists q, n; split; [f_equal; f_equal; lia|exact Hq]|]. right. exact H1.
  - destruct (N.eqb_spec y 92) as [->|Hy]; cbn [andb] in H2.
    + replace (repeat 92%N k ++ 92%N :: a) with (repeat 92%N (S k) ++ a) by (cbn [repeat]; rewrite repeat_cons, <- app_assoc; reflexivity). eapply IH; [exact Hq| |reflexivity].
      rewrite Nat.odd_succ, <- Nat.negb_odd. exact H2.
    + replace (q ++ repeat 92%N k ++ y :: a) with ((q ++ repeat 92%N k ++ [y]) ++ repeat 92%N 0 ++ a) by (rewrite <- !app_assoc; reflexivity).
      eapply IH; [rewrite app_assoc, last_last; exact Hy|exact H2|reflexivity].
Qed.
Definition tail_b (E : env) (b : str) : bool :=
  negb (cin 92 b) && (negb (cin 38 b) || negb (cin 59 b)) && negb (cin (last (rstrip (cm_space E) b) 0%N) [34; 39; 11]%N).
Definition tame_b (E : env) (s : str) : bool :=
  negb (cin 13 s) && negb (cin 256 s) &&
  brackets_b (fun w => match w with 91%N :: b => N.eqb (hd 0%N b) 91 || N.eqb (hd 0%N b) 93 | 40%N :: b => tail_b E b | _ => true end) false s.
Lemma tail_yes E b : tail_b E b = true -> tame_tail E b.
Proof.
  unfold tail_b. rewrite !andb_true_iff, orb_true_iff, !negb_true_iff. intros ((A & B) & C). split; [apply cin_not_In; exact A|]. split; [destruct B as [B|B]; [left|right]; apply cin_not_In; exact B|].
  intros b1 c b2 Eb Hc Hb X. apply cin_not_In in C. apply C. replace (rstrip (cm_space E) b) with (b1 ++ [c]); [rewrite last_last; exact X|].
  replace b with ((b1 ++ [c]) ++ b2) by (rewrite Eb, <- app_assoc; reflexivity). symmetry. apply rstrip_unique.
  - apply Forall_forall. intros d Hd. rewrite Forall_forall in Hb. apply blank_iff. apply Hb. exact Hd.
  - apply noend_app. destruct (cm_space E c) eqn:Q; [|reflexivity]. exfalso. apply Hc. apply blank_iff. exact Q.
Qed.
Lemma tame_yes E s : plain_digits E s -> tame_b E s = true -> tame E s.
Proof.
  intros Hd. unfold tame_b. rewrite !andb_true_iff, !negb_true_iff. intros ((A & B) & C). split; [apply cin_not_In; exact A|]. split; [apply cin_not_In; exact B|]. split; [exact Hd|]. split.
  - intros a b Es. destruct (brackets_ok _ s [] 0 ltac:(discriminate) C a _ Es) as [X|X]; [left; exact X|right]. cbv beta iota in X. apply orb_true_iff in X. rewrite !N.eqb_eq in X. exact X.
  - intros a b Es. destruct (brackets_ok _ s [] 0 ltac:(discriminate) C a _ Es) as [X|X]; [left; exact X|right]. apply tail_yes. exact X.
Qed.
Example C28_links_never_raise_ex : let s := lit "\](x\ 't' [**a**](b ""t"") and ![c](<d e> 't' ) [[e][] f](#g&h) _x" in
  e_entities ascii_env <> [] /\ zs_ascii ascii_env /\ ~ In 0%N s /\ tame ascii_env s /\ ~ harmless ascii_env s
  /\ remove_emphasis ascii_env Github s = Ok (lit "\](x\ 't' [a](b ""t"") and ![c](<d e> 't' ) [[e][] f](#g&h) _x").
Proof.
  cbv zeta. split; [discriminate|]. split; [apply zs_ascii_ex|]. split; [cbn; intuition discriminate|]. split; [|split; [|vm_compute; reflexivity]].
  - apply tame_yes; [|vm_compute; reflexivity]. intros c Hc. cbn. unfold ascii_digit. intros H. apply in_range_iff in H. exact H.
  - intros (_ & _ & _ & X). specialize (X (lit "\](x\ 't' [**a**") (lit "b ""t"") and ![c](<d e> 't' ) [[e][] f](#g&h) _x") 40%N eq_refl (or_introl eq_refl)).
    destruct X as (a' & n & Ea & _). assert (Y : last (lit "\](x\ 't' [**a**") 0%N = 92%N); [|vm_compute in Y; discriminate]. rewrite Ea. replace (S (2 * n)) with (2 * n + 1) by lia. rewrite repeat_app, app_assoc. apply last_last.
Qed.
(** A title that ends the text, a backslash at the end of an address or title, an entity for a backslash there. *)
Theorem C28_tame_needed_refuted :
  remove_emphasis ascii_env Github (lit "[a](b 'c' ") = Err IndexError
  /\ remove_emphasis ascii_env Github (lit "[a](b" ++ [32%N; 11%N]) = Err IndexError
  /\ remove_emphasis ascii_env Github (lit "[a](b\ )") = Err IndexError
  /\ remove_emphasis ascii_env Github (lit "[a](b 'c\')") = Err IndexError
  /\ remove_emphasis ascii_env Github (lit "[a][b] c") = Err KeyError.
Proof. vm_compute. auto 6. Qed.
Print Assumptions C28_tame_needed_refuted.
