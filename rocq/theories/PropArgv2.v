(** Command lines with options that do not exist. *)
From Coq Require Import String List NArith ZArith Bool Lia.
From Verif Require Import Str StrFacts Anchor Toc Cli CallSpec AsciiEnv Argv ArgvSpec PropArgs PropRerun PropArgv.
Import ListNotations.
Local Open Scope list_scope.

(** ** What a table holds *)
Definition table_of (tbl : table) (o : options) : Prop :=
  Forall (fun '(n, k) =>
    (exists c, n = [45%N; c] /\ c <> 45%N /\ c <> 61%N /\ In c (o_letters o) /\ (In c (o_bare_letters o) -> kind_of k = Flag))
    \/ (exists t, n = 45%N :: 45%N :: t /\ ~ In 61%N n /\ In n (o_names o))) tbl
  /\ Forall (fun c => c <> 45%N /\ c <> 61%N /\ In c (o_letters o) /\ exists k, kind_of k = Flag /\ find_str tbl [45%N; c] = Some k
       /\ forall d t, option_tuples tbl (45%N :: c :: d :: t) = [Opt (Some k) [45%N; c] false (Some (d :: t))]) (o_bare_letters o)
  /\ Forall (fun n => firstn 2 n = lit "--" /\ exists k, kind_of k = Flag /\ forall E, long_ok E tbl (o_names o) n k) (o_bare_names o)
  /\ exists t, In (45%N :: 45%N :: t) (o_names o).
Ltac entry := first [left; eexists; split; [reflexivity|]; split; [discriminate|]; split; [discriminate|]; split; [cbn; tauto|cbn; intuition (reflexivity || discriminate)]
  | right; eexists; split; [reflexivity|]; split; [cbn; intuition discriminate|cbn; tauto]].
Ltac table_tac :=
  split; [repeat (apply Forall_cons; [entry|]); apply Forall_nil|];
  split; [repeat (apply Forall_cons; [split; [discriminate|split; [discriminate|split; [cbn; tauto|eexists; split; [|split; [vm_compute; reflexivity|intros; vm_compute; reflexivity]]; reflexivity]]]|]); apply Forall_nil|];
  split; [repeat (apply Forall_cons; [split; [reflexivity|]; eexists; split; [|intros E; long_tac]; reflexivity|]); apply Forall_nil|];
  eexists; left; reflexivity.
Lemma main_options : table_of main_table global_options.
Proof. table_tac. Qed.
Lemma sub_options : table_of sub_table local_options.
Proof. table_tac. Qed.

Lemma find_none {A} (l : list (str * A)) s : (forall n k, In (n, k) l -> n <> s) -> find_str l s = None.
Proof.
  induction l as [|(n, k) l IH]; intros H; [reflexivity|]. cbn [find_str]. rewrite (proj2 (seqb_neq n s)) by (apply (H n k); left; reflexivity).
  apply IH. intros n' k' I. apply (H n' k'). right. exact I.
Qed.
Lemma flat_map_none {A B} (f : A -> list B) l : (forall x, In x l -> f x = []) -> flat_map f l = [].
Proof. induction l as [|x l IH]; intros H; [reflexivity|]. cbn [flat_map]. rewrite (H x), IH; [reflexivity| |left; reflexivity]. intros y I. apply H. right. exact I. Qed.
Lemma filter_none {A} (f : A -> bool) l : (forall x, In x l -> f x = false) -> filter f l = [].
Proof. induction l as [|x l IH]; intros H; [reflexivity|]. cbn [filter]. rewrite (H x), IH; [reflexivity| |left; reflexivity]. intros y I. apply H. right. exact I. Qed.
Lemma partition_split s : match partition_eq s with (a, Some e) => s = a ++ 61%N :: e /\ ~ In 61%N a | (a, None) => s = a /\ ~ In 61%N a end.
Proof.
  induction s as [|c s IH]; [split; [reflexivity|intros []]|]. cbn [partition_eq]. destruct (N.eqb c 61) eqn:Ec; [apply N.eqb_eq in Ec; subst; split; [reflexivity|intros []]|].
  apply N.eqb_neq in Ec. destruct (partition_eq s) as (a & [e|]); destruct IH as (-> & N0); (split; [reflexivity|]); intros [Z|Z]; congruence || (apply N0, Z).
Qed.
Lemma partition_name w v : ~ In 61%N w -> v = [] \/ hd 0%N v = 61%N -> partition_eq (w ++ v) = (w, match v with [] => None | _ :: e => Some e end).
Proof.
  intros N0 Hv. induction w as [|c w IH].
  - destruct v as [|d v]; [reflexivity|]. destruct Hv as [Hv|Hv]; [discriminate|]. cbn in Hv. subst. reflexivity.
  - cbn [app partition_eq]. rewrite IH by (intros I; apply N0; right; exact I). replace (N.eqb c 61) with false; [reflexivity|]. symmetry. apply N.eqb_neq. intros ->. apply N0. left. reflexivity.
Qed.

(** ** Marks that cannot be accepted *)
Definition bad_mark (tbl : table) (m : mark) : Prop :=
  exists ask nm sep ex, m = Opt ask nm sep ex
    /\ forall next, consume_optional tbl ask nm sep ex next = Usage \/ exists l, consume_optional tbl ask nm sep ex next = Got (l, true, false).
Lemma cluster_sep tbl k e next : kind_of k = Flag -> cluster tbl k true e next = Usage.
Proof. intros H. destruct e; cbn [cluster]; rewrite H; reflexivity. Qed.
Lemma cluster_bad tbl o : table_of tbl o -> forall ss k c rest next, kind_of k = Flag -> Forall (fun s => In s (o_bare_letters o)) ss -> ~ In c (o_letters o) ->
  cluster tbl k false (ss ++ c :: rest) next = Usage \/ exists l, cluster tbl k false (ss ++ c :: rest) next = Got (l, true, false).
Proof.
  intros (T1 & T2 & _). rewrite Forall_forall in T1, T2. induction ss as [|s ss IH]; intros k c rest next Hk Hs Hc.
  - cbn [app cluster]. rewrite Hk. cbn [orb]. destruct (N.eqb c cDASH) eqn:Ec; [left; reflexivity|]. apply N.eqb_neq in Ec. rewrite find_none; [right; eexists; reflexivity|].
    intros n k' I ->. destruct (T1 _ I) as [(c' & Z & _ & _ & J & _)|(t & Z & _)]; [injection Z as ->; apply Hc, J|]. injection Z as Z _. apply Ec, Z.
  - inversion Hs as [|? ? Hs1 Hs2]; subst. destruct (T2 _ Hs1) as (A & B & _ & k' & Hk' & F & _). cbn [app cluster]. rewrite Hk. apply N.eqb_neq in A. change cDASH with 45%N. rewrite A, F. cbn [orb].
    destruct (ss ++ c :: rest) as [|d t] eqn:Ed; [destruct ss; discriminate|]. destruct (N.eqb d 61).
    + rewrite cluster_sep by exact Hk'. left. reflexivity.
    + rewrite <- Ed. destruct (IH k' c rest next Hk' Hs2 Hc) as [->|(l & ->)]; [left; reflexivity|right; eexists; reflexivity].
Qed.
Lemma negative_first E c t : e_digit E c = false -> c <> 46%N -> looks_negative E (45%N :: c :: t) = false.
Proof.
  intros Hd Hc. unfold looks_negative. change (N.eqb 45 cDASH) with true. cbn [andb]. apply N.eqb_neq in Hc.
  assert (X : forall u, (let rest := lstrip (e_digit E) (c :: u) in
       match rest with [] => negb (match c :: u with [] => true | _ => false end) | d :: v => N.eqb d 46 && forallb (e_digit E) v && negb (match v with [] => true | _ => false end) end) = false).
  { intros u. cbn [lstrip]. rewrite Hd, Hc. reflexivity. }
  destruct (rev (c :: t)) as [|d r] eqn:Er; [apply X|]. assert (Z : c :: t = rev r ++ [d]) by (rewrite <- (rev_involutive (c :: t)), Er; reflexivity).
  assert (Y : forall u, u = c :: t \/ u = rev r -> (let rest := lstrip (e_digit E) u in
       match rest with [] => negb (match u with [] => true | _ => false end) | d :: v => N.eqb d 46 && forallb (e_digit E) v && negb (match v with [] => true | _ => false end) end) = false).
  { intros u [-> | ->]; [apply X|]. destruct (rev r) as [|d' r']; [reflexivity|]. injection Z as <- _. apply X. }
  apply Y. destruct d as [|q]; [left; reflexivity|]. do 4 (destruct q as [q|q|]; try (left; reflexivity)). right. reflexivity.
Qed.
(** The mark of such a word. *)
Lemma no_such_mark E tbl o w : table_of tbl o -> no_such_option o w ->
  w <> lit "--" /\ exists m, parse_optional E tbl w = Some m /\ (bad_mark tbl m \/ (m = Arg /\ reads_as_name (e_digit E) w)).
Proof.
  intros T H. pose proof T as (T1 & T2 & T3 & t0 & T4). rewrite Forall_forall in T1, T2, T3.
  assert (Tail : forall s c t, s = 45%N :: c :: t -> (e_digit E c = true \/ c = 46%N -> reads_as_name (e_digit E) s) ->
     exists m, (if looks_negative E s then Some Arg else if cin cSP s then Some Arg else Some (Opt None s false None)) = Some m /\ (bad_mark tbl m \/ (m = Arg /\ reads_as_name (e_digit E) s))).
  { intros s c t -> R. destruct (looks_negative E (45%N :: c :: t)) eqn:L.
    - exists Arg. split; [reflexivity|right]. split; [reflexivity|]. right. exists c, t. split; [reflexivity|].
      destruct (e_digit E c) eqn:Dc; [left; reflexivity|right]. destruct (N.eq_dec c 46) as [->|N0]; [reflexivity|]. rewrite negative_first in L by assumption. discriminate.
    - destruct (cin cSP (45%N :: c :: t)) eqn:S.
      + exists Arg. split; [reflexivity|right]. split; [reflexivity|]. left. apply cin_In. exact S.
      + eexists. split; [reflexivity|left]. do 4 eexists. split; [reflexivity|]. intros next. right. eexists. reflexivity. }
  destruct H as [ss c rest Hs Hc Hc0|w v Hw Nw Hx Hv|name w v I S].
  - destruct ss as [|s ss].
    + cbn [app]. specialize (Hc0 eq_refl). split; [intros Z; injection Z as Z _; congruence|].
      assert (F : forall t, find_str tbl (45%N :: c :: t) = None).
      { intros t. apply find_none. intros n k J ->. destruct (T1 _ J) as [(c' & Z & _ & _ & K & _)|(t' & Z & _)]; [injection Z as -> _; apply Hc, K|congruence]. }
      assert (O : option_tuples tbl (45%N :: c :: rest) = []).
      { unfold option_tuples. change cDASH with 45%N. rewrite (proj2 (N.eqb_neq c 45) Hc0). apply flat_map_none. intros (n, k) J.
        assert (N1 : n <> [45%N; c]) by (intros ->; destruct (T1 _ J) as [(c' & Z & _ & _ & K & _)|(t' & Z & _)]; [injection Z as ->; apply Hc, K|congruence]).
        rewrite (proj2 (seqb_neq _ _) N1). replace (startswith _ n) with false; [reflexivity|]. symmetry. apply not_true_is_false. rewrite startswith_app. intros (r & ->).
        destruct (T1 _ J) as [(c' & Z & _ & _ & K & _)|(t' & Z & _)]; [injection Z as -> _; apply Hc, K|cbn in Z; congruence]. }
      unfold parse_optional. change (negb (N.eqb 45 cDASH)) with false. cbv iota. rewrite F, O.
      pose proof (partition_split (45%N :: c :: rest)) as P. destruct (partition_eq (45%N :: c :: rest)) as (a & [e|]).
      * destruct P as (P & _). replace (find_str tbl a) with (@None key); [|symmetry; apply find_none].
        { apply (Tail _ c rest eq_refl). intros K. right. exists c, rest. split; [reflexivity|exact K]. }
        intros n k J ->. destruct (T1 _ J) as [(c' & Z & _ & _ & K & _)|(t' & Z & _)]; rewrite Z in P; cbn in P; injection P as P _; [apply Hc; subst; exact K|congruence].
      * apply (Tail _ c rest eq_refl). intros K. right. exists c, rest. split; [reflexivity|exact K].
    + inversion Hs as [|? ? Hs1 Hs2]; subst. destruct (T2 _ Hs1) as (A & B & _ & k & Hk & F & O). cbn [app]. split; [intros Z; injection Z as Z _; congruence|].
      set (v := ss ++ c :: rest). assert (Hv : exists d t, v = d :: t) by (unfold v; destruct ss; do 2 eexists; reflexivity). destruct Hv as (d & t & Ev).
      assert (Fl : forall x u, find_str tbl (45%N :: s :: x :: u) = None).
      { intros x u. apply find_none. intros n k' J ->. destruct (T1 _ J) as [(c' & Z & _)|(t' & Z & _)]; [discriminate|congruence]. }
      unfold parse_optional. change (negb (N.eqb 45 cDASH)) with false. cbv iota. rewrite Ev, Fl, O. clear Fl O.
      pose proof (partition_split (45%N :: s :: d :: t)) as P. destruct (partition_eq (45%N :: s :: d :: t)) as (a & [e|]); [destruct (find_str tbl a) as [k2|] eqn:Fa|].
      * eexists. split; [reflexivity|left]. do 4 eexists. split; [reflexivity|]. intros next. left. destruct P as (P & _). pose proof (find_str_in _ _ _ Fa) as Fb.
        assert (Z : a = [45%N; s]) by (destruct (T1 _ Fb) as [(c' & Z & _)|(t' & Z & _)]; rewrite Z in P; cbn in P; injection P as P; [subst c'; exact Z|congruence]).
        rewrite Z, F in Fa. injection Fa as <-. rewrite Z. unfold consume_optional. rewrite Hk. rewrite (proj2 (N.eqb_neq s 45) A : N.eqb s cDASH = false). apply cluster_sep, Hk.
      * eexists. split; [reflexivity|left]. do 4 eexists. split; [reflexivity|]. intros next. unfold consume_optional. rewrite Hk. rewrite (proj2 (N.eqb_neq s 45) A : N.eqb s cDASH = false).
        rewrite <- Ev. apply (cluster_bad tbl o T); assumption.
      * eexists. split; [reflexivity|left]. do 4 eexists. split; [reflexivity|]. intros next. unfold consume_optional. rewrite Hk. rewrite (proj2 (N.eqb_neq s 45) A : N.eqb s cDASH = false).
        rewrite <- Ev. apply (cluster_bad tbl o T); assumption.
  - destruct w as [|x [|y w]]; try discriminate. injection Hw as -> ->. split.
    { intros Z. destruct w as [|z w]; [|discriminate]. destruct v as [|z v]; [|discriminate].
      apply (Hx _ t0 T4). reflexivity. }
    assert (F : forall u, u = 45%N :: 45%N :: w \/ u = (45%N :: 45%N :: w) ++ v -> find_str tbl u = None).
    { intros u Hu. apply find_none. intros n k J ->. destruct (T1 _ J) as [(c' & Z & K & _)|(t' & Z & N1 & K)]; [destruct Hu as [->| ->]; cbn in Z; congruence|].
      destruct v as [|z v]; [rewrite app_nil_r in Hu; assert (Y : u = 45%N :: 45%N :: w) by (destruct Hu; assumption); apply (Hx _ [] K); rewrite app_nil_r; exact Y|].
      destruct Hu as [->| ->]; [apply (Hx _ [] K); symmetry; apply app_nil_r|]. destruct Hv as [Hv|Hv]; [discriminate|]. cbn in Hv. subst z. apply N1. apply in_or_app. right. left. reflexivity. }
    assert (O : option_tuples tbl ((45%N :: 45%N :: w) ++ v) = []).
    { unfold option_tuples. cbn [app]. change (N.eqb 45 cDASH) with true. cbv iota. change (45%N :: 45%N :: w ++ v) with ((45%N :: 45%N :: w) ++ v). rewrite partition_name by assumption.
      rewrite filter_none; [reflexivity|]. intros (n, k) J. apply not_true_is_false. rewrite startswith_app. intros (r & ->).
      destruct (T1 _ J) as [(c' & Z & K & _)|(t' & Z & N1 & K)]; [cbn in Z; congruence|]. apply (Hx _ r K eq_refl). }
    assert (R : exists m, (if looks_negative E ((45%N :: 45%N :: w) ++ v) then Some Arg else if cin cSP ((45%N :: 45%N :: w) ++ v) then Some Arg else Some (Opt None ((45%N :: 45%N :: w) ++ v) false None)) = Some m
       /\ (bad_mark tbl m \/ (m = Arg /\ reads_as_name (e_digit E) ((45%N :: 45%N :: w) ++ v)))).
    { apply (Tail _ 45%N (w ++ v) eq_refl). intros K. right. exists 45%N, (w ++ v). split; [reflexivity|exact K]. }
    unfold parse_optional. change ((45%N :: 45%N :: w) ++ v) with (45%N :: 45%N :: w ++ v) at 1. cbv iota. change (negb (N.eqb 45 cDASH)) with false. cbv iota.
    change (45%N :: 45%N :: w ++ v) with ((45%N :: 45%N :: w) ++ v). rewrite (F _ (or_intror eq_refl)), (partition_name _ _ Nw Hv), (F _ (or_introl eq_refl)), O.
    destruct v; exact R.
  - destruct (T3 _ I) as (D & k & Hk & L). split; [intros Z; destruct S as (_ & L3 & _); apply (f_equal (@length N)) in Z; rewrite app_length in Z; cbn in Z; lia|].
    destruct (L E w S) as (_ & P). change (w ++ 61%N :: v) with (w ++ [61%N] ++ v). rewrite (P v). eexists. split; [reflexivity|left]. do 4 eexists. split; [reflexivity|]. intros next. left.
    unfold consume_optional. rewrite Hk. destruct name as [|x [|y name]]; try discriminate. injection D as -> ->. reflexivity.
Qed.

(** ** Left over words stay left over *)
Lemma not_took tbl ask nm sep ex l y : consume_optional tbl ask nm sep ex None <> Got (l, y, true).
Proof.
  assert (NN : forall k l, no_explicit k None <> Got (l, y, true)) by (intros k l0; unfold no_explicit; destruct (kind_of k); discriminate).
  assert (NC : forall m e k s l, length e <= m -> cluster tbl k s e None <> Got (l, y, true)).
  { clear -NN. induction m as [|m IHm]; intros e k s l0 Hm; (destruct e as [|c e]; [cbn [cluster]; destruct (kind_of k); discriminate|]); cbn [length] in Hm; [lia|].
    cbn [cluster]. destruct (kind_of k); try discriminate. destruct (s || N.eqb c cDASH); [discriminate|]. destruct (find_str _ _) as [k'|]; [|discriminate].
    unfold before. destruct e as [|d e].
    - unfold no_explicit. destruct (kind_of k'); discriminate.
    - cbn [length] in Hm. destruct (N.eqb d 61).
      + destruct (cluster tbl k' true e None) as [((l1 & y1) & t1)| |] eqn:Ec; try discriminate. cbn [then_]. intros Z. injection Z as _ -> ->. eapply IHm; [|exact Ec]; lia.
      + destruct (cluster tbl k' false (d :: e) None) as [((l1 & y1) & t1)| |] eqn:Ec; try discriminate. cbn [then_]. intros Z. injection Z as _ -> ->. eapply IHm; [|exact Ec]; cbn; lia. }
  intros C. unfold consume_optional in C. destruct ask as [k|]; [|discriminate]. destruct ex as [e|]; [|exact (NN k _ C)].
  destruct (kind_of k); [destruct nm as [|? [|c ?]]; try (destruct (N.eqb c cDASH); [discriminate|])|..]; eapply NC; try exact C; apply le_n.
Qed.
Lemma bad_extra num p : forall n ms r named inside extra r' x, length ms <= n ->
  sub_loop num p ms r named inside extra = Got (r', x) -> Exists (fun y => bad_mark sub_table (snd y)) ms -> x = true.
Proof.
  induction n as [|n IH]; intros ms r named inside extra r' x Hn H X; (destruct ms as [|(w, m) ms]; [inversion X|]); cbn [length] in Hn; [lia|].
  assert (X' : bad_mark sub_table m \/ Exists (fun y => bad_mark sub_table (snd y)) ms) by (inversion X; subst; auto). clear X.
  destruct m as [| |ask nm sep ex].
  1,2: (assert (X : Exists (fun y => bad_mark sub_table (snd y)) ms) by (destruct X' as [(? & ? & ? & ? & X & _)|X]; [discriminate|exact X]);
    cbn [sub_loop] in H; destruct inside; [|destruct named]; (eapply IH; [|exact H|]; [lia|]); exact X).
  cbn [sub_loop] in H. destruct (consume_optional sub_table ask nm sep ex (next_arg ms)) as [((l & y) & took)| |] eqn:C; try discriminate. cbn [then_] in H.
  destruct (take_all num p l r) as [r1| |]; try discriminate. cbn [then_] in H.
  destruct X' as [(ask' & nm' & sep' & ex' & Z & B)|X].
  - injection Z as <- <- <- <-. destruct (B (next_arg ms)) as [B1|(l' & B1)]; rewrite B1 in C; [discriminate|]. injection C as _ <- <-.
    eapply unknown_extra in H; [exact H|apply le_n|left; apply orb_true_r].
  - destruct took; [|eapply IH; [|exact H|exact X]; lia]. destruct ms as [|z ms]; [discriminate|]. cbn [length] in Hn. eapply IH; [|exact H|]; [lia|].
    inversion X as [? ? (a2 & nm2 & sep2 & ex2 & Z & _)|]; subst; [|assumption].
    exfalso. destruct z as (z & m). cbn [snd] in Z. subst m. cbn [next_arg] in C. exact (not_took _ _ _ _ _ _ _ C).
Qed.
Lemma main_extra E num : forall n ms r r' x, length ms <= n -> main_loop E num ms r true = Got (r', x) -> x = true.
Proof.
  induction n as [|n IH]; intros ms r r' x Hn H; (destruct ms as [|(w, m) ms]; [discriminate|]); cbn [length] in Hn; [lia|].
  destruct m as [| |ask nm sep ex]; cbn [main_loop] in H; [|discriminate|].
  - destruct (sub_command E num w (map fst ms) r) as [(r1 & y)| |]; try discriminate. cbn [then_ orb] in H. injection H as _ <-. reflexivity.
  - destruct (consume_optional main_table ask nm sep ex (next_arg ms)) as [((l & y) & took)| |]; try discriminate. cbn [then_] in H.
    destruct (take_all num OtherParser l r) as [r1| |]; try discriminate. cbn [then_ orb] in H.
    destruct took; [destruct ms as [|z ms]; [discriminate|]; cbn [length] in Hn|]; (eapply IH; [|exact H]; lia).
Qed.
Lemma bad_marks E tbl x w3 m : x <> lit "--" -> parse_optional E tbl x = Some m -> bad_mark tbl m ->
  forall w2 ms, ~ In (lit "--") w2 -> marks E tbl (w2 ++ x :: w3) = Some ms -> Exists (fun y => bad_mark tbl (snd y)) ms.
Proof.
  intros D P B. apply seqb_neq in D. induction w2 as [|w w2 IH]; intros ms H; cbn [app marks].
  - rewrite D, P. destruct (marks E tbl w3); [|discriminate]. intros Z. injection Z as <-. left. exact B.
  - destruct (seqb w (lit "--")) eqn:Ew; [apply seqb_eq in Ew; subst; exfalso; apply H; left; reflexivity|].
    destruct (parse_optional E tbl w); [|discriminate]. destruct (marks E tbl (w2 ++ x :: w3)) as [m'|]; [|discriminate]. intros Z. injection Z as <-. right. apply IH; [|reflexivity].
    intros I. apply H. right. exact I.
Qed.

(** A line with an option that does not exist is not accepted: before the name of the parser, and
    anywhere after it. *)
Theorem C65_no_such_option : forall E num w1 gs, globals num w1 gs ->
  (forall x rest a, no_such_option global_options x -> parse_args E num (w1 ++ x :: rest) <> Got a)
  /\ (forall p w2 x rest a, p <> OtherParser -> ~ In (lit "--") w2 -> no_such_option local_options x -> ~ reads_as_name (e_digit E) x ->
        parse_args E num (w1 ++ parser_name p :: w2 ++ x :: rest) <> Got a).
Proof.
  intros E num w1 gs G. destruct (globals_step E num _ _ G) as (m1 & M1 & S1). split.
  - intros x rest a X. destruct (no_such_mark E _ _ x main_options X) as (D & m & P & B). apply seqb_neq in D.
    unfold parse_args. rewrite (marks_app _ _ _ _ _ M1). cbn [marks]. rewrite D, P.
    destruct (marks E main_table rest) as [mm|]; [|discriminate]. cbn [option_map]. rewrite S1, globals_value by reflexivity. destruct (_ && _); [discriminate|]. cbn [then_].
    destruct B as [(ask & nm & sep & ex & -> & B)|(-> & _)].
    + cbn [main_loop]. destruct (B (next_arg mm)) as [B1|(l & B1)]; rewrite B1; [discriminate|]. cbn [then_].
      match goal with |- context [take_all num OtherParser l ?r] => destruct (take_all num OtherParser l r) as [r1| |]; try discriminate end. cbn [then_ orb].
      destruct (main_loop E num mm r1 true) as [(r2 & y)| |] eqn:H; try discriminate. apply (main_extra E num (length mm)) in H; [subst; discriminate|apply le_n].
    + cbn [main_loop]. unfold sub_command. assert (Hx : hd 0%N x = 45%N) by (clear -X; destruct X as [ | w v H| name w v I S]; [reflexivity|destruct w as [|c w]; [discriminate|destruct w; injection H as ->; reflexivity]|];
        destruct S as ((r & Z) & L & _); destruct w as [|c w]; [cbn in L; lia|]; cbn; cbn in I; repeat (destruct I as [<-|I]; [injection Z as <- _; reflexivity|]); destruct I).
      rewrite find_none; [discriminate|]. intros n k I ->. cbn in I. repeat (destruct I as [I|I]; [injection I as <- _; discriminate Hx|]). destruct I.
  - intros p w2 x rest a Hp N2 X R. destruct (no_such_mark E _ _ x sub_options X) as (D & m & P & [B|(_ & B)]); [|exfalso; apply R, B].
    destruct (parser_named p Hp) as (F & Pw). destruct (plain_arg E _ Pw) as (Dp & A & _). apply seqb_neq in Dp.
    unfold parse_args. rewrite (marks_app _ _ _ _ _ M1). cbn [marks]. rewrite Dp, A.
    destruct (marks E main_table (w2 ++ x :: rest)) as [mm|] eqn:Em; [|discriminate]. cbn [option_map]. rewrite S1, globals_value by reflexivity.
    destruct (_ && _); [discriminate|]. cbn [then_ main_loop]. rewrite (marks_words E main_table _ _ Em). unfold sub_command. rewrite F.
    destruct (marks E sub_table (w2 ++ x :: rest)) as [ms|] eqn:Es; [|discriminate]. apply (bad_marks E sub_table x rest m D P B w2 ms N2) in Es.
    match goal with |- context [sub_loop num p ms ?r0 false false false] => destruct (sub_loop num p ms r0 false false false) as [(r' & y)| |] eqn:Hs end; try discriminate.
    eapply bad_extra in Hs; [|apply le_n|exact Es]. subst y. discriminate.
Qed.
Print Assumptions C65_no_such_option.
Example C65_no_such_option_ex :
  no_such_option global_options (lit "-pZ") /\ no_such_option global_options (lit "-c-") /\ no_such_option global_options (lit "--in-places=1") /\ no_such_option global_options (lit "--diff=x")
  /\ no_such_option local_options (lit "-cx") /\ no_such_option local_options (lit "--const=1") /\ ~ reads_as_name (e_digit ascii_env) (lit "--const=1")
  /\ parse_args ascii_env simple_int [lit "-pZ"; lit "github"; lit "a.md"] = Usage
  /\ parse_args ascii_env simple_int [lit "github"; lit "a.md"; lit "-cx"] = Usage.
Proof.
  split; [apply (ns_letter global_options [112%N] 90%N []); [repeat constructor; cbn; tauto|cbn; intuition discriminate|discriminate]|].
  split; [apply (ns_letter global_options [99%N] 45%N []); [repeat constructor; cbn; tauto|cbn; intuition discriminate|discriminate]|].
  split; [apply (ns_name global_options (lit "--in-places") (lit "=1")); [reflexivity|cbn; intuition discriminate|intros x r I; cbn in I; intuition (subst; discriminate)|right; reflexivity]|].
  split; [apply (ns_value global_options (lit "--diff") (lit "--diff") (lit "x")); [cbn; tauto|short_tac]|].
  split; [apply (ns_letter local_options [99%N] 120%N []); [repeat constructor; cbn; tauto|cbn; intuition discriminate|discriminate]|].
  split; [apply (ns_value local_options (lit "--constant-ordered-list") (lit "--const") (lit "1")); [cbn; tauto|]|].
  { split; [exists (lit "ant-ordered-list"); reflexivity|]. split; [cbn; lia|]. intros x r I Z. cbn in I. repeat (destruct I as [<-|I]; [first [reflexivity|discriminate Z]|]). destruct I. }
  split; [|split; vm_compute; reflexivity].
  intros [I|(c & t & Z & [H|H])]; [cbn in I; intuition discriminate|injection Z as <- _; discriminate H|injection Z as <- _; discriminate H].
Qed.
