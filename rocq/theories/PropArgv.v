(** The command line, word by word (C65). *)
From Coq Require Import String List NArith ZArith Bool Arith Lia.
From Verif Require Import Str EnvSpec Anchor Toc Cli Args Argv Spec CallSpec ArgvSpec StrFacts PropArgs AsciiEnv.
Import ListNotations.
Local Open Scope list_scope.

(** ** Every namespace that is read is one of the accepted ones *)
Definition sound (p : parser) (r : reading) : Prop :=
  let a := r_args r in
  cli_unordered p (a_unordered_marker a) = true
  /\ (match a_ordered_marker a with None => r_o r = false | Some m => sin m (closing_markers p) = true /\ r_o r = true end)
  /\ (r_u r = false -> a_unordered_marker a = lit "-") /\ (r_o r = true -> r_u r = false)
  /\ cli_levels (a_levels a) = true
  /\ (a_no_list_coherence a = r_c r) /\ (a_no_indentation a = r_i r) /\ (r_c r && r_i r = false)
  /\ sin (a_newline a) cli_newlines = true.
Lemma take_sound num p k v r r' : sound p r -> take num p k v r = Got r' ->
  sound p r' /\ a_parser (r_args r') = a_parser (r_args r).
Proof.
  intros H. destruct r as [a u o c i]. unfold sound in *. cbn [r_args r_u r_o r_c r_i] in *.
  destruct H as (H1 & H2 & H3 & H4 & H5 & H6 & H7 & H8 & H9).
  destruct k; cbn [take r_args r_u r_o r_c r_i on_args];
    repeat match goal with
    | |- context [match v with _ => _ end] => destruct v as [v|]
    | |- context [if ?b then _ else _] => let E := fresh "E" in destruct b eqn:E
    | |- context [match num ?x with _ => _ end] => destruct (num x)
    end; intros G; try discriminate; injection G as <-;
    cbn [r_args r_u r_o r_c r_i on_args set_no_list_coherence set_no_indentation set_diff set_no_links set_toc_marker set_newline set_in_place set_skip set_unordered set_ordered set_constant set_levels
         a_names a_ordered_marker a_unordered_marker a_no_links a_no_indentation a_no_list_coherence a_levels a_parser a_skip a_constant a_in_place a_diff a_toc_marker a_newline] in *;
    (split; [|reflexivity]); subst;
    repeat (apply conj); auto; try congruence; try (destruct (a_ordered_marker a); intuition congruence).
  all: try (apply negb_false_iff; assumption).
  - apply sin_iff in E. apply sin_iff. destruct E as [<-|[<-|[<-|[]]]]; cbn; auto.
  - intros _. apply seqb_eq. assumption.
Qed.
Lemma take_all_sound num p l : forall r r', sound p r -> take_all num p l r = Got r' -> sound p r' /\ a_parser (r_args r') = a_parser (r_args r).
Proof.
  induction l as [|(k & v) l IH]; intros r r' H; cbn [take_all]; [intros G; injection G as <-; auto|].
  destruct (take num p k v r) as [r1| |] eqn:E; cbn [then_]; try discriminate. intros G.
  destruct (take_sound _ _ _ _ _ _ H E) as (A & B). destruct (IH _ _ A G) as (C & D). split; [exact C|congruence].
Qed.
Lemma set_names_sound p l r : sound p r -> sound p (on_args (set_names l) r).
Proof. intros H. destruct r. exact H. Qed.
Lemma sub_loop_sound num p : forall n ms r named inside extra r' x, length ms <= n -> sound p r ->
  sub_loop num p ms r named inside extra = Got (r', x) -> sound p r' /\ a_parser (r_args r') = a_parser (r_args r).
Proof.
  induction n as [|n IH]; intros ms r named inside extra r' x Hn H G; (destruct ms as [|(w & m) ms]; [injection G as <- _; auto|cbn in Hn; try lia]).
  cbn [sub_loop] in G. destruct m as [| |ask name sep ex].
  1,2: (destruct inside; [eapply IH in G; [exact G|lia|exact H]|]; destruct named; [eapply IH in G; [exact G|lia|exact H]|];
    eapply IH in G; [|lia|apply set_names_sound; exact H]; destruct r; exact G).
  destruct (consume_optional _ _ _ _ _ _) as [((l & b) & took)| |]; cbn [then_] in G; try discriminate.
  destruct (take_all num p l r) as [r1| |] eqn:E; cbn [then_] in G; try discriminate.
  destruct (take_all_sound _ _ _ _ _ H E) as (A & B).
  destruct took; [destruct ms as [|z ms]; [discriminate|]|]; (eapply IH in G; [|cbn in *; lia|exact A]); destruct G as (G1 & G2); (split; [exact G1|congruence]).
Qed.
Definition clean (r : reading) : Prop :=
  let a := r_args r in
  a_ordered_marker a = None /\ a_unordered_marker a = lit "-" /\ r_u r = false /\ r_o r = false
  /\ cli_levels (a_levels a) = true
  /\ (a_no_list_coherence a = r_c r) /\ (a_no_indentation a = r_i r) /\ (r_c r && r_i r = false)
  /\ sin (a_newline a) cli_newlines = true.
Definition main_key (k : key) : Prop := ~ In k [KUnordered; KOrdered; KConstant; KLevels].
Lemma take_clean num p k v r r' : main_key k -> clean r -> take num p k v r = Got r' -> clean r'.
Proof.
  intros Hk H. destruct r as [a u o c i]. unfold clean in *. cbn [r_args r_u r_o r_c r_i] in *.
  destruct H as (H1 & H2 & H3 & H4 & H5 & H6 & H7 & H8 & H9).
  destruct k; try (exfalso; apply Hk; cbn; tauto); cbn [take r_args r_u r_o r_c r_i on_args];
    repeat match goal with
    | |- context [match v with _ => _ end] => destruct v as [v|]
    | |- context [if ?b then _ else _] => let E := fresh "E" in destruct b eqn:E
    | |- context [match num ?x with _ => _ end] => destruct (num x)
    end; intros G; try discriminate; injection G as <-;
    cbn [r_args r_u r_o r_c r_i on_args set_no_list_coherence set_no_indentation set_diff set_no_links set_toc_marker set_newline set_in_place set_skip
         a_names a_ordered_marker a_unordered_marker a_no_links a_no_indentation a_no_list_coherence a_levels a_parser a_skip a_constant a_in_place a_diff a_toc_marker a_newline] in *;
    subst; repeat (apply conj); auto.
  apply sin_iff in E. apply sin_iff. destruct E as [<-|[<-|[<-|[]]]]; cbn; auto.
Qed.
Lemma take_all_clean num p l : forall r r', Forall (fun x => main_key (fst x)) l -> clean r -> take_all num p l r = Got r' -> clean r'.
Proof.
  induction l as [|(k & v) l IH]; intros r r' F H; cbn [take_all]; [intros G; injection G as <-; auto|].
  destruct (take num p k v r) as [r1| |] eqn:E; cbn [then_]; try discriminate. inversion F; subst. intros G.
  eapply IH; [eassumption|eapply take_clean; [|exact H|exact E]; assumption|exact G].
Qed.
Lemma find_str_in {A} (l : list (str * A)) s x : find_str l s = Some x -> In (s, x) l.
Proof.
  induction l as [|(n & y) l IH]; cbn [find_str]; [discriminate|]. destruct (seqb n s) eqn:E.
  - intros G. injection G as <-. apply seqb_eq in E as ->. left. reflexivity.
  - intros G. right. auto.
Qed.
Lemma main_table_keys n k : In (n, k) main_table -> main_key k.
Proof. intros H X. repeat (destruct H as [H|H]; [injection H as <- <-; cbn in X; intuition discriminate|]). destruct H. Qed.
Definition main_mark (m : mark) : Prop := match m with Opt (Some k) _ _ _ => main_key k | _ => True end.
Lemma parse_optional_main E s m : parse_optional E main_table s = Some m -> main_mark m.
Proof.
  unfold parse_optional. destruct s as [|c s']; [intros H; injection H as <-; exact I|].
  destruct (negb _); [intros H; injection H as <-; exact I|].
  destruct (find_str main_table (c :: s')) as [k|] eqn:E1; [intros H; injection H as <-; eapply main_table_keys, find_str_in, E1|].
  destruct s' as [|c2 s']; [intros H; injection H as <-; exact I|].
  set (s := c :: c2 :: s') in *. destruct (partition_eq s) as (name & ex) eqn:Ep.
  assert (T : Forall main_mark (option_tuples main_table s)).
  { unfold s, option_tuples. fold s. destruct (N.eqb c2 cDASH).
    - rewrite Ep. apply Forall_map, Forall_forall. intros (n & k) H. apply filter_In in H as (H & _). cbn. eapply main_table_keys, H.
    - apply Forall_forall. intros x Hx. apply in_flat_map in Hx as ((n & k) & H & Hx).
      destruct (seqb n _); [destruct Hx as [<-|[]]; eapply main_table_keys, H|]. destruct (startswith s n); [destruct Hx as [<-|[]]; eapply main_table_keys, H|destruct Hx]. }
  assert (D : match option_tuples main_table s with
              | [] => if looks_negative E s then Some Arg else if cin cSP s then Some Arg else Some (Opt None s false None)
              | [m0] => Some m0 | _ :: _ :: _ => None end = Some m -> main_mark m).
  { destruct (option_tuples main_table s) as [|m0 [|m1 ms]]; [|intros H; injection H as <-; inversion T; assumption|discriminate].
    destruct (looks_negative E s); [intros H; injection H as <-; exact I|]. destruct (cin cSP s); intros H; injection H as <-; exact I. }
  destruct ex as [e|]; [|exact D]. destruct (find_str main_table name) as [k|] eqn:E2; [|exact D].
  intros H; injection H as <-. eapply main_table_keys, find_str_in, E2.
Qed.
Lemma marks_main E ws : forall ms, marks E main_table ws = Some ms -> Forall (fun x => main_mark (snd x)) ms.
Proof.
  induction ws as [|w ws IH]; intros ms; cbn [marks]; [intros H; injection H as <-; constructor|].
  destruct (seqb w _); [intros H; injection H as <-; constructor; [exact I|apply Forall_map, Forall_forall; intros; exact I]|].
  destruct (parse_optional E main_table w) as [m|] eqn:Em; [|discriminate]. destruct (marks E main_table ws) as [ms'|]; [|discriminate].
  intros H. injection H as <-. constructor; [eapply parse_optional_main, Em|apply IH; reflexivity].
Qed.
Lemma no_explicit_keys k next l x t : main_key k -> no_explicit k next = Got (l, x, t) -> Forall (fun y => main_key (fst y)) l.
Proof. intros H. unfold no_explicit. destruct (kind_of k), next; intros G; try discriminate; injection G as <- _ _; repeat constructor; exact H. Qed.
Lemma cluster_keys next : forall n e k sep l x t, length e <= n -> main_key k -> cluster main_table k sep e next = Got (l, x, t) -> Forall (fun y => main_key (fst y)) l.
Proof.
  induction n as [|n IH]; intros e k sep l x t Hn Hk G;
    (destruct e as [|c e]; cbn [cluster] in G; [destruct (kind_of k); try discriminate; injection G as <- _ _; repeat constructor; exact Hk|cbn in Hn; try lia]).
  destruct (kind_of k); [|injection G as <- _ _; repeat constructor; exact Hk|injection G as <- _ _; repeat constructor; exact Hk].
  destruct (sep || _); [discriminate|]. destruct (find_str main_table _) as [k'|] eqn:F; [|injection G as <- _ _; repeat constructor; exact Hk].
  apply find_str_in, main_table_keys in F.
  assert (B : forall g, before k g = Got (l, x, t) -> (forall l0 x0 t0, g = Got (l0, x0, t0) -> Forall (fun y => main_key (fst y)) l0) -> Forall (fun y => main_key (fst y)) l).
  { intros g Hg Hl. unfold before in Hg. destruct g as [((l0 & x0) & t0)| |]; cbn [then_] in Hg; try discriminate. injection Hg as <- _ _. constructor; [exact Hk|eapply Hl; reflexivity]. }
  destruct e as [|d e].
  - eapply B; [exact G|]. intros. eapply no_explicit_keys; eassumption.
  - destruct (N.eqb d 61); (eapply B; [exact G|]); intros ? ? ? X; (eapply IH; [|exact F|exact X]; cbn in *; lia).
Qed.
Lemma main_loop_sound E num : forall n ms r extra r' x, length ms <= n -> Forall (fun y => main_mark (snd y)) ms -> clean r ->
  main_loop E num ms r extra = Got (r', x) -> exists p, p <> OtherParser /\ sound p r' /\ a_parser (r_args r') = p.
Proof.
  induction n as [|n IH]; intros ms r extra r' x Hn F H G; (destruct ms as [|(w & m) ms]; [discriminate|cbn in Hn; try lia]).
  inversion F as [|? ? F1 F2]; subst. cbn [main_loop] in G. destruct m as [| |ask name sep ex]; [|discriminate|].
  - unfold sub_command in G. destruct (find_str subparsers w) as [p|] eqn:Ep; [|discriminate]. apply find_str_in in Ep.
    destruct (marks E sub_table _) as [ms'|]; [|discriminate].
    destruct (sub_loop num p ms' _ false false false) as [(r1 & x1)| |] eqn:Es; cbn [then_] in G; try discriminate. injection G as <- _.
    assert (Hp : p <> OtherParser) by (intros ->; repeat (destruct Ep as [Ep|Ep]; [discriminate|]); destruct Ep).
    assert (S0 : sound p (on_args (set_parser p) r)).
    { destruct r as [a u o c i]. unfold clean in H. cbn in H. destruct H as (H1 & H2 & H3 & H4 & H5 & H6 & H7 & H8 & H9).
      unfold sound. cbn. rewrite H1, H2. repeat (apply conj); auto. destruct p; try reflexivity. congruence. }
    destruct (sub_loop_sound num p _ _ _ _ _ _ _ _ (Nat.le_refl _) S0 Es) as (A & B).
    exists p. split; [exact Hp|]. split; [exact A|]. rewrite B. destruct r. reflexivity.
  - destruct (consume_optional _ _ _ _ _ _) as [((l & b) & took)| |] eqn:Ec; cbn [then_] in G; try discriminate.
    destruct (take_all num OtherParser l r) as [r1| |] eqn:Et; cbn [then_] in G; try discriminate.
    assert (K : Forall (fun y => main_key (fst y)) l).
    { unfold consume_optional in Ec. destruct ask as [k|]; [|injection Ec as <- _ _; constructor]. cbn in F1.
      destruct ex as [e|]; [|eapply no_explicit_keys; eassumption].
      assert (Q : cluster main_table k sep e (next_arg ms) = Got (l, b, took) -> Forall (fun y => main_key (fst y)) l) by (intros Q; eapply cluster_keys; [reflexivity|exact F1|exact Q]).
      destruct (kind_of k); [|apply Q, Ec|apply Q, Ec]. destruct name as [|? [|c ?]]; [apply Q, Ec|apply Q, Ec|]. destruct (N.eqb c cDASH); [discriminate|apply Q, Ec]. }
    pose proof (take_all_clean _ _ _ _ _ K H Et) as C.
    destruct took; [destruct ms as [|z ms]; [discriminate|]; inversion F2; subst|]; (eapply IH in G; [exact G|cbn in *; lia|assumption|exact C]).
Qed.
Lemma parse_args_sound E num ws a : parse_args E num ws = Got a -> accepted a = true.
Proof.
  unfold parse_args. destruct (marks E main_table ws) as [ms|] eqn:Em; [|discriminate].
  destruct (main_loop E num ms defaults false) as [(r & x)| |] eqn:El; cbn [then_]; try discriminate. destruct x; [discriminate|]. intros G. injection G as <-.
  destruct (main_loop_sound E num _ ms defaults false r false (Nat.le_refl _)) as (p & Hp & H & Ep).
  - eapply marks_main, Em.
  - unfold clean, defaults. cbn. repeat (apply conj); reflexivity.
  - exact El.
  - unfold accepted. destruct H as (H1 & H2 & H3 & H4 & H5 & H6 & H7 & H8 & H9). rewrite Ep, H1, H5, H9.
    assert (A : cli_parser p = true) by (destruct p; congruence || reflexivity). rewrite A. cbn [andb].
    assert (B : cli_ordered p (a_ordered_marker (r_args r)) (a_unordered_marker (r_args r)) = true).
    { unfold cli_ordered. destruct (a_ordered_marker (r_args r)) as [m|]; [|reflexivity]. destruct H2 as (H2 & O). rewrite H2, (H3 (H4 O)). reflexivity. }
    rewrite B. unfold cli_exclusive. rewrite H6, H7, (andb_comm (r_i r)), H8. reflexivity.
Qed.

(** ** Words and their marks *)
Lemma startswith_app w s : startswith w s = true <-> exists rest, s = w ++ rest.
Proof.
  revert s. induction w as [|c w IH]; intros s; cbn [startswith]; [split; [exists s; reflexivity|reflexivity]|].
  destruct s as [|d s]; [split; [discriminate|intros (r & H); discriminate]|]. rewrite andb_true_iff, N.eqb_eq, IH. split.
  - intros (-> & r & ->). exists r. reflexivity.
  - intros (r & H). injection H as -> ->. split; [reflexivity|exists r; reflexivity].
Qed.
Definition cut_ok (all : list str) (name : str) (k : nat) : bool :=
  forallb (fun x => implb (startswith (firstn k name) x) (seqb x name)) all.
Lemma cut all name w : short_for all name w ->
  exists k, In k (filter (cut_ok all name) (seq 3 (length name - 2))) /\ w = firstn k name.
Proof.
  intros ((r & E) & L & U). exists (length w). assert (F : firstn (length w) name = w) by (rewrite E, firstn_app, Nat.sub_diag, firstn_all; cbn; apply app_nil_r).
  split; [|symmetry; exact F]. apply filter_In. split; [apply in_seq; apply (f_equal (@length N)) in E; rewrite app_length in E; lia|].
  unfold cut_ok. rewrite F. apply forallb_forall. intros x Hx. destruct (startswith w x) eqn:S; [|reflexivity]. cbn [implb].
  apply startswith_app in S as (r2 & ->). apply seqb_eq. eapply U; [exact Hx|reflexivity].
Qed.
(** All the cuts of a name. *)
Ltac all_cuts H := apply cut in H; let k := fresh "k" in let I := fresh "I" in destruct H as (k & I & ->);
  vm_compute in I; repeat (destruct I as [<-|I]); [..|destruct I].

Definition long_ok (E : env) (tbl : table) (all : list str) (name : str) (k : key) : Prop :=
  forall w, short_for all name w ->
    parse_optional E tbl w = Some (Opt (Some k) name false None)
    /\ forall v, parse_optional E tbl (w ++ [61%N] ++ v) = Some (Opt (Some k) name true (Some v)).
Definition letter_ok (E : env) (tbl : table) (c : N) (k : key) : Prop :=
  parse_optional E tbl [45%N; c] = Some (Opt (Some k) [45%N; c] false None)
  /\ forall v, v <> [] -> hd 0%N v <> 61%N -> parse_optional E tbl ([45%N; c] ++ v) = Some (Opt (Some k) [45%N; c] false (Some v)).
(** In the main parser, a word meant for the subparser is not ambiguous. *)
Definition passes (E : env) (w : str) : Prop := parse_optional E main_table w <> None.
Lemma passes_by E w : length (option_tuples main_table w) <= 1 -> passes E w.
Proof.
  intros H. unfold passes, parse_optional. destruct w as [|c w]; [discriminate|]. destruct (negb _); [discriminate|].
  destruct (find_str main_table (c :: w)); [discriminate|]. destruct w as [|d w]; [discriminate|]. set (s := c :: d :: w) in *.
  assert (D : match option_tuples main_table s with
              | [] => if looks_negative E s then Some Arg else if cin cSP s then Some Arg else Some (Opt None s false None)
              | [m0] => Some m0 | _ :: _ :: _ => None end <> None).
  { destruct (option_tuples main_table s) as [|m0 [|m1 ms]]; [|discriminate|cbn in H; lia]. destruct (looks_negative E s), (cin cSP s); discriminate. }
  destruct (partition_eq s) as (name & [e|]); [|exact D]. destruct (find_str main_table name); [discriminate|exact D].
Qed.
Definition long_passes (E : env) (name : str) : Prop :=
  forall w, short_for local_names name w -> passes E w /\ forall v, passes E (w ++ [61%N] ++ v).
Definition letter_passes (E : env) (c : N) : Prop := passes E [45%N; c] /\ forall v, v <> [] -> passes E ([45%N; c] ++ v).

Ltac long_tac := intros w H; all_cuts H; (split; [|intros v]); vm_compute; reflexivity.
Lemma long_globals E : Forall (fun '(n, k) => long_ok E main_table global_names n k)
  [(lit "--no-list-coherence", KNoCoherence); (lit "--no-indentation", KNoIndentation); (lit "--diff", KDiff); (lit "--no-links", KNoLinks);
   (lit "--in-place", KInPlace); (lit "--toc-marker", KMarker); (lit "--newline-string", KNewline); (lit "--skip-lines", KSkip)].
Proof. repeat (apply Forall_cons; [long_tac|]). apply Forall_nil. Qed.
Lemma long_locals E : Forall (fun '(n, k) => long_ok E sub_table local_names n k)
  [(lit "--unordered-list-marker", KUnordered); (lit "--ordered-list-marker", KOrdered); (lit "--constant-ordered-list", KConstant); (lit "--header-levels", KLevels)].
Proof. repeat (apply Forall_cons; [long_tac|]). apply Forall_nil. Qed.
Lemma long_locals_pass E : Forall (long_passes E)
  [lit "--unordered-list-marker"; lit "--ordered-list-marker"; lit "--constant-ordered-list"; lit "--header-levels"].
Proof. repeat (apply Forall_cons; [intros w H; all_cuts H; (split; [|intros v]); apply passes_by; vm_compute; lia|]). apply Forall_nil. Qed.

Lemma partition_behind c x v : N.eqb c 61 = false -> N.eqb x 61 = false -> exists a e, partition_eq (45%N :: c :: x :: v) = (45%N :: c :: x :: a, e).
Proof. intros Hc Hx. cbn [partition_eq]. rewrite Hc, Hx. destruct (partition_eq v) as (a & e). exists a, e. reflexivity. Qed.
Lemma letter_by E tbl c k : N.eqb c 61 = false -> find_str tbl [45%N; c] = Some k ->
  (forall x v, find_str tbl (45%N :: c :: x :: v) = None) ->
  (forall x v, option_tuples tbl (45%N :: c :: x :: v) = [Opt (Some k) [45%N; c] false (Some (x :: v))]) -> letter_ok E tbl c k.
Proof.
  intros Hc Hf Hn Ht. split; [unfold parse_optional; cbn [N.eqb Pos.eqb cDASH negb]; rewrite Hf; reflexivity|].
  intros [|x v] Hv Hx; [congruence|]. cbn [hd] in Hx. apply N.eqb_neq in Hx. cbn [app]. unfold parse_optional. change (negb (N.eqb 45 cDASH)) with false. cbv iota.
  rewrite Hn. destruct (partition_behind c x v Hc Hx) as (a & e & ->). rewrite Hn, Ht. destruct e; reflexivity.
Qed.
Ltac letter_tac := apply letter_by; [reflexivity|reflexivity|intros; vm_compute; reflexivity|intros; vm_compute; reflexivity].
Lemma letters_main E : Forall (fun '(c, k) => letter_ok E main_table c k)
  [(99%N, KNoCoherence); (105%N, KNoIndentation); (100%N, KDiff); (108%N, KNoLinks); (112%N, KInPlace); (109%N, KMarker); (110%N, KNewline); (115%N, KSkip)].
Proof. repeat (apply Forall_cons; [letter_tac|]). apply Forall_nil. Qed.
Lemma letters_sub E : Forall (fun '(c, k) => letter_ok E sub_table c k) [(117%N, KUnordered); (111%N, KOrdered); (99%N, KConstant); (108%N, KLevels)].
Proof. repeat (apply Forall_cons; [letter_tac|]). apply Forall_nil. Qed.
Lemma letters_pass E : Forall (letter_passes E) [117%N; 111%N; 99%N; 108%N].
Proof. repeat (apply Forall_cons; [split; [|intros [|x v] Hv; [congruence|]]; apply passes_by; vm_compute; lia|]). apply Forall_nil. Qed.

(** ** Reading the words of one option *)
Definition marked (E : env) (tbl : table) (ws : list str) (ms : list (str * mark)) : Prop :=
  Forall2 (fun w x => fst x = w /\ w <> lit "--" /\ parse_optional E tbl w = Some (snd x)) ws ms.
Lemma marks_app E tbl ws ms ws' : marked E tbl ws ms -> marks E tbl (ws ++ ws') = option_map (app ms) (marks E tbl ws').
Proof.
  induction 1 as [|w (w0 & m) ws ms (E1 & E2 & E3) _ IH]; [cbn [app]; destruct (marks E tbl ws'); reflexivity|].
  cbn [fst snd] in *. subst w0. cbn [app marks]. apply seqb_neq in E2. rewrite E2, E3, IH. destruct (marks E tbl ws'); reflexivity.
Qed.
Lemma marked_app E tbl ws ms ws' ms' : marked E tbl ws ms -> marked E tbl ws' ms' -> marked E tbl (ws ++ ws') (ms ++ ms').
Proof. apply Forall2_app. Qed.
Lemma plain_arg E w : plain_word w -> w <> lit "--" /\ parse_optional E main_table w = Some Arg /\ parse_optional E sub_table w = Some Arg.
Proof.
  intros [->|H]; [split; [discriminate|split; vm_compute; reflexivity]|]. split; [intros ->; cbn in H; congruence|].
  destruct w as [|c w]; [split; reflexivity|]. cbn [hd] in H. apply N.eqb_neq in H. unfold parse_optional. change cDASH with 45%N. rewrite H. split; reflexivity.
Qed.
Lemma short_not_dashes all name w : short_for all name w -> w <> lit "--".
Proof. intros (_ & L & _) ->. cbn in L. lia. Qed.
(** What the words of an option do. *)
Definition yields (tbl : table) (ms : list (str * mark)) (acts : list (key * option str)) (bare : bool) : Prop :=
  exists w nm k sep ex ms2, ms = (w, Opt (Some k) nm sep ex) :: ms2 /\
    forall rest, (bare = true -> next_arg rest = None) -> exists took,
      consume_optional tbl (Some k) nm sep ex (next_arg (ms2 ++ rest)) = Got (acts, false, took)
      /\ ((took = true /\ exists x, ms2 = [x]) \/ (took = false /\ ms2 = [])).
Lemma valued_yields E tbl all c name k v ws : c <> 45%N -> letter_ok E tbl c k -> long_ok E tbl all name k -> kind_of k <> Flag ->
  (forall w, plain_word w -> parse_optional E tbl w = Some Arg) -> valued all c name v ws ->
  exists ms, marked E tbl ws ms /\ yields tbl ms [(k, Some v)] false.
Proof.
  intros Hc (L1 & L2) Lg Hk Hp H.
  assert (X : forall nm sep next, consume_optional tbl (Some k) nm sep (Some v) next = Got ([(k, Some v)], false, false)).
  { intros nm sep next. unfold consume_optional. destruct (kind_of k) eqn:K; [congruence| |]; destruct v; cbn [cluster]; rewrite K; reflexivity. }
  assert (Y : forall nm rest, consume_optional tbl (Some k) nm false None (next_arg (((v, Arg) :: rest : list (str * mark)))) = Got ([(k, Some v)], false, true)).
  { intros nm rest. unfold consume_optional, no_explicit. cbn [next_arg]. destruct (kind_of k); [congruence| |]; reflexivity. }
  destruct H as [P|N0 N1|w S P|w S].
  - eexists [(_, _); (_, _)]. split; [constructor; [split; [reflexivity|]; split; [intros Z; injection Z as Z; congruence|exact L1]|]; constructor; [|constructor];
      split; [reflexivity|]; split; [apply (plain_arg E); exact P|apply Hp; exact P]|].
    do 6 eexists. split; [reflexivity|]. intros rest _. exists true. split; [apply Y|left; split; [reflexivity|eexists; reflexivity]].
  - eexists [(_, _)]. split; [constructor; [|constructor]; split; [reflexivity|]; split; [destruct v; [congruence|discriminate]|apply L2; assumption]|].
    do 6 eexists. split; [reflexivity|]. intros rest _. exists false. split; [apply X|right; split; reflexivity].
  - destruct (Lg w S) as (G1 & G2). eexists [(_, _); (_, _)]. split; [constructor; [split; [reflexivity|]; split; [eapply short_not_dashes; exact S|exact G1]|]; constructor; [|constructor];
      split; [reflexivity|]; split; [apply (plain_arg E); exact P|apply Hp; exact P]|].
    do 6 eexists. split; [reflexivity|]. intros rest _. exists true. split; [apply Y|left; split; [reflexivity|eexists; reflexivity]].
  - destruct (Lg w S) as (G1 & G2). eexists [(_, _)]. split; [constructor; [|constructor]; split; [reflexivity|]; split; [|apply G2]|].
    + intros Z. destruct S as (_ & L & _). apply (f_equal (@length N)) in Z. rewrite app_length in Z. cbn in Z. lia.
    + do 6 eexists. split; [reflexivity|]. intros rest _. exists false. split; [apply X|right; split; reflexivity].
Qed.
Lemma main_step E num ms acts rest r extra : yields main_table ms acts false ->
  main_loop E num (ms ++ rest) r extra = then_ (take_all num OtherParser acts r) (fun r => main_loop E num rest r extra).
Proof.
  intros (w & nm & k & sep & ex & ms2 & -> & H). destruct (H rest) as (took & C & T); [discriminate|]. cbn [app main_loop]. rewrite C. cbn [then_].
  destruct (take_all num OtherParser acts r) as [r1| |]; [|reflexivity|reflexivity]. cbn [then_]. rewrite orb_false_r.
  destruct T as [(-> & x & ->)|(-> & ->)]; reflexivity.
Qed.
Lemma sub_step num p ms acts bare rest r named inside extra : yields sub_table ms acts bare -> (bare = true -> next_arg rest = None) ->
  sub_loop num p (ms ++ rest) r named inside extra = then_ (take_all num p acts r) (fun r => sub_loop num p rest r named false extra).
Proof.
  intros (w & nm & k & sep & ex & ms2 & -> & H) Hb. destruct (H rest Hb) as (took & C & T). cbn [app sub_loop]. rewrite C. cbn [then_].
  destruct (take_all num p acts r) as [r1| |]; [|reflexivity|reflexivity]. cbn [then_]. rewrite orb_false_r.
  destruct T as [(-> & x & ->)|(-> & ->)]; reflexivity.
Qed.

(** ** The options before the name of the parser *)
Definition switch_key (s : switch) : key :=
  match s with NoCoherence => KNoCoherence | NoIndentation => KNoIndentation | Diff => KDiff | NoLinks => KNoLinks | InPlace => KInPlace end.
Definition do_global (g : global) (r : reading) : got reading :=
  match g with
  | Turn s => take (fun _ => None) OtherParser (switch_key s) None r
  | TocMarker m => Got (on_args (set_toc_marker m) r)
  | Newline n => Got (on_args (set_newline n) r)
  | SkipLines n => Got (on_args (set_skip n) r)
  end.
Fixpoint do_all {A} (f : A -> reading -> got reading) (l : list A) (r : reading) : got reading :=
  match l with [] => Got r | x :: l' => then_ (f x r) (do_all f l') end.
Lemma then_assoc {A B C} (g : got A) (f : A -> got B) (h : B -> got C) : then_ (then_ g f) h = then_ g (fun a => then_ (f a) h).
Proof. destruct g; reflexivity. Qed.
Lemma then_ext {A B} (g : got A) (f h : A -> got B) : (forall a, f a = h a) -> then_ g f = then_ g h.
Proof. intros H. destruct g; cbn; auto. Qed.
Lemma do_all_app {A} (f : A -> reading -> got reading) l l' r : do_all f (l ++ l') r = then_ (do_all f l r) (do_all f l').
Proof. revert r. induction l as [|x l IH]; intros r; [reflexivity|]. cbn [app do_all]. rewrite then_assoc. apply then_ext. exact IH. Qed.
Lemma letters_cluster ss : forall s next, ss <> [] ->
  cluster main_table (switch_key s) false (map letter ss) next = Got (map (fun s => (switch_key s, None)) (s :: ss), false, false).
Proof.
  induction ss as [|t ss IH]; intros s next H; [congruence|]. cbn [map cluster].
  assert (K : kind_of (switch_key s) = Flag) by (destruct s; reflexivity). rewrite K.
  assert (D : false || N.eqb (letter t) cDASH = false) by (destruct t; reflexivity). rewrite D.
  assert (F : find_str main_table [cDASH; letter t] = Some (switch_key t)) by (destruct t; vm_compute; reflexivity). rewrite F.
  destruct ss as [|u ss].
  - cbn [map]. unfold no_explicit. replace (kind_of (switch_key t)) with Flag by (destruct t; reflexivity). reflexivity.
  - specialize (IH t next ltac:(discriminate)). cbn [map] in IH |- *. assert (X : N.eqb (letter u) 61 = false) by (destruct u; reflexivity). rewrite X, IH. reflexivity.
Qed.
Lemma switch_letter E s : letter_ok E main_table (letter s) (switch_key s).
Proof. pose proof (letters_main E) as H. repeat (inversion H as [|? ? ? H']; subst; clear H; rename H' into H). destruct s; assumption. Qed.
Lemma switch_long E s : long_ok E main_table global_names (switch_name s) (switch_key s).
Proof. pose proof (long_globals E) as H. repeat (inversion H as [|? ? ? H']; subst; clear H; rename H' into H). destruct s; assumption. Qed.
Lemma take_all_switches num ss : forall r, take_all num OtherParser (map (fun s => (switch_key s, None)) ss) r = do_all do_global (map Turn ss) r.
Proof.
  induction ss as [|s ss IH]; intros r; [reflexivity|]. cbn [map take_all do_all do_global].
  replace (take num OtherParser (switch_key s) None r) with (take (fun _ => None) OtherParser (switch_key s) None r) by (destruct s; reflexivity).
  apply then_ext. exact IH.
Qed.
Lemma global_step E num ws gs : global_words num ws gs -> exists ms, marked E main_table ws ms /\
  forall rest r extra, main_loop E num (ms ++ rest) r extra = then_ (do_all do_global gs r) (fun r => main_loop E num rest r extra).
Proof.
  intros H.
  assert (Hp : forall w, plain_word w -> parse_optional E main_table w = Some Arg) by (intros w P; apply (plain_arg E), P).
  pose proof (letters_main E) as HL. repeat (inversion HL as [|? ? ? HL']; subst; clear HL; rename HL' into HL).
  pose proof (long_globals E) as HG. repeat (inversion HG as [|? ? ? HG']; subst; clear HG; rename HG' into HG).
  destruct H as [ss Hs|s w S|m ws V|n ws I V|n v ws I V].
  - destruct ss as [|s ss]; [congruence|]. destruct (switch_letter E s) as (L1 & L2). destruct ss as [|t ss].
    + eexists [(_, _)]. split; [constructor; [|constructor]; split; [reflexivity|]; split; [destruct s; discriminate|exact L1]|].
      intros rest r extra. rewrite (main_step E num _ [(switch_key s, None)]); [rewrite (take_all_switches num [s]); reflexivity|].
      do 6 eexists. split; [reflexivity|]. intros rest' _. exists false. split; [|right; split; reflexivity].
      unfold consume_optional, no_explicit. replace (kind_of (switch_key s)) with Flag by (destruct s; reflexivity). reflexivity.
    + eexists [(_, _)]. split; [constructor; [|constructor]; split; [reflexivity|]; split; [destruct s; discriminate|]|].
      * apply (L2 (map letter (t :: ss))); [discriminate|destruct t; discriminate].
      * intros rest r extra. rewrite (main_step E num _ (map (fun s => (switch_key s, None)) (s :: t :: ss))); [rewrite take_all_switches; reflexivity|].
        do 6 eexists. split; [reflexivity|]. intros rest' _. exists false. split; [|right; split; reflexivity].
        unfold consume_optional. replace (kind_of (switch_key s)) with Flag by (destruct s; reflexivity). replace (N.eqb (letter s) cDASH) with false by (destruct s; reflexivity).
        apply letters_cluster. discriminate.
  - destruct (switch_long E s w S) as (G1 & _). eexists [(_, _)]. split; [constructor; [|constructor]; split; [reflexivity|]; split; [eapply short_not_dashes; exact S|exact G1]|].
    intros rest r extra. rewrite (main_step E num _ [(switch_key s, None)]); [rewrite (take_all_switches num [s]); reflexivity|].
    do 6 eexists. split; [reflexivity|]. intros rest' _. exists false. split; [|right; split; reflexivity].
    unfold consume_optional, no_explicit. replace (kind_of (switch_key s)) with Flag by (destruct s; reflexivity). reflexivity.
  - eapply (valued_yields E) in V; [|discriminate|eassumption|eassumption|discriminate|exact Hp]. destruct V as (ms & M & Y). exists ms. split; [exact M|].
    intros rest r extra. rewrite (main_step E num _ _ _ _ _ Y). reflexivity.
  - eapply (valued_yields E) in V; [|discriminate|eassumption|eassumption|discriminate|exact Hp]. destruct V as (ms & M & Y). exists ms. split; [exact M|].
    intros rest r extra. rewrite (main_step E num _ _ _ _ _ Y). apply sin_iff in I. cbn [take_all take do_all do_global]. rewrite I. reflexivity.
  - eapply (valued_yields E) in V; [|discriminate|eassumption|eassumption|discriminate|exact Hp]. destruct V as (ms & M & Y). exists ms. split; [exact M|].
    intros rest r extra. rewrite (main_step E num _ _ _ _ _ Y). cbn [take_all take do_all do_global]. rewrite I. reflexivity.
Qed.
Lemma globals_step E num ws gs : globals num ws gs -> exists ms, marked E main_table ws ms /\
  forall rest r extra, main_loop E num (ms ++ rest) r extra = then_ (do_all do_global gs r) (fun r => main_loop E num rest r extra).
Proof.
  induction 1 as [|ws gs ws' gs' H _ (ms' & M' & S')]; [exists []; split; [constructor|reflexivity]|].
  destruct (global_step E num _ _ H) as (ms & M & S). exists (ms ++ ms'). split; [apply marked_app; assumption|].
  intros rest r extra. rewrite <- app_assoc, S, do_all_app, then_assoc. apply then_ext. intros r1. apply S'.
Qed.

(** ** The options after it *)
Definition do_local (p : parser) (l : local) (r : reading) : got reading :=
  match l with
  | Unordered m => take (fun _ => None) p KUnordered (Some m) r
  | Ordered m => take (fun _ => None) p KOrdered (Some m) r
  | Constant => Got (on_args (set_constant true) r)
  | Levels n => Got (on_args (set_levels n) r)
  end.
Definition word_passes (E : env) (w : str) : Prop := w <> lit "--" /\ passes E w.
Lemma plain_passes E w : plain_word w -> word_passes E w.
Proof. intros P. destruct (plain_arg E w P) as (A & B & _). split; [exact A|]. unfold passes. rewrite B. discriminate. Qed.
Lemma valued_passes E c name v ws : c <> 45%N -> letter_passes E c -> long_passes E name -> valued local_names c name v ws -> Forall (word_passes E) ws.
Proof.
  intros Hc (L1 & L2) Lg H. destruct H as [P|N0 N1|w S P|w S].
  - constructor; [split; [intros Z; injection Z as Z; congruence|exact L1]|constructor; [apply plain_passes, P|constructor]].
  - constructor; [|constructor]. split; [destruct v; [congruence|discriminate]|apply L2; exact N0].
  - constructor; [split; [eapply short_not_dashes, S|apply Lg, S]|constructor; [apply plain_passes, P|constructor]].
  - constructor; [|constructor]. split; [|apply Lg, S]. intros Z. destruct S as (_ & L & _). apply (f_equal (@length N)) in Z. rewrite app_length in Z. cbn in Z. lia.
Qed.
(** An option without a value: a letter or a name. *)
Lemma bare_yields E name c k w bare : letter_ok E sub_table c k -> long_ok E sub_table local_names name k -> kind_of k = Flag \/ (kind_of k = Maybe /\ bare = true) -> c <> 45%N ->
  w = [45%N; c] \/ short_for local_names name w -> exists ms, marked E sub_table [w] ms /\ yields sub_table ms [(k, None)] bare.
Proof.
  intros (L1 & _) Lg Hk Hc Hw. assert (P : exists nm, w <> lit "--" /\ parse_optional E sub_table w = Some (Opt (Some k) nm false None)).
  { destruct Hw as [->|S]; eexists; (split; [|first [exact L1|apply Lg, S]]); [intros Z; injection Z as Z; congruence|eapply short_not_dashes, S]. }
  destruct P as (nm & D & P). eexists [(_, _)]. split; [constructor; [|constructor]; split; [reflexivity|]; split; [exact D|exact P]|].
  do 6 eexists. split; [reflexivity|]. intros rest Hb. exists false. split; [|right; split; reflexivity]. cbn [app].
  unfold consume_optional, no_explicit. destruct Hk as [->|(-> & ->)]; [reflexivity|]. rewrite Hb by reflexivity. reflexivity.
Qed.
Lemma bare_passes E name c w : letter_passes E c -> long_passes E name -> c <> 45%N -> w = [45%N; c] \/ short_for local_names name w -> Forall (word_passes E) [w].
Proof.
  intros (L1 & _) Lg Hc [->|S]; (constructor; [|constructor]); [split; [intros Z; injection Z as Z; congruence|exact L1]|split; [eapply short_not_dashes, S|apply Lg, S]].
Qed.
Lemma local_step E num p ws l b : p <> OtherParser -> local_words num p ws l b -> exists ms acts, marked E sub_table ws ms /\ Forall (word_passes E) ws /\
  yields sub_table ms acts b /\ forall r, take_all num p acts r = do_local p l r.
Proof.
  intros Hp0 H.
  assert (Hp : forall w, plain_word w -> parse_optional E sub_table w = Some Arg) by (intros w P; apply (plain_arg E), P).
  pose proof (letters_sub E) as HL. repeat (inversion HL as [|? ? ? HL']; subst; clear HL; rename HL' into HL).
  pose proof (long_locals E) as HG. repeat (inversion HG as [|? ? ? HG']; subst; clear HG; rename HG' into HG).
  pose proof (letters_pass E) as HP. repeat (inversion HP as [|? ? ? HP']; subst; clear HP; rename HP' into HP).
  pose proof (long_locals_pass E) as HQ. repeat (inversion HQ as [|? ? ? HQ']; subst; clear HQ; rename HQ' into HQ).
  assert (T : forall k v r, take_all num p [(k, v)] r = take num p k v r) by (intros k v r; cbn [take_all]; destruct (take num p k v r); reflexivity).
  destruct H as [m ws I V|w S|m ws I V|w S|w S|n v ws I R V|w S].
  1,3,6: (assert (W : Forall (word_passes E) ws) by (eapply valued_passes; [| | |exact V]; [discriminate|assumption|assumption]);
    eapply (valued_yields E) in V; [|discriminate|eassumption|eassumption|discriminate|exact Hp]; destruct V as (ms & M & Y);
    exists ms; eexists; split; [exact M|]; split; [exact W|]; split; [exact Y|]; intros r; rewrite T; cbn [take do_local]).
  - reflexivity.
  - reflexivity.
  - rewrite I. replace (cli_levels n) with true; [reflexivity|]. unfold cli_levels. symmetry. apply andb_true_iff. split; apply Z.leb_le; lia.
  - assert (W : Forall (word_passes E) [w]) by (eapply (bare_passes E (lit "--unordered-list-marker") 117); [assumption|assumption|discriminate|exact S]).
    eapply (bare_yields E (lit "--unordered-list-marker") 117 KUnordered w true) in S; [|assumption|assumption|right; split; reflexivity|discriminate]. destruct S as (ms & M & Y).
    exists ms. eexists. split; [exact M|]. split; [exact W|]. split; [exact Y|]. intros r. rewrite T. reflexivity.
  - assert (W : Forall (word_passes E) [w]) by (eapply (bare_passes E (lit "--ordered-list-marker") 111); [assumption|assumption|discriminate|exact S]).
    eapply (bare_yields E (lit "--ordered-list-marker") 111 KOrdered w true) in S; [|assumption|assumption|right; split; reflexivity|discriminate]. destruct S as (ms & M & Y).
    exists ms. eexists. split; [exact M|]. split; [exact W|]. split; [exact Y|]. intros r. rewrite T. reflexivity.
  - assert (W : Forall (word_passes E) [w]) by (eapply (bare_passes E (lit "--constant-ordered-list") 99); [assumption|assumption|discriminate|exact S]).
    eapply (bare_yields E (lit "--constant-ordered-list") 99 KConstant w false) in S; [|assumption|assumption|left; reflexivity|discriminate]. destruct S as (ms & M & Y).
    exists ms. eexists. split; [exact M|]. split; [exact W|]. split; [exact Y|]. intros r. rewrite T. reflexivity.
  - assert (W : Forall (word_passes E) [w]) by (eapply (bare_passes E (lit "--header-levels") 108); [assumption|assumption|discriminate|exact S]).
    eapply (bare_yields E (lit "--header-levels") 108 KLevels w true) in S; [|assumption|assumption|right; split; reflexivity|discriminate]. destruct S as (ms & M & Y).
    exists ms. eexists. split; [exact M|]. split; [exact W|]. split; [exact Y|]. intros r. rewrite T. reflexivity.
Qed.
Definition stays (ls : list local) (inside : bool) : bool := match ls with [] => inside | _ => false end.
Lemma yields_next tbl ms acts b rest : yields tbl ms acts b -> next_arg (ms ++ rest) = None.
Proof. intros (w & nm & k & sep & ex & ms2 & -> & _). reflexivity. Qed.
Lemma yields_run tbl ms acts b rest : yields tbl ms acts b -> run (ms ++ rest) = [].
Proof. intros (w & nm & k & sep & ex & ms2 & -> & _). reflexivity. Qed.
Lemma locals_step E num p ws ls b : p <> OtherParser -> locals num p ws ls b -> exists ms, marked E sub_table ws ms /\ Forall (word_passes E) ws /\
  (ws <> [] -> ls <> [] /\ forall rest, next_arg (ms ++ rest) = None /\ run (ms ++ rest) = []) /\ (ws = [] -> ls = []) /\
  forall rest r named inside extra, (b = true -> next_arg rest = None) ->
    sub_loop num p (ms ++ rest) r named inside extra = then_ (do_all (do_local p) ls r) (fun r => sub_loop num p rest r named (stays ls inside) extra).
Proof.
  intros Hp. induction 1 as [|ws l b H|ws l b ws' l' b' H N0 _ (ms' & M' & W' & X' & Z' & S')].
  - exists []. split; [constructor|]. split; [constructor|]. split; [congruence|]. split; [reflexivity|]. reflexivity.
  - destruct (local_step E num p ws l b Hp H) as (ms & acts & M & W & Y & T). exists ms. split; [exact M|]. split; [exact W|].
    split; [intros _; split; [discriminate|]; intros rest; split; [eapply yields_next, Y|eapply yields_run, Y]|]. split.
    { intros ->. inversion M; subst. destruct Y as (? & ? & ? & ? & ? & ? & ? & _). discriminate. }
    intros rest r named inside extra Hb. rewrite (sub_step num p ms acts b rest r named inside extra Y Hb), T. cbn [do_all stays]. rewrite then_assoc. reflexivity.
  - destruct (local_step E num p ws l b Hp H) as (ms & acts & M & W & Y & T). destruct (X' N0) as (L' & R'). exists (ms ++ ms').
    split; [apply marked_app; assumption|]. split; [apply Forall_app; split; assumption|].
    split; [intros _; split; [discriminate|]; intros rest; rewrite <- app_assoc; split; [eapply yields_next, Y|eapply yields_run, Y]|]. split.
    { intros E0. apply app_eq_nil in E0 as (_ & ->). congruence. }
    intros rest r named inside extra Hb. rewrite <- app_assoc, (sub_step num p ms acts b _ r named inside extra Y), T by (intros _; apply R').
    cbn [do_all stays]. rewrite then_assoc. apply then_ext. intros r1. rewrite S' by exact Hb. destruct l'; [congruence|]. reflexivity.
Qed.

(** ** The rest of the line *)
Lemma set_names_local p l n r : do_local p l (on_args (set_names n) r) = then_ (do_local p l r) (fun r => Got (on_args (set_names n) r)).
Proof.
  destruct r as [a u o c i]. destruct l as [m|m| |z]; try reflexivity; cbn [do_local take on_args r_args r_u r_o r_c r_i].
  - destruct (negb _); [reflexivity|]. destruct (seqb m _); [reflexivity|]. destruct o; reflexivity.
  - destruct (negb _); [reflexivity|]. destruct u; reflexivity.
Qed.
Lemma set_names_locals p n ls : forall r, do_all (do_local p) ls (on_args (set_names n) r) = then_ (do_all (do_local p) ls r) (fun r => Got (on_args (set_names n) r)).
Proof.
  induction ls as [|l ls IH]; intros r; [reflexivity|]. cbn [do_all]. rewrite set_names_local, !then_assoc. apply then_ext. intros r1. cbn [then_]. apply IH.
Qed.
Lemma args_run names rest : run rest = [] -> run (map (fun x => (x, Arg)) names ++ rest) = names.
Proof. intros H. induction names as [|x names IH]; [exact H|]. cbn. rewrite IH. reflexivity. Qed.
Lemma args_inside num p names rest r extra : sub_loop num p (map (fun x => (x, Arg)) names ++ rest) r true true extra = sub_loop num p rest r true true extra.
Proof. induction names as [|x names IH]; [reflexivity|]. cbn. exact IH. Qed.
Lemma plain_no_dashes names : Forall plain_word names -> remove_dashes names = names.
Proof.
  induction 1 as [|x l P _ IH]; [reflexivity|]. cbn [remove_dashes]. assert (X : seqb x (lit "--") = false) by (apply seqb_neq, (plain_arg ascii_env), P).
  rewrite X, IH. reflexivity.
Qed.
Lemma rest_step E num p ws ls names : p <> OtherParser -> rest_of_line num p ws ls names ->
  marks E main_table ws <> None /\ exists ms, marks E sub_table ws = Some ms /\
  forall r, a_names (r_args r) = [] -> sub_loop num p ms r false false false = then_ (do_all (do_local p) ls r) (fun r => Got (on_args (set_names names) r, false)).
Proof.
  intros Hp H.
  assert (PM : forall ws, Forall (word_passes E) ws -> forall ws', marks E main_table ws' <> None -> marks E main_table (ws ++ ws') <> None).
  { induction 1 as [|w l (A & B) _ IH]; intros ws' N0; [exact N0|]. cbn [app marks]. apply seqb_neq in A. rewrite A. unfold passes in B.
    destruct (parse_optional E main_table w); [|congruence]. specialize (IH ws' N0). destruct (marks E main_table (l ++ ws')); [discriminate|congruence]. }
  assert (NM : forall ws l b, locals num p ws l b -> forall ms r, marked E sub_table ws ms -> a_names (r_args r) = [] -> on_args (set_names []) r = r).
  { intros _ _ _ _ _ r _ N0. destruct r as [[]]. cbn in *. subst. reflexivity. }
  destruct H as [w1 l1 b1 names w2 l2 b2 L1 Hn F L2|w1 l1 b1 names L1].
  - destruct (locals_step E num p _ _ _ Hp L1) as (m1 & M1 & W1 & X1 & Z1 & S1). destruct (locals_step E num p _ _ _ Hp L2) as (m2 & M2 & W2 & X2 & Z2 & S2).
    split.
    { apply PM; [exact W1|]. apply PM; [eapply Forall_impl; [|exact F]; apply plain_passes|]. rewrite <- (app_nil_r w2). apply PM; [exact W2|discriminate]. }
    assert (MN : marked E sub_table names (map (fun x => (x, Arg)) names)).
    { clear -F. induction F as [|x l P _ IH]; [constructor|]. cbn [map]. constructor; [|exact IH]. destruct (plain_arg E x P) as (A & _ & B). auto. }
    exists (m1 ++ map (fun x => (x, Arg)) names ++ m2). split.
    { rewrite (marks_app _ _ _ _ _ M1), (marks_app _ _ _ _ _ MN). rewrite <- (app_nil_r w2), (marks_app _ _ _ _ _ M2). cbn. rewrite app_nil_r. reflexivity. }
    intros r N0. assert (B : forall r1 inside, sub_loop num p m2 r1 true inside false = then_ (do_all (do_local p) l2 r1) (fun r => Got (r, false))).
    { intros r1 inside. rewrite <- (app_nil_r m2), S2 by reflexivity. reflexivity. }
    assert (B' : forall r1 inside, sub_loop num p m2 r1 false inside false = then_ (do_all (do_local p) l2 r1) (fun r => Got (r, false))).
    { intros r1 inside. rewrite <- (app_nil_r m2), S2 by reflexivity. reflexivity. }
    assert (R2 : run m2 = [] /\ next_arg m2 = None).
    { destruct w2 as [|w w2]; [inversion M2; subst; auto|]. destruct (X2 ltac:(discriminate)) as (_ & R). specialize (R []). rewrite app_nil_r in R. tauto. }
    rewrite S1.
    + destruct names as [|x names].
      * cbn [map app]. rewrite (then_ext _ _ (fun r => then_ (do_all (do_local p) l2 r) (fun r => Got (r, false)))) by (intros; apply B').
        rewrite <- then_assoc, <- do_all_app. 
        assert (Q : forall r, a_names (r_args r) = [] -> then_ (do_all (do_local p) (l1 ++ l2) r) (fun r => Got (r, false)) = then_ (do_all (do_local p) (l1 ++ l2) r) (fun r => Got (on_args (set_names []) r, false))).
        { clear. intros r N0. pose proof (set_names_locals p [] (l1 ++ l2) r) as H. replace (on_args (set_names []) r) with r in H by (destruct r as [[]]; cbn in *; subst; reflexivity).
          destruct (do_all (do_local p) (l1 ++ l2) r) as [r1| |]; cbn [then_] in *; [injection H as H; rewrite <- H; reflexivity|reflexivity|reflexivity]. }
        apply Q. exact N0.
      * rewrite do_all_app, then_assoc. apply then_ext. intros r1. replace (stays l1 false) with false by (destruct l1; reflexivity).
        assert (RR : run (map (fun x => (x, Arg)) (x :: names) ++ m2) = x :: names) by (apply args_run, R2).
        cbn [map app] in RR |- *. cbn [sub_loop]. rewrite RR, plain_no_dashes by exact F. rewrite args_inside, B, set_names_locals, then_assoc. reflexivity.
    + intros ->. destruct Hn as [->|Hn]; [apply R2|discriminate].
  - destruct (locals_step E num p _ _ _ Hp L1) as (m1 & M1 & W1 & X1 & Z1 & S1). split.
    { apply PM; [exact W1|]. discriminate. }
    exists (m1 ++ (lit "--", Dashes) :: map (fun x => (x, Arg)) names). split; [rewrite (marks_app _ _ _ _ _ M1); reflexivity|].
    intros r N0. rewrite S1 by reflexivity. apply then_ext. intros r1. replace (stays l1 false) with false by (destruct l1; reflexivity).
    assert (RR : run (map (fun x => (x, Arg)) names) = names) by (rewrite <- (app_nil_r (map _ _)); apply args_run; reflexivity).
    cbn [sub_loop run]. rewrite RR. change (remove_dashes (lit "--" :: names)) with names.
    rewrite <- (app_nil_r (map _ _)), args_inside. reflexivity.
Qed.

(** ** The values *)
Definition after_globals (gs : list global) (a : cli_args) : cli_args :=
  mkArgs (a_names a) (a_ordered_marker a) (a_unordered_marker a) (a_no_links a || turned NoLinks gs) (a_no_indentation a || turned NoIndentation gs)
    (a_no_list_coherence a || turned NoCoherence gs) (a_levels a) (a_parser a)
    (last_of (fun g => match g with SkipLines n => Some n | _ => None end) (a_skip a) gs) (a_constant a)
    (a_in_place a || turned InPlace gs) (a_diff a || turned Diff gs)
    (last_of (fun g => match g with TocMarker m => Some m | _ => None end) (a_toc_marker a) gs)
    (last_of (fun g => match g with Newline n => Some n | _ => None end) (a_newline a) gs).
Lemma globals_value gs : forall r, r_c r && r_i r = false ->
  do_all do_global gs r =
  if (r_c r || turned NoCoherence gs) && (r_i r || turned NoIndentation gs) then Usage
  else Got (Reading (after_globals gs (r_args r)) (r_u r) (r_o r) (r_c r || turned NoCoherence gs) (r_i r || turned NoIndentation gs)).
Proof.
  induction gs as [|g gs IH]; intros [a u o c i] H; cbn [r_args r_u r_o r_c r_i] in *.
  - cbn [turned existsb]. rewrite !orb_false_r, H. unfold after_globals. cbn [turned existsb last_of fold_left]. rewrite !orb_false_r. destruct a; reflexivity.
  - cbn [do_all]. destruct g as [s|m|n|n].
    + destruct s; cbn [do_global switch_key take r_args r_u r_o r_c r_i on_args].
      * destruct i; cbn [then_]; [cbn [turned existsb]; rewrite orb_true_l, orb_true_r; reflexivity|].
        rewrite IH by reflexivity. unfold after_globals. cbn. rewrite !orb_true_r. reflexivity.
      * destruct c; cbn [then_]; [cbn [turned existsb]; rewrite !orb_true_l, !orb_true_r; reflexivity|].
        rewrite IH by reflexivity. unfold after_globals. cbn. rewrite !orb_true_r. reflexivity.
      * cbn [then_]. rewrite IH by exact H. unfold after_globals. cbn. rewrite !orb_true_r. reflexivity.
      * cbn [then_]. rewrite IH by exact H. unfold after_globals. cbn. rewrite !orb_true_r. reflexivity.
      * cbn [then_]. rewrite IH by exact H. unfold after_globals. cbn. rewrite !orb_true_r. reflexivity.
    + cbn [do_global then_]. rewrite IH by exact H. reflexivity.
    + cbn [do_global then_]. rewrite IH by exact H. reflexivity.
    + cbn [do_global then_]. rewrite IH by exact H. reflexivity.
Qed.
Definition has_ordered (ls : list local) : bool := existsb (fun l => match l with Ordered _ => true | _ => false end) ls.
Definition has_bullet (ls : list local) : bool := existsb (fun l => match l with Unordered m => negb (seqb m (lit "-")) | _ => false end) ls.
Definition after_locals (ls : list local) (a : cli_args) : cli_args :=
  mkArgs (a_names a) (last_of (fun l => match l with Ordered m => Some (Some m) | _ => None end) (a_ordered_marker a) ls)
    (last_of (fun l => match l with Unordered m => Some m | _ => None end) (a_unordered_marker a) ls)
    (a_no_links a) (a_no_indentation a) (a_no_list_coherence a)
    (last_of (fun l => match l with Levels n => Some n | _ => None end) (a_levels a) ls) (a_parser a) (a_skip a)
    (a_constant a || existsb (fun l => match l with Constant => true | _ => false end) ls)
    (a_in_place a) (a_diff a) (a_toc_marker a) (a_newline a).
Definition valid_local (p : parser) (l : local) : Prop :=
  match l with Unordered m => In m [lit "-"; lit "+"; lit "*"] | Ordered m => right_marker p true m | _ => True end.
Lemma locals_value p ls : p <> OtherParser -> Forall (valid_local p) ls -> forall r, r_o r && r_u r = false ->
  do_all (do_local p) ls r =
  if (r_o r || has_ordered ls) && (r_u r || has_bullet ls) then Usage
  else Got (Reading (after_locals ls (r_args r)) (r_u r || has_bullet ls) (r_o r || has_ordered ls) (r_c r) (r_i r)).
Proof.
  intros Hp. induction 1 as [|l ls V _ IH]; intros [a u o c i] H; cbn [r_args r_u r_o r_c r_i] in *.
  - cbn [has_ordered has_bullet existsb]. rewrite !orb_false_r, H. unfold after_locals. cbn [existsb last_of fold_left]. rewrite !orb_false_r. destruct a; reflexivity.
  - cbn [do_all]. destruct l as [m|m| |n]; cbn [do_local take on_args r_args r_u r_o r_c r_i].
    + assert (B : sin m (bullet_markers p) = true) by (apply sin_iff; destruct p; try congruence; exact V). rewrite B. cbn [negb].
      cbn [has_bullet existsb]. fold (has_bullet ls). destruct (seqb m (lit "-")) eqn:Em.
      * cbn [then_ negb orb]. rewrite IH by exact H. reflexivity.
      * cbn [negb orb]. rewrite orb_true_r. destruct o; cbn [then_]; [reflexivity|]. rewrite IH by reflexivity. cbn [has_ordered existsb r_args r_u r_o r_c r_i]. fold (has_ordered ls). reflexivity.
    + assert (B : sin m (closing_markers p) = true) by (apply sin_iff; destruct p; try congruence; exact V). rewrite B. cbn [negb].
      cbn [has_ordered existsb]. fold (has_ordered ls). cbn [orb]. rewrite orb_true_r. destruct u; cbn [then_]; [reflexivity|].
      rewrite IH by reflexivity. cbn [has_bullet existsb r_args r_u r_o r_c r_i]. fold (has_bullet ls). reflexivity.
    + cbn [then_]. rewrite IH by exact H. unfold after_locals. cbn. rewrite !orb_true_r. reflexivity.
    + cbn [then_]. rewrite IH by exact H. reflexivity.
Qed.
Lemma locals_valid num p ws ls b : locals num p ws ls b -> Forall (valid_local p) ls.
Proof.
  induction 1 as [|ws l b H|ws l b ws' l' b' H _ _ IH]; [constructor|constructor; [|constructor]|constructor; [|exact IH]];
    destruct H; cbn; auto; destruct p; cbn; auto.
Qed.
Lemma rest_valid num p ws ls names : rest_of_line num p ws ls names -> Forall (valid_local p) ls.
Proof. intros [w1 l1 b1 n w2 l2 b2 L1 _ _ L2|w1 l1 b1 n L1]; [apply Forall_app; split|]; eapply locals_valid; eassumption. Qed.
Lemma has_turned s gs : turned s gs = true <-> In (Turn s) gs.
Proof.
  unfold turned. rewrite existsb_exists. split.
  - intros (g & I & H). destruct g as [s'| | |]; try discriminate. destruct s, s'; try discriminate; exact I.
  - intros I. exists (Turn s). split; [exact I|]. destruct s; reflexivity.
Qed.
Lemma clash_iff gs ls : clash gs ls <-> (turned NoCoherence gs && turned NoIndentation gs = true \/ has_ordered ls && has_bullet ls = true).
Proof.
  unfold clash. rewrite !andb_true_iff, !has_turned. unfold has_ordered, has_bullet. rewrite !existsb_exists.
  assert (A : (exists m, In (Ordered m) ls) <-> exists x, In x ls /\ match x with Ordered _ => true | _ => false end = true).
  { split; [intros (m & I); exists (Ordered m); auto|intros ([] & I & H); try discriminate; eexists; exact I]. }
  assert (B : (exists m, In (Unordered m) ls /\ m <> lit "-") <-> exists x, In x ls /\ match x with Unordered m => negb (seqb m (lit "-")) | _ => false end = true).
  { split; [intros (m & I & H); exists (Unordered m); split; [exact I|]; apply seqb_neq in H; rewrite H; reflexivity|].
    intros ([] & I & H); try discriminate. eexists. split; [exact I|]. apply seqb_neq. destruct (seqb m _); [discriminate|reflexivity]. }
  rewrite A, B. tauto.
Qed.
Lemma parser_named p : p <> OtherParser -> find_str subparsers (parser_name p) = Some p /\ plain_word (parser_name p).
Proof. intros H. destruct p; try congruence; (split; [vm_compute; reflexivity|right; discriminate]). Qed.
Lemma marks_words E tbl ws : forall mm, marks E tbl ws = Some mm -> map fst mm = ws.
Proof.
  induction ws as [|w ws IH]; intros mm; cbn [marks]; [intros H; injection H as <-; reflexivity|].
  destruct (seqb w _); [intros H; injection H as <-; cbn; rewrite map_map, map_id; reflexivity|].
  destruct (parse_optional E tbl w); [|discriminate]. destruct (marks E tbl ws); [|discriminate]. intros H. injection H as <-. cbn. f_equal. apply IH. reflexivity.
Qed.
Lemma line_read E num ws gs p ls names : command_line num ws gs p ls names ->
  parse_args E num ws = if (turned NoCoherence gs && turned NoIndentation gs) || (has_ordered ls && has_bullet ls) then Usage else Got (asks gs p ls names).
Proof.
  intros (Hp & w1 & w2 & -> & G & R). destruct (globals_step E num _ _ G) as (m1 & M1 & S1). destruct (rest_step E num p _ _ _ Hp R) as (P2 & m2 & M2 & S2).
  destruct (parser_named p Hp) as (F & Pw). destruct (plain_arg E _ Pw) as (D & A & _). apply seqb_neq in D.
  unfold parse_args. rewrite (marks_app _ _ _ _ _ M1). cbn [marks]. rewrite D, A.
  destruct (marks E main_table w2) as [mm|] eqn:Em; [|congruence]. cbn [option_map]. rewrite S1.
  rewrite globals_value by reflexivity. cbn [r_c r_i r_u r_o r_args defaults orb].
  destruct (turned NoCoherence gs && turned NoIndentation gs); [reflexivity|]. cbn [then_ main_loop orb].
  assert (Ew : map fst mm = w2) by (apply (marks_words E main_table), Em).
  rewrite Ew. unfold sub_command. rewrite F, M2, S2 by reflexivity. rewrite !then_assoc.
  rewrite locals_value; [|exact Hp|eapply rest_valid, R|reflexivity]. cbn [r_c r_i r_u r_o r_args on_args orb].
  destruct (has_ordered ls && has_bullet ls); reflexivity.
Qed.

(** *** C65 *)
Theorem C65_command_line : forall E num ws gs p ls names, command_line num ws gs p ls names ->
  (~ clash gs ls -> parse_args E num ws = Got (asks gs p ls names)) /\ (clash gs ls -> parse_args E num ws = Usage).
Proof.
  intros E num ws gs p ls names H. rewrite (line_read E num ws gs p ls names H), clash_iff, <- orb_true_iff.
  destruct (_ || _); split; intros X; (reflexivity || congruence).
Qed.
Print Assumptions C65_command_line.
Theorem C65_accepted : forall E num ws a, parse_args E num ws = Got a -> offered a.
Proof. intros E num ws a H. apply C49_accepted_arguments, (parse_args_sound E num ws a H). Qed.
Print Assumptions C65_accepted.

(** Every accepted namespace can be asked for, if its numbers can be written. *)
Lemma short_name all name : forallb (fun x => implb (startswith name x) (seqb x name)) all = true -> 3 <= length name -> short_for all name name.
Proof.
  intros H L. split; [exists []; symmetry; apply app_nil_r|]. split; [exact L|]. intros x rest I E. rewrite forallb_forall in H. specialize (H x I).
  replace (startswith name x) with true in H by (symmetry; apply startswith_app; exists rest; exact E). apply seqb_eq. exact H.
Qed.
Ltac short_tac := apply short_name; [vm_compute; reflexivity|cbn; lia].
Lemma turned_app s l l' : turned s (l ++ l') = turned s l || turned s l'.
Proof. apply existsb_app. Qed.
Lemma last_of_app {A B} (f : A -> option B) d l l' : last_of f d (l ++ l') = last_of f (last_of f d l) l'.
Proof. apply fold_left_app. Qed.
Definition if_ {A} (b : bool) (x : A) : list A := if b then [x] else [].
Lemma globals_if num b s : globals num (if_ b (switch_name s)) (if_ b (Turn s)).
Proof.
  destruct b; [|constructor]. apply (g_more num [switch_name s] [Turn s] [] []); [|constructor]. apply gw_switch. destruct s; short_tac.
Qed.
Lemma globals_app num w1 g1 w2 g2 : globals num w1 g1 -> globals num w2 g2 -> globals num (w1 ++ w2) (g1 ++ g2).
Proof. induction 1 as [|ws gs ws' gs' H _ IH]; intros G; [exact G|]. rewrite <- !app_assoc. constructor; [exact H|]. apply IH, G. Qed.
Lemma globals_one num ws gs : global_words num ws gs -> globals num ws gs.
Proof. intros H. rewrite <- (app_nil_r ws), <- (app_nil_r gs). constructor; [exact H|constructor]. Qed.
Theorem C65_every_namespace : forall E num a, offered a ->
  (exists v, num v = Some (a_levels a)) -> (exists v, num v = Some (a_skip a)) -> exists ws, parse_args E num ws = Got a.
Proof.
  intros E num a (O1 & O2 & O3 & O4 & O5 & O6) (v & Hv) (k & Hk).
  set (gs := if_ (a_no_links a) (Turn NoLinks) ++ if_ (a_no_indentation a) (Turn NoIndentation) ++ if_ (a_no_list_coherence a) (Turn NoCoherence)
        ++ if_ (a_in_place a) (Turn InPlace) ++ if_ (a_diff a) (Turn Diff) ++ [TocMarker (a_toc_marker a)] ++ [SkipLines (a_skip a)]
        ++ if_ (negb (seqb (a_newline a) [10%N])) (Newline (a_newline a))).
  set (ls := Unordered (a_unordered_marker a) :: Levels (a_levels a) :: if_ (a_constant a) Constant ++ match a_ordered_marker a with Some m => [Ordered m] | None => [] end).
  assert (G : exists w1, globals num w1 gs).
  { eexists. unfold gs. apply globals_app; [apply globals_if|]. apply globals_app; [apply globals_if|]. apply globals_app; [apply globals_if|].
    apply globals_app; [apply globals_if|]. apply globals_app; [apply globals_if|].
    apply globals_app; [apply globals_one, gw_marker, name_joined; short_tac|].
    apply globals_app; [apply globals_one; eapply gw_skip; [exact Hk|apply name_joined; short_tac]|].
    instantiate (1 := if_ (negb (seqb (a_newline a) [10%N])) (lit "--newline-string" ++ [61%N] ++ a_newline a)).
    destruct (seqb (a_newline a) [10%N]) eqn:En; [constructor|]. apply seqb_neq in En. apply globals_one, gw_newline; [|apply name_joined; short_tac].
    destruct O6 as [H|[H|[H|[H|[]]]]]; [left; exact H|right; left; exact H|right; right; left; exact H|congruence]. }
  assert (L : exists w2, locals num (a_parser a) w2 ls false).
  { assert (C3 : exists w, locals num (a_parser a) w (match a_ordered_marker a with Some m => [Ordered m] | None => [] end) false).
    { destruct (a_ordered_marker a) as [m|]; [|exists []; constructor]. eexists. apply l_last, lw_ordered; [|apply name_joined; short_tac].
      destruct (O3 m eq_refl) as (_ & [->|(-> & R)]); unfold right_marker; destruct (a_parser a); cbn; auto; congruence. }
    destruct C3 as (w3 & C3).
    assert (C2 : exists w, locals num (a_parser a) w (if_ (a_constant a) Constant ++ match a_ordered_marker a with Some m => [Ordered m] | None => [] end) false).
    { destruct (a_constant a); [|exists w3; exact C3]. destruct w3 as [|x w3].
      - assert (Z : match a_ordered_marker a with Some m => [Ordered m] | None => [] end = []).
        { inversion C3 as [|ws l b H|ws l b ws' l' b' H N0 H']; [reflexivity| |subst; destruct ws; [|discriminate]; destruct ws'; [congruence|discriminate]].
          subst. exfalso. inversion H; match goal with V : valued _ _ _ _ [] |- _ => inversion V end. }
        rewrite Z. eexists. apply l_last, lw_constant. left. reflexivity.
      - eexists. apply l_more with (b := false); [apply lw_constant; left; reflexivity| |exact C3]. discriminate. }
    destruct C2 as (w2 & C2).
    assert (C1 : exists x w, locals num (a_parser a) (x :: w) (Levels (a_levels a) :: if_ (a_constant a) Constant ++ match a_ordered_marker a with Some m => [Ordered m] | None => [] end) false).
    { destruct w2 as [|x w2].
      - assert (Z : if_ (a_constant a) Constant ++ match a_ordered_marker a with Some m => [Ordered m] | None => [] end = []).
        { inversion C2 as [|ws l b H|ws l b ws' l' b' H N0 H']; [reflexivity| |subst; destruct ws; [|discriminate]; destruct ws'; [congruence|discriminate]].
          subst. exfalso. inversion H; match goal with V : valued _ _ _ _ [] |- _ => inversion V end. }
        rewrite Z. do 2 eexists. apply l_last. eapply lw_levels; [exact Hv|exact O4|apply name_joined; short_tac].
      - exists (lit "--header-levels" ++ [61%N] ++ v), (x :: w2). change (?y :: x :: w2) with ([y] ++ x :: w2).
        apply l_more with (b := false); [|discriminate|exact C2]. eapply lw_levels; [exact Hv|exact O4|apply name_joined; short_tac]. }
    destruct C1 as (x & w1 & C1). eexists. unfold ls. eapply l_more with (b := false); [apply lw_unordered; [exact O2|apply name_joined; short_tac]| |exact C1]. discriminate. }
  destruct G as (w1 & G), L as (w2 & L).
  exists (w1 ++ parser_name (a_parser a) :: w2 ++ lit "--" :: a_names a).
  assert (CL : command_line num (w1 ++ parser_name (a_parser a) :: w2 ++ lit "--" :: a_names a) gs (a_parser a) ls (a_names a)).
  { split; [exact O1|]. do 2 eexists. split; [reflexivity|]. split; [exact G|]. eapply rest_dashes, L. }
  destruct (C65_command_line E num _ _ _ _ _ CL) as (A & _). rewrite A.
  - f_equal. unfold asks, gs, ls. rewrite !turned_app, !last_of_app. destruct a as [n om um nl ni nc lv p sk co ip df tm nw]. cbn [a_names a_ordered_marker a_unordered_marker a_no_links a_no_indentation a_no_list_coherence a_levels a_parser a_skip a_constant a_in_place a_diff a_toc_marker a_newline] in *.
    clear - O6. destruct (seqb nw [10%N]) eqn:En; [apply seqb_eq in En; subst nw|]; destruct nl, ni, nc, ip, df, co, om; reflexivity.
  - rewrite clash_iff. unfold gs, ls. rewrite !turned_app. intros [H|H].
    + apply (O5). { destruct (a_no_indentation a); [reflexivity|]. destruct (negb _), (a_no_links a), (a_no_list_coherence a), (a_in_place a), (a_diff a); discriminate. }
      destruct (a_no_list_coherence a); [reflexivity|]. destruct (negb _), (a_no_links a), (a_no_indentation a), (a_in_place a), (a_diff a); discriminate.
    + destruct (a_ordered_marker a) as [m|]; [destruct (O3 m eq_refl) as (O7 & _); rewrite O7 in H|]; destruct (a_constant a); discriminate H.
Qed.
Print Assumptions C65_every_namespace.

(** A file name right after -u, -o or -l is taken for its value. *)
Lemma sub_usage E num p w1 gs w2 : p <> OtherParser -> globals num w1 gs ->
  (forall ms r, marks E sub_table w2 = Some ms -> r_o r && r_u r = false -> exists g, (g = Usage \/ exists r', g = Got (r', true)) /\ sub_loop num p ms r false false false = g) ->
  parse_args E num (w1 ++ parser_name p :: w2) = Usage.
Proof.
  intros Hp G H. destruct (globals_step E num _ _ G) as (m1 & M1 & S1). destruct (parser_named p Hp) as (F & Pw). destruct (plain_arg E _ Pw) as (D & A & _). apply seqb_neq in D.
  unfold parse_args. rewrite (marks_app _ _ _ _ _ M1). cbn [marks]. rewrite D, A.
  destruct (marks E main_table w2) as [mm|] eqn:Em; [|reflexivity]. cbn [option_map]. rewrite S1. rewrite globals_value by reflexivity.
  destruct (_ && _); [reflexivity|]. cbn [then_ main_loop].
  assert (Ew : map fst mm = w2) by (apply (marks_words E main_table), Em).
  rewrite Ew. unfold sub_command. rewrite F. destruct (marks E sub_table w2) as [ms|] eqn:Es; [|reflexivity].
  edestruct (H ms) as (g & Hg & ->); [reflexivity| |]; cycle 1.
  { destruct Hg as [->|(r' & ->)]; reflexivity. }
  reflexivity.
Qed.
Theorem C65_swallowed : forall E num p w1 gs w2 ls b w f rest, p <> OtherParser -> globals num w1 gs -> locals num p w2 ls b ->
  plain_word f -> swallows num p w f ->
  parse_args E num (w1 ++ parser_name p :: w2 ++ w :: f :: rest) = Usage.
Proof.
  intros E num p w1 gs w2 ls b w f rest Hp G L Pf Sw. apply (sub_usage E num p w1 gs); [exact Hp|exact G|].
  intros ms r M Hr. destruct (locals_step E num p w2 ls b Hp L) as (m2 & M2 & _ & _ & _ & S2).
  assert (K : exists nm k, w <> lit "--" /\ parse_optional E sub_table w = Some (Opt (Some k) nm false None) /\ kind_of k = Maybe /\ forall r, take num p k (Some f) r = Usage).
  { pose proof (letters_sub E) as HL. repeat (inversion HL as [|? ? ? HL']; subst; clear HL; rename HL' into HL).
    pose proof (long_locals E) as HG. repeat (inversion HG as [|? ? ? HG']; subst; clear HG; rename HG' into HG).
    assert (T : forall c name k, letter_ok E sub_table c k -> long_ok E sub_table local_names name k -> c <> 45%N -> w = [45%N; c] \/ short_for local_names name w ->
        exists nm, w <> lit "--" /\ parse_optional E sub_table w = Some (Opt (Some k) nm false None)).
    { intros c name k (L1 & _) Lg Hc [->|S]; eexists; (split; [|first [exact L1|apply Lg, S]]); [intros Z; injection Z as Z; congruence|eapply short_not_dashes, S]. }
    destruct Sw as [(W & Hf)|[(W & Hf)|(W & Hf)]].
    - destruct (T 117%N (lit "--unordered-list-marker") KUnordered) as (nm & A & B); try assumption; [discriminate|]. exists nm, KUnordered. split; [exact A|]. split; [exact B|]. split; [reflexivity|].
      intros r0. cbn [take]. replace (sin f (bullet_markers p)) with false; [reflexivity|]. symmetry. apply not_true_is_false. rewrite sin_iff. intros I. apply Hf. destruct p; try congruence; exact I.
    - destruct (T 111%N (lit "--ordered-list-marker") KOrdered) as (nm & A & B); try assumption; [discriminate|]. exists nm, KOrdered. split; [exact A|]. split; [exact B|]. split; [reflexivity|].
      intros r0. cbn [take]. replace (sin f (closing_markers p)) with false; [reflexivity|]. symmetry. apply not_true_is_false. rewrite sin_iff. intros I. apply Hf. destruct p; try congruence; exact I.
    - destruct (T 108%N (lit "--header-levels") KLevels) as (nm & A & B); try assumption; [discriminate|]. exists nm, KLevels. split; [exact A|]. split; [exact B|]. split; [reflexivity|].
      intros r0. cbn [take]. destruct (num f) as [n|]; [|reflexivity]. replace (cli_levels n) with false; [reflexivity|]. symmetry. apply not_true_is_false. unfold cli_levels.
      rewrite andb_true_iff, !Z.leb_le. apply Hf. reflexivity. }
  destruct K as (nm & k & D & P & Kk & T). destruct (plain_arg E f Pf) as (Df & _ & Af). apply seqb_neq in D, Df.
  rewrite (marks_app _ _ _ _ _ M2) in M. cbn [marks] in M. rewrite D, P, Df, Af in M. destruct (marks E sub_table rest) as [mr|]; [|discriminate]. cbn [option_map] in M. injection M as <-.
  exists Usage. split; [left; reflexivity|]. rewrite S2 by reflexivity. rewrite locals_value; [|exact Hp|eapply locals_valid, L|exact Hr].
  destruct ((r_o r || has_ordered ls) && (r_u r || has_bullet ls)); [reflexivity|]. cbn [then_ sub_loop next_arg consume_optional]. unfold no_explicit. rewrite Kk. cbn [then_ take_all]. rewrite T. reflexivity.
Qed.
Print Assumptions C65_swallowed.

(** The options of the main parser that the subparsers do not have are refused after its name. *)
Lemma misplaced_mark E w : digit_ascii E -> misplaced w -> w <> lit "--" /\ parse_optional E sub_table w = Some (Opt None w false None).
Proof.
  intros Hd.
  assert (X : forall t, forallb (fun c => N.ltb c 128 && negb (N.leb 48 c && N.leb c 57) && negb (N.eqb c 46) && negb (N.eqb c 10)) t = true -> looks_negative E (45%N :: t) = false).
  { intros t H. unfold looks_negative. change (N.eqb 45 cDASH) with true. cbn [andb].
    replace (match rev t with 10%N :: r => rev r | _ => t end) with t.
    - destruct t as [|c t]; [reflexivity|]. cbn [forallb] in H. rewrite !andb_true_iff, !negb_true_iff, N.ltb_lt, andb_false_iff, !N.leb_gt in H.
      assert (D : e_digit E c = false) by (apply not_true_is_false; rewrite (Hd c) by lia; unfold is_digit; lia). cbn [lstrip]. rewrite D.
      destruct H as ((((_ & _) & H) & _) & _). rewrite H. reflexivity.
    - destruct (rev t) as [|c r] eqn:Er; [reflexivity|]. assert (I : In c t) by (apply in_rev; rewrite Er; left; reflexivity). rewrite forallb_forall in H. specialize (H c I).
      rewrite !andb_true_iff, !negb_true_iff in H. destruct H as (_ & H). apply N.eqb_neq in H. destruct c as [|q]; [reflexivity|]. do 4 (destruct q as [q|q|]; try reflexivity). congruence. }
  assert (Y : forall t, forallb (fun c => N.ltb c 128 && negb (N.leb 48 c && N.leb c 57) && negb (N.eqb c 46) && negb (N.eqb c 10)) t = true -> t <> [] ->
     partition_eq (45%N :: t) = (45%N :: t, None) -> find_str sub_table (45%N :: t) = None -> option_tuples sub_table (45%N :: t) = [] -> cin cSP (45%N :: t) = false ->
     parse_optional E sub_table (45%N :: t) = Some (Opt None (45%N :: t) false None)).
  { intros t H N0 P F O S. unfold parse_optional. change (negb (N.eqb 45 cDASH)) with false. cbv iota. rewrite F. destruct t; [congruence|]. rewrite P, O, (X _ H), S. reflexivity. }
  intros [I|(name & I & N0 & S)].
  - cbn [In] in I. repeat (destruct I as [<-|I]; [split; [discriminate|apply Y; [vm_compute; reflexivity|discriminate|vm_compute; reflexivity..]]|]). destruct I.
  - split; [eapply short_not_dashes, S|]. unfold global_names in I at 1. cbn [In] in I.
    destruct I as [<-|I]; [congruence|].
    repeat (destruct I as [<-|I]; [all_cuts S; (match goal with |- context [firstn ?k ?n] => let v := eval vm_compute in (firstn k n) in change (firstn k n) with v end);
      (apply Y; [vm_compute; reflexivity|discriminate|vm_compute; reflexivity..])|]). destruct I.
Qed.
Lemma unknown_extra num p : forall n ms r named inside extra r' x, length ms <= n ->
  sub_loop num p ms r named inside extra = Got (r', x) -> extra = true \/ Exists (fun y => exists nm sep ex, snd y = Opt None nm sep ex) ms -> x = true.
Proof.
  induction n as [|n IH]; intros ms r named inside extra r' x Hn H X.
  - destruct ms; [|cbn in Hn; lia]. cbn in H. injection H as _ <-. destruct X as [->|X]; [reflexivity|inversion X].
  - destruct ms as [|(w, m) ms]; [cbn in H; injection H as _ <-; destruct X as [->|X]; [reflexivity|inversion X]|]. cbn [length] in Hn.
    assert (X' : extra = true \/ (exists nm sep ex, m = Opt None nm sep ex) \/ Exists (fun y => exists nm sep ex, snd y = Opt None nm sep ex) ms).
    { destruct X as [X|X]; [left; exact X|right]. inversion X; subst; [left; assumption|right; assumption]. }
    clear X. destruct m as [| |ask nm sep ex].
    1,2: (assert (X : extra = true \/ Exists (fun y => exists nm sep ex, snd y = Opt None nm sep ex) ms) by (destruct X' as [X|[(? & ? & ? & X)|X]]; [auto|discriminate|auto]);
      cbn [sub_loop] in H; destruct inside; [|destruct named]; (eapply IH; [|exact H|]; [lia|]); auto).
    cbn [sub_loop] in H. destruct (consume_optional sub_table ask nm sep ex (next_arg ms)) as [((l & y) & took)| |] eqn:C; try discriminate. cbn [then_] in H.
    destruct (take_all num p l r) as [r1| |]; try discriminate. cbn [then_] in H.
    assert (X : extra || y = true \/ Exists (fun y => exists nm sep ex, snd y = Opt None nm sep ex) ms).
    { destruct X' as [->|[(? & ? & ? & X)|X]]; [left; reflexivity| |right; exact X]. injection X as -> _ _ _. cbn in C. injection C as _ <- _. left. apply orb_true_r. }
    destruct took; [|eapply IH; [|exact H|exact X]; lia]. destruct ms as [|z ms]; [discriminate|]. cbn [length] in Hn. eapply IH; [|exact H|]; [lia|].
    destruct X as [X|X]; [left; exact X|]. inversion X as [? ? (nm2 & sep2 & ex2 & Z)|]; subst; [|right; assumption].
    exfalso. destruct z as (z & m). cbn [snd] in Z. subst m. cbn [next_arg] in C. unfold consume_optional in C.
    assert (NN : forall k, no_explicit k None <> Got (l, y, true)) by (intros k; unfold no_explicit; destruct (kind_of k); discriminate).
    assert (NC : forall m e k s l, length e <= m -> cluster sub_table k s e None <> Got (l, y, true)).
    { clear -NN. induction m as [|m IHm]; intros e k s l0 Hm; (destruct e as [|c e]; [cbn [cluster]; destruct (kind_of k); discriminate|]); cbn [length] in Hm; [lia|].
      cbn [cluster]. destruct (kind_of k); try discriminate. destruct (s || N.eqb c cDASH); [discriminate|]. destruct (find_str _ _) as [k'|]; [|discriminate].
      unfold before. destruct e as [|d e].
      - unfold no_explicit. destruct (kind_of k'); discriminate.
      - cbn [length] in Hm. destruct (N.eqb d 61).
        + destruct (cluster sub_table k' true e None) as [((l1 & y1) & t1)| |] eqn:Ec; try discriminate. cbn [then_]. intros Z. injection Z as _ -> ->. eapply IHm; [|exact Ec]; lia.
        + destruct (cluster sub_table k' false (d :: e) None) as [((l1 & y1) & t1)| |] eqn:Ec; try discriminate. cbn [then_]. intros Z. injection Z as _ -> ->. eapply IHm; [|exact Ec]; cbn; lia. }
    destruct ask as [k|]; [|discriminate]. destruct ex as [e|]; [|exact (NN k C)].
    destruct (kind_of k); [destruct nm as [|? [|c ?]]; try (destruct (N.eqb c cDASH); [discriminate|])|..]; eapply NC; try exact C; apply le_n.
Qed.
Lemma unknown_marks E x w3 : digit_ascii E -> misplaced x -> forall w2 ms, ~ In (lit "--") w2 -> marks E sub_table (w2 ++ x :: w3) = Some ms -> Exists (fun y => exists nm sep ex, snd y = Opt None nm sep ex) ms.
Proof.
  intros Hd Hx. destruct (misplaced_mark E x Hd Hx) as (D & P). apply seqb_neq in D. induction w2 as [|w w2 IH]; intros ms H; cbn [app marks].
  - rewrite D, P. destruct (marks E sub_table w3); [|discriminate]. intros Z. injection Z as <-. left. do 3 eexists. reflexivity.
  - destruct (seqb w (lit "--")) eqn:Ew; [apply seqb_eq in Ew; subst; exfalso; apply H; left; reflexivity|].
    destruct (parse_optional E sub_table w); [|discriminate]. destruct (marks E sub_table (w2 ++ x :: w3)) as [m'|]; [|discriminate]. intros Z. injection Z as <-. right. apply IH; [|reflexivity].
    intros I. apply H. right. exact I.
Qed.
Theorem C65_misplaced : forall E num p w1 gs w2 x w3 a, digit_ascii E -> p <> OtherParser -> globals num w1 gs -> ~ In (lit "--") w2 -> misplaced x ->
  parse_args E num (w1 ++ parser_name p :: w2 ++ x :: w3) <> Got a.
Proof.
  intros E num p w1 gs w2 x w3 a Hd Hp G D X.
  destruct (globals_step E num _ _ G) as (m1 & M1 & S1). destruct (parser_named p Hp) as (F & Pw). destruct (plain_arg E _ Pw) as (Dp & A & _). apply seqb_neq in Dp.
  unfold parse_args. rewrite (marks_app _ _ _ _ _ M1). cbn [marks]. rewrite Dp, A.
  destruct (marks E main_table (w2 ++ x :: w3)) as [mm|] eqn:Em; [|discriminate]. cbn [option_map]. rewrite S1. rewrite globals_value by reflexivity.
  destruct (_ && _); [discriminate|]. cbn [then_ main_loop].
  assert (Ew : map fst mm = w2 ++ x :: w3) by (apply (marks_words E main_table), Em).
  rewrite Ew. unfold sub_command. rewrite F. destruct (marks E sub_table (w2 ++ x :: w3)) as [ms|] eqn:Es; [|discriminate].
  apply (unknown_marks E x w3 Hd X) in Es; [|exact D].
  match goal with |- context [sub_loop num p ms ?r0 false false false] => destruct (sub_loop num p ms r0 false false false) as [(r' & y)| |] eqn:Hs end; try discriminate.
  eapply unknown_extra in Hs; [|apply le_n|right; exact Es]. subst y. discriminate.
Qed.
Print Assumptions C65_misplaced.

(** The whole program: what the words ask for is what happens; a refused command line, or one that
    asks for help, leaves the files as they are. *)
Theorem C65_program : forall E num ws w,
  (forall gs p ls names, command_line num ws gs p ls names -> ~ clash gs ls ->
     let e := cli_write_toc E (asks gs p ls names) w in main E num ws w = RunResult (f_out e) (f_fs e) (exit_status (f_result e)))
  /\ ((forall a, parse_args E num ws <> Got a) -> x_out (main E num ws w) = [] /\ x_fs (main E num ws w) = w_fs w /\ In (x_status (main E num ws w)) [0; 2]%Z)
  /\ (x_status (main E num ws w) = 2%Z <-> parse_args E num ws = Usage).
Proof.
  intros E num ws w. split; [|split].
  - intros gs p ls names H C. unfold main. destruct (C65_command_line E num ws gs p ls names H) as (A & _). rewrite (A C). reflexivity.
  - intros H. unfold main. destruct (parse_args E num ws) as [a| |] eqn:P; [exfalso; apply (H a); reflexivity| |]; cbn; auto.
  - unfold main. destruct (parse_args E num ws) as [a| |]; cbn; [|tauto|split; discriminate]. split; [|discriminate]. destruct (f_result _); cbn; [|discriminate]. unfold exit_status. destruct a0; discriminate.
Qed.
Print Assumptions C65_program.

(** *** Refused lines *)
(** No parser, or none of that name. *)
Theorem C65_no_parser : forall E num w1 gs, globals num w1 gs ->
  parse_args E num w1 = Usage
  /\ forall x rest, plain_word x -> (forall p, p <> OtherParser -> x <> parser_name p) -> parse_args E num (w1 ++ x :: rest) = Usage.
Proof.
  intros E num w1 gs G. destruct (globals_step E num _ _ G) as (m1 & M1 & S1). split.
  - unfold parse_args. rewrite <- (app_nil_r w1), (marks_app _ _ _ _ _ M1). cbn [marks option_map]. rewrite S1, globals_value by reflexivity. destruct (_ && _); reflexivity.
  - intros x rest P N0. destruct (plain_arg E x P) as (D & A & _). apply seqb_neq in D.
    unfold parse_args. rewrite (marks_app _ _ _ _ _ M1). cbn [marks]. rewrite D, A. destruct (marks E main_table rest) as [mm|]; [|reflexivity]. cbn [option_map].
    rewrite S1, globals_value by reflexivity. destruct (_ && _); [reflexivity|]. cbn [then_ main_loop]. unfold sub_command.
    replace (find_str subparsers x) with (@None parser); [reflexivity|]. symmetry. unfold subparsers. cbn [find_str].
    repeat match goal with |- context [seqb ?n x] => let Z := fresh in assert (Z : seqb n x = false) by
      (apply seqb_neq; intros <-; first [apply (N0 Github); [discriminate|reflexivity]|apply (N0 Commonmarker); [discriminate|reflexivity]|apply (N0 Gitlab); [discriminate|reflexivity]
        |apply (N0 Cmark); [discriminate|reflexivity]|apply (N0 Goldmark); [discriminate|reflexivity]|apply (N0 Redcarpet); [discriminate|reflexivity]]); rewrite Z; clear Z end. reflexivity.
Qed.
Print Assumptions C65_no_parser.

(** Values that an option does not take, however they are written. *)
Theorem C65_wrong_values : forall E num w1 gs, globals num w1 gs ->
  (forall ws rest, wrong_global num ws -> parse_args E num (w1 ++ ws ++ rest) = Usage)
  /\ (forall p w2 ls b ws rest, p <> OtherParser -> locals num p w2 ls b -> wrong_local num p ws ->
        parse_args E num (w1 ++ parser_name p :: w2 ++ ws ++ rest) = Usage).
Proof.
  intros E num w1 gs G. split.
  - intros ws rest W. destruct (globals_step E num _ _ G) as (m1 & M1 & S1).
    pose proof (letters_main E) as HL. repeat (inversion HL as [|? ? ? HL']; subst; clear HL; rename HL' into HL).
    pose proof (long_globals E) as HG. repeat (inversion HG as [|? ? ? HG']; subst; clear HG; rename HG' into HG).
    assert (Hp : forall w, plain_word w -> parse_optional E main_table w = Some Arg) by (intros w P; apply (plain_arg E), P).
    assert (K : exists ms k v, marked E main_table ws ms /\ yields main_table ms [(k, Some v)] false /\ forall r, take num OtherParser k (Some v) r = Usage).
    { destruct W as [n ws I V|v ws I V]; (eapply (valued_yields E) in V; [|discriminate|eassumption|eassumption|discriminate|exact Hp]; destruct V as (ms & M & Y);
        exists ms; do 2 eexists; split; [exact M|]; split; [exact Y|]; intros r; cbn [take]).
      - replace (sin n _) with false; [reflexivity|]. symmetry. apply not_true_is_false. rewrite sin_iff. exact I.
      - rewrite I. reflexivity. }
    destruct K as (ms & k & v & M & Y & T). unfold parse_args. rewrite (marks_app _ _ _ _ _ M1), (marks_app _ _ _ _ _ M).
    destruct (marks E main_table rest) as [mr|]; [|reflexivity]. cbn [option_map]. rewrite S1, globals_value by reflexivity. destruct (_ && _); [reflexivity|].
    cbn [then_]. rewrite (main_step E num ms _ mr _ _ Y). cbn [take_all]. rewrite T. reflexivity.
  - intros p w2 ls b ws rest Hp L W. apply (sub_usage E num p w1 gs); [exact Hp|exact G|].
    intros ms r M Hr. destruct (locals_step E num p w2 ls b Hp L) as (m2 & M2 & _ & _ & _ & S2).
    pose proof (letters_sub E) as HL. repeat (inversion HL as [|? ? ? HL']; subst; clear HL; rename HL' into HL).
    pose proof (long_locals E) as HG. repeat (inversion HG as [|? ? ? HG']; subst; clear HG; rename HG' into HG).
    assert (Hpl : forall w, plain_word w -> parse_optional E sub_table w = Some Arg) by (intros w P; apply (plain_arg E), P).
    assert (K : exists m3 k v, marked E sub_table ws m3 /\ yields sub_table m3 [(k, Some v)] false /\ forall r, take num p k (Some v) r = Usage).
    { destruct W as [n ws I V|n ws I V|v ws I V]; (eapply (valued_yields E) in V; [|discriminate|eassumption|eassumption|discriminate|exact Hpl]; destruct V as (m3 & M3 & Y);
        exists m3; do 2 eexists; split; [exact M3|]; split; [exact Y|]; intros r0; cbn [take]).
      - replace (sin n _) with false; [reflexivity|]. symmetry. apply not_true_is_false. rewrite sin_iff. intros J. apply I. destruct p; try congruence; exact J.
      - replace (sin n _) with false; [reflexivity|]. symmetry. apply not_true_is_false. rewrite sin_iff. intros J. apply I. destruct p; try congruence; exact J.
      - destruct (num v) as [n|]; [|reflexivity]. replace (cli_levels n) with false; [reflexivity|]. symmetry. apply not_true_is_false. unfold cli_levels.
        rewrite andb_true_iff, !Z.leb_le. apply I. reflexivity. }
    destruct K as (m3 & k & v & M3 & Y & T).
    rewrite (marks_app _ _ _ _ _ M2), (marks_app _ _ _ _ _ M3) in M. destruct (marks E sub_table rest) as [mr|]; [|discriminate]. cbn [option_map] in M. injection M as <-.
    exists Usage. split; [left; reflexivity|]. rewrite S2 by (intros _; eapply yields_next, Y). rewrite locals_value; [|exact Hp|eapply locals_valid, L|exact Hr].
    destruct ((r_o r || has_ordered ls) && (r_u r || has_bullet ls)); [reflexivity|]. cbn [then_].
    rewrite (sub_step num p m3 _ false mr) by (exact Y || discriminate). cbn [take_all]. rewrite T. reflexivity.
Qed.
Print Assumptions C65_wrong_values.

(** Abbreviations of more than one name. *)
Definition all_cuts_of (all : list str) : list str :=
  filter (fun w => negb (sin w all) && Nat.leb 2 (length (filter (startswith w) all))) (flat_map (fun name => map (fun k => firstn k name) (seq 3 (length name - 2))) all).
Lemma two_of {A} (f : A -> bool) l x y : In x l -> In y l -> x <> y -> f x = true -> f y = true -> 2 <= length (filter f l).
Proof.
  induction l as [|z l IH]; intros Hx Hy N0 Fx Fy; [destruct Hx|]. cbn [filter]. destruct Hx as [->|Hx], Hy as [->|Hy]; [congruence| | |].
  - rewrite Fx. cbn [length]. assert (I : In y (filter f l)) by (apply filter_In; auto). destruct (filter f l); [destruct I|cbn; lia].
  - rewrite Fy. cbn [length]. assert (I : In x (filter f l)) by (apply filter_In; auto). destruct (filter f l); [destruct I|cbn; lia].
  - specialize (IH Hx Hy N0 Fx Fy). destruct (f z); cbn [length]; lia.
Qed.
Lemma ambiguous_cut all w : ambiguous all w -> In w (all_cuts_of all).
Proof.
  intros (L & N0 & x & y & r1 & r2 & Ix & Iy & Nxy & Ex & Ey). apply filter_In. split.
  - apply in_flat_map. exists x. split; [exact Ix|]. apply in_map_iff. exists (length w). split; [rewrite Ex, firstn_app, Nat.sub_diag, firstn_all; cbn; apply app_nil_r|].
    apply in_seq. apply (f_equal (@length N)) in Ex. rewrite app_length in Ex. lia.
  - apply andb_true_iff. split; [apply negb_true_iff, not_true_is_false; rewrite sin_iff; exact N0|]. apply Nat.leb_le. apply (two_of _ _ x y Ix Iy Nxy); apply startswith_app; eauto.
Qed.
Lemma ambiguous_none E : (forall w, ambiguous global_names w -> w <> lit "--" /\ parse_optional E main_table w = None)
  /\ (forall w, ambiguous local_names w -> w <> lit "--" /\ parse_optional E sub_table w = None).
Proof.
  split; intros w H; (split; [intros ->; destruct H as (L & _); cbn in L; lia|]); apply ambiguous_cut in H; vm_compute in H;
    repeat (destruct H as [<-|H]; [vm_compute; reflexivity|]); destruct H.
Qed.
Lemma marks_none E tbl x rest : x <> lit "--" -> parse_optional E tbl x = None -> forall ws, ~ In (lit "--") ws -> marks E tbl (ws ++ x :: rest) = None.
Proof.
  intros D P. apply seqb_neq in D. induction ws as [|w ws IH]; intros H; cbn [app marks]; [rewrite D, P; reflexivity|].
  destruct (seqb w (lit "--")) eqn:Ew; [apply seqb_eq in Ew; subst; exfalso; apply H; left; reflexivity|]. rewrite IH by (intros I; apply H; right; exact I).
  destruct (parse_optional E tbl w); reflexivity.
Qed.
Theorem C65_ambiguous : forall E num,
  (forall ws w rest, ~ In (lit "--") ws -> ambiguous global_names w -> parse_args E num (ws ++ w :: rest) = Usage)
  /\ (forall w1 gs p ws w rest, p <> OtherParser -> globals num w1 gs -> ~ In (lit "--") ws -> ambiguous local_names w ->
        parse_args E num (w1 ++ parser_name p :: ws ++ w :: rest) = Usage).
Proof.
  intros E num. destruct (ambiguous_none E) as (A & B). split.
  - intros ws w rest D H. destruct (A w H) as (D2 & P). unfold parse_args. rewrite (marks_none E _ w rest D2 P ws D). reflexivity.
  - intros w1 gs p ws w rest Hp G D H. destruct (B w H) as (D2 & P). apply (sub_usage E num p w1 gs _ Hp G). intros ms r M. rewrite (marks_none E _ w rest D2 P ws D) in M. discriminate.
Qed.
Print Assumptions C65_ambiguous.

(** File names in two groups. *)
Theorem C65_split_names : forall E num w1 gs p w2 l2 b2 n1 w3 l3 n2 rest a, p <> OtherParser -> globals num w1 gs ->
  locals num p w2 l2 b2 -> b2 = false -> n1 <> [] -> Forall plain_word n1 ->
  locals num p w3 l3 false -> w3 <> [] -> plain_word n2 ->
  parse_args E num (w1 ++ parser_name p :: w2 ++ n1 ++ w3 ++ n2 :: rest) <> Got a.
Proof.
  intros E num w1 gs p w2 l2 b2 n1 w3 l3 n2 rest a Hp G L2 -> N1 P1 L3 N3 P2 H.
  assert (X : forall ms r, marks E sub_table (w2 ++ n1 ++ w3 ++ n2 :: rest) = Some ms -> forall r' x, sub_loop num p ms r false false false = Got (r', x) -> x = true).
  { intros ms r M r' x Hs. destruct (locals_step E num p w2 l2 false Hp L2) as (m2 & M2 & _ & X2 & Z2 & S2). destruct (locals_step E num p w3 l3 false Hp L3) as (m3 & M3 & _ & X3 & _ & S3).
    destruct (X3 N3) as (Ne3 & R3).
    assert (Mn : marked E sub_table n1 (map (fun x => (x, Arg)) n1)).
    { clear -P1. induction P1 as [|n l Hn _ IH]; [constructor|]. constructor; [|exact IH]. split; [reflexivity|]. split; apply (plain_arg E), Hn. }
    destruct (plain_arg E n2 P2) as (D & _ & A). apply seqb_neq in D.
    rewrite (marks_app _ _ _ _ _ M2), (marks_app _ _ _ _ _ Mn), (marks_app _ _ _ _ _ M3) in M. cbn [marks] in M. rewrite D, A in M.
    destruct (marks E sub_table rest) as [mr|]; [|discriminate]. cbn [option_map] in M. injection M as <-.
    rewrite S2 in Hs by discriminate. destruct (do_all (do_local p) l2 r) as [r1| |]; try discriminate. cbn [then_] in Hs.
    assert (Si : stays l2 false = false) by (destruct l2; reflexivity). rewrite Si in Hs.
    destruct n1 as [|n n1]; [congruence|]. cbn [map app sub_loop] in Hs. rewrite args_inside, S3 in Hs by discriminate.
    match type of Hs with then_ ?d _ = _ => destruct d as [r2| |]; try discriminate end. cbn [then_] in Hs.
    assert (Si3 : stays l3 true = false) by (destruct l3; [congruence|reflexivity]). rewrite Si3 in Hs. cbn [sub_loop] in Hs.
    eapply unknown_extra in Hs; [exact Hs|apply le_n|left; reflexivity]. }
  destruct (globals_step E num _ _ G) as (m1 & M1 & S1). destruct (parser_named p Hp) as (F & Pw). destruct (plain_arg E _ Pw) as (Dp & A & _). apply seqb_neq in Dp.
  unfold parse_args in H. rewrite (marks_app _ _ _ _ _ M1) in H. cbn [marks] in H. rewrite Dp, A in H.
  destruct (marks E main_table (w2 ++ n1 ++ w3 ++ n2 :: rest)) as [mm|] eqn:Em; [|discriminate]. cbn [option_map] in H. rewrite S1, globals_value in H by reflexivity.
  destruct (_ && _); [discriminate|]. cbn [then_ main_loop] in H. rewrite (marks_words E main_table _ _ Em) in H.
  unfold sub_command in H. rewrite F in H. destruct (marks E sub_table (w2 ++ n1 ++ w3 ++ n2 :: rest)) as [ms|]; [|discriminate].
  match type of H with context [sub_loop num p ms ?r0 false false false] => specialize (X ms r0 eq_refl); destruct (sub_loop num p ms r0 false false false) as [(r' & y)| |] end; try discriminate.
  rewrite (X r' y eq_refl) in H. discriminate.
Qed.
Print Assumptions C65_split_names.

(** ** Examples: numbers written with digits *)
Fixpoint digits_value (s : str) (acc : Z) : option Z :=
  match s with
  | [] => Some acc
  | c :: s' => if N.leb 48 c && N.leb c 57 then digits_value s' (acc * 10 + (Z.of_N c - 48))%Z else None
  end.
Definition simple_int (s : str) : option Z := match s with [] => None | _ => digits_value s 0 end.
Definition example_words : list str :=
  [lit "-pc"; lit "--skip=3"; lit "-m"; lit "TOC"; lit "github"; lit "--unord"; lit "+"; lit "-"; lit "README.md"; lit "-l4"; lit "-c"; lit "-l"].
Lemma example_line : command_line simple_int example_words
  [Turn InPlace; Turn NoCoherence; SkipLines 3; TocMarker (lit "TOC")] Github [Unordered (lit "+"); Levels 4; Constant; Levels 6] [lit "-"; lit "README.md"].
Proof.
  split; [discriminate|]. exists [lit "-pc"; lit "--skip=3"; lit "-m"; lit "TOC"], [lit "--unord"; lit "+"; lit "-"; lit "README.md"; lit "-l4"; lit "-c"; lit "-l"].
  split; [reflexivity|]. split.
  - apply (g_more _ [lit "-pc"] [Turn InPlace; Turn NoCoherence]); [apply (gw_letters _ [InPlace; NoCoherence]); discriminate|].
    apply (g_more _ [lit "--skip=3"] [SkipLines 3]); [apply (gw_skip _ 3 (lit "3")); [reflexivity|]|].
    + apply (name_joined _ _ _ (lit "3") (lit "--skip")). split; [exists (lit "-lines"); reflexivity|]. split; [cbn; lia|].
      intros x rest I Ex. unfold global_names in I. cbn [In] in I. repeat (destruct I as [<-|I]; [first [reflexivity|discriminate Ex]|]). destruct I.
    + apply (g_more _ [lit "-m"; lit "TOC"] [TocMarker (lit "TOC")] [] []); [|constructor]. apply gw_marker. apply (letter_next _ 109%N). right. discriminate.
  - apply (rest_plain _ _ [lit "--unord"; lit "+"] [Unordered (lit "+")] false [lit "-"; lit "README.md"] [lit "-l4"; lit "-c"; lit "-l"] [Levels 4; Constant; Levels 6] true).
    + apply l_last, lw_unordered; [cbn; auto|]. apply (name_next _ _ _ (lit "+") (lit "--unord")); [|right; discriminate].
      split; [exists (lit "ered-list-marker"); reflexivity|]. split; [cbn; lia|].
      intros x rest I Ex. unfold local_names in I. cbn [In] in I. repeat (destruct I as [<-|I]; [first [reflexivity|discriminate Ex]|]). destruct I.
    + right. reflexivity.
    + constructor; [left; reflexivity|]. constructor; [right; discriminate|constructor].
    + apply (l_more _ _ [lit "-l4"] (Levels 4) false [lit "-c"; lit "-l"]); [|discriminate|].
      * apply (lw_levels _ _ 4 (lit "4")); [reflexivity|lia|]. apply (letter_joined _ 108%N _ (lit "4")); discriminate.
      * apply (l_more _ _ [lit "-c"] Constant false [lit "-l"]); [apply lw_constant; left; reflexivity|discriminate|]. apply l_last, lw_levels_bare. left. reflexivity.
Qed.
(** The line is read as the namespace that it asks for. *)
Example C65_command_line_ex : parse_args ascii_env simple_int example_words =
  Got (mkArgs [lit "-"; lit "README.md"] None (lit "+") false false true 6 Github 3 true true false (lit "TOC") [10%N]).
Proof.
  destruct (C65_command_line ascii_env simple_int _ _ _ _ _ example_line) as (A & _). rewrite A; [vm_compute; reflexivity|].
  intros [(_ & H)|((m & H) & _)]; cbn [In] in H; intuition discriminate.
Qed.
(** Two exclusive options; "-u -" does not count. *)
Example C65_clash_ex :
  parse_args ascii_env simple_int [lit "-ci"; lit "github"] = Usage
  /\ parse_args ascii_env simple_int [lit "github"; lit "-u+"; lit "-o)"] = Usage
  /\ parse_args ascii_env simple_int [lit "github"; lit "-u-"; lit "-o)"; lit "a"]
     = Got (mkArgs [lit "a"] (Some (lit ")")) (lit "-") false false false 6 Github 0 false false false (lit "<!--TOC-->") [10%N]).
Proof. split; [|split]; vm_compute; reflexivity. Qed.
Example C65_accepted_ex : exists a, parse_args ascii_env simple_int example_words = Got a /\ offered a.
Proof. eexists. split; [exact C65_command_line_ex|]. eapply C65_accepted. exact C65_command_line_ex. Qed.
Example C65_every_namespace_ex : exists ws, parse_args ascii_env simple_int ws =
  Got (mkArgs [lit "--"; lit "-x"; []] (Some (lit ")")) (lit "-") true true false 2 Cmark 77 true false true [] (lit "\r\n")).
Proof.
  apply C65_every_namespace; cbn [a_levels a_skip]; [|exists (lit "2"); reflexivity|exists (lit "77"); reflexivity]. apply C49_accepted_arguments. vm_compute. reflexivity.
Qed.
Example C65_swallowed_ex : swallows simple_int Github (lit "-u") (lit "README.md")
  /\ parse_args ascii_env simple_int [lit "-p"; lit "github"; lit "-c"; lit "-u"; lit "README.md"] = Usage
  /\ parse_args ascii_env simple_int [lit "-p"; lit "github"; lit "-c"; lit "README.md"; lit "-u"] <> Usage.
Proof.
  assert (S : swallows simple_int Github (lit "-u") (lit "README.md")).
  { left. split; [left; reflexivity|]. intros H. cbn in H. intuition discriminate. }
  split; [exact S|]. split; [|vm_compute; discriminate].
  apply (C65_swallowed ascii_env simple_int Github [lit "-p"] [Turn InPlace] [lit "-c"] [Constant] false (lit "-u") (lit "README.md") []); [discriminate| | |right; discriminate|exact S].
  - apply globals_one. apply (gw_letters _ [InPlace]). discriminate.
  - apply l_last, lw_constant. left. reflexivity.
Qed.
Example C65_misplaced_ex : misplaced (lit "--in-place") /\ misplaced (lit "-p")
  /\ parse_args ascii_env simple_int [lit "github"; lit "README.md"; lit "-p"] = Usage
  /\ parse_args ascii_env simple_int [lit "-p"; lit "github"; lit "README.md"] <> Usage.
Proof.
  split; [right; exists (lit "--in-place"); split; [cbn; tauto|]; split; [discriminate|]; short_tac|]. split; [left; cbn; tauto|]. split; vm_compute; [reflexivity|discriminate].
Qed.
Definition example_world : world := mkWorld [(lit "a.md", mkDoc [lit "# One" ++ [10%N]; lit "x" ++ [10%N]; lit "## Two" ++ [10%N]] false)] Closed.
Example C65_program_ex :
  main ascii_env simple_int [lit "github"; lit "-o)"; lit "a.md"] example_world
    = RunResult (lit "1) [One](#one)" ++ [10%N] ++ lit "   1) [Two](#two)" ++ [10%N]) (w_fs example_world) 0
  /\ main ascii_env simple_int [lit "github"; lit "-l"; lit "7"; lit "a.md"] example_world = RunResult [] (w_fs example_world) 2
  /\ main ascii_env simple_int [lit "--version"] example_world = RunResult [] (w_fs example_world) 0.
Proof. split; [|split]; vm_compute; reflexivity. Qed.

Example C65_refused_ex :
  parse_args ascii_env simple_int [lit "-p"] = Usage /\ parse_args ascii_env simple_int [lit "-p"; lit "README.md"] = Usage
  /\ wrong_global simple_int [lit "-nx"]
  /\ wrong_local simple_int Redcarpet [lit "-o"; lit ")"] /\ ambiguous global_names (lit "--no-") /\ ambiguous local_names (lit "--he")
  /\ parse_args ascii_env simple_int [lit "github"; lit "a"; lit "-o."; lit "b"] = Usage.
Proof.
  split; [vm_compute; reflexivity|]. split; [vm_compute; reflexivity|]. split; [|split; [|split; [|split]]].
  - apply (wg_newline _ (lit "x")); [cbn; intuition discriminate|]. apply (letter_joined _ 110%N _ (lit "x")); discriminate.
  - apply (wl_ordered _ _ (lit ")")); [cbn; intuition discriminate|]. apply (letter_next _ 111%N). right. discriminate.
  - split; [cbn; lia|]. split; [cbn; intuition discriminate|]. exists (lit "--no-links"), (lit "--no-indentation"), (lit "links"), (lit "indentation"). cbn [In global_names]. intuition discriminate.
  - split; [cbn; lia|]. split; [cbn; intuition discriminate|]. exists (lit "--help"), (lit "--header-levels"), (lit "lp"), (lit "ader-levels"). cbn [In local_names]. intuition discriminate.
  - vm_compute. reflexivity.
Qed.
