(** Proofs for LineSpec.v: the words of an option and what argparse makes of them. *)
From Coq Require Import String List NArith ZArith Bool Arith Lia.
From Verif Require Import Str StrFacts EnvSpec Anchor Toc Cli Args CallSpec Argv ArgvSpec LineSpec PropArgs PropArgv PropArgv2.
Import ListNotations.
Local Open Scope list_scope.

Definition help (k : key) : Prop := k = KHelp \/ k = KVersion.
Definition key_of (c : choice) : key := match find_str (main_table ++ sub_table) (ch_name c) with Some k => k | None => KHelp end.
Definition keyed (x : choice * option str) : key * option str := (key_of (fst x), snd x).
Definition eq_ok (E : env) (tbl : table) (c : N) (k : key) : Prop := forall v, parse_optional E tbl (45%N :: c :: 61%N :: v) = Some (Opt (Some k) [45%N; c] true (Some v)).
(** The tables are those of the specification, apart from the keys [hp]. *)
Record tbl_ok (hp : key -> Prop) (tbl : table) (o : options) (cs : list choice) : Prop := {
  t_in : forall n k, In (n, k) tbl -> hp k \/ exists c, In c cs /\ key_of c = k /\ (n = [45%N; ch_letter c] \/ n = ch_name c);
  t_kind : forall c, In c cs -> kind_of (key_of c) = match ch_takes c with Nothing => Flag | Value => One | MaybeValue => Maybe end;
  t_short : forall c, In c cs -> find_str tbl [45%N; ch_letter c] = Some (key_of c) /\ ch_letter c <> 45%N /\ ch_letter c <> 61%N;
  t_letter : forall E c, In c cs -> letter_ok E tbl (ch_letter c) (key_of c);
  t_eq : forall E c, In c cs -> eq_ok E tbl (ch_letter c) (key_of c);
  t_long : forall E c, In c cs -> long_ok E tbl (o_names o) (ch_name c) (key_of c);
  t_shape : forall n k, In (n, k) tbl -> (exists x, n = [45%N; x] /\ x <> 45%N /\ x <> 61%N) \/ (exists t, n = 45%N :: 45%N :: t /\ ~ In 61%N n);
  t_letters : forall x, In x (o_letters o) <-> exists k, In ([45%N; x], k) tbl;
  t_names : forall n, In n (o_names o) <-> exists t k, n = 45%N :: 45%N :: t /\ In (n, k) tbl;
  t_self : forall n, In n (o_names o) -> short_for (o_names o) n n;
  t_nodup : NoDup (map fst tbl);
  t_cs : forall c, In c cs -> In (ch_name c) (o_names o);
  t_own : forall n k, In (n, k) tbl -> find_str tbl n = Some k;
  t_two : exists x y, In x (o_names o) /\ In y (o_names o) /\ x <> y;
  t_names2 : forall n, In n (o_names o) -> firstn 2 n = lit "--" /\ 3 <= length n;
  t_tuples : forall c d t, c <> 45%N -> In c (o_letters o) -> exists k, find_str tbl [45%N; c] = Some k /\ option_tuples tbl (45%N :: c :: d :: t) = [Opt (Some k) [45%N; c] false (Some (d :: t))] }.
Ltac each I := repeat (destruct I as [<-|I]; [|]); [..|destruct I].
Ltac in_pairs I := cbn [In main_table sub_table global_choices local_choices global_names local_names global_options local_options o_names o_letters] in I.
Lemma main_ok : tbl_ok help main_table global_options global_choices.
Proof.
  constructor.
  - intros n k I. in_pairs I. repeat (destruct I as [I|I]; [injection I as <- <-; first [left; unfold help; tauto|right]|]); [..|destruct I].
    all: first [exists (nth 0 global_choices (Choice [] 0 Nothing)); split; [cbn; tauto|split; [reflexivity|first [left; reflexivity|right; reflexivity]]]
      | exists (nth 1 global_choices (Choice [] 0 Nothing)); split; [cbn; tauto|split; [reflexivity|first [left; reflexivity|right; reflexivity]]]
      | exists (nth 2 global_choices (Choice [] 0 Nothing)); split; [cbn; tauto|split; [reflexivity|first [left; reflexivity|right; reflexivity]]]
      | exists (nth 3 global_choices (Choice [] 0 Nothing)); split; [cbn; tauto|split; [reflexivity|first [left; reflexivity|right; reflexivity]]]
      | exists (nth 4 global_choices (Choice [] 0 Nothing)); split; [cbn; tauto|split; [reflexivity|first [left; reflexivity|right; reflexivity]]]
      | exists (nth 5 global_choices (Choice [] 0 Nothing)); split; [cbn; tauto|split; [reflexivity|first [left; reflexivity|right; reflexivity]]]
      | exists (nth 6 global_choices (Choice [] 0 Nothing)); split; [cbn; tauto|split; [reflexivity|first [left; reflexivity|right; reflexivity]]]
      | exists (nth 7 global_choices (Choice [] 0 Nothing)); split; [cbn; tauto|split; [reflexivity|first [left; reflexivity|right; reflexivity]]]].
  - intros c I. in_pairs I. each I; reflexivity.
  - intros c I. in_pairs I. each I; (split; [reflexivity|split; discriminate]).
  - intros E c I. in_pairs I. each I; letter_tac.
  - intros E c I. in_pairs I. each I; intros v; vm_compute; reflexivity.
  - intros E c I. in_pairs I. each I; long_tac.
  - intros n k I. in_pairs I. repeat (destruct I as [I|I]; [injection I as <- <-; first [left; eexists; split; [reflexivity|split; discriminate]|right; eexists; split; [reflexivity|cbn; intuition discriminate]]|]). destruct I.
  - intros x. split.
    + intros I. cbn in I. repeat (destruct I as [<-|I]; [eexists; cbn; tauto|]). destruct I.
    + intros (k & I). in_pairs I. repeat (destruct I as [I|I]; [first [discriminate I|injection I as <- _; cbn; tauto]|]). destruct I.
  - intros n. split.
    + intros I. cbn in I. repeat (destruct I as [<-|I]; [do 2 eexists; split; [reflexivity|cbn; tauto]|]). destruct I.
    + intros (t & k & -> & I). in_pairs I. repeat (destruct I as [I|I]; [first [discriminate I|injection I as <- _; cbn; tauto]|]). destruct I.
  - intros n I. in_pairs I. each I; short_tac.
  - cbn. repeat (apply NoDup_cons; [cbn; intuition discriminate|]). apply NoDup_nil.
  - intros c I. in_pairs I. each I; cbn; tauto.
  - intros n k I. in_pairs I. repeat (destruct I as [I|I]; [injection I as <- <-; vm_compute; reflexivity|]). destruct I.
  - exists (lit "--help"), (lit "--diff"). cbn. intuition discriminate.
  - intros n I. in_pairs I. each I; (split; [reflexivity|cbn; lia]).
  - intros c d t Hc I. cbn in I. repeat (destruct I as [<-|I]; [eexists; split; vm_compute; reflexivity|]). destruct I.
Qed.
Lemma sub_ok : tbl_ok help sub_table local_options local_choices.
Proof.
  constructor.
  - intros n k I. in_pairs I. repeat (destruct I as [I|I]; [injection I as <- <-; first [left; unfold help; tauto|right]|]); [..|destruct I].
    all: first [exists (nth 0 local_choices (Choice [] 0 Nothing)); split; [cbn; tauto|split; [reflexivity|first [left; reflexivity|right; reflexivity]]]
      | exists (nth 1 local_choices (Choice [] 0 Nothing)); split; [cbn; tauto|split; [reflexivity|first [left; reflexivity|right; reflexivity]]]
      | exists (nth 2 local_choices (Choice [] 0 Nothing)); split; [cbn; tauto|split; [reflexivity|first [left; reflexivity|right; reflexivity]]]
      | exists (nth 3 local_choices (Choice [] 0 Nothing)); split; [cbn; tauto|split; [reflexivity|first [left; reflexivity|right; reflexivity]]]].
  - intros c I. in_pairs I. each I; reflexivity.
  - intros c I. in_pairs I. each I; (split; [reflexivity|split; discriminate]).
  - intros E c I. in_pairs I. each I; letter_tac.
  - intros E c I. in_pairs I. each I; intros v; vm_compute; reflexivity.
  - intros E c I. in_pairs I. each I; long_tac.
  - intros n k I. in_pairs I. repeat (destruct I as [I|I]; [injection I as <- <-; first [left; eexists; split; [reflexivity|split; discriminate]|right; eexists; split; [reflexivity|cbn; intuition discriminate]]|]). destruct I.
  - intros x. split.
    + intros I. cbn in I. repeat (destruct I as [<-|I]; [eexists; cbn; tauto|]). destruct I.
    + intros (k & I). in_pairs I. repeat (destruct I as [I|I]; [first [discriminate I|injection I as <- _; cbn; tauto]|]). destruct I.
  - intros n. split.
    + intros I. cbn in I. repeat (destruct I as [<-|I]; [do 2 eexists; split; [reflexivity|cbn; tauto]|]). destruct I.
    + intros (t & k & -> & I). in_pairs I. repeat (destruct I as [I|I]; [first [discriminate I|injection I as <- _; cbn; tauto]|]). destruct I.
  - intros n I. in_pairs I. each I; short_tac.
  - cbn. repeat (apply NoDup_cons; [cbn; intuition discriminate|]). apply NoDup_nil.
  - intros c I. in_pairs I. each I; cbn; tauto.
  - intros n k I. in_pairs I. repeat (destruct I as [I|I]; [injection I as <- <-; vm_compute; reflexivity|]). destruct I.
  - exists (lit "--help"), (lit "--header-levels"). cbn. intuition discriminate.
  - intros n I. in_pairs I. each I; (split; [reflexivity|cbn; lia]).
  - intros c d t Hc I. cbn in I. repeat (destruct I as [<-|I]; [eexists; split; vm_compute; reflexivity|]). destruct I.
Qed.

(** ** Negative numbers *)
Lemma lstrip_all (f : N -> bool) l : Forall (fun c => f c = true) l -> forall r, lstrip f (l ++ r) = lstrip f r.
Proof. induction 1 as [|c l H _ IH]; intros r; [reflexivity|]. cbn [app lstrip]. rewrite H. apply IH. Qed.
Lemma lstrip_split (f : N -> bool) l : exists a, l = a ++ lstrip f l /\ Forall (fun c => f c = true) a /\ forall d u, lstrip f l = d :: u -> f d = false.
Proof.
  induction l as [|c l (a & H & F & D)]; [exists []; repeat split; [constructor|discriminate]|]. cbn [lstrip]. destruct (f c) eqn:Ec.
  - exists (c :: a). split; [cbn; f_equal; exact H|]. split; [constructor; assumption|exact D].
  - exists []. split; [reflexivity|]. split; [constructor|]. intros d u Z. injection Z as <- _. exact Ec.
Qed.
Definition number_body (f : N -> bool) (t : str) : bool :=
  match lstrip f t with
  | [] => negb (match t with [] => true | _ => false end)
  | d :: u => N.eqb d 46 && forallb f u && negb (match u with [] => true | _ => false end)
  end.
Lemma number_body_iff f t : f 46%N = false -> number_body f t = true <->
  ((t <> [] /\ Forall (fun c => f c = true) t) \/ exists b d, t = b ++ 46%N :: d /\ Forall (fun c => f c = true) b /\ d <> [] /\ Forall (fun c => f c = true) d).
Proof.
  intros H46. unfold number_body. split.
  - destruct (lstrip_split f t) as (a & H & F & D). destruct (lstrip f t) as [|d u] eqn:L.
    + rewrite app_nil_r in H. subst a. intros Z. left. split; [destruct t; [discriminate|discriminate]|exact F].
    + rewrite !andb_true_iff, N.eqb_eq. intros ((-> & Fu) & Nu). right. exists a, u. split; [exact H|]. split; [exact F|]. split; [destruct u; discriminate|].
      rewrite forallb_forall in Fu. apply Forall_forall. exact Fu.
  - intros [(N0 & F)|(b & d & -> & Fb & N0 & Fd)].
    + rewrite <- (app_nil_r t), lstrip_all by exact F. cbn [lstrip]. rewrite app_nil_r. destruct t; [congruence|reflexivity].
    + rewrite lstrip_all by exact Fb. cbn [lstrip]. rewrite H46. cbn [N.eqb Pos.eqb andb]. rewrite andb_true_iff. split; [apply forallb_forall; rewrite Forall_forall in Fd; exact Fd|destruct d; [congruence|reflexivity]].
Qed.
Definition strip_lf (t : str) : str := match rev t with 10%N :: r => rev r | _ => t end.
Lemma negative_iff E w : digit_ascii E -> looks_negative E w = true <-> negative_number (e_digit E) w.
Proof.
  intros Hd.
  assert (D46 : e_digit E 46 = false) by (apply not_true_is_false; rewrite (Hd 46%N) by lia; unfold is_digit; lia).
  assert (D10 : e_digit E 10 = false) by (apply not_true_is_false; rewrite (Hd 10%N) by lia; unfold is_digit; lia).
  assert (LN : forall t, number_body (e_digit E) (t ++ [10%N]) = false).
  { intros t. apply not_true_is_false. rewrite number_body_iff by exact D46. intros [(_ & F)|(b & d & Z & Fb & N0 & F)].
    - apply Forall_app in F as (_ & F). inversion F; subst. congruence.
    - destruct (exists_last N0) as (d' & x & ->). change (b ++ 46%N :: d' ++ [x]) with (b ++ (46%N :: d') ++ [x]) in Z. rewrite app_assoc in Z. apply app_inj_tail in Z as (_ & <-).
      apply Forall_app in F as (_ & F). inversion F; subst. congruence. }
  assert (X : looks_negative E w = match w with c :: t => N.eqb c 45 && number_body (e_digit E) (strip_lf t) | [] => false end) by (destruct w; reflexivity).
  rewrite X. clear X. unfold negative_number. destruct w as [|c t]; [split; [discriminate|intros (a & [Z|Z] & _); discriminate]|].
  assert (R : (exists r, t = r ++ [10%N] /\ (strip_lf t) = r) \/ ((forall r, t <> r ++ [10%N]) /\ (strip_lf t) = t)).
  { unfold strip_lf. destruct (rev t) as [|d r] eqn:Er.
    - right. split; [|reflexivity]. intros r ->. rewrite rev_app_distr in Er. discriminate.
    - assert (Z : t = rev r ++ [d]) by (rewrite <- (rev_involutive t), Er; reflexivity). destruct (N.eq_dec d 10) as [->|N0].
      + left. exists (rev r). split; [exact Z|reflexivity].
      + right. split; [intros r' Z'; rewrite Z in Z'; apply app_inj_tail in Z' as (_ & Z'); congruence|]. destruct d as [|q]; [reflexivity|]. do 4 (destruct q as [q|q|]; try reflexivity). congruence. }
  cbv iota beta. rewrite andb_true_iff, N.eqb_eq. split.
  - intros (-> & H). destruct R as [(r & -> & Er)|(_ & Er)]; rewrite Er in H; apply number_body_iff in H; try exact D46; eexists; (split; [|exact H]); [right|left]; reflexivity.
  - intros (a & Z & H). assert (Hc : c = 45%N) by (destruct Z as [Z|Z]; injection Z as -> _; reflexivity). split; [exact Hc|]. subst c. apply number_body_iff in H; [|exact D46].
    destruct R as [(r & -> & ->)|(N0 & ->)]; destruct Z as [Z|Z]; injection Z as Z.
    + subst a. rewrite LN in H. discriminate.
    + apply app_inj_tail in Z as (-> & _). exact H.
    + subst a. exact H.
    + exfalso. exact (N0 _ Z).
Qed.

(** ** What a word is taken for *)
Lemma named_unique w n n' : named_part w n -> named_part w n' -> n = n'.
Proof.
  assert (X : forall n n' v v' : str, ~ In 61%N n -> ~ In 61%N n' -> (v = [] \/ hd 0%N v = 61%N) -> (v' = [] \/ hd 0%N v' = 61%N) -> n ++ v = n' ++ v' -> n = n').
  { clear. induction n as [|c n IH]; intros [|c' n'] v v' N0 N1 V V' Z; cbn in Z.
    - reflexivity.
    - exfalso. destruct V as [->|V]; [discriminate|]. subst v. cbn in V. subst. apply N1. left. reflexivity.
    - exfalso. destruct V' as [->|V2]; [discriminate|]. subst v'. cbn in V2. subst. apply N0. left. reflexivity.
    - injection Z as -> Z. f_equal. apply (IH n' v v'); try assumption; intros I; [apply N0|apply N1]; right; exact I. }
  intros (N0 & H) (N1 & H').
  assert (A : exists v, w = n ++ v /\ (v = [] \/ hd 0%N v = 61%N)) by (destruct H as [->|(v & ->)]; [exists []; rewrite app_nil_r; auto|exists (61%N :: v); auto]).
  assert (B : exists v, w = n' ++ v /\ (v = [] \/ hd 0%N v = 61%N)) by (destruct H' as [->|(v & ->)]; [exists []; rewrite app_nil_r; auto|exists (61%N :: v); auto]).
  destruct A as (v & A & V), B as (v' & B & V'). rewrite A in B. eapply X; [exact N0|exact N1|exact V|exact V'|exact B].
Qed.
Definition is_some {A} (x : option A) : bool := match x with Some _ => true | None => false end.
Inductive word_case (E : env) (tbl : table) (o : options) (w : str) : option mark -> Prop :=
| wc_plain : plain_word w -> word_case E tbl o w (Some Arg)
| wc_unknown : unknown o w -> word_case E tbl o w (if looks_negative E w then Some Arg else if cin cSP w then Some Arg else Some (Opt None w false None))
| wc_letter : forall c k sep e, c <> 45%N -> c <> 61%N -> find_str tbl [45%N; c] = Some k ->
    (sep = false /\ e = None /\ w = [45%N; c]) \/ (exists v, sep = true /\ e = Some v /\ w = 45%N :: c :: 61%N :: v) \/ (exists v, sep = false /\ e = Some v /\ w = 45%N :: c :: v /\ v <> [] /\ hd 0%N v <> 61%N) ->
    word_case E tbl o w (Some (Opt (Some k) [45%N; c] sep e))
| wc_name : forall n name k e, In (name, k) tbl -> In name (o_names o) -> short_for (o_names o) name n -> ~ In 61%N n ->
    (e = None /\ w = n) \/ (exists v, e = Some v /\ w = n ++ 61%N :: v) ->
    word_case E tbl o w (Some (Opt (Some k) name (is_some e) e))
| wc_doubt : forall n x y r1 r2, named_part w n -> firstn 2 n = lit "--" -> In x (o_names o) -> In y (o_names o) -> x <> y -> x = n ++ r1 -> y = n ++ r2 ->
    word_case E tbl o w None.
Lemma parse_cases {hp} E tbl o cs w : tbl_ok hp tbl o cs -> w <> lit "--" -> word_case E tbl o w (parse_optional E tbl w).
Proof.
  intros T Hw. destruct w as [|c0 s]; [apply wc_plain; right; discriminate|].
  unfold parse_optional. change cDASH with 45%N. destruct (N.eqb c0 45) eqn:E0; cbn [negb]; [apply N.eqb_eq in E0; subst c0|apply wc_plain; right; apply N.eqb_neq; exact E0].
  destruct s as [|c t].
  { assert (F : find_str tbl [45%N] = None) by (apply find_none; intros n k I ->; destruct (t_shape _ _ _ _ T _ _ I) as [(x & Z & _)|(x & Z & _)]; discriminate). rewrite F. apply wc_plain. left. reflexivity. }
  destruct (N.eq_dec c 45) as [->|Hc].
  - (* a name *)
    set (w := 45%N :: 45%N :: t) in *. pose proof (partition_split w) as P. destruct (partition_eq w) as (n & e) eqn:Pe.
    assert (NP : ~ In 61%N n /\ w = n ++ match e with Some v => 61%N :: v | None => [] end) by (destruct e; destruct P as (P & Q); (split; [exact Q|]); [exact P|rewrite app_nil_r; exact P]).
    destruct NP as (Nn & Ew). clear P.
    assert (Nd : exists n', n = 45%N :: 45%N :: n').
    { destruct n as [|a [|b n']]; [destruct e; discriminate Ew|destruct e; discriminate Ew|]. injection Ew as <- <- _. eexists. reflexivity. }
    destruct Nd as (n' & En).
    assert (NM : named_part w n) by (split; [exact Nn|]; destruct e as [v|]; [right; exists v; exact Ew|left; rewrite app_nil_r in Ew; exact Ew]).
    assert (Alt : (e = None /\ w = n) \/ (exists v, e = Some v /\ w = n ++ 61%N :: v)) by (destruct e as [v|]; [right; exists v; auto|left; rewrite app_nil_r in Ew; auto]).
    assert (Lg : forall nm k, In (nm, k) tbl -> startswith n nm = true -> In nm (o_names o)).
    { intros nm k I S. apply startswith_app in S as (r & ->). apply (t_names _ _ _ _ T). exists (n' ++ r), k. split; [rewrite En; reflexivity|exact I]. }
    assert (Full : forall k, find_str tbl n = Some k -> word_case E tbl o w (Some (Opt (Some k) n (is_some e) e))).
    { intros k F. apply find_str_in in F. assert (I : In n (o_names o)) by (apply (Lg n k F); apply startswith_app; exists []; symmetry; apply app_nil_r).
      apply (wc_name _ _ _ _ n n k e F I); [apply (t_self _ _ _ _ T _ I)|exact Nn|exact Alt]. }
    destruct (find_str tbl w) as [k|] eqn:Fw.
    { assert (n = w /\ e = None) as (Z & ->).
      { pose proof (find_str_in _ _ _ Fw) as I. destruct (t_shape _ _ _ _ T _ _ I) as [(x & Z & Q & _)|(t' & _ & N1)]; [unfold w in Z; injection Z as Z _; congruence|].
        destruct e as [v|]; [exfalso; apply N1; rewrite Ew; apply in_or_app; right; left; reflexivity|]. rewrite app_nil_r in Ew. auto. }
      rewrite <- Z in Fw. specialize (Full k Fw). rewrite Z in Full. exact Full. }
    assert (Tup : word_case E tbl o w (match option_tuples tbl w with [] => if looks_negative E w then Some Arg else if cin cSP w then Some Arg else Some (Opt None w false None) | [m] => Some m | _ :: _ :: _ => None end)).
    { assert (Eo : option_tuples tbl w = map (fun '(n0, k) => Opt (Some k) n0 (is_some e) e) (filter (fun '(n0, _) => startswith n n0) tbl)) by (unfold option_tuples, w; fold w; rewrite Pe; reflexivity).
      rewrite Eo. clear Eo. pose proof (t_nodup _ _ _ _ T) as ND.
      assert (In_f : forall nm k, In (nm, k) tbl -> startswith n nm = true -> In (nm, k) (filter (fun '(n0, _) => startswith n n0) tbl)) by (intros nm k I S; apply filter_In; split; assumption).
      assert (Out_f : forall nm k, In (nm, k) (filter (fun '(n0, _) => startswith n n0) tbl) -> In (nm, k) tbl /\ startswith n nm = true) by (intros nm k I; apply filter_In in I; exact I).
      assert (Of_name : forall x r, In x (o_names o) -> x = n ++ r -> exists k, In (x, k) (filter (fun '(n0, _) => startswith n n0) tbl)).
      { intros x r I ->. apply (t_names _ _ _ _ T) in I as (t' & k & _ & I). exists k. apply In_f; [exact I|]. apply startswith_app. exists r. reflexivity. }
      assert (NDf : NoDup (map fst (filter (fun '(n0, _) => startswith n n0) tbl))).
      { clear -ND. induction tbl as [|(x, k) l IH]; [constructor|]. cbn [map fst] in ND. inversion ND as [|? ? N0 N1]; subst. cbn [filter]. destruct (startswith n x); [|apply IH, N1].
        cbn [map fst]. constructor; [|apply IH, N1]. intros I. apply N0. apply in_map_iff in I as ((y, ky) & Z & I). apply filter_In in I as (I & _). cbn in Z. subst. apply in_map_iff. exists (x, ky). auto. }
      destruct (filter (fun '(n0, _) => startswith n n0) tbl) as [|(a, ka) [|(b, kb) l]]; cbn [map].
      - apply wc_unknown. right. split; [reflexivity|]. exists n. split; [exact NM|]. intros x r I Z. destruct (Of_name x r I Z) as (k & []).
      - destruct (Out_f a ka (or_introl eq_refl)) as (I & S). pose proof (Lg _ _ I S) as J. apply (wc_name _ _ _ _ n a ka e I J); [|exact Nn|exact Alt].
        apply startswith_app in S as (r & S). split; [exists r; exact S|]. split.
        + rewrite En. destruct n' as [|d n']; [|cbn; lia]. exfalso. destruct (t_two _ _ _ _ T) as (x & y & Ix & Iy & Nxy).
          assert (Q : forall z, In z (o_names o) -> z = a).
          { intros z Iz. destruct (t_names2 _ _ _ _ T z Iz) as (Z & _). destruct z as [|z1 [|z2 z]]; try discriminate. injection Z as -> ->. destruct (Of_name _ z Iz) as (k & [Z|[]]); [rewrite En; reflexivity|]. injection Z as <- _. reflexivity. }
          apply Nxy. rewrite (Q x Ix), (Q y Iy). reflexivity.
        + intros x r' Ix Z. destruct (Of_name x r' Ix Z) as (k & [Z'|[]]). injection Z' as <- _. reflexivity.
      - destruct (Out_f a ka (or_introl eq_refl)) as (I & S). destruct (Out_f b kb (or_intror (or_introl eq_refl))) as (I' & S').
        pose proof (Lg _ _ I S) as J. pose proof (Lg _ _ I' S') as J'. apply startswith_app in S as (r & S). apply startswith_app in S' as (r' & S').
        apply (wc_doubt _ _ _ _ n a b r r' NM); try assumption; [rewrite En; reflexivity|]. cbn [map fst] in NDf. inversion NDf as [|? ? N0 _]; subst. intros Z. apply N0. left. symmetry. exact Z. }
    unfold w at 1. cbv iota. fold w. destruct e as [v|]; [|exact Tup]. destruct (find_str tbl n) as [k|] eqn:Fn; [exact (Full k eq_refl)|exact Tup].
  - (* letters *)
    destruct (in_dec N.eq_dec c (o_letters o)) as [Ic|Ic].
    + pose proof Ic as Jc. apply (t_letters _ _ _ _ T) in Jc as (k & Jc). pose proof (t_own _ _ _ _ T _ _ Jc) as F. destruct (t_shape _ _ _ _ T _ _ Jc) as [(x & Z & Hx1 & Hx2)|(t' & Z & _)]; [injection Z as <-|congruence].
      destruct t as [|d t].
      { rewrite F. apply (wc_letter _ _ _ _ c k false None); auto. }
      destruct (t_tuples _ _ _ _ T c d t Hc Ic) as (k' & F' & O). rewrite F in F'. injection F' as <-.
      assert (Fn : forall x u, find_str tbl (45%N :: c :: x :: u) = None).
      { intros x u. apply find_none. intros nm k' I ->. destruct (t_shape _ _ _ _ T _ _ I) as [(y & Z & _)|(y & Z & _)]; [discriminate|congruence]. }
      rewrite Fn, O. destruct (N.eq_dec d 61) as [->|Hd].
      * assert (Pe : partition_eq (45%N :: c :: 61%N :: t) = ([45%N; c], Some t)) by (cbn [partition_eq N.eqb Pos.eqb]; rewrite (proj2 (N.eqb_neq c 61) Hx2); reflexivity).
        rewrite Pe, F. apply (wc_letter _ _ _ _ c k true (Some t)); try assumption. right. left. eauto.
      * destruct (partition_behind c d t) as (a & e & ->); [apply N.eqb_neq; assumption|apply N.eqb_neq; assumption|]. rewrite Fn.
        assert (Q : word_case E tbl o (45%N :: c :: d :: t) (Some (Opt (Some k) [45%N; c] false (Some (d :: t))))).
        { apply (wc_letter _ _ _ _ c k false (Some (d :: t))); try assumption. right. right. exists (d :: t). repeat split; try discriminate. exact Hd. }
        destruct e; exact Q.
    + assert (Fn : forall u, find_str tbl (45%N :: c :: u) = None).
      { intros u. apply find_none. intros nm k' I ->. destruct (t_shape _ _ _ _ T _ _ I) as [(y & Z & _)|(y & Z & _)]; [|congruence]. injection Z as -> ->. apply Ic, (t_letters _ _ _ _ T). exists k'. exact I. }
      assert (O : option_tuples tbl (45%N :: c :: t) = []).
      { unfold option_tuples. change cDASH with 45%N. rewrite (proj2 (N.eqb_neq c 45) Hc). apply flat_map_none. intros (nm, k) I.
        assert (N1 : nm <> [45%N; c]) by (intros ->; apply Ic, (t_letters _ _ _ _ T); exists k; exact I). rewrite (proj2 (seqb_neq _ _) N1).
        replace (startswith _ nm) with false; [reflexivity|]. symmetry. apply not_true_is_false. rewrite startswith_app. intros (r & ->).
        destruct (t_shape _ _ _ _ T _ _ I) as [(y & Z & _)|(y & Z & _)]; [|cbn in Z; congruence]. cbn in Z. injection Z as -> Z. apply N1. cbn. rewrite Z. reflexivity. }
      assert (U : unknown o (45%N :: c :: t)) by (left; exists c, t; auto).
      rewrite Fn, O. pose proof (partition_split (45%N :: c :: t)) as P. destruct (partition_eq (45%N :: c :: t)) as (a & [e|]); [|apply wc_unknown; exact U].
      destruct P as (P & _). replace (find_str tbl a) with (@None key); [apply wc_unknown; exact U|]. symmetry. destruct a as [|a1 [|a2 a]].
      * discriminate P.
      * apply find_none. intros nm k I ->. destruct (t_shape _ _ _ _ T _ _ I) as [(y & Z & _)|(y & Z & _)]; discriminate.
      * injection P as <- <- _. apply Fn.
Qed.

(** *** Arguments *)
Section Table.
  Context {hp : key -> Prop} (E : env) (tbl : table) (o : options) (cs : list choice) (T : tbl_ok hp tbl o cs) (Hd : digit_ascii E).
  Lemma plain_parse w : plain_word w -> w <> lit "--" /\ parse_optional E tbl w = Some Arg.
  Proof.
    intros P. split; [destruct P as [->|P]; [discriminate|intros ->; cbn in P; congruence]|]. destruct w as [|c w]; [reflexivity|]. unfold parse_optional. change cDASH with 45%N.
    destruct P as [P|P]; [|cbn in P; apply N.eqb_neq in P; rewrite P; reflexivity]. injection P as -> ->. cbn [N.eqb Pos.eqb negb].
    rewrite find_none; [reflexivity|]. intros n k I ->. destruct (t_shape _ _ _ _ T _ _ I) as [(x & Z & _)|(x & Z & _)]; discriminate.
  Qed.
  Lemma names_cover n : firstn 2 n = lit "--" -> length n = 2 -> exists x r, In x (o_names o) /\ x = n ++ r.
  Proof.
    intros H L. destruct (t_two _ _ _ _ T) as (x & _ & I & _). destruct (t_names2 _ _ _ _ T x I) as (H' & _). exists x, (skipn 2 x). split; [exact I|].
    rewrite <- (firstn_skipn 2 x) at 1. rewrite H', <- H, <- L, firstn_all. reflexivity.
  Qed.
  Lemma unknown_dashes : ~ unknown o (lit "--").
  Proof.
    intros [(c & t & Z & N0 & _)|(_ & n & (N0 & [Z|(v & Z)]) & H)].
    - injection Z as Z _. congruence.
    - subst n. destruct (names_cover (lit "--")) as (x & r & I & Ex); [reflexivity|reflexivity|]. exact (H x r I Ex).
    - destruct n as [|a [|b [|]]]; discriminate.
  Qed.
  Lemma unknown_parse w : unknown o w -> w <> lit "--" /\ parse_optional E tbl w = if looks_negative E w then Some Arg else if cin cSP w then Some Arg else Some (Opt None w false None).
  Proof.
    intros U. assert (Hw : w <> lit "--") by (intros ->; exact (unknown_dashes U)). split; [exact Hw|].
    pose proof (parse_cases E tbl o cs w T Hw) as C. destruct C as [P| |c k sep e N0 N1 F Z|n name k e I J S N0 Z|n x y r1 r2 NP H2 Ix _ _ Ex _].
    - exfalso. destruct U as [(c & t & -> & _)|(H & _)]; destruct P as [P|P]; try discriminate; [cbn in P; congruence|subst; discriminate|destruct w as [|a [|b w]]; try discriminate; injection H as -> ->; cbn in P; congruence].
    - reflexivity.
    - exfalso. assert (W : exists u, w = 45%N :: c :: u) by (destruct Z as [(_ & _ & ->)|[(v & _ & _ & ->)|(v & _ & _ & -> & _)]]; eexists; reflexivity). destruct W as (u & ->).
      destruct U as [(c' & t & Z' & _ & H)|(H & _)]; [|injection H as H; congruence]. injection Z' as -> _. apply H, (t_letters _ _ _ _ T). exists k. apply find_str_in. exact F.
    - exfalso. assert (NP : named_part w n) by (split; [exact N0|destruct Z as [(_ & ->)|(v & _ & ->)]; eauto]). destruct S as ((r & Er) & L & _).
      assert (W : exists u, w = 45%N :: 45%N :: u).
      { destruct (t_names2 _ _ _ _ T name J) as (H & _). destruct n as [|a [|b n]]; [cbn in L; lia|cbn in L; lia|]. rewrite Er in H. injection H as -> ->. destruct Z as [(_ & ->)|(v & _ & ->)]; eexists; reflexivity. }
      destruct W as (u & ->). destruct U as [(c' & t & Z' & H & _)|(_ & n' & NP' & H)]; [injection Z' as <- _; congruence|].
      rewrite (named_unique _ _ _ NP' NP) in H. exact (H name r J Er).
    - exfalso. destruct U as [(c' & t & -> & H & _)|(_ & n' & NP' & H)].
      + destruct NP as (N0 & NP). destruct n as [|a [|b n]]; try discriminate. injection H2 as -> ->. destruct NP as [NP|(v & NP)]; injection NP as -> _; congruence.
      + rewrite (named_unique _ _ _ NP' NP) in H. exact (H x r1 Ix Ex).
  Qed.
  Lemma argument_iff w : w <> lit "--" -> parse_optional E tbl w = Some Arg <-> argument o (e_digit E) w.
  Proof.
    intros Hw. split.
    - pose proof (parse_cases E tbl o cs w T Hw) as C. intros Z. rewrite Z in C. inversion C as [P|U Y| | |]; subst; [left; exact P|]. right. split; [exact U|].
      destruct (looks_negative E w) eqn:L; [left; apply negative_iff; assumption|]. destruct (cin cSP w) eqn:S; [right; apply cin_In, S|discriminate].
    - intros [P|(U & H)]; [apply plain_parse, P|]. destruct (unknown_parse w U) as (_ & ->). destruct (looks_negative E w) eqn:L; [reflexivity|]. destruct H as [H|H]; [apply negative_iff in H; [congruence|exact Hd]|].
      assert (S : cin cSP w = true) by (apply cin_In; exact H). rewrite S. reflexivity.
  Qed.
  Lemma argument_parse w : argument o (e_digit E) w -> w <> lit "--" /\ parse_optional E tbl w = Some Arg.
  Proof.
    intros A. assert (Hw : w <> lit "--") by (destruct A as [P|(U & _)]; [apply plain_parse, P|apply unknown_parse, U]). split; [exact Hw|]. apply argument_iff; assumption.
  Qed.

  (** *** The letters behind one dash *)
  Definition no_help (l : list (key * option str)) : Prop := Forall (fun x => ~ hp (fst x)) l.
  Definition tail_ok (next : option str) (tail : str) (lasts : list (choice * option str)) (took : bool) : Prop :=
    (tail = [] /\ lasts = [] /\ took = false)
    \/ exists d, In d cs /\ ch_takes d <> Nothing /\
       ((exists v, tail = ch_letter d :: v /\ v <> [] /\ hd 0%N v <> 61%N /\ lasts = [(d, Some v)] /\ took = false)
        \/ (exists v, tail = ch_letter d :: 61%N :: v /\ lasts = [(d, Some v)] /\ took = false)
        \/ (exists v, tail = [ch_letter d] /\ next = Some v /\ lasts = [(d, Some v)] /\ took = true)
        \/ (tail = [ch_letter d] /\ next = None /\ ch_takes d = MaybeValue /\ lasts = [(d, None)] /\ took = false)).
  Lemma kind_flag c : In c cs -> kind_of (key_of c) = Flag <-> ch_takes c = Nothing.
  Proof. intros I. rewrite (t_kind _ _ _ _ T c I). destruct (ch_takes c); split; congruence. Qed.
  Lemma letter_of x k : find_str tbl [45%N; x] = Some k -> hp k \/ exists d, In d cs /\ key_of d = k /\ ch_letter d = x.
  Proof.
    intros F. pose proof (find_str_in _ _ _ F) as I. destruct (t_in _ _ _ _ T _ _ I) as [H|(c & Ic & Kc & [Z|Z])]; [left; exact H|right; exists c; injection Z as ->; auto|].
    exfalso. destruct (t_names2 _ _ _ _ T _ (t_cs _ _ _ _ T c Ic)) as (_ & H). rewrite <- Z in H. cbn in H. lia.
  Qed.
  Lemma cluster_heads k sep e next l took : cluster tbl k sep e next = Got (l, false, took) -> exists v l', l = (k, v) :: l'.
  Proof.
    destruct e as [|x t]; cbn [cluster]; destruct (kind_of k); try discriminate; try (intros Z; injection Z as <- _ ; do 2 eexists; reflexivity).
    destruct (sep || N.eqb x cDASH); [discriminate|]. destruct (find_str _ _) as [k'|]; [|discriminate]. unfold before.
    destruct t as [|y t2]; [|destruct (N.eqb y 61)].
    all: match goal with |- then_ ?g _ = _ -> _ => destruct g as [((l1 & y1) & t1)| |]; try discriminate end; cbn [then_]; intros Z; injection Z as <- _ _; do 2 eexists; reflexivity.
  Qed.
  Lemma cluster_value k sep e next : kind_of k <> Flag -> cluster tbl k sep e next = Got ([(k, Some e)], false, false).
  Proof. intros H. destruct e; cbn [cluster]; destruct (kind_of k); congruence. Qed.
  Lemma cluster_fwd next : forall n e c l took, length e <= n -> In c cs -> ch_takes c = Nothing -> no_help l ->
    cluster tbl (key_of c) false e next = Got (l, false, took) ->
    exists ss tail lasts, e = map ch_letter ss ++ tail /\ flags cs ss /\ (ss <> [] \/ tail <> []) /\ l = map keyed (set (c :: ss) ++ lasts) /\ tail_ok next tail lasts took.
  Proof.
    induction n as [|n IH]; intros e c l took Hn Ic Hc Hl H; pose proof (proj2 (kind_flag c Ic) Hc) as Kc.
    { destruct e; [|cbn in Hn; lia]. cbn [cluster] in H. rewrite Kc in H. discriminate. }
    destruct e as [|x t]; cbn [cluster] in H; rewrite Kc in H; [discriminate|]. cbn [length] in Hn. cbn [orb] in H. change cDASH with 45%N in H. destruct (N.eqb x 45) eqn:Ex; [discriminate|].
    destruct (find_str tbl [45%N; x]) as [k'|] eqn:F; [|discriminate].
    assert (Hh : exists d, In d cs /\ key_of d = k' /\ ch_letter d = x).
    { destruct (letter_of x k' F) as [Hk|R]; [exfalso|exact R].
      assert (Q : exists v l', l = (key_of c, None) :: (k', v) :: l').
      { unfold before in H. destruct t as [|y t2]; [|destruct (N.eqb y 61)].
        - unfold no_explicit in H. destruct (kind_of k'); [|destruct next|destruct next]; try discriminate; cbn [then_] in H; injection H as <- _ ; do 2 eexists; reflexivity.
        - destruct (cluster tbl k' true t2 next) as [((l1 & y1) & t1)| |] eqn:C; try discriminate. cbn [then_] in H. injection H as <- -> _. apply cluster_heads in C as (v & l' & ->). do 2 eexists. reflexivity.
        - destruct (cluster tbl k' false (y :: t2) next) as [((l1 & y1) & t1)| |] eqn:C; try discriminate. cbn [then_] in H. injection H as <- -> _. apply cluster_heads in C as (v & l' & ->). do 2 eexists. reflexivity. }
      destruct Q as (v & l' & ->). inversion Hl as [|? ? _ Hl2]; subst. inversion Hl2 as [|? ? Q _]; subst. apply Q, Hk. }
    destruct Hh as (d & Id & Kd & Ld). subst x. unfold before in H. destruct t as [|y t2]; [|destruct (N.eqb y 61) eqn:Ey].
    - unfold no_explicit in H. rewrite <- Kd, (t_kind _ _ _ _ T d Id) in H. destruct (ch_takes d) eqn:Td.
      + cbn [then_] in H. injection H as <- <-. exists [d], [], []. split; [reflexivity|]. split; [constructor; [split; assumption|constructor]|]. split; [left; discriminate|]. split; [reflexivity|]. left. auto.
      + destruct next as [v|]; [|discriminate]. cbn [then_] in H. injection H as <- <-. exists [], [ch_letter d], [(d, Some v)]. split; [reflexivity|]. split; [constructor|]. split; [right; discriminate|]. split; [reflexivity|].
        right. exists d. split; [exact Id|]. split; [congruence|]. right. right. left. eauto.
      + destruct next as [v|]; cbn [then_] in H; injection H as <- <-; eexists [], [ch_letter d], [(d, _)]; (split; [reflexivity|]); (split; [constructor|]); (split; [right; discriminate|]); (split; [reflexivity|]);
          right; exists d; (split; [exact Id|]); (split; [congruence|]); right; right; [left; eauto|right; auto].
    - apply N.eqb_eq in Ey. subst y. destruct (ch_takes d) eqn:Td.
      + rewrite cluster_sep in H by (rewrite <- Kd; apply kind_flag; assumption). discriminate.
      + rewrite cluster_value in H by (rewrite <- Kd, (kind_flag d Id); congruence). cbn [then_] in H. injection H as <- <-. rewrite <- Kd.
        exists [], (ch_letter d :: 61%N :: t2), [(d, Some t2)]. split; [reflexivity|]. split; [constructor|]. split; [right; discriminate|]. split; [reflexivity|].
        right. exists d. split; [exact Id|]. split; [congruence|]. right. left. eauto.
      + rewrite cluster_value in H by (rewrite <- Kd, (kind_flag d Id); congruence). cbn [then_] in H. injection H as <- <-. rewrite <- Kd.
        exists [], (ch_letter d :: 61%N :: t2), [(d, Some t2)]. split; [reflexivity|]. split; [constructor|]. split; [right; discriminate|]. split; [reflexivity|].
        right. exists d. split; [exact Id|]. split; [congruence|]. right. left. eauto.
    - apply N.eqb_neq in Ey. destruct (ch_takes d) eqn:Td.
      + destruct (cluster tbl k' false (y :: t2) next) as [((l1 & y1) & t1)| |] eqn:C; try discriminate. cbn [then_] in H. injection H as <- -> ->. rewrite <- Kd in C.
        inversion Hl as [|? ? _ Hl2]; subst. apply IH in C; [|lia|assumption|assumption|assumption]. destruct C as (ss & tail & lasts & He & Fs & Nn & -> & Ht).
        exists (d :: ss), tail, lasts. split; [cbn; f_equal; exact He|]. split; [constructor; [split; assumption|exact Fs]|]. split; [left; discriminate|]. split; [reflexivity|exact Ht].
      + rewrite cluster_value in H by (rewrite <- Kd, (kind_flag d Id); congruence). cbn [then_] in H. injection H as <- <-. rewrite <- Kd.
        exists [], (ch_letter d :: y :: t2), [(d, Some (y :: t2))]. split; [reflexivity|]. split; [constructor|]. split; [right; discriminate|]. split; [reflexivity|].
        right. exists d. split; [exact Id|]. split; [congruence|]. left. exists (y :: t2). repeat split; try discriminate. exact Ey.
      + rewrite cluster_value in H by (rewrite <- Kd, (kind_flag d Id); congruence). cbn [then_] in H. injection H as <- <-. rewrite <- Kd.
        exists [], (ch_letter d :: y :: t2), [(d, Some (y :: t2))]. split; [reflexivity|]. split; [constructor|]. split; [right; discriminate|]. split; [reflexivity|].
        right. exists d. split; [exact Id|]. split; [congruence|]. left. exists (y :: t2). repeat split; try discriminate. exact Ey.
  Qed.
  Lemma cluster_bwd next tail lasts took : tail_ok next tail lasts took -> forall ss c, flags cs ss -> In c cs -> ch_takes c = Nothing -> ss <> [] \/ tail <> [] ->
    cluster tbl (key_of c) false (map ch_letter ss ++ tail) next = Got (map keyed (set (c :: ss) ++ lasts), false, took).
  Proof.
    intros Ht. induction ss as [|s ss IH]; intros c Fs Ic Hc Nn; pose proof (proj2 (kind_flag c Ic) Hc) as Kc.
    - destruct Nn as [Nn|Nn]; [congruence|]. cbn [map app]. destruct Ht as [(-> & _)|(d & Id & Td & Ht)]; [congruence|].
      destruct (t_short _ _ _ _ T d Id) as (F & N0 & N1). pose proof (t_kind _ _ _ _ T d Id) as Kd.
      assert (NF : kind_of (key_of d) <> Flag) by (rewrite (kind_flag d Id); exact Td).
      assert (St : forall u, cluster tbl (key_of c) false (ch_letter d :: u) next =
         match u with [] => before (key_of c) (no_explicit (key_of d) next) | y :: t2 => if N.eqb y 61 then before (key_of c) (cluster tbl (key_of d) true t2 next) else before (key_of c) (cluster tbl (key_of d) false u next) end).
      { intros u. cbn [cluster]. rewrite Kc. cbn [orb]. change cDASH with 45%N. rewrite (proj2 (N.eqb_neq _ _) N0), F. reflexivity. }
      destruct Ht as [(v & -> & Nv & Hv & -> & ->)|[(v & -> & -> & ->)|[(v & -> & -> & -> & ->)|(-> & -> & Tm & -> & ->)]]]; rewrite St.
      + destruct v as [|y v]; [congruence|]. cbn in Hv. rewrite (proj2 (N.eqb_neq _ _) Hv), cluster_value by exact NF. reflexivity.
      + cbn [N.eqb Pos.eqb]. rewrite cluster_value by exact NF. reflexivity.
      + unfold no_explicit. rewrite Kd. destruct (ch_takes d); [congruence|reflexivity|reflexivity].
      + unfold no_explicit. rewrite Kd, Tm. reflexivity.
    - inversion Fs as [|? ? (Is & Hs) Fs2]; subst. destruct (t_short _ _ _ _ T s Is) as (F & N0 & N1). cbn [map app cluster]. rewrite Kc. cbn [orb]. change cDASH with 45%N. rewrite (proj2 (N.eqb_neq _ _) N0), F.
      assert (Hu : (ss = [] /\ tail = []) \/ (ss <> [] \/ tail <> [])) by (destruct ss; [destruct tail; [left; auto|right; right; discriminate]|right; left; discriminate]).
      destruct Hu as [(-> & ->)|Hu].
      + cbn [map app]. destruct Ht as [(_ & -> & ->)|(d & _ & _ & [(v & Z & _)|[(v & Z & _)|[(v & Z & _)|(Z & _)]]])]; try discriminate.
        unfold no_explicit. rewrite (proj2 (kind_flag s Is) Hs). reflexivity.
      + specialize (IH s Fs2 Is Hs Hu). destruct (map ch_letter ss ++ tail) as [|y t2] eqn:Em.
        { destruct ss; [destruct tail; [destruct Hu; congruence|discriminate]|discriminate]. }
        assert (Ny : y <> 61%N).
        { destruct ss as [|s2 ss]; cbn in Em; [|injection Em as <- _; inversion Fs2 as [|? ? (I2 & _) _]; subst; apply (t_short _ _ _ _ T s2 I2)]. subst tail.
          destruct Ht as [(Z & _)|(d & Id & _ & [(v & Z & _)|[(v & Z & _)|[(v & Z & _)|(Z & _)]]])]; try discriminate; injection Z as -> _; apply (t_short _ _ _ _ T d Id). }
        rewrite (proj2 (N.eqb_neq _ _) Ny), IH. reflexivity.
  Qed.

  (** *** One group *)
  Lemma consume_letter k c sep v next : c <> 45%N -> consume_optional tbl (Some k) [45%N; c] sep (Some v) next = cluster tbl k sep v next.
  Proof. intros H. unfold consume_optional. change cDASH with 45%N. rewrite (proj2 (N.eqb_neq _ _) H). destruct (kind_of k); reflexivity. Qed.
  Lemma consume_heads k nm sep ex next l took : consume_optional tbl (Some k) nm sep ex next = Got (l, false, took) -> exists v l', l = (k, v) :: l'.
  Proof.
    unfold consume_optional. destruct ex as [e|].
    - intros H. apply (cluster_heads k sep e next l took). destruct (kind_of k); try exact H. destruct nm as [|a [|b nm]]; try exact H. destruct (N.eqb b cDASH); [discriminate|exact H].
    - unfold no_explicit. destruct (kind_of k); [|destruct next|destruct next]; try discriminate; intros Z; injection Z as <- _; do 2 eexists; reflexivity.
  Qed.
  Lemma tail_group next ss tail lasts took : (forall v, next = Some v -> argument o (e_digit E) v) -> flags cs ss -> ss <> [] \/ tail <> [] -> tail_ok next tail lasts took ->
    (took = true /\ exists v, next = Some v /\ group o cs (e_digit E) [45%N :: map ch_letter ss ++ tail; v] (set ss ++ lasts) false)
    \/ (took = false /\ exists b, group o cs (e_digit E) [45%N :: map ch_letter ss ++ tail] (set ss ++ lasts) b /\ (b = true -> next = None)).
  Proof.
    intros Hn Fs Nn Ht. destruct Ht as [(-> & -> & ->)|(d & Id & Td & [(v & -> & Nv & Hv & -> & ->)|[(v & -> & -> & ->)|[(v & -> & Nx & -> & ->)|(-> & Nx & Tm & -> & ->)]]])].
    - right. split; [reflexivity|]. exists false. rewrite !app_nil_r. split; [|discriminate]. apply g_letters; [exact Fs|]. destruct Nn; congruence.
    - right. split; [reflexivity|]. exists false. split; [|discriminate]. apply g_joined; try assumption. split; assumption.
    - right. split; [reflexivity|]. exists false. split; [|discriminate]. apply g_equals; try assumption. split; assumption.
    - left. split; [reflexivity|]. exists v. split; [exact Nx|]. apply g_next; [exact Fs|split; assumption|apply Hn, Nx].
    - right. split; [reflexivity|]. exists true. split; [|intros _; exact Nx]. apply g_bare; assumption.
  Qed.
  Lemma step_fwd w ask nm sep ex next l took : w <> lit "--" -> parse_optional E tbl w = Some (Opt ask nm sep ex) ->
    consume_optional tbl ask nm sep ex next = Got (l, false, took) -> no_help l -> (forall v, next = Some v -> argument o (e_digit E) v) ->
    exists acts, l = map keyed acts /\
      ((took = true /\ exists v, next = Some v /\ group o cs (e_digit E) [w; v] acts false)
       \/ (took = false /\ exists b, group o cs (e_digit E) [w] acts b /\ (b = true -> next = None))).
  Proof.
    intros Hw P C Hl Hn. pose proof (parse_cases E tbl o cs w T Hw) as W. rewrite P in W.
    assert (NH : forall k, ask = Some k -> ~ hp k).
    { intros k ->. apply consume_heads in C as (v & l' & ->). inversion Hl; subst; assumption. }
    inversion W as [|U Z|c k sep' e' N0 N1 F Z Z1|n name k e I J S N0 Z Z1|]; subst.
    - destruct (looks_negative E w); [discriminate|]. destruct (cin cSP w); [discriminate|]. injection Z as <- <- <- <-. discriminate.
    - destruct (letter_of c k F) as [Hk|(d & Id & Kd & Ld)]; [exfalso; exact (NH k eq_refl Hk)|]. subst c k.
      destruct Z as [(-> & -> & ->)|[(v & -> & -> & ->)|(v & -> & -> & -> & Nv & Hv)]].
      + unfold consume_optional, no_explicit in C. rewrite (t_kind _ _ _ _ T d Id) in C. destruct (ch_takes d) eqn:Td.
        * injection C as <- <-. exists (set [d] ++ []). split; [reflexivity|]. apply (tail_group next [d] [] [] false Hn); [constructor; [split; assumption|constructor]|left; discriminate|left; auto].
        * destruct next as [v|]; [|discriminate]. injection C as <- <-. exists (set [] ++ [(d, Some v)]). split; [reflexivity|].
          apply (tail_group (Some v) [] [ch_letter d] _ true Hn); [constructor|right; discriminate|]. right. exists d. split; [exact Id|]. split; [congruence|]. right. right. left. eauto.
        * destruct next as [v|]; injection C as <- <-.
          -- exists (set [] ++ [(d, Some v)]). split; [reflexivity|].
             apply (tail_group (Some v) [] [ch_letter d] _ true Hn); [constructor|right; discriminate|]. right. exists d. split; [exact Id|]. split; [congruence|]. right. right. left. eauto.
          -- exists (set [] ++ [(d, None)]). split; [reflexivity|].
             apply (tail_group None [] [ch_letter d] _ false Hn); [constructor|right; discriminate|]. right. exists d. split; [exact Id|]. split; [congruence|]. right. right. right. auto.
      + rewrite consume_letter in C by exact N0. destruct (ch_takes d) eqn:Td; [rewrite cluster_sep in C by (apply kind_flag; assumption); discriminate| |].
        all: rewrite cluster_value in C by (rewrite (kind_flag d Id); congruence); injection C as <- <-; exists (set [] ++ [(d, Some v)]); (split; [reflexivity|]);
          apply (tail_group next [] (ch_letter d :: 61%N :: v) _ false Hn); [constructor|right; discriminate|]; right; exists d; (split; [exact Id|]); (split; [congruence|]); right; left; eauto.
      + rewrite consume_letter in C by exact N0. destruct (ch_takes d) eqn:Td.
        * apply (cluster_fwd next _ v d l took (le_n _) Id Td Hl) in C. destruct C as (ss & tail & lasts & -> & Fs & Nn & -> & Ht).
          exists (set (d :: ss) ++ lasts). split; [reflexivity|]. change (ch_letter d :: map ch_letter ss ++ tail) with (map ch_letter (d :: ss) ++ tail).
          apply (tail_group next (d :: ss) tail lasts took Hn); [constructor; [split; assumption|exact Fs]|left; discriminate|exact Ht].
        * rewrite cluster_value in C by (rewrite (kind_flag d Id); congruence). injection C as <- <-. exists (set [] ++ [(d, Some v)]). split; [reflexivity|].
          apply (tail_group next [] (ch_letter d :: v) _ false Hn); [constructor|right; discriminate|]. right. exists d. split; [exact Id|]. split; [congruence|]. left. exists v. repeat split; assumption.
        * rewrite cluster_value in C by (rewrite (kind_flag d Id); congruence). injection C as <- <-. exists (set [] ++ [(d, Some v)]). split; [reflexivity|].
          apply (tail_group next [] (ch_letter d :: v) _ false Hn); [constructor|right; discriminate|]. right. exists d. split; [exact Id|]. split; [congruence|]. left. exists v. repeat split; assumption.
    - destruct (t_in _ _ _ _ T _ _ I) as [Hk|(d & Id & Kd & [Q|Q])]; [exfalso; exact (NH k eq_refl Hk)| |].
      { exfalso. destruct (t_names2 _ _ _ _ T _ J) as (_ & L). rewrite Q in L. cbn in L. lia. }
      subst k nm. destruct Z as [(-> & ->)|(v & -> & ->)].
      + cbn [consume_optional] in C. unfold no_explicit in C. rewrite (t_kind _ _ _ _ T d Id) in C. destruct (ch_takes d) eqn:Td.
        * injection C as <- <-. exists [(d, None)]. split; [reflexivity|]. right. split; [reflexivity|]. exists false. split; [apply g_name; assumption|discriminate].
        * destruct next as [v|]; [|discriminate]. injection C as <- <-. exists [(d, Some v)]. split; [reflexivity|]. left. split; [reflexivity|]. exists v. split; [reflexivity|].
          apply g_name_next; [split; [assumption|congruence]|assumption|apply Hn; reflexivity].
        * destruct next as [v|]; injection C as <- <-.
          -- exists [(d, Some v)]. split; [reflexivity|]. left. split; [reflexivity|]. exists v. split; [reflexivity|]. apply g_name_next; [split; [assumption|congruence]|assumption|apply Hn; reflexivity].
          -- exists [(d, None)]. split; [reflexivity|]. right. split; [reflexivity|]. exists true. split; [apply g_name_bare; assumption|reflexivity].
      + assert (Nm : exists u, ch_name d = 45%N :: 45%N :: u).
        { destruct (t_names2 _ _ _ _ T _ J) as (H & _). destruct (ch_name d) as [|a [|b u]]; try discriminate. injection H as -> ->. eexists. reflexivity. }
        destruct Nm as (u & Nm). cbn [consume_optional] in C. rewrite Nm in C. change cDASH with 45%N in C. cbn [N.eqb Pos.eqb] in C. pose proof (kind_flag d Id) as KF.
        destruct (ch_takes d) eqn:Td; [rewrite (proj2 KF eq_refl) in C; discriminate| |].
        all: assert (NK : kind_of (key_of d) <> Flag) by (rewrite KF; discriminate).
        all: destruct (kind_of (key_of d)) eqn:Kk; [congruence| |]; rewrite cluster_value in C by congruence; injection C as <- <-.
        all: exists [(d, Some v)]; (split; [reflexivity|]); right; (split; [reflexivity|]); exists false; (split; [apply g_name_equals; [split; [assumption|congruence]|assumption]|discriminate]).
  Qed.
  Lemma letters_do s ss tail : flags cs (s :: ss) -> hd 0%N tail <> 61%N -> exists e, parse_optional E tbl (45%N :: map ch_letter (s :: ss) ++ tail) = Some (Opt (Some (key_of s)) [45%N; ch_letter s] false e)
    /\ forall next lasts took, tail_ok next tail lasts took -> consume_optional tbl (Some (key_of s)) [45%N; ch_letter s] false e next = Got (map keyed (set (s :: ss) ++ lasts), false, took).
  Proof.
    intros Fs Ht. inversion Fs as [|? ? (Is & Ts) Fs2]; subst. destruct (t_letter _ _ _ _ T E s Is) as (L1 & L2). destruct (t_short _ _ _ _ T s Is) as (_ & N0 & N1).
    destruct (map ch_letter ss ++ tail) as [|x u] eqn:Em.
    - apply app_eq_nil in Em as (Em & ->). destruct ss; [|discriminate]. exists None. split; [exact L1|]. intros next lasts took [(_ & -> & ->)|(d & _ & _ & [(v & Z & _)|[(v & Z & _)|[(v & Z & _)|(Z & _)]]])]; try discriminate.
      cbn [consume_optional]. unfold no_explicit. rewrite (proj2 (kind_flag s Is) Ts). reflexivity.
    - exists (Some (x :: u)). cbn [map app]. rewrite Em. split.
      + apply L2; [discriminate|]. cbn. destruct ss as [|s2 ss]; cbn in Em; [subst tail; exact Ht|]. injection Em as <- _. inversion Fs2 as [|? ? (I2 & _) _]; subst. apply (t_short _ _ _ _ T s2 I2).
      + intros next lasts took Hk. rewrite consume_letter by exact N0. rewrite <- Em. apply cluster_bwd; [exact Hk|exact Fs2|exact Is|exact Ts|].
        destruct ss; [right; intros ->; discriminate|left; discriminate].
  Qed.
  Lemma not_dashes_letters s ss tail : flags cs (s :: ss) -> 45%N :: map ch_letter (s :: ss) ++ tail <> lit "--".
  Proof. intros Fs Z. inversion Fs as [|? ? (Is & Ts) Fs2]; subst. injection Z as Z _. destruct (t_short _ _ _ _ T s Is) as (_ & N0 & _). congruence. Qed.
  Lemma step_bwd ws acts b : group o cs (e_digit E) ws acts b -> exists ms, marked E tbl ws ms /\ yields tbl ms (map keyed acts) b.
  Proof.
    assert (Vl : forall d nm sep v next, In d cs -> ch_takes d <> Nothing -> consume_optional tbl (Some (key_of d)) nm sep (Some v) next = Got (map keyed [(d, Some v)], false, false)).
    { intros d nm sep v next Id Td. pose proof (kind_flag d Id) as KF. unfold consume_optional. destruct (kind_of (key_of d)) eqn:K; [tauto| |]; rewrite cluster_value by congruence; reflexivity. }
    assert (Nx : forall d nm v, In d cs -> ch_takes d <> Nothing -> consume_optional tbl (Some (key_of d)) nm false None (Some v) = Got (map keyed [(d, Some v)], false, true)).
    { intros d nm v Id Td. cbn [consume_optional]. unfold no_explicit. rewrite (t_kind _ _ _ _ T d Id). destruct (ch_takes d); [congruence|reflexivity|reflexivity]. }
    assert (Br : forall d nm, In d cs -> ch_takes d = MaybeValue -> consume_optional tbl (Some (key_of d)) nm false None None = Got (map keyed [(d, None)], false, false)).
    { intros d nm Id Td. cbn [consume_optional]. unfold no_explicit. rewrite (t_kind _ _ _ _ T d Id), Td. reflexivity. }
    assert (Ltr : forall d, In d cs -> ch_letter d <> 45%N /\ ch_letter d <> 61%N) by (intros d Id; apply (t_short _ _ _ _ T d Id)).
    intros G. destruct G as [ss Fs Nn|ss c v Fs (Ic & Tc) Nv Hv|ss c v Fs (Ic & Tc)|ss c v Fs (Ic & Tc) A|ss c Fs Ic Tc|c w Ic Tc S|c w v (Ic & Tc) S|c w v (Ic & Tc) S A|c w Ic Tc S].
    - destruct ss as [|s ss]; [congruence|]. destruct (letters_do s ss [] Fs) as (e & P & C); [discriminate|]. rewrite app_nil_r in P. eexists [(_, _)]. split.
      + constructor; [|constructor]. split; [reflexivity|]. split; [rewrite <- (app_nil_r (map _ _)); apply not_dashes_letters, Fs|exact P].
      + do 6 eexists. split; [reflexivity|]. intros rest _. exists false. split; [|right; split; reflexivity]. rewrite (C _ [] false) by (left; auto). rewrite app_nil_r. reflexivity.
    - destruct ss as [|s ss].
      + cbn [map app]. destruct (t_letter _ _ _ _ T E c Ic) as (_ & L2). eexists [(_, _)]. split.
        * constructor; [|constructor]. split; [reflexivity|]. split; [intros Z; injection Z as Z _; exact (proj1 (Ltr c Ic) Z)|apply (L2 v Nv Hv)].
        * do 6 eexists. split; [reflexivity|]. intros rest _. exists false. split; [apply Vl; assumption|right; split; reflexivity].
      + destruct (letters_do s ss (ch_letter c :: v) Fs) as (e & P & C); [apply (Ltr c Ic)|]. eexists [(_, _)]. split.
        * constructor; [|constructor]. split; [reflexivity|]. split; [apply not_dashes_letters, Fs|exact P].
        * do 6 eexists. split; [reflexivity|]. intros rest _. exists false. split; [|right; split; reflexivity]. apply C. right. exists c. split; [exact Ic|]. split; [exact Tc|]. left. exists v. repeat split; assumption.
    - destruct ss as [|s ss].
      + cbn [map app]. eexists [(_, _)]. split.
        * constructor; [|constructor]. split; [reflexivity|]. split; [intros Z; injection Z as Z _; exact (proj1 (Ltr c Ic) Z)|apply (t_eq _ _ _ _ T E c Ic)].
        * do 6 eexists. split; [reflexivity|]. intros rest _. exists false. split; [apply Vl; assumption|right; split; reflexivity].
      + destruct (letters_do s ss (ch_letter c :: 61%N :: v) Fs) as (e & P & C); [apply (Ltr c Ic)|]. eexists [(_, _)]. split.
        * constructor; [|constructor]. split; [reflexivity|]. split; [apply not_dashes_letters, Fs|exact P].
        * do 6 eexists. split; [reflexivity|]. intros rest _. exists false. split; [|right; split; reflexivity]. apply C. right. exists c. split; [exact Ic|]. split; [exact Tc|]. right. left. eauto.
    - destruct (argument_parse v A) as (Dv & Pv). destruct ss as [|s ss].
      + cbn [map app]. destruct (t_letter _ _ _ _ T E c Ic) as (L1 & _). eexists [(_, _); (_, _)]. split.
        * constructor; [|constructor; [|constructor]]; (split; [reflexivity|]); split; [intros Z; injection Z as Z; exact (proj1 (Ltr c Ic) Z)|exact L1|exact Dv|exact Pv].
        * do 6 eexists. split; [reflexivity|]. intros rest _. exists true. split; [apply Nx; assumption|left; split; [reflexivity|eexists; reflexivity]].
      + destruct (letters_do s ss [ch_letter c] Fs) as (e & P & C); [apply (Ltr c Ic)|]. eexists [(_, _); (_, _)]. split.
        * constructor; [|constructor; [|constructor]]; (split; [reflexivity|]); split; [apply not_dashes_letters, Fs|exact P|exact Dv|exact Pv].
        * do 6 eexists. split; [reflexivity|]. intros rest _. exists true. split; [|left; split; [reflexivity|eexists; reflexivity]]. apply C. right. exists c. split; [exact Ic|]. split; [exact Tc|]. right. right. left. exists v. repeat split.
    - destruct ss as [|s ss].
      + cbn [map app]. destruct (t_letter _ _ _ _ T E c Ic) as (L1 & _). eexists [(_, _)]. split.
        * constructor; [|constructor]; (split; [reflexivity|]); split; [intros Z; injection Z as Z; exact (proj1 (Ltr c Ic) Z)|exact L1].
        * do 6 eexists. split; [reflexivity|]. intros rest Hb. exists false. cbn [app]. rewrite (Hb eq_refl). split; [apply Br; assumption|right; split; reflexivity].
      + destruct (letters_do s ss [ch_letter c] Fs) as (e & P & C); [apply (Ltr c Ic)|]. eexists [(_, _)]. split.
        * constructor; [|constructor]; (split; [reflexivity|]); split; [apply not_dashes_letters, Fs|exact P].
        * do 6 eexists. split; [reflexivity|]. intros rest Hb. exists false. cbn [app]. rewrite (Hb eq_refl). split; [|right; split; reflexivity]. apply C. right. exists c. split; [exact Ic|]. split; [congruence|]. right. right. right. auto.
    - destruct (t_long _ _ _ _ T E c Ic w S) as (L1 & _). eexists [(_, _)]. split.
      + constructor; [|constructor]; (split; [reflexivity|]); split; [eapply short_not_dashes, S|exact L1].
      + do 6 eexists. split; [reflexivity|]. intros rest _. exists false. split; [|right; split; reflexivity]. cbn [consume_optional]. unfold no_explicit. rewrite (proj2 (kind_flag c Ic) Tc). reflexivity.
    - destruct (t_long _ _ _ _ T E c Ic w S) as (_ & L2). eexists [(_, _)]. split.
      + constructor; [|constructor]; (split; [reflexivity|]); split; [|apply L2]. intros Z. destruct S as (_ & L & _). apply (f_equal (@length N)) in Z. rewrite app_length in Z. cbn in Z. lia.
      + do 6 eexists. split; [reflexivity|]. intros rest _. exists false. split; [apply Vl; assumption|right; split; reflexivity].
    - destruct (argument_parse v A) as (Dv & Pv). destruct (t_long _ _ _ _ T E c Ic w S) as (L1 & _). eexists [(_, _); (_, _)]. split.
      + constructor; [|constructor; [|constructor]]; (split; [reflexivity|]); split; [eapply short_not_dashes, S|exact L1|exact Dv|exact Pv].
      + do 6 eexists. split; [reflexivity|]. intros rest _. exists true. split; [apply Nx; assumption|left; split; [reflexivity|eexists; reflexivity]].
    - destruct (t_long _ _ _ _ T E c Ic w S) as (L1 & _). eexists [(_, _)]. split.
      + constructor; [|constructor]; (split; [reflexivity|]); split; [eapply short_not_dashes, S|exact L1].
      + do 6 eexists. split; [reflexivity|]. intros rest Hb. exists false. cbn [app]. rewrite (Hb eq_refl). split; [apply Br; assumption|right; split; reflexivity].
  Qed.
End Table.
