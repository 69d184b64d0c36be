(** C65: all the command lines that are accepted (LineSpec.v). *)
From Coq Require Import String List NArith ZArith Bool Arith Lia.
From Verif Require Import Str StrFacts EnvSpec Anchor Toc Cli Args CallSpec Argv ArgvSpec LineSpec PropArgs PropArgv PropArgv2 LineProof LineLoop AsciiEnv PropRerun.
Import ListNotations.
Local Open Scope list_scope.

(** ** From the form of a line to what it asks for *)
Lemma arguments_marked E names : digit_ascii E -> Forall (argument local_options (e_digit E)) names -> marked E sub_table names (map (fun x => (x, Arg)) names).
Proof.
  intros Hd. induction 1 as [|x l A _ IH]; [constructor|]. cbn [map]. constructor; [|exact IH]. destruct (argument_parse E sub_table _ _ sub_ok Hd x A) as (D & P). auto.
Qed.
Lemma remove_none l more : ~ In (lit "--") l -> remove_dashes (l ++ lit "--" :: more) = l ++ more /\ remove_dashes l = l.
Proof.
  induction l as [|x l IH]; intros N0; [split; reflexivity|]. cbn [app remove_dashes]. assert (X : seqb x (lit "--") = false) by (apply seqb_neq; intros ->; apply N0; left; reflexivity). rewrite X.
  destruct IH as (A & B); [intros I; apply N0; right; exact I|]. rewrite A, B. split; reflexivity.
Qed.
Lemma arguments_no_dashes E names : digit_ascii E -> Forall (argument local_options (e_digit E)) names -> ~ In (lit "--") names.
Proof. intros Hd F I. rewrite Forall_forall in F. apply (argument_parse E sub_table _ _ sub_ok Hd _ (F _ I)). reflexivity. Qed.
Lemma after_step E num p ws ls names : digit_ascii E -> p <> OtherParser -> after_name num (e_digit E) p ws ls names -> Forall (valid_local p) ls /\
  exists ms, marks E sub_table ws = Some ms /\
  forall r, a_names (r_args r) = [] -> sub_loop num p ms r false false false = then_ (do_all (do_local p) ls r) (fun r => Got (on_args (set_names names) r, false)).
Proof.
  intros Hd Hp (w1 & a1 & b1 & wn & w2 & a2 & b2 & -> & G1 & G2 & Fw & Hw & Hb & M). split; [eapply means_valid, M|].
  apply Forall2_app_inv_l in M as (l1 & l2 & M1 & M2 & ->).
  pose proof (locals_does num p _ _ Hp (groups_fit _ _ _ _ _ _ G1) M1) as D1. pose proof (locals_does num p _ _ Hp (groups_fit _ _ _ _ _ _ G2) M2) as D2.
  destruct (groups_sub E num p _ _ _ Hd G1) as (m1 & K1 & X1 & Z1 & S1). destruct (groups_sub E num p _ _ _ Hd G2) as (m2 & K2 & X2 & Z2 & S2).
  assert (R2 : run m2 = [] /\ next_arg m2 = None).
  { destruct w2 as [|w w2]; [inversion K2; subst; auto|]. specialize (X2 ltac:(discriminate) []). rewrite app_nil_r in X2. tauto. }
  assert (B : forall r1 named inside, sub_loop num p m2 r1 named inside false = then_ (do_all (do_local p) l2 r1) (fun r => Got (r, false))).
  { intros r1 named inside. rewrite <- (app_nil_r m2), S2, D2 by reflexivity. reflexivity. }
  destruct Fw as [names F|names more F].
  - pose proof (arguments_marked E names Hd F) as MN. exists (m1 ++ map (fun x => (x, Arg)) names ++ m2). split.
    { rewrite (marks_app _ _ _ _ _ K1), (marks_app _ _ _ _ _ MN). rewrite <- (app_nil_r w2), (marks_app _ _ _ _ _ K2). cbn. rewrite app_nil_r. reflexivity. }
    intros r N0. rewrite S1, D1.
    + destruct names as [|x names].
      * cbn [map app]. rewrite (then_ext _ _ (fun r => then_ (do_all (do_local p) l2 r) (fun r => Got (r, false)))) by (intros; apply B). rewrite <- then_assoc, <- do_all_app.
        pose proof (set_names_locals p [] (l1 ++ l2) r) as H. replace (on_args (set_names []) r) with r in H by (destruct r as [[]]; cbn in *; subst; reflexivity).
        destruct (do_all (do_local p) (l1 ++ l2) r) as [r1| |]; cbn [then_] in *; [injection H as H; rewrite <- H; reflexivity|reflexivity|reflexivity].
      * rewrite do_all_app, then_assoc. apply then_ext. intros r1. replace (match w1 with [] => false | _ => false end) with false by (destruct w1; reflexivity).
        assert (RR : run (map (fun x => (x, Arg)) (x :: names) ++ m2) = x :: names) by (apply args_run, R2).
        cbn [map app] in RR |- *. cbn [sub_loop]. rewrite RR, (proj2 (remove_none (x :: names) [] (arguments_no_dashes E _ Hd F))). rewrite args_inside, B, set_names_locals, then_assoc. reflexivity.
    + intros H1. destruct (Hb H1) as [->|Hh]; [apply R2|]. destruct names as [|x names]; [apply R2|]. cbn in Hh. subst x. exfalso. apply (arguments_no_dashes E _ Hd F). left. reflexivity.
  - assert (w2 = []) by (apply Hw, in_or_app; right; left; reflexivity). subst w2. rewrite (Z2 eq_refl) in *. inversion M2; subst. inversion K2; subst.
    pose proof (arguments_marked E names Hd F) as MN. rewrite !app_nil_r.
    exists (m1 ++ map (fun x => (x, Arg)) names ++ (lit "--", Dashes) :: map (fun x => (x, Arg)) more). split; [rewrite (marks_app _ _ _ _ _ K1), (marks_app _ _ _ _ _ MN); reflexivity|].
    pose proof (arguments_no_dashes E _ Hd F) as ND.
    intros r N0. rewrite S1, D1.
    + apply then_ext. intros r1. replace (match w1 with [] => false | _ => false end) with false by (destruct w1; reflexivity).
      assert (RR : run (map (fun x => (x, Arg)) names ++ (lit "--", Dashes) :: map (fun x => (x, Arg)) more) = names ++ lit "--" :: more).
      { clear. induction names as [|x l IH]; [|cbn [map app run]; f_equal; exact IH]. cbn [map app run]. f_equal. induction more as [|y l IH]; [reflexivity|]. cbn [map run]. f_equal. exact IH. }
      assert (IN : forall r2, sub_loop num p (map (fun x => (x, Arg)) names ++ (lit "--", Dashes) :: map (fun x => (x, Arg)) more) r2 true true false = Got (r2, false)).
      { intros r2. rewrite args_inside. cbn [sub_loop]. rewrite <- (app_nil_r (map _ _)), args_inside. reflexivity. }
      assert (HD : forall ms, (exists x y t, ms = (x, y) :: t /\ (y = Arg \/ y = Dashes)) -> sub_loop num p ms r1 false false false = sub_loop num p ms (on_args (set_names (remove_dashes (run ms))) r1) true true false).
      { intros ms (x & y & t & -> & [-> | ->]); reflexivity. }
      rewrite HD, RR, IN, (proj1 (remove_none names more ND)); [reflexivity|]. destruct names as [|x names]; do 3 eexists; (split; [reflexivity|auto]).
    + intros H1. destruct (Hb H1) as [Hh|Hh]; [destruct names; discriminate|]. destruct names as [|x names]; [reflexivity|]. cbn in Hh. subst x. exfalso. apply ND. left. reflexivity.
Qed.
Lemma accepted_read E num ws gs p ls names : digit_ascii E -> accepted_line num (e_digit E) ws gs p ls names ->
  parse_args E num ws = if (turned NoCoherence gs && turned NoIndentation gs) || (has_ordered ls && has_bullet ls) then Usage else Got (asks gs p ls names).
Proof.
  intros Hd (Hp & w1 & a1 & w2 & -> & G & Mg & R & D). destruct (groups_main E num _ _ _ Hd G) as (m1 & M1 & S1). destruct (after_step E num p _ _ _ Hd Hp R) as (V & m2 & M2 & S2).
  pose proof (globals_does num _ _ (groups_fit _ _ _ _ _ _ G) Mg) as DG. apply (marks_doubt E) in D.
  destruct (parser_named p Hp) as (F & Pw). destruct (plain_arg E _ Pw) as (D0 & A & _). apply seqb_neq in D0.
  unfold parse_args. rewrite (marks_app _ _ _ _ _ M1). cbn [marks]. rewrite D0, A.
  destruct (marks E main_table w2) as [mm|] eqn:Em; [|congruence]. cbn [option_map]. rewrite S1, DG.
  rewrite globals_value by reflexivity. cbn [r_c r_i r_u r_o r_args defaults orb].
  destruct (turned NoCoherence gs && turned NoIndentation gs); [reflexivity|]. cbn [then_ main_loop orb].
  assert (Ew : map fst mm = w2) by (apply (marks_words E main_table), Em).
  rewrite Ew. unfold sub_command. rewrite F, M2, S2 by reflexivity. rewrite !then_assoc.
  rewrite locals_value; [|exact Hp|exact V|reflexivity]. cbn [r_c r_i r_u r_o r_args on_args orb].
  destruct (has_ordered ls && has_bullet ls); reflexivity.
Qed.

(** ** From what is accepted to the form of the line *)
Lemma marks_inv E tbl w ws ms : marks E tbl (w :: ws) = Some ms ->
  (w = lit "--" /\ ms = (w, Dashes) :: map (fun x => (x, Arg)) ws) \/ (w <> lit "--" /\ exists m ms', parse_optional E tbl w = Some m /\ marks E tbl ws = Some ms' /\ ms = (w, m) :: ms').
Proof.
  cbn [marks]. destruct (seqb w (lit "--")) eqn:Ew; [apply seqb_eq in Ew; intros Z; injection Z as <-; auto|]. apply seqb_neq in Ew.
  destruct (parse_optional E tbl w) as [m|]; [|discriminate]. destruct (marks E tbl ws) as [ms'|]; [|discriminate]. intros Z. injection Z as <-. right. split; [exact Ew|]. eauto.
Qed.
Lemma parse_not_dashes E tbl w : parse_optional E tbl w <> Some Dashes.
Proof.
  unfold parse_optional. destruct w as [|c s]; [discriminate|]. destruct (negb _); [discriminate|]. destruct (find_str tbl (c :: s)); [discriminate|]. destruct s as [|d s]; [discriminate|].
  set (w := c :: d :: s). assert (X : match option_tuples tbl w with [] => if looks_negative E w then Some Arg else if cin cSP w then Some Arg else Some (Opt None w false None) | [m] => Some m | _ :: _ :: _ => None end <> Some Dashes).
  { destruct (option_tuples tbl w) as [|m [|m' l]] eqn:O; [destruct (looks_negative E w); [discriminate|]; destruct (cin cSP w); discriminate| |discriminate].
    intros Z. injection Z as ->. assert (I : In Dashes (option_tuples tbl w)) by (rewrite O; left; reflexivity). clear O. unfold option_tuples, w in I. destruct (N.eqb d cDASH).
    - destruct (partition_eq _) as (a & b). apply in_map_iff in I as ((n, k) & Z & _). discriminate.
    - apply in_flat_map in I as ((n, k) & _ & I). destruct (seqb n _); [destruct I as [I|[]]; discriminate|]. destruct (startswith _ n); [destruct I as [I|[]]; discriminate|destruct I]. }
  destruct (partition_eq w) as (a & [e|]); [|exact X]. destruct (find_str tbl a); [discriminate|exact X].
Qed.
Lemma sub_extra num p : forall n ms r named inside r' x, length ms <= n -> sub_loop num p ms r named inside true = Got (r', x) -> x = true.
Proof.
  induction n as [|n IH]; intros ms r named inside r' x L H; (destruct ms as [|(w, m) ms]; [injection H as _ <-; reflexivity|]); cbn [length] in L; [lia|]. cbn [sub_loop] in H. destruct m as [| |ask nm sep ex].
  - destruct inside; [eapply IH; [|exact H]; lia|]. destruct named; (eapply IH; [|exact H]; lia).
  - destruct inside; [eapply IH; [|exact H]; lia|]. destruct named; (eapply IH; [|exact H]; lia).
  - destruct (consume_optional _ _ _ _ _ _) as [((l & y) & took)| |]; try discriminate. cbn [then_] in H. destruct (take_all num p l r) as [r1| |]; try discriminate. cbn [then_ orb] in H.
    destruct took; [destruct ms as [|m2 ms]; [discriminate|]; cbn [length] in L|]; (eapply IH; [|exact H]; lia).
Qed.
Lemma main_left E num : forall n ms r r' x, length ms <= n -> main_loop E num ms r true = Got (r', x) -> x = true.
Proof.
  induction n as [|n IH]; intros ms r r' x L H; (destruct ms as [|(w, m) ms]; [discriminate|]); cbn [length] in L; [lia|]. cbn [main_loop] in H. destruct m as [| |ask nm sep ex]; [|discriminate|].
  - destruct (sub_command _ _ _ _ _) as [(r1 & y)| |]; try discriminate. injection H as _ <-. reflexivity.
  - destruct (consume_optional _ _ _ _ _ _) as [((l & y) & took)| |]; try discriminate. cbn [then_] in H. destruct (take_all num OtherParser l r) as [r1| |]; try discriminate. cbn [then_ orb] in H.
    destruct took; [destruct ms as [|m2 ms]; [discriminate|]; cbn [length] in L|]; (eapply IH; [|exact H]; lia).
Qed.
Section Loops.
  Context (E : env) (num : str -> option Z) (Hd : digit_ascii E).
  Lemma opt_inv {hp} tbl o cs w0 ws w ask nm sep ex ms' l took : tbl_ok hp tbl o cs -> marks E tbl (w0 :: ws) = Some ((w, Opt ask nm sep ex) :: ms') ->
    consume_optional tbl ask nm sep ex (next_arg ms') = Got (l, false, took) -> no_help (hp:=hp) l ->
    exists acts b wg ws2 ms2, w0 :: ws = wg ++ ws2 /\ length ws2 <= length ws /\ marks E tbl ws2 = Some ms2 /\ group o cs (e_digit E) wg acts b /\ l = map keyed acts
      /\ (if took then exists x, ms' = x :: ms2 else ms' = ms2) /\ (b = true -> next_arg ms2 = None).
  Proof.
    intros T M C Hl. apply marks_inv in M as [(_ & Z)|(Dw & m & ms1 & P & M & Z)]; [discriminate|]. injection Z as -> <- ->.
    assert (Hn : forall v, next_arg ms1 = Some v -> argument o (e_digit E) v /\ exists ws1 ms3, ws = v :: ws1 /\ ms1 = (v, Arg) :: ms3 /\ marks E tbl ws1 = Some ms3).
    { intros v Nx. destruct ws as [|x ws]; [cbn in M; injection M as <-; discriminate|]. apply marks_inv in M as [(_ & ->)|(Dx & m & ms3 & Px & M & ->)]; [discriminate|].
      cbn in Nx. destruct m; try discriminate. injection Nx as <-. split; [apply (argument_iff E tbl o cs T Hd x Dx), Px|]. eauto. }
    destruct (step_fwd E tbl o cs T w0 ask nm sep ex (next_arg ms1) l took Dw P C Hl) as (acts & -> & [(-> & v & Nx & G)|(-> & b & G & Hb)]); [intros v Nx; apply Hn, Nx| |].
    - destruct (Hn v Nx) as (_ & ws1 & ms3 & -> & -> & M1). exists acts, false, [w0; v], ws1, ms3. cbn [app length]. split; [reflexivity|]. split; [lia|]. split; [exact M1|]. split; [exact G|]. split; [reflexivity|]. split; [eexists; reflexivity|discriminate].
    - exists acts, b, [w0], ws, ms1. cbn [app length]. repeat split; auto.
  Qed.
  Lemma sub_opts_inv p : forall n ws ms r extra r', length ws <= n -> marks E sub_table ws = Some ms -> sub_loop num p ms r true false extra = Got (r', false) ->
    extra = false /\ exists acts b, groups local_options local_choices (e_digit E) ws acts b /\ take_all num p (map keyed acts) r = Got r'.
  Proof.
    induction n as [|n IH]; intros ws ms r extra r' L M H.
    { destruct ws; [|cbn in L; lia]. cbn in M. injection M as <-. cbn in H. injection H as -> ->. split; [reflexivity|]. exists [], false. split; [constructor|reflexivity]. }
    destruct ws as [|w ws]; [cbn in M; injection M as <-; cbn in H; injection H as -> ->; split; [reflexivity|]; exists [], false; split; [constructor|reflexivity]|]. cbn [length] in L.
    destruct (marks_inv _ _ _ _ _ M) as [(-> & ->)|(Dw & m & ms1 & P & M1 & ->)]; [cbn [sub_loop] in H; apply (sub_extra num p _ _ _ _ _ _ _ (le_n _)) in H; discriminate|].
    destruct m as [| |ask nm sep ex]; [cbn [sub_loop] in H; apply (sub_extra num p _ _ _ _ _ _ _ (le_n _)) in H; discriminate|exfalso; exact (parse_not_dashes _ _ _ P)|].
    cbn [sub_loop] in H. destruct (consume_optional sub_table ask nm sep ex (next_arg ms1)) as [((l & x) & took)| |] eqn:C; try discriminate. cbn [then_] in H.
    destruct (take_all num p l r) as [r1| |] eqn:Tk; try discriminate. cbn [then_] in H.
    destruct x; [rewrite orb_true_r in H; exfalso; destruct took; [destruct ms1; [discriminate|]|]; apply (sub_extra num p _ _ _ _ _ _ _ (le_n _)) in H; discriminate|]. rewrite orb_false_r in H.
    destruct (opt_inv _ _ _ _ _ _ _ _ _ _ _ _ _ sub_ok M C (take_all_no_help _ _ _ _ _ Tk)) as (acts & b & wg & ws2 & ms2 & Ew & L2 & M2 & G & -> & Hm & Hb).
    assert (H' : sub_loop num p ms2 r1 true false extra = Got (r', false)) by (destruct took; [destruct Hm as (y & ->); exact H|subst ms1; exact H]).
    apply (IH ws2 ms2 r1 extra r') in H'; [|lia|exact M2]. destruct H' as (-> & acts2 & b2 & G2 & T2). split; [reflexivity|]. rewrite Ew. eexists. eexists. split; [apply (gs_more _ _ _ _ _ _ _ _ _ G G2)|].
    rewrite map_app, take_all_app, Tk. exact T2.
  Qed.
  (** The first words that are no options. *)
  Lemma run_inv p ws : forall ms, marks E sub_table ws = Some ms -> exists wn w2 ms2, ws = wn ++ w2 /\ run ms = wn /\ file_words (e_digit E) wn (remove_dashes wn) /\ (In (lit "--") wn -> w2 = [])
    /\ marks E sub_table w2 = Some ms2 /\ forall r extra, sub_loop num p ms r true true extra = sub_loop num p ms2 r true false extra.
  Proof.
    induction ws as [|w ws IH]; intros ms M.
    { cbn in M. injection M as <-. exists [], [], []. split; [reflexivity|]. split; [reflexivity|]. split; [apply fw_plain; constructor|]. split; [reflexivity|]. split; reflexivity. }
    destruct (marks_inv _ _ _ _ _ M) as [(-> & ->)|(Dw & m & ms1 & P & M1 & ->)].
    - exists (lit "--" :: ws), [], []. split; [symmetry; apply app_nil_r|]. split.
      { cbn [run]. f_equal. clear. induction ws as [|y l IH]; [reflexivity|]. cbn [map run]. f_equal. exact IH. }
      split; [apply (fw_dashes _ [] ws); constructor|]. split; [reflexivity|]. split; [reflexivity|]. intros r extra. cbn [sub_loop]. rewrite <- (app_nil_r (map _ _)), args_inside. reflexivity.
    - destruct m as [| |ask nm sep ex]; [|exfalso; exact (parse_not_dashes _ _ _ P)|].
      + destruct (IH ms1 M1) as (wn & w2 & ms2 & -> & R & F & Hw & M2 & S). exists (w :: wn), w2, ms2. split; [reflexivity|]. split; [cbn [run]; rewrite R; reflexivity|].
        assert (A : argument local_options (e_digit E) w) by (apply (argument_iff E sub_table _ _ sub_ok Hd w Dw), P).
        assert (RD : remove_dashes (w :: wn) = w :: remove_dashes wn) by (cbn [remove_dashes]; rewrite (proj2 (seqb_neq _ _) Dw); reflexivity).
        split.
        { rewrite RD. clear -F A. destruct F as [names Fn|names more Fn]; [apply fw_plain; constructor; assumption|]. apply (fw_dashes _ (w :: names) more). constructor; assumption. }
        split; [intros [I|I]; [congruence|apply Hw, I]|]. split; [exact M2|]. intros r extra. cbn [sub_loop]. apply S.
      + exists [], (w :: ws), ((w, Opt ask nm sep ex) :: ms1). split; [reflexivity|]. split; [reflexivity|]. split; [apply fw_plain; constructor|]. split; [intros []|]. split; [exact M|]. reflexivity.
  Qed.
  Lemma sub_inv p : forall n ws ms r extra r', length ws <= n -> marks E sub_table ws = Some ms -> sub_loop num p ms r false false extra = Got (r', false) ->
    extra = false /\ exists w1 a1 b1 wn w2 a2 b2, ws = w1 ++ wn ++ w2
      /\ groups local_options local_choices (e_digit E) w1 a1 b1 /\ groups local_options local_choices (e_digit E) w2 a2 b2
      /\ file_words (e_digit E) wn (remove_dashes wn) /\ (In (lit "--") wn -> w2 = []) /\ (b1 = true -> wn = [] \/ hd [] wn = lit "--")
      /\ exists r1 r2 r3, take_all num p (map keyed a1) r = Got r1 /\ take_all num p (map keyed a2) r2 = Got r3.
  Proof.
    induction n as [|n IH]; intros ws ms r extra r' L M H.
    { destruct ws; [|cbn in L; lia]. cbn in M. injection M as <-. cbn in H. injection H as -> ->. split; [reflexivity|]. exists [], [], false, [], [], [], false.
      split; [reflexivity|]. split; [constructor|]. split; [constructor|]. split; [apply fw_plain; constructor|]. split; [intros []|]. split; [discriminate|]. exists r', r', r'. split; reflexivity. }
    destruct ws as [|w ws].
    { cbn in M. injection M as <-. cbn in H. injection H as -> ->. split; [reflexivity|]. exists [], [], false, [], [], [], false.
      split; [reflexivity|]. split; [constructor|]. split; [constructor|]. split; [apply fw_plain; constructor|]. split; [intros []|]. split; [discriminate|]. exists r', r', r'. split; reflexivity. }
    cbn [length] in L.
    assert (Nm : (exists x, ms = (w, x) :: tl ms /\ (x = Arg \/ x = Dashes)) -> extra = false /\ exists w1 a1 b1 wn w2 a2 b2, w :: ws = w1 ++ wn ++ w2
      /\ groups local_options local_choices (e_digit E) w1 a1 b1 /\ groups local_options local_choices (e_digit E) w2 a2 b2
      /\ file_words (e_digit E) wn (remove_dashes wn) /\ (In (lit "--") wn -> w2 = []) /\ (b1 = true -> wn = [] \/ hd [] wn = lit "--")
      /\ exists r1 r2 r3, take_all num p (map keyed a1) r = Got r1 /\ take_all num p (map keyed a2) r2 = Got r3).
    { intros (x & Z & Hx). destruct (run_inv p _ _ M) as (wn & w2 & ms2 & Ew & R & F & Hw & M2 & S).
      assert (Q : sub_loop num p ms (on_args (set_names (remove_dashes (run ms))) r) true true extra = Got (r', false)) by (rewrite Z in H |- *; destruct Hx as [-> | ->]; exact H).
      rewrite S in Q. destruct (sub_opts_inv p (length w2) w2 ms2 _ extra r' (le_n _) M2 Q) as (-> & acts & b & G & T). split; [reflexivity|].
      exists [], [], false, wn, w2, acts, b. split; [exact Ew|]. split; [constructor|]. split; [exact G|]. split; [exact F|]. split; [exact Hw|]. split; [discriminate|]. do 3 eexists. split; [reflexivity|exact T]. }
    destruct (marks_inv _ _ _ _ _ M) as [(-> & ->)|(Dw & m & ms1 & P & M1 & ->)]; [apply Nm; eexists; cbn [tl]; eauto|].
    destruct m as [| |ask nm sep ex]; [apply Nm; eexists; cbn [tl]; eauto|exfalso; exact (parse_not_dashes _ _ _ P)|]. clear Nm.
    cbn [sub_loop] in H. destruct (consume_optional sub_table ask nm sep ex (next_arg ms1)) as [((l & x) & took)| |] eqn:C; try discriminate. cbn [then_] in H.
    destruct (take_all num p l r) as [r1| |] eqn:Tk; try discriminate. cbn [then_] in H.
    destruct x; [rewrite orb_true_r in H; exfalso; destruct took; [destruct ms1; [discriminate|]|]; apply (sub_extra num p _ _ _ _ _ _ _ (le_n _)) in H; discriminate|]. rewrite orb_false_r in H.
    destruct (opt_inv _ _ _ _ _ _ _ _ _ _ _ _ _ sub_ok M C (take_all_no_help _ _ _ _ _ Tk)) as (acts & b & wg & ws2 & ms2 & Ew & L2 & M2 & G & -> & Hm & Hb).
    assert (H' : sub_loop num p ms2 r1 false false extra = Got (r', false)) by (destruct took; [destruct Hm as (y & ->); exact H|subst ms1; exact H]).
    apply (IH ws2 ms2 r1 extra r') in H'; [|lia|exact M2]. destruct H' as (-> & w1 & a1 & b1 & wn & w2 & a2 & b2 & E2 & G1 & G2 & F & Hw & Hb1 & r2 & r3 & r4 & T1 & T2). split; [reflexivity|].
    exists (wg ++ w1), (acts ++ a1), (match w1 with [] => b | _ => b1 end), wn, w2, a2, b2. split; [rewrite Ew, E2, <- app_assoc; reflexivity|]. split; [apply (gs_more _ _ _ _ _ _ _ _ _ G G1)|]. split; [exact G2|]. split; [exact F|]. split; [exact Hw|]. split.
    - destruct w1 as [|u w1]; [|exact Hb1]. intros Bt. specialize (Hb Bt). destruct wn as [|u wn]; [left; reflexivity|right]. cbn [app] in E2. subst ws2.
      destruct (marks_inv _ _ _ _ _ M2) as [(-> & _)|(Du & m & ms3 & Pu & _ & ->)]; [reflexivity|exfalso].
      assert (A : forall ws0 ns, file_words (e_digit E) ws0 ns -> forall t, ws0 = u :: t -> argument local_options (e_digit E) u).
      { clear -Du. intros ws0 ns [names Fn|names more Fn] t Z; [subst; inversion Fn; assumption|]. destruct names as [|y names]; cbn [app] in Z; injection Z as Z _; [congruence|]. subst y. inversion Fn; assumption. }
      specialize (A _ _ F _ eq_refl).
      apply (argument_parse E sub_table _ _ sub_ok Hd) in A as (_ & A). rewrite A in Pu. injection Pu as <-. discriminate.
    - exists r2, r3, r4. split; [rewrite map_app, take_all_app, Tk; exact T1|exact T2].
  Qed.
  Lemma main_inv : forall n ws ms r extra r', length ws <= n -> marks E main_table ws = Some ms -> main_loop E num ms r extra = Got (r', false) ->
    extra = false /\ exists w1 a1 b1 w w2 r1, ws = w1 ++ w :: w2 /\ groups global_options global_choices (e_digit E) w1 a1 b1 /\ take_all num OtherParser (map keyed a1) r = Got r1
      /\ marks E main_table w2 <> None /\ sub_command E num w w2 r1 = Got (r', false).
  Proof.
    induction n as [|n IH]; intros ws ms r extra r' L M H; (destruct ws as [|w ws]; [cbn in M; injection M as <-; discriminate|]); cbn [length] in L; [lia|].
    destruct (marks_inv _ _ _ _ _ M) as [(-> & ->)|(Dw & m & ms1 & P & M1 & ->)]; [discriminate|].
    destruct m as [| |ask nm sep ex]; [|discriminate|].
    - cbn [main_loop] in H. rewrite (marks_words _ _ _ _ M1) in H. destruct (sub_command E num w ws r) as [(r1 & x)| |] eqn:S; try discriminate. cbn [then_] in H. injection H as -> H. apply orb_false_iff in H as (-> & ->).
      split; [reflexivity|]. exists [], [], false, w, ws, r. split; [reflexivity|]. split; [constructor|]. split; [reflexivity|]. split; [congruence|exact S].
    - cbn [main_loop] in H. destruct (consume_optional main_table ask nm sep ex (next_arg ms1)) as [((l & x) & took)| |] eqn:C; try discriminate. cbn [then_] in H.
      destruct (take_all num OtherParser l r) as [r1| |] eqn:Tk; try discriminate. cbn [then_] in H.
      destruct x; [rewrite orb_true_r in H; exfalso; destruct took; [destruct ms1; [discriminate|]|]; apply (main_left E num _ _ _ _ _ (le_n _)) in H; discriminate|]. rewrite orb_false_r in H.
      destruct (opt_inv _ _ _ _ _ _ _ _ _ _ _ _ _ main_ok M C (take_all_no_help _ _ _ _ _ Tk)) as (acts & b & wg & ws2 & ms2 & Ew & L2 & M2 & G & -> & Hm & _).
      assert (H' : main_loop E num ms2 r1 extra = Got (r', false)) by (destruct took; [destruct Hm as (y & ->); exact H|subst ms1; exact H]).
      apply (IH ws2 ms2 r1 extra r') in H'; [|lia|exact M2]. destruct H' as (-> & w1 & a1 & b1 & v & w2 & r2 & E2 & G1 & T1 & D & S). split; [reflexivity|].
      exists (wg ++ w1), (acts ++ a1). eexists. exists v, w2, r2. split; [rewrite Ew, E2, <- app_assoc; reflexivity|]. split; [apply (gs_more _ _ _ _ _ _ _ _ _ G G1)|].
      split; [rewrite map_app, take_all_app, Tk; exact T1|]. split; [exact D|exact S].
  Qed.
End Loops.

Lemma named_parser w p : find_str subparsers w = Some p -> p <> OtherParser /\ w = parser_name p.
Proof.
  intros H. apply find_str_in in H. cbn [In subparsers] in H. repeat (destruct H as [H|H]; [injection H as <- <-; split; [discriminate|reflexivity]|]). destruct H.
Qed.
Lemma read_accepted E num ws a : digit_ascii E -> parse_args E num ws = Got a -> exists gs p ls names, accepted_line num (e_digit E) ws gs p ls names.
Proof.
  intros Hd H. unfold parse_args in H. destruct (marks E main_table ws) as [ms|] eqn:M; [|discriminate]. destruct (main_loop E num ms defaults false) as [(r & x)| |] eqn:L; try discriminate. cbn [then_] in H.
  destruct x; [discriminate|]. destruct (main_inv E num Hd _ _ _ _ _ _ (le_n _) M L) as (_ & w1 & a1 & b1 & w & w2 & r1 & -> & G & T & D & S).
  unfold sub_command in S. destruct (find_str subparsers w) as [p|] eqn:F; [|discriminate]. apply named_parser in F as (Hp & ->). destruct (marks E sub_table w2) as [ms2|] eqn:M2; [|discriminate].
  destruct (sub_inv E num Hd p _ _ _ _ _ _ (le_n _) M2 S) as (_ & w3 & a3 & b3 & wn & w4 & a4 & b4 & -> & G3 & G4 & Fw & Hw & Hb & r2 & r3 & r4 & T3 & T4).
  destruct (globals_means num a1 _ _ (groups_fit _ _ _ _ _ _ G) T) as (gs & Mg). destruct (locals_means num p a3 Hp _ _ (groups_fit _ _ _ _ _ _ G3) T3) as (l3 & M3).
  destruct (locals_means num p a4 Hp _ _ (groups_fit _ _ _ _ _ _ G4) T4) as (l4 & M4). pose proof (global_groups_whole _ _ _ _ G) as Z. subst b1.
  exists gs, p, (l3 ++ l4), (remove_dashes wn). split; [exact Hp|]. exists w1, a1, (w3 ++ wn ++ w4). split; [reflexivity|]. split; [exact G|]. split; [exact Mg|]. split.
  - exists w3, a3, b3, wn, w4, a4, b4. split; [reflexivity|]. split; [exact G3|]. split; [exact G4|]. split; [exact Fw|]. split; [exact Hw|]. split; [exact Hb|]. apply Forall2_app; assumption.
  - apply (marks_doubt E). exact D.
Qed.

(** *** C65 *)
Theorem C65_exactly : forall E num ws a, digit_ascii E ->
  (parse_args E num ws = Got a <-> exists gs p ls names, accepted_line num (e_digit E) ws gs p ls names /\ ~ clash gs ls /\ a = asks gs p ls names).
Proof.
  intros E num ws a Hd. split.
  - intros H. destruct (read_accepted E num ws a Hd H) as (gs & p & ls & names & A). exists gs, p, ls, names. split; [exact A|]. rewrite (accepted_read E num ws gs p ls names Hd A) in H. rewrite clash_iff, <- orb_true_iff.
    destruct (_ || _); [discriminate|]. split; [discriminate|]. injection H as <-. reflexivity.
  - intros (gs & p & ls & names & A & C & ->). rewrite (accepted_read E num ws gs p ls names Hd A). rewrite clash_iff, <- orb_true_iff in C. destruct (_ || _); [congruence|reflexivity].
Qed.
Print Assumptions C65_exactly.
Definition line_words : list str :=
  [lit "-pm=TOC"; lit "-s"; lit "5"; lit "github"; lit "-cl3"; lit "--ord"; lit ")"; lit "-x y"; lit "-7"; lit "--"; lit "-b"].
Definition line_globals : list global := [Turn InPlace; TocMarker (lit "TOC"); SkipLines 5].
Definition line_locals : list local := [Constant; Levels 3; Ordered (lit ")")].
Definition line_files : list str := [lit "-x y"; lit "-7"; lit "-b"].
Lemma line_accepted : accepted_line simple_int (e_digit ascii_env) line_words line_globals Github line_locals line_files.
Proof.
  split; [discriminate|].
  pose (cp := Choice (lit "--in-place") 112 Nothing). pose (cm := Choice (lit "--toc-marker") 109 Value). pose (ck := Choice (lit "--skip-lines") 115 Value).
  pose (cc := Choice (lit "--constant-ordered-list") 99 Nothing). pose (cl := Choice (lit "--header-levels") 108 MaybeValue). pose (co := Choice (lit "--ordered-list-marker") 111 MaybeValue).
  assert (U1 : argument local_options (e_digit ascii_env) (lit "-x y")).
  { right. split; [left; exists 120%N, (lit " y"); split; [reflexivity|split; [discriminate|cbn; intuition discriminate]]|right; cbn; tauto]. }
  assert (U2 : argument local_options (e_digit ascii_env) (lit "-7")).
  { right. split; [left; exists 55%N, []; split; [reflexivity|split; [discriminate|cbn; intuition discriminate]]|left]. exists (lit "7"). split; [left; reflexivity|]. left. split; [discriminate|]. repeat constructor. }
  exists [lit "-pm=TOC"; lit "-s"; lit "5"], [(cp, None); (cm, Some (lit "TOC")); (ck, Some (lit "5"))], [lit "-cl3"; lit "--ord"; lit ")"; lit "-x y"; lit "-7"; lit "--"; lit "-b"].
  split; [reflexivity|]. split; [|split; [|split]].
  - apply (gs_more _ _ _ [lit "-pm=TOC"] [(cp, None); (cm, Some (lit "TOC"))] false [lit "-s"; lit "5"] [(ck, Some (lit "5"))] false).
    + apply (g_equals global_options global_choices (e_digit ascii_env) [cp] cm (lit "TOC")); [constructor; [split; [cbn; tauto|reflexivity]|constructor]|split; [cbn; tauto|discriminate]].
    + apply (gs_more _ _ _ [lit "-s"; lit "5"] [(ck, Some (lit "5"))] false [] [] false); [|constructor].
      apply (g_next global_options global_choices (e_digit ascii_env) [] ck (lit "5")); [constructor|split; [cbn; tauto|discriminate]|left; right; discriminate].
  - constructor; [apply (mg_switch _ cp InPlace); reflexivity|]. constructor; [apply mg_marker; reflexivity|]. constructor; [apply (mg_skip _ ck (lit "5") 5); reflexivity|constructor].
  - exists [lit "-cl3"; lit "--ord"; lit ")"], [(cc, None); (cl, Some (lit "3")); (co, Some (lit ")"))], false, [lit "-x y"; lit "-7"; lit "--"; lit "-b"], [], [], false.
    split; [reflexivity|]. split; [|split; [constructor|split; [|split; [reflexivity|split; [discriminate|]]]]].
    + apply (gs_more _ _ _ [lit "-cl3"] [(cc, None); (cl, Some (lit "3"))] false [lit "--ord"; lit ")"] [(co, Some (lit ")"))] false).
      * apply (g_joined local_options local_choices (e_digit ascii_env) [cc] cl (lit "3")); [constructor; [split; [cbn; tauto|reflexivity]|constructor]|split; [cbn; tauto|discriminate]|discriminate|discriminate].
      * apply (gs_more _ _ _ [lit "--ord"; lit ")"] [(co, Some (lit ")"))] false [] [] false); [|constructor].
        apply g_name_next; [split; [cbn; tauto|discriminate]| |left; right; discriminate]. split; [exists (lit "ered-list-marker"); reflexivity|]. split; [cbn; lia|].
        intros x rest I Z. cbn in I. repeat (destruct I as [<-|I]; [first [reflexivity|discriminate Z]|]). destruct I.
    + apply (fw_dashes _ [lit "-x y"; lit "-7"] [lit "-b"]). constructor; [exact U1|constructor; [exact U2|constructor]].
    + constructor; [apply ml_constant; reflexivity|]. constructor; [apply (ml_levels _ _ cl (lit "3") 3); [reflexivity|reflexivity|lia]|]. constructor; [apply ml_ordered; [reflexivity|cbn; tauto]|constructor].
  - apply (marks_doubt ascii_env). vm_compute. discriminate.
Qed.
Example C65_exactly_ex : digit_ascii ascii_env /\ accepted_line simple_int (e_digit ascii_env) line_words line_globals Github line_locals line_files /\ ~ clash line_globals line_locals
  /\ parse_args ascii_env simple_int line_words = Got (asks line_globals Github line_locals line_files)
  /\ forall gs p ls names, ~ (accepted_line simple_int (e_digit ascii_env) [lit "github"; lit "-u"; lit "a.md"] gs p ls names /\ ~ clash gs ls).
Proof.
  assert (Nc : ~ clash line_globals line_locals) by (intros [(I & _)|(_ & m & I & _)]; cbn in I; intuition discriminate).
  split; [exact digit_ascii_ex|]. split; [exact line_accepted|]. split; [exact Nc|]. split.
  - apply C65_exactly; [exact digit_ascii_ex|]. exists line_globals, Github, line_locals, line_files. split; [exact line_accepted|]. split; [exact Nc|reflexivity].
  - intros gs p ls names (A & C). assert (H : parse_args ascii_env simple_int [lit "github"; lit "-u"; lit "a.md"] = Got (asks gs p ls names)) by (apply C65_exactly; [exact digit_ascii_ex|eauto 10]). vm_compute in H. discriminate.
Qed.
