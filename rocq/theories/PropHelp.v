(** C65: all the command lines that ask for the help or the version (HelpSpec.v). *)
From Coq Require Import String List NArith ZArith Bool Arith Lia.
From Verif Require Import Str StrFacts EnvSpec Anchor Toc Cli Args CallSpec Argv ArgvSpec LineSpec HelpSpec PropArgs PropArgv PropArgv2 LineProof LineLoop PropLine AsciiEnv PropRerun.
Import ListNotations.
Local Open Scope list_scope.

(** ** The tables with all their keys *)
Definition none (k : key) : Prop := False.
Ltac in_helps I := cbn [In global_helps local_helps] in I.
Lemma with_helps tbl o hs cs : tbl_ok help tbl o cs -> (forall n k, In (n, k) tbl -> help k -> exists c, In c hs /\ key_of c = k /\ (n = [45%N; ch_letter c] \/ n = ch_name c)) ->
  (forall c, In c hs -> kind_of (key_of c) = Flag /\ ch_takes c = Nothing /\ (find_str tbl [45%N; ch_letter c] = Some (key_of c) /\ ch_letter c <> 45%N /\ ch_letter c <> 61%N)
    /\ (forall E, letter_ok E tbl (ch_letter c) (key_of c)) /\ (forall E, eq_ok E tbl (ch_letter c) (key_of c)) /\ (forall E, long_ok E tbl (o_names o) (ch_name c) (key_of c)) /\ In (ch_name c) (o_names o)) ->
  tbl_ok none tbl o (hs ++ cs).
Proof.
  intros T K H. constructor; try apply T.
  - intros n k I. right. destruct (t_in _ _ _ _ T n k I) as [Hk|(c & Ic & R)].
    + destruct (K n k I Hk) as (c & Ic & R). exists c. split; [apply in_or_app; left; exact Ic|exact R].
    + exists c. split; [apply in_or_app; right; exact Ic|exact R].
  - intros c I. apply in_app_or in I as [I|I]; [destruct (H c I) as (A & B & _); rewrite A, B; reflexivity|apply T, I].
  - intros c I. apply in_app_or in I as [I|I]; [apply (H c I)|apply T, I].
  - intros E c I. apply in_app_or in I as [I|I]; [apply (H c I)|apply T, I].
  - intros E c I. apply in_app_or in I as [I|I]; [apply (H c I)|apply T, I].
  - intros E c I. apply in_app_or in I as [I|I]; [apply (H c I)|apply T, I].
  - intros c I. apply in_app_or in I as [I|I]; [apply (H c I)|exact (t_cs _ _ _ _ T c I)].
Qed.
Lemma main_all : tbl_ok none main_table global_options (global_helps ++ global_choices).
Proof.
  apply with_helps; [exact main_ok| |].
  - intros n k I Hk. in_pairs I. repeat (destruct I as [I|I]; [injection I as <- <-; first [exfalso; destruct Hk; discriminate
      |exists (nth 0 global_helps (Choice [] 0 Nothing)); split; [cbn; tauto|split; [reflexivity|first [left; reflexivity|right; reflexivity]]]
      |exists (nth 1 global_helps (Choice [] 0 Nothing)); split; [cbn; tauto|split; [reflexivity|first [left; reflexivity|right; reflexivity]]]]|]). destruct I.
  - intros c I. in_helps I. each I; (split; [reflexivity|]); (split; [reflexivity|]); (split; [split; [reflexivity|split; discriminate]|]);
      (split; [intros E; letter_tac|]); (split; [intros E v; vm_compute; reflexivity|]); (split; [intros E; long_tac|]); cbn; tauto.
Qed.
Lemma sub_all : tbl_ok none sub_table local_options (local_helps ++ local_choices).
Proof.
  apply with_helps; [exact sub_ok| |].
  - intros n k I Hk. in_pairs I. repeat (destruct I as [I|I]; [injection I as <- <-; first [exfalso; destruct Hk; discriminate
      |exists (nth 0 local_helps (Choice [] 0 Nothing)); split; [cbn; tauto|split; [reflexivity|first [left; reflexivity|right; reflexivity]]]]|]). destruct I.
  - intros c I. in_helps I. each I; (split; [reflexivity|]); (split; [reflexivity|]); (split; [split; [reflexivity|split; discriminate]|]);
      (split; [intros E; letter_tac|]); (split; [intros E v; vm_compute; reflexivity|]); (split; [intros E; long_tac|]); cbn; tauto.
Qed.

(** ** Words with a letter that is no option *)
Lemma no_help_none l : no_help (hp:=none) l.
Proof. apply Forall_forall. intros x _ []. Qed.
Section Table.
  Context (E : env) (tbl : table) (o : options) (cs : list choice) (T : tbl_ok none tbl o cs) (Hd : digit_ascii E).
  Lemma known x : In x (o_letters o) <-> find_str tbl [45%N; x] <> None.
  Proof.
    rewrite (t_letters _ _ _ _ T). split.
    - intros (k & I). rewrite (t_own _ _ _ _ T _ _ I). discriminate.
    - destruct (find_str tbl [45%N; x]) as [k|] eqn:F; [|congruence]. intros _. exists k. apply find_str_in, F.
  Qed.
  Lemma no_explicit_x k next l took : no_explicit k next <> Got (l, true, took).
  Proof. unfold no_explicit. destruct (kind_of k); [|destruct next|destruct next]; discriminate. Qed.
  Lemma cluster_x_fwd next : forall n e c l took, length e <= n -> In c cs -> ch_takes c = Nothing -> hd 0%N e <> 61%N ->
    cluster tbl (key_of c) false e next = Got (l, true, took) ->
    exists ss x t, e = map ch_letter ss ++ x :: t /\ flags cs ss /\ ~ In x (o_letters o) /\ x <> 45%N /\ x <> 61%N /\ l = map keyed (set (c :: ss)) /\ took = false.
  Proof.
    induction n as [|n IH]; intros e c l took Hn Ic Hc He H; pose proof (proj2 (kind_flag tbl o cs T c Ic) Hc) as Kc.
    { destruct e; [|cbn in Hn; lia]. cbn [cluster] in H. rewrite Kc in H. discriminate. }
    destruct e as [|x t]; cbn [cluster] in H; rewrite Kc in H; [discriminate|]. cbn [length] in Hn. cbn in He. cbn [orb] in H. change cDASH with 45%N in H. destruct (N.eqb x 45) eqn:Ex; [discriminate|]. apply N.eqb_neq in Ex.
    destruct (find_str tbl [45%N; x]) as [k'|] eqn:F.
    2:{ injection H as <- <-. exists [], x, t. split; [reflexivity|]. split; [constructor|]. split; [rewrite known; congruence|]. auto. }
    destruct (letter_of tbl o cs T x k' F) as [[]|(d & Id & Kd & Ld)]. subst x k'. unfold before in H. destruct t as [|y t2]; [|destruct (N.eqb y 61) eqn:Ey].
    - destruct (no_explicit (key_of d) next) as [((l1 & y1) & t1)| |] eqn:Z; try discriminate. cbn [then_] in H. injection H as _ -> _. exfalso. exact (no_explicit_x _ _ _ _ Z).
    - destruct (ch_takes d) eqn:Td; [rewrite cluster_sep in H by (apply (kind_flag tbl o cs T); assumption); discriminate| |];
        rewrite cluster_value in H by (rewrite (kind_flag tbl o cs T d Id); congruence); discriminate.
    - apply N.eqb_neq in Ey. destruct (ch_takes d) eqn:Td; [|rewrite cluster_value in H by (rewrite (kind_flag tbl o cs T d Id); congruence); discriminate|rewrite cluster_value in H by (rewrite (kind_flag tbl o cs T d Id); congruence); discriminate].
      destruct (cluster tbl (key_of d) false (y :: t2) next) as [((l1 & y1) & t1)| |] eqn:C; try discriminate. cbn [then_] in H. injection H as <- -> ->.
      apply IH in C; [|lia|assumption|assumption|exact Ey]. destruct C as (ss & x & t & Ee & Fs & Nx & N0 & N1 & -> & ->).
      exists (d :: ss), x, t. split; [cbn; f_equal; exact Ee|]. split; [constructor; [split; assumption|exact Fs]|]. auto.
  Qed.
  Lemma cluster_x_bwd next x t : ~ In x (o_letters o) -> x <> 45%N -> x <> 61%N -> forall ss c, flags cs ss -> In c cs -> ch_takes c = Nothing ->
    cluster tbl (key_of c) false (map ch_letter ss ++ x :: t) next = Got (map keyed (set (c :: ss)), true, false).
  Proof.
    intros Nx N0 N1. assert (F : find_str tbl [45%N; x] = None) by (destruct (find_str tbl [45%N; x]) eqn:F; [exfalso; apply Nx, known; congruence|reflexivity]).
    induction ss as [|s ss IH]; intros c Fs Ic Hc; pose proof (proj2 (kind_flag tbl o cs T c Ic) Hc) as Kc; cbn [map app cluster]; rewrite Kc; cbn [orb]; change cDASH with 45%N.
    - rewrite (proj2 (N.eqb_neq _ _) N0), F. reflexivity.
    - inversion Fs as [|? ? (Is & Hs) Fs2]; subst. destruct (t_short _ _ _ _ T s Is) as (F1 & M0 & M1). rewrite (proj2 (N.eqb_neq _ _) M0), F1. specialize (IH s Fs2 Is Hs).
      destruct (map ch_letter ss ++ x :: t) as [|y t2] eqn:Em; [destruct ss; discriminate|].
      assert (Ny : y <> 61%N) by (destruct ss as [|s2 ss]; cbn in Em; injection Em as <- _; [exact N1|inversion Fs2 as [|? ? (I2 & _) _]; subst; apply (t_short _ _ _ _ T s2 I2)]).
      rewrite (proj2 (N.eqb_neq _ _) Ny), IH. reflexivity.
  Qed.
  Lemma consume_x_fwd w ask nm sep ex next l took : w <> lit "--" -> parse_optional E tbl w = Some (Opt ask nm sep ex) -> consume_optional tbl ask nm sep ex next = Got (l, true, took) ->
    took = false /\ exists acts, l = map keyed acts /\ opened o (e_digit E) cs [w] acts false.
  Proof.
    intros Hw P C. pose proof (parse_cases E tbl o cs w T Hw) as W. rewrite P in W.
    inversion W as [|U Z|c k sep' e' N0 N1 F Z Z1|n name k e I J S N0 Z Z1|]; subst.
    - assert (Na : ~ argument o (e_digit E) w) by (rewrite <- (argument_iff E tbl o cs T Hd w Hw); congruence).
      destruct (looks_negative E w); [discriminate|]. destruct (cin cSP w); [discriminate|]. injection Z as <- <- <- <-. cbn in C. injection C as <- <-. split; [reflexivity|]. exists []. split; [reflexivity|]. apply o_unknown; assumption.
    - destruct (letter_of tbl o cs T c k F) as [[]|(d & Id & Kd & Ld)]. subst c k.
      destruct Z as [(-> & -> & ->)|[(v & -> & -> & ->)|(v & -> & -> & -> & Nv & Hv)]].
      + cbn [consume_optional] in C. exfalso. exact (no_explicit_x _ _ _ _ C).
      + rewrite consume_letter in C by exact N0. destruct (ch_takes d) eqn:Td; [rewrite cluster_sep in C by (apply (kind_flag tbl o cs T); assumption); discriminate| |];
          rewrite cluster_value in C by (rewrite (kind_flag tbl o cs T d Id); congruence); discriminate.
      + rewrite consume_letter in C by exact N0. destruct (ch_takes d) eqn:Td; [|rewrite cluster_value in C by (rewrite (kind_flag tbl o cs T d Id); congruence); discriminate|rewrite cluster_value in C by (rewrite (kind_flag tbl o cs T d Id); congruence); discriminate].
        destruct (cluster_x_fwd next _ v d l took (le_n _) Id Td Hv C) as (ss & x & t & -> & Fs & Nx & M0 & M1 & -> & ->). split; [reflexivity|]. exists (set (d :: ss)). split; [reflexivity|].
        apply (o_letter o (e_digit E) cs (d :: ss) x t); try assumption; [constructor; [split; assumption|exact Fs]|discriminate].
    - destruct ex as [e|]; [|cbn [consume_optional] in C; exfalso; exact (no_explicit_x _ _ _ _ C)].
      destruct (t_in _ _ _ _ T _ _ I) as [[]|(d & Id & Kd & _)]. subst k.
      destruct (t_names2 _ _ _ _ T _ J) as (H2 & _). destruct nm as [|a [|b u]]; try discriminate. injection H2 as -> ->. cbn [consume_optional] in C. change cDASH with 45%N in C. cbn [N.eqb Pos.eqb] in C.
      destruct (kind_of (key_of d)) eqn:Kk; [discriminate| |]; rewrite cluster_value in C by congruence; discriminate.
  Qed.
  (** What one option does, whether a letter is left over or not. *)
  Definition does (ms : list (str * mark)) (acts : list (key * option str)) (bare x : bool) : Prop :=
    exists w nm ask sep ex ms2, ms = (w, Opt ask nm sep ex) :: ms2 /\
      forall rest, (bare = true -> next_arg rest = None) -> exists took,
        consume_optional tbl ask nm sep ex (next_arg (ms2 ++ rest)) = Got (acts, x, took)
        /\ ((took = true /\ exists y, ms2 = [y]) \/ (took = false /\ ms2 = [])).
  Lemma opened_does ws acts b : opened o (e_digit E) cs ws acts b -> exists ms x, marked E tbl ws ms /\ does ms (map keyed acts) b x.
  Proof.
    intros [ws0 a b0 G|ss x t Fs Nn Nx N0 N1|w U Na].
    - destruct (step_bwd E tbl o cs T Hd _ _ _ G) as (ms & M & (w & nm & k & sep & ex & ms2 & -> & H)). eexists. exists false. split; [exact M|]. exists w, nm, (Some k), sep, ex, ms2. split; [reflexivity|exact H].
    - destruct ss as [|s ss]; [congruence|]. inversion Fs as [|? ? (Is & Ts) Fs2]; subst. destruct (t_letter _ _ _ _ T E s Is) as (_ & L2). destruct (t_short _ _ _ _ T s Is) as (_ & M0 & M1).
      eexists [(_, _)]. exists true. split.
      + constructor; [|constructor]. split; [reflexivity|]. split; [apply (not_dashes_letters tbl o cs T), Fs|]. cbn [map app]. apply L2; [destruct ss; discriminate|].
        destruct ss as [|s2 ss]; cbn; [exact N1|]. inversion Fs2 as [|? ? (I2 & _) _]; subst. apply (t_short _ _ _ _ T s2 I2).
      + do 6 eexists. split; [reflexivity|]. intros rest _. exists false. split; [|right; split; reflexivity]. rewrite consume_letter by exact M0. apply cluster_x_bwd; assumption.
    - destruct (unknown_parse E tbl o cs T w U) as (Hw & P). assert (Q : parse_optional E tbl w <> Some Arg) by (rewrite (argument_iff E tbl o cs T Hd w Hw); exact Na).
      exists [(w, Opt None w false None)], true. split.
      + constructor; [|constructor]. split; [reflexivity|]. split; [exact Hw|]. rewrite P in Q |- *. destruct (looks_negative E w); [congruence|]. destruct (cin cSP w); [congruence|reflexivity].
      + do 6 eexists. split; [reflexivity|]. intros rest _. exists false. split; [reflexivity|right; split; reflexivity].
  Qed.
  Lemma cluster_not_shown next : forall n e k sep, length e <= n -> cluster tbl k sep e next <> Shown.
  Proof.
    assert (NE : forall k, no_explicit k next <> Shown) by (intros k; unfold no_explicit; destruct (kind_of k); [|destruct next|destruct next]; discriminate).
    assert (B : forall k g, g <> Shown -> before k g <> Shown) by (intros k [((l & x) & t)| |]; unfold before; cbn; congruence).
    induction n as [|n IH]; intros e k sep L; (destruct e as [|x t]; cbn [cluster]; [destruct (kind_of k); discriminate|]); cbn [length] in L; [lia|].
    destruct (kind_of k); try discriminate. destruct (_ || _); [discriminate|]. destruct (find_str _ _); [|discriminate]. destruct t as [|y t2]; [apply B, NE|]. cbn [length] in L.
    destruct (N.eqb y 61); apply B; apply IH; cbn; lia.
  Qed.
  Lemma consume_not_shown ask nm sep ex next : consume_optional tbl ask nm sep ex next <> Shown.
  Proof.
    unfold consume_optional. destruct ask as [k|]; [|discriminate]. destruct ex as [e|].
    - pose proof (cluster_not_shown next _ e k sep (le_n _)) as H. destruct (kind_of k); try exact H. destruct nm as [|a [|b nm]]; try exact H. destruct (N.eqb b cDASH); [discriminate|exact H].
    - unfold no_explicit. destruct (kind_of k); [|destruct next|destruct next]; discriminate.
  Qed.
  (** What one option was. *)
  Lemma opened_inv w0 ws w ask nm sep ex ms' l x took : marks E tbl (w0 :: ws) = Some ((w, Opt ask nm sep ex) :: ms') ->
    consume_optional tbl ask nm sep ex (next_arg ms') = Got (l, x, took) ->
    exists acts b wg ws2 ms2, w0 :: ws = wg ++ ws2 /\ length ws2 <= length ws /\ marks E tbl ws2 = Some ms2 /\ opened o (e_digit E) cs wg acts b /\ l = map keyed acts
      /\ (if took then exists y, ms' = y :: ms2 else ms' = ms2) /\ (b = true -> forall w t, ws2 = w :: t -> ~ argument o (e_digit E) w).
  Proof.
    intros M C. destruct x.
    - apply marks_inv in M as [(_ & Z)|(Dw & m & ms1 & P & M & Z)]; [discriminate|]. injection Z as -> <- ->.
      destruct (consume_x_fwd _ _ _ _ _ _ _ _ Dw P C) as (-> & acts & -> & G). exists acts, false, [w0], ws, ms1. cbn [app]. repeat split; auto. discriminate.
    - destruct (opt_inv E Hd _ _ _ _ _ _ _ _ _ _ _ _ _ T M C (no_help_none l)) as (acts & b & wg & ws2 & ms2 & Ew & L2 & M2 & G & -> & Hm & Hb).
      exists acts, b, wg, ws2, ms2. split; [exact Ew|]. split; [exact L2|]. split; [exact M2|]. split; [apply o_group, G|]. split; [reflexivity|]. split; [exact Hm|].
      intros B v t -> A. specialize (Hb B). destruct (argument_parse E tbl o cs T Hd v A) as (Dv & Pv). apply marks_inv in M2 as [(Z & _)|(_ & m & ms3 & Q & _ & ->)]; [congruence|].
      rewrite Pv in Q. injection Q as <-. discriminate.
  Qed.
End Table.

(** ** What the words set *)
Lemma flags_in cs cs' ss : flags cs ss -> Forall (fun x : choice * option str => In (fst x) cs') (set ss) -> flags cs' ss.
Proof. induction 1 as [|s ss (I & H) _ IH]; intros F; [constructor|]. cbn in F. inversion F; subst. constructor; [split; assumption|apply IH; assumption]. Qed.
Lemma group_in o cs cs' digit ws acts b : group o cs digit ws acts b -> Forall (fun x => In (fst x) cs') acts -> group o cs' digit ws acts b.
Proof.
  assert (L : forall (l : list (choice * option str)) c v, Forall (fun x => In (fst x) cs') (l ++ [(c, v)]) -> Forall (fun x => In (fst x) cs') l /\ In c cs').
  { intros l c v F. apply Forall_app in F as (A & B). split; [exact A|]. inversion B; subst; assumption. }
  intros [ss Fs Nn|ss c v Fs (Ic & Tc) Nv Hv|ss c v Fs (Ic & Tc)|ss c v Fs (Ic & Tc) A|ss c Fs Ic Tc|c w Ic Tc S|c w v (Ic & Tc) S|c w v (Ic & Tc) S A|c w Ic Tc S] F.
  - apply g_letters; [eapply flags_in; eassumption|exact Nn].
  - apply L in F as (F & I). apply g_joined; [eapply flags_in; eassumption|split; assumption|exact Nv|exact Hv].
  - apply L in F as (F & I). apply g_equals; [eapply flags_in; eassumption|split; assumption].
  - apply L in F as (F & I). apply g_next; [eapply flags_in; eassumption|split; assumption|exact A].
  - apply L in F as (F & I). apply g_bare; [eapply flags_in; eassumption|assumption|assumption].
  - inversion F; subst. apply g_name; assumption.
  - inversion F; subst. apply g_name_equals; [split; assumption|assumption].
  - inversion F; subst. apply g_name_next; [split; assumption|assumption|assumption].
  - inversion F; subst. apply g_name_bare; assumption.
Qed.
Lemma opened_in o cs cs' digit ws acts b : opened o digit cs ws acts b -> Forall (fun x => In (fst x) cs') acts -> opened o digit cs' ws acts b.
Proof.
  intros [ws0 a b0 G|ss x t Fs Nn Nx N0 N1|w U Na] F; [apply o_group; eapply group_in; eassumption|apply o_letter; try assumption; eapply flags_in; eassumption|apply o_unknown; assumption].
Qed.
Lemma opened_fit o cs digit ws acts b : opened o digit cs ws acts b -> Forall (fit cs) acts.
Proof. intros [ws0 a b0 G|ss x t Fs Nn Nx N0 N1|w U Na]; [eapply group_fit, G|apply fit_flags, Fs|constructor]. Qed.
Lemma opened_more o hs cs digit ws acts b : opened o digit cs ws acts b -> opened o digit (hs ++ cs) ws acts b.
Proof. intros O. eapply opened_in; [exact O|]. apply opened_fit in O. eapply Forall_impl; [|exact O]. intros x (I & _). apply in_or_app. right. exact I. Qed.
Lemma passed_fit o names cs digit ws acts : passed o digit names cs ws acts -> Forall (fit cs) acts.
Proof. induction 1 as [|ws a b ws' a' O _ IH _|w ws' a' _ _ _ IH]; [constructor| |exact IH]. apply Forall_app. split; [eapply opened_fit, O|exact IH]. Qed.
Lemma take_shown num p k v r : take num p k v r = Shown <-> help k.
Proof.
  split; [|intros [-> | ->]; reflexivity]. unfold help. destruct k, v; cbn [take]; try (intros Z; discriminate); auto;
    repeat match goal with |- context [if ?b then _ else _] => destruct b | |- context [match num ?x with _ => _ end] => destruct (num x) end; discriminate.
Qed.
Section Sets.
  Context (num : str -> option Z) (hs cs : list choice).
  Context (Hh : forall c, In c hs -> help (key_of c) /\ ch_takes c = Nothing) (Hc : forall c, In c cs -> ~ help (key_of c)).
  Lemma shown_split p acts : forall r, Forall (fit (hs ++ cs)) acts -> take_all num p (map keyed acts) r = Shown ->
    exists a c a', acts = a ++ (c, None) :: a' /\ In c hs /\ Forall (fit cs) a /\ exists r1, take_all num p (map keyed a) r = Got r1.
  Proof.
    induction acts as [|(c & v) acts IH]; intros r F H; [discriminate|]. inversion F as [|? ? (Ic & Fc) Fs]; subst. cbn [fst snd] in *. cbn [map take_all] in H. change (keyed (c, v)) with (key_of c, v) in H. cbv iota beta in H.
    destruct (take num p (key_of c) v r) as [r1| |] eqn:Et.
    - cbn [then_] in H. destruct (IH r1 Fs H) as (a & c' & a' & -> & I & Fa & r2 & R). exists ((c, v) :: a), c', a'. split; [reflexivity|]. split; [exact I|]. split.
      + constructor; [|exact Fa]. split; [|exact Fc]. apply in_app_or in Ic as [Ic|Ic]; [|exact Ic]. exfalso. apply Hh in Ic as (Ic & _). apply (take_shown num p _ v r) in Ic. congruence.
      + exists r2. cbn [map take_all]. change (keyed (c, v)) with (key_of c, v). cbv iota beta. rewrite Et. exact R.
    - discriminate.
    - apply take_shown in Et. apply in_app_or in Ic as [Ic|Ic]; [|exfalso; exact (Hc c Ic Et)]. destruct (Hh c Ic) as (_ & Tc). rewrite Tc in Fc. subst v.
      exists [], c, acts. split; [reflexivity|]. split; [exact Ic|]. split; [constructor|]. exists r. reflexivity.
  Qed.
  Lemma shown_join p a c v a' r r1 : In c hs -> take_all num p (map keyed a) r = Got r1 -> take_all num p (map keyed (a ++ (c, v) :: a')) r = Shown.
  Proof.
    intros I H. rewrite map_app, take_all_app, H. cbn [then_ map take_all]. change (keyed (c, v)) with (key_of c, v). cbv iota beta. rewrite (proj2 (take_shown num p (key_of c) v r1)) by (apply Hh, I). reflexivity.
  Qed.
  Lemma got_in p acts : forall r r1, Forall (fit (hs ++ cs)) acts -> take_all num p (map keyed acts) r = Got r1 -> Forall (fun x => In (fst x) cs) acts.
  Proof.
    intros r r1 F H. apply take_all_no_help in H. apply Forall_forall. intros x I. rewrite Forall_forall in F. destruct (F x I) as (J & _). apply in_app_or in J as [J|J]; [|exact J].
    exfalso. unfold no_help in H. rewrite Forall_forall in H. apply (H (keyed x)); [apply in_map, I|]. apply Hh, J.
  Qed.
End Sets.
Lemma global_hs c : In c global_helps -> help (key_of c) /\ ch_takes c = Nothing.
Proof. intros I. in_helps I. each I; (split; [|reflexivity]); [left|right]; reflexivity. Qed.
Lemma local_hs c : In c local_helps -> help (key_of c) /\ ch_takes c = Nothing.
Proof. intros I. in_helps I. each I; (split; [|reflexivity]); left; reflexivity. Qed.
Lemma global_cs c : In c global_choices -> ~ help (key_of c).
Proof. intros I. in_pairs I. each I; intros [Z|Z]; vm_compute in Z; discriminate. Qed.
Lemma local_cs c : In c local_choices -> ~ help (key_of c).
Proof. intros I. in_pairs I. each I; intros [Z|Z]; vm_compute in Z; discriminate. Qed.

(** ** The names do not matter *)
Lemma take_names num p k v n r : take num p k v (on_args (set_names n) r) = then_ (take num p k v r) (fun r => Got (on_args (set_names n) r)).
Proof.
  destruct r as [a u o c i]. destruct k, v; cbn [take on_args r_args r_u r_o r_c r_i]; try reflexivity;
    repeat match goal with |- context [if ?b then _ else _] => destruct b | |- context [match num ?x with _ => _ end] => destruct (num x) end; reflexivity.
Qed.
Lemma take_all_names num p n l : forall r, take_all num p l (on_args (set_names n) r) = then_ (take_all num p l r) (fun r => Got (on_args (set_names n) r)).
Proof.
  induction l as [|(k & v) l IH]; intros r; [reflexivity|]. cbn [take_all]. rewrite take_names, !then_assoc. apply then_ext. intros r1. cbn [then_]. apply IH.
Qed.
Lemma got_names num p n l r r1 : take_all num p l (on_args (set_names n) r) = Got r1 -> exists r2, take_all num p l r = Got r2.
Proof. rewrite take_all_names. destruct (take_all num p l r) as [r2| |]; [eauto|discriminate|discriminate]. Qed.

(** ** The loops *)
Section Loops.
  Context (E : env) (num : str -> option Z) (Hd : digit_ascii E).
  Lemma does_main ms acts x rest r extra : does main_table ms acts false x ->
    main_loop E num (ms ++ rest) r extra = then_ (take_all num OtherParser acts r) (fun r => main_loop E num rest r (extra || x)).
  Proof.
    intros (w & nm & ask & sep & ex & ms2 & -> & H). destruct (H rest) as (took & C & T); [discriminate|]. cbn [app main_loop]. rewrite C. cbn [then_].
    apply then_ext. intros r1. destruct T as [(-> & y & ->)|(-> & ->)]; reflexivity.
  Qed.
  Lemma does_sub p ms acts b x rest r named inside extra : does sub_table ms acts b x -> (b = true -> next_arg rest = None) ->
    sub_loop num p (ms ++ rest) r named inside extra = then_ (take_all num p acts r) (fun r => sub_loop num p rest r named false (extra || x)).
  Proof.
    intros (w & nm & ask & sep & ex & ms2 & -> & H) Hb. destruct (H rest Hb) as (took & C & T). cbn [app sub_loop]. rewrite C. cbn [then_].
    apply then_ext. intros r1. destruct T as [(-> & y & ->)|(-> & ->)]; reflexivity.
  Qed.
  Lemma does_next tbl ms acts b x rest : does tbl ms acts b x -> next_arg (ms ++ rest) = None.
  Proof. intros (w & nm & ask & sep & ex & ms2 & -> & _). reflexivity. Qed.
  Lemma global_opened_whole ws acts b : opened global_options (e_digit E) (global_helps ++ global_choices) ws acts b -> b = false.
  Proof.
    assert (X : forall c, In c (global_helps ++ global_choices) -> ch_takes c = MaybeValue -> False) by (intros c I H; cbn [In app global_helps global_choices] in I; each I; discriminate).
    intros [ws0 a b0 G|ss x t Fs Nn Nx N0 N1|w U Na]; [|reflexivity|reflexivity]. destruct G; try reflexivity; exfalso; eapply X; eassumption.
  Qed.
  Lemma passed_main ws acts : passed global_options (e_digit E) false global_choices ws acts -> exists ms x, marked E main_table ws ms /\
    forall rest r extra, main_loop E num (ms ++ rest) r extra = then_ (take_all num OtherParser (map keyed acts) r) (fun r => main_loop E num rest r (extra || x)).
  Proof.
    induction 1 as [|ws a b ws' a' O _ (ms' & x' & M' & S') _|w ws' a' Z _ _ _]; [|apply (opened_more _ global_helps) in O|discriminate].
    - exists [], false. split; [constructor|]. intros rest r extra. rewrite orb_false_r. reflexivity.
    - pose proof (global_opened_whole _ _ _ O) as ->. destruct (opened_does E main_table _ _ main_all Hd _ _ _ O) as (ms & x & M & D).
      exists (ms ++ ms'), (x || x'). split; [apply marked_app; assumption|]. intros rest r extra. rewrite <- app_assoc, (does_main _ _ _ _ r extra D), map_app, take_all_app, then_assoc. apply then_ext. intros r1.
      rewrite S', orb_assoc. reflexivity.
  Qed.
  Lemma passed_sub p ws acts : passed local_options (e_digit E) true local_choices ws acts -> exists ms, marked E sub_table ws ms /\ (forall w t, ws = w :: t -> ~ argument local_options (e_digit E) w -> forall rest, next_arg (ms ++ rest) = None) /\
    forall rest r named inside extra r1, next_arg rest = None -> take_all num p (map keyed acts) r = Got r1 ->
      exists r2 named' inside' extra', sub_loop num p (ms ++ rest) r named inside extra = sub_loop num p rest r2 named' inside' extra' /\ exists n, r2 = on_args (set_names n) r1 \/ r2 = r1.
  Proof.
    induction 1 as [|ws a b ws' a' O _ (ms' & M' & X' & S') Hb|w ws' a' _ A _ (ms' & M' & X' & S')]; [|apply (opened_more _ local_helps) in O|].
    - exists []. split; [constructor|]. split; [discriminate|]. intros rest r named inside extra r1 _ H. cbn in H. injection H as <-. exists r, named, inside, extra. split; [reflexivity|]. exists []. right. reflexivity.
    - destruct (opened_does E sub_table _ _ sub_all Hd _ _ _ O) as (ms & x & M & D). exists (ms ++ ms'). split; [apply marked_app; assumption|]. split; [intros w t _ _ rest; rewrite <- app_assoc; eapply does_next, D|].
      intros rest r named inside extra r1 Nx H. rewrite map_app, take_all_app in H. destruct (take_all num p (map keyed a) r) as [ra| |] eqn:Ta; try discriminate. cbn [then_] in H.
      rewrite <- app_assoc, (does_sub p _ _ _ _ _ r named inside extra D), Ta.
      + cbn [then_]. apply S'; assumption.
      + intros B. specialize (Hb B). destruct ws' as [|w' t']; [inversion M'; subst; exact Nx|]. apply (X' w' t' eq_refl (Hb w' t' eq_refl)).
    - destruct (argument_parse E sub_table _ _ sub_all Hd w A) as (Dw & Pw). exists ((w, Arg) :: ms'). split; [constructor; [auto|exact M']|]. split; [intros w' t Z Na; injection Z as -> _; contradiction|].
      intros rest r named inside extra r1 Nx H. cbn [app sub_loop]. destruct inside; [apply S'; assumption|]. destruct named; [apply S'; assumption|].
      set (n := remove_dashes _). destruct (S' rest (on_args (set_names n) r) true true extra (on_args (set_names n) r1) Nx) as (r2 & named' & inside' & extra' & Q & n' & R); [rewrite take_all_names, H; reflexivity|].
      exists r2, named', inside', extra'. split; [exact Q|]. destruct R as [-> | ->]; [|exists n; left; reflexivity]. exists n'. left. destruct r1. reflexivity.
  Qed.
  Lemma next_none tbl o cs rest ms : tbl_ok none tbl o cs -> marks E tbl rest = Some ms -> (forall w t, rest = w :: t -> ~ argument o (e_digit E) w) -> next_arg ms = None.
  Proof.
    intros T M H. destruct rest as [|w t]; [cbn in M; injection M as <-; reflexivity|]. apply marks_inv in M as [(_ & ->)|(Dw & m & ms3 & Q & _ & ->)]; [reflexivity|].
    destruct m; try reflexivity. exfalso. apply (H w t eq_refl). apply (argument_iff E tbl o cs T Hd w Dw), Q.
  Qed.
  Lemma request_main wh rest ah : request global_options (e_digit E) global_helps global_choices wh rest ah -> exists ms, marked E main_table wh ms /\
    forall mr r extra r1, take_all num OtherParser (map keyed ah) r = Got r1 -> main_loop E num (ms ++ mr) r extra = Shown.
  Proof.
    intros (c & a' & b & Ic & O & _). pose proof (global_opened_whole _ _ _ O) as ->. destruct (opened_does E main_table _ _ main_all Hd _ _ _ O) as (ms & x & M & D). exists ms. split; [exact M|].
    intros mr r extra r1 H. rewrite (does_main _ _ _ _ r extra D), (shown_join num global_helps global_hs _ _ _ _ _ _ r1 Ic H). reflexivity.
  Qed.
  Lemma request_sub p wh rest ah mr : request local_options (e_digit E) local_helps local_choices wh rest ah -> marks E sub_table rest = Some mr -> exists ms, marked E sub_table wh ms /\ next_arg (ms ++ mr) = None /\
    forall r named inside extra r1, take_all num p (map keyed ah) r = Got r1 -> sub_loop num p (ms ++ mr) r named inside extra = Shown.
  Proof.
    intros (c & a' & b & Ic & O & Hb) Mr. destruct (opened_does E sub_table _ _ sub_all Hd _ _ _ O) as (ms & x & M & D). exists ms. split; [exact M|]. split; [eapply does_next, D|].
    intros r named inside extra r1 H. rewrite (does_sub p _ _ _ _ _ r named inside extra D), (shown_join num local_helps local_hs _ _ _ _ _ _ r1 Ic H); [reflexivity|].
    intros B. apply (next_none sub_table _ _ rest mr sub_all Mr). exact (Hb B).
  Qed.

  Lemma all_args_not_shown p l : (forall y, In y l -> snd y = Arg \/ snd y = Dashes) -> forall r named inside extra, sub_loop num p l r named inside extra <> Shown.
  Proof.
    induction l as [|(w & m) l IH]; intros F r named inside extra; [discriminate|]. pose proof (F (w, m) (or_introl eq_refl)) as Fm. cbn in Fm. assert (Fl : forall y, In y l -> snd y = Arg \/ snd y = Dashes) by (intros y I; apply F; right; exact I).
    cbn [sub_loop]. destruct Fm as [-> | ->]; (destruct inside; [apply IH, Fl|]); (destruct named; apply IH, Fl).
  Qed.
  Lemma sub_shown p : forall n ws ms r named inside extra, length ws <= n -> marks E sub_table ws = Some ms -> sub_loop num p ms r named inside extra = Shown ->
    exists w2 a2 wh ah rest, ws = w2 ++ wh ++ rest /\ passed local_options (e_digit E) true local_choices w2 a2 /\ request local_options (e_digit E) local_helps local_choices wh rest ah
      /\ Forall (fit local_choices) ah /\ exists r1, take_all num p (map keyed (a2 ++ ah)) r = Got r1.
  Proof.
    induction n as [|n IH]; intros ws ms r named inside extra L M H; (destruct ws as [|w ws]; [cbn in M; injection M as <-; discriminate|]); cbn [length] in L; [lia|].
    destruct (marks_inv _ _ _ _ _ M) as [(-> & ->)|(Dw & m & ms1 & P & M1 & ->)].
    { exfalso. revert H. apply all_args_not_shown. intros y [<-|I]; [right; reflexivity|]. apply in_map_iff in I as (z & <- & _). left. reflexivity. }
    destruct m as [| |ask nm sep ex]; [|exfalso; exact (parse_not_dashes _ _ _ P)|].
    - assert (A : argument local_options (e_digit E) w) by (apply (argument_iff E sub_table _ _ sub_all Hd w Dw), P).
      assert (Q : exists r' named' inside' extra', sub_loop num p ms1 r' named' inside' extra' = Shown /\ (r' = r \/ exists n, r' = on_args (set_names n) r)).
      { cbn [sub_loop] in H. destruct inside; [eauto 10|]. destruct named; [eauto 10|]. eauto 10. }
      destruct Q as (r' & named' & inside' & extra' & Q & R). apply (IH ws) in Q; [|lia|exact M1]. destruct Q as (w2 & a2 & wh & ah & rest & -> & Ps & Rq & Fa & r1 & T).
      exists (w :: w2), a2, wh, ah, rest. split; [reflexivity|]. split; [apply p_name; auto|]. split; [exact Rq|]. split; [exact Fa|].
      destruct R as [->|(n0 & ->)]; [eauto|]. eapply got_names, T.
    - cbn [sub_loop] in H. destruct (consume_optional sub_table ask nm sep ex (next_arg ms1)) as [((l & x) & took)| |] eqn:C; [|discriminate|exfalso; exact (consume_not_shown _ _ _ _ _ _ C)]. cbn [then_] in H.
      destruct (opened_inv E sub_table _ _ sub_all Hd _ _ _ _ _ _ _ _ _ _ _ M C) as (acts & b & wg & ws2 & ms2 & Ew & L2 & M2 & O & -> & Hm & Hb).
      destruct (take_all num p (map keyed acts) r) as [r1| |] eqn:Tk; [|discriminate|].
      + cbn [then_] in H. assert (H' : sub_loop num p ms2 r1 named false (extra || x) = Shown) by (destruct took; [destruct Hm as (y & ->); exact H|subst ms1; exact H]).
        apply (IH ws2) in H'; [|lia|exact M2]. destruct H' as (w2 & a2 & wh & ah & rest & -> & Ps & Rq & Fa & r2 & T).
        exists (wg ++ w2), (acts ++ a2), wh, ah, rest. split; [rewrite Ew, <- app_assoc; reflexivity|]. split; [|split; [exact Rq|split; [exact Fa|]]].
        * eapply p_option; [|exact Ps|].
          -- eapply opened_in; [exact O|]. eapply (got_in num local_helps local_choices local_hs); [eapply opened_fit, O|exact Tk].
          -- intros B v t ->. exact (Hb B v _ eq_refl).
        * exists r2. rewrite <- app_assoc, map_app, take_all_app, Tk. exact T.
      + clear H. destruct (shown_split num local_helps local_choices local_hs local_cs p acts r (opened_fit _ _ _ _ _ _ O) Tk) as (a & c & a' & -> & Ic & Fa & r1 & T).
        exists [], [], wg, a, ws2. split; [exact Ew|]. split; [constructor|]. split; [exists c, a', b; auto|]. split; [exact Fa|]. exists r1. exact T.
  Qed.
  Lemma main_shown : forall n ws ms r extra, length ws <= n -> marks E main_table ws = Some ms -> main_loop E num ms r extra = Shown ->
    (exists w1 a1 wh ah rest, ws = w1 ++ wh ++ rest /\ passed global_options (e_digit E) false global_choices w1 a1 /\ request global_options (e_digit E) global_helps global_choices wh rest ah
      /\ Forall (fit global_choices) ah /\ exists r1, take_all num OtherParser (map keyed (a1 ++ ah)) r = Got r1)
    \/ exists w1 a1 w w2 r1, ws = w1 ++ w :: w2 /\ passed global_options (e_digit E) false global_choices w1 a1 /\ take_all num OtherParser (map keyed a1) r = Got r1 /\ sub_command E num w w2 r1 = Shown.
  Proof.
    induction n as [|n IH]; intros ws ms r extra L M H; (destruct ws as [|w ws]; [cbn in M; injection M as <-; discriminate|]); cbn [length] in L; [lia|].
    destruct (marks_inv _ _ _ _ _ M) as [(-> & ->)|(Dw & m & ms1 & P & M1 & ->)]; [discriminate|]. destruct m as [| |ask nm sep ex]; [|discriminate|].
    - right. cbn [main_loop] in H. rewrite (marks_words _ _ _ _ M1) in H. exists [], [], w, ws, r. split; [reflexivity|]. split; [constructor|]. split; [reflexivity|].
      destruct (sub_command E num w ws r) as [(r1 & x)| |]; [discriminate|discriminate|reflexivity].
    - cbn [main_loop] in H. destruct (consume_optional main_table ask nm sep ex (next_arg ms1)) as [((l & x) & took)| |] eqn:C; [|discriminate|exfalso; exact (consume_not_shown _ _ _ _ _ _ C)]. cbn [then_] in H.
      destruct (opened_inv E main_table _ _ main_all Hd _ _ _ _ _ _ _ _ _ _ _ M C) as (acts & b & wg & ws2 & ms2 & Ew & L2 & M2 & O & -> & Hm & Hb).
      destruct (take_all num OtherParser (map keyed acts) r) as [r1| |] eqn:Tk; [|discriminate|].
      + cbn [then_] in H. assert (H' : main_loop E num ms2 r1 (extra || x) = Shown) by (destruct took; [destruct Hm as (y & ->); exact H|subst ms1; exact H]).
        assert (O' : opened global_options (e_digit E) global_choices wg acts b) by (eapply opened_in; [exact O|]; eapply (got_in num global_helps global_choices global_hs); [eapply opened_fit, O|exact Tk]).
        apply (IH ws2) in H'; [|lia|exact M2]. destruct H' as [(w1 & a1 & wh & ah & rest & -> & Ps & Rq & Fa & r2 & T)|(w1 & a1 & v & w2 & r2 & -> & Ps & T & S)].
        * left. exists (wg ++ w1), (acts ++ a1), wh, ah, rest. split; [rewrite Ew, <- app_assoc; reflexivity|]. split; [|split; [exact Rq|split; [exact Fa|]]].
          -- eapply p_option; [exact O'|exact Ps|]. intros B v t ->. exact (Hb B v _ eq_refl).
          -- exists r2. rewrite <- app_assoc, map_app, take_all_app, Tk. exact T.
        * right. exists (wg ++ w1), (acts ++ a1), v, w2, r2. split; [rewrite Ew, <- app_assoc; reflexivity|]. split; [|split; [|exact S]].
          -- eapply p_option; [exact O'|exact Ps|]. intros B u t ->. exact (Hb B u _ eq_refl).
          -- rewrite map_app, take_all_app, Tk. exact T.
      + clear H. left. destruct (shown_split num global_helps global_choices global_hs global_cs OtherParser acts r (opened_fit _ _ _ _ _ _ O) Tk) as (a & c & a' & -> & Ic & Fa & r1 & T).
        exists [], [], wg, a, ws2. split; [exact Ew|]. split; [constructor|]. split; [exists c, a', b; auto|]. split; [exact Fa|]. exists r1. exact T.
  Qed.
End Loops.

(** ** Words with two meanings *)
Lemma two_iff E tbl o cs w : tbl_ok none tbl o cs -> w <> lit "--" -> parse_optional E tbl w = None <-> two_options (o_names o) w.
Proof.
  intros T Hw. pose proof (parse_cases E tbl _ _ w T Hw) as W. split.
  - intros H. rewrite H in W. inversion W as [|U Z| | |n x y r1 r2 NP H2 Ix Iy Nxy Ex Ey]; subst; [destruct (looks_negative E w); [discriminate|]; destruct (cin cSP w); discriminate|].
    exists n, (n ++ r1), (n ++ r2), r1, r2. repeat split; try assumption; apply NP.
  - intros (n & x & y & r1 & r2 & NP & H2 & Ix & Iy & Nxy & Ex & Ey).
    assert (Hh : exists u, w = 45%N :: 45%N :: u).
    { destruct n as [|a [|b n]]; try discriminate. injection H2 as -> ->. destruct NP as (_ & [->|(v & ->)]); eexists; reflexivity. }
    destruct W as [P|U|c k sep e N0 N1 F Z|n' name k e I J S N0 Z|]; [exfalso|exfalso|exfalso|exfalso|reflexivity].
    + destruct Hh as (u & ->). destruct P as [P|P]; [discriminate|cbn in P; congruence].
    + destruct Hh as (u & Hu). destruct U as [(c & t & Z & Nc & _)|(_ & n' & NP' & H)]; [rewrite Hu in Z; injection Z as <- _; congruence|]. rewrite (named_unique _ _ _ NP' NP) in H. exact (H x r1 Ix Ex).
    + destruct Hh as (u & Hu). destruct Z as [(_ & _ & Z)|[(v & _ & _ & Z)|(v & _ & _ & Z & _)]]; rewrite Hu in Z; injection Z as <- _; congruence.
    + assert (NP' : named_part w n') by (split; [exact N0|destruct Z as [(_ & ->)|(v & _ & ->)]; eauto]). rewrite (named_unique _ _ _ NP' NP) in S. destruct S as (_ & _ & S).
      apply Nxy. rewrite (S x r1 Ix Ex), (S y r2 Iy Ey). reflexivity.
Qed.
Lemma marks_clear E tbl o cs ws : tbl_ok none tbl o cs -> marks E tbl ws <> None <-> clear_words (o_names o) ws.
Proof.
  intros T. induction ws as [|x ws IH]; [split; [intros _ u w v Z; destruct u; discriminate|discriminate]|]. cbn [marks]. destruct (seqb x (lit "--")) eqn:Ex.
  - apply seqb_eq in Ex. subst x. split; [|discriminate]. intros _ u w v Z N0. exfalso. apply N0. destruct u as [|a u]; injection Z as <- _; left; reflexivity.
  - apply seqb_neq in Ex. pose proof (two_iff E tbl o cs x T Ex) as D. split.
    + intros H [|a u] w v Z N0; injection Z as <- Z.
      * rewrite <- D. intros Q. rewrite Q in H. congruence.
      * destruct (parse_optional E tbl x); [|congruence]. destruct (marks E tbl ws); [|congruence]. apply (proj1 IH ltac:(discriminate) u w v Z). intros I. apply N0. right. exact I.
    + intros H. assert (D1 : ~ two_options (o_names o) x) by (apply (H [] x ws eq_refl); intros [I|[]]; congruence). destruct (parse_optional E tbl x); [|tauto].
      assert (R : marks E tbl ws <> None); [|destruct (marks E tbl ws); [discriminate|congruence]]. apply IH. intros u w v Z N0. apply (H (x :: u) w v); [rewrite Z; reflexivity|]. intros [I|I]; [congruence|exact (N0 I)].
Qed.

(** ** C65 *)
Theorem C65_help : forall E num ws, digit_ascii E -> (parse_args E num ws = Shown <-> help_line num (e_digit E) ws).
Proof.
  intros E num ws Hd. pose proof (marks_clear E main_table _ _ ws main_all) as MC. change (o_names global_options) with global_names in MC. unfold parse_args, help_line. split.
  - intros H. destruct (marks E main_table ws) as [ms|] eqn:M; [|discriminate]. split; [apply MC; discriminate|].
    destruct (main_loop E num ms defaults false) as [(r & x)| |] eqn:L; [destruct x; discriminate|discriminate|].
    destruct (main_shown E num Hd _ _ _ _ _ (le_n _) M L) as [(w1 & a1 & wh & ah & rest & -> & Ps & Rq & Fa & r1 & T)|(w1 & a1 & w & w2 & r1 & -> & Ps & T & S)].
    + left. assert (F : Forall (fit global_choices) (a1 ++ ah)) by (apply Forall_app; split; [eapply passed_fit, Ps|exact Fa]). destruct (globals_means num _ _ _ F T) as (gs & Mg).
      exists w1, a1, wh, ah, rest, gs. split; [reflexivity|]. split; [exact Ps|]. split; [exact Rq|]. split; [exact Mg|]. rewrite (globals_does num _ _ F Mg), globals_value in T by reflexivity. cbn [r_c r_i defaults orb] in T.
      rewrite clash_iff. cbn. destruct (turned NoCoherence gs && turned NoIndentation gs); [discriminate|]. intros [Z|Z]; discriminate.
    + right. unfold sub_command in S. destruct (find_str subparsers w) as [p|] eqn:Fp; [|discriminate]. apply named_parser in Fp as (Hp & ->). destruct (marks E sub_table w2) as [ms2|] eqn:M2; [|discriminate].
      destruct (sub_shown E num Hd p _ _ _ _ _ _ _ (le_n _) M2 S) as (w3 & a3 & wh & ah & rest & -> & P3 & Rq & Fa & r2 & T2).
      pose proof (passed_fit _ _ _ _ _ _ Ps) as F1. assert (F2 : Forall (fit local_choices) (a3 ++ ah)) by (apply Forall_app; split; [eapply passed_fit, P3|exact Fa]).
      destruct (globals_means num _ _ _ F1 T) as (gs & Mg). destruct (locals_means num p _ Hp _ _ F2 T2) as (ls & Ml).
      exists w1, a1, gs, p, w3, a3, wh, ah, rest, ls. split; [exact Hp|]. split; [reflexivity|]. split; [exact Ps|]. split; [exact Mg|]. split; [exact P3|]. split; [exact Rq|]. split; [exact Ml|]. split.
      * rewrite (globals_does num _ _ F1 Mg), globals_value in T by reflexivity. cbn [r_c r_i r_u r_o r_args defaults orb] in T. rewrite clash_iff. destruct (turned NoCoherence gs && turned NoIndentation gs); [discriminate|].
        injection T as <-. rewrite (locals_does num p _ _ Hp F2 Ml), locals_value in T2; [|exact Hp|eapply means_valid, Ml|reflexivity]. cbn [r_c r_i r_u r_o r_args on_args orb] in T2.
        destruct (has_ordered ls && has_bullet ls); [discriminate|]. intros [Z|Z]; discriminate.
      * apply (marks_clear E sub_table _ _ _ sub_all). congruence.
  - intros (C & H). apply MC in C. destruct (marks E main_table ws) as [ms|] eqn:M; [|congruence]. clear C MC.
    assert (R : main_loop E num ms defaults false = Shown); [|rewrite R; reflexivity].
    destruct H as [(w1 & a1 & wh & ah & rest & gs & -> & Ps & Rq & Mg & Nc)|(w1 & a1 & gs & p & w2 & a2 & wh & ah & rest & ls & Hp & -> & Ps & Mg & P2 & Rq & Ml & Nc & C2)].
    + destruct (passed_main E num Hd _ _ Ps) as (m1 & x & M1 & S1). destruct (request_main E num Hd _ _ _ Rq) as (mh & Mh & Sh). rewrite (marks_app _ _ _ _ _ M1), (marks_app _ _ _ _ _ Mh) in M.
      destruct (marks E main_table rest) as [mr|]; [|discriminate]. cbn [option_map] in M. injection M as <-.
      assert (Fh : Forall (fit global_choices) (a1 ++ ah)).
      { apply Forall_app. split; [eapply passed_fit, Ps|]. destruct Rq as (c & a' & b & _ & O & _). apply opened_fit in O. apply Forall_app in O as (O & _).
        apply Forall2_app_inv_l in Mg as (g1 & g2 & _ & M2 & _). clear -O M2. induction M2 as [|y g l gs My _ IH]; [constructor|]. inversion O as [|? ? (I & Fy) O2]; subst. constructor; [|apply IH, O2]. split; [|exact Fy].
        apply in_app_or in I as [I|I]; [|exact I]. exfalso. in_helps I. destruct y as (c & v). cbn [fst] in I. each I; inversion My as [c0 s Z|c0 m Z|c0 n Z|c0 v0 n Z]; subst; try discriminate; destruct s; discriminate. }
      assert (T : exists r1, take_all num OtherParser (map keyed (a1 ++ ah)) defaults = Got r1).
      { rewrite (globals_does num _ _ Fh Mg), globals_value by reflexivity. cbn [r_c r_i defaults orb]. rewrite clash_iff in Nc. destruct (turned NoCoherence gs && turned NoIndentation gs); [exfalso; apply Nc; left; reflexivity|]. eauto. }
      destruct T as (r1 & T). rewrite map_app, take_all_app in T. rewrite S1. destruct (take_all num OtherParser (map keyed a1) defaults) as [r2| |]; try discriminate. cbn [then_] in T |- *. eapply Sh, T.
    + destruct (passed_main E num Hd _ _ Ps) as (m1 & x & M1 & S1). pose proof (passed_fit _ _ _ _ _ _ Ps) as F1.
      destruct (parser_named p Hp) as (Fp & Pw). destruct (plain_arg E _ Pw) as (D0 & A & _). apply seqb_neq in D0.
      rewrite (marks_app _ _ _ _ _ M1) in M. cbn [marks] in M. rewrite D0, A in M. destruct (marks E main_table (w2 ++ wh ++ rest)) as [mm|] eqn:Em; [|discriminate]. cbn [option_map] in M. injection M as <-.
      apply (marks_clear E sub_table _ _ _ sub_all) in C2. destruct (marks E sub_table (w2 ++ wh ++ rest)) as [ms2|] eqn:M2; [|congruence].
      destruct (passed_sub E num Hd p _ _ P2) as (m2 & K2 & _ & S2).
      assert (Mr : exists mr, marks E sub_table rest = Some mr).
      { destruct Rq as (c & a' & b & _ & O & _). destruct (opened_does E sub_table _ _ sub_all Hd _ _ _ O) as (mh & y & Mh & _). rewrite (marks_app _ _ _ _ _ K2), (marks_app _ _ _ _ _ Mh) in M2. destruct (marks E sub_table rest); [eauto|discriminate]. }
      destruct Mr as (mr & Mr). destruct (request_sub E num Hd p _ _ _ _ Rq Mr) as (mh & Mh & Nh & Sh). rewrite (marks_app _ _ _ _ _ K2), (marks_app _ _ _ _ _ Mh), Mr in M2. cbn [option_map] in M2. injection M2 as <-.
      assert (F2 : Forall (fit local_choices) (a2 ++ ah)).
      { apply Forall_app. split; [eapply passed_fit, P2|]. destruct Rq as (c & a' & b & _ & O & _). apply opened_fit in O. apply Forall_app in O as (O & _).
        apply Forall2_app_inv_l in Ml as (g1 & g2 & _ & Q2 & _). clear -O Q2. induction Q2 as [|y g l gs My _ IH]; [constructor|]. inversion O as [|? ? (I & Fy) O2]; subst. constructor; [|apply IH, O2]. split; [|exact Fy].
        apply in_app_or in I as [I|I]; [|exact I]. exfalso. in_helps I. destruct y as (c & v). cbn [fst] in I. each I; inversion My; subst; discriminate. }
      rewrite clash_iff in Nc. rewrite S1, (globals_does num _ _ F1 Mg), globals_value by reflexivity. cbn [r_c r_i r_u r_o r_args defaults orb].
      destruct (turned NoCoherence gs && turned NoIndentation gs); [exfalso; apply Nc; left; reflexivity|]. cbn [then_ main_loop orb].
      rewrite (marks_words _ _ _ _ Em). unfold sub_command. rewrite Fp, (marks_app _ _ _ _ _ K2), (marks_app _ _ _ _ _ Mh), Mr. cbn [option_map].
      set (r0 := on_args (set_parser p) _).
      assert (T : exists r1, take_all num p (map keyed (a2 ++ ah)) r0 = Got r1).
      { rewrite (locals_does num p _ _ Hp F2 Ml), locals_value; [|exact Hp|eapply means_valid, Ml|reflexivity]. unfold r0. cbn [r_c r_i r_u r_o r_args on_args orb]. destruct (has_ordered ls && has_bullet ls); [exfalso; apply Nc; right; reflexivity|]. eauto. }
      destruct T as (r1 & T). rewrite map_app, take_all_app in T. destruct (take_all num p (map keyed a2) r0) as [r2| |] eqn:T2; try discriminate. cbn [then_] in T.
      destruct (S2 (mh ++ mr) r0 false false false r2 Nh T2) as (r3 & named & inside & extra & Q & n & R). rewrite Q.
      assert (T3 : exists r4, take_all num p (map keyed ah) r3 = Got r4) by (destruct R as [-> | ->]; [rewrite take_all_names, T; cbn [then_]; eauto|eauto]).
      destruct T3 as (r4 & T3). rewrite (Sh r3 named inside extra r4 T3). reflexivity.
Qed.
Print Assumptions C65_help.
(** Every line is accepted, asks for the help or the version, or is refused. *)
Theorem C65_refused : forall E num ws, digit_ascii E ->
  (parse_args E num ws = Usage <-> ~ help_line num (e_digit E) ws /\ forall gs p ls names, accepted_line num (e_digit E) ws gs p ls names -> clash gs ls).
Proof.
  intros E num ws Hd. rewrite <- (C65_help E num ws Hd). split.
  - intros H. split; [congruence|]. intros gs p ls names A. rewrite clash_iff, <- orb_true_iff. rewrite (accepted_read E num ws gs p ls names Hd A) in H. destruct (_ || _); [reflexivity|discriminate].
  - intros (Nh & H). destruct (parse_args E num ws) as [a| |] eqn:P; [|reflexivity|congruence]. exfalso. apply C65_exactly in P as (gs & p & ls & names & A & C & _); [|exact Hd]. apply C. eapply H, A.
Qed.
Print Assumptions C65_refused.

(** md_toc -dq --zzz -pv: the version, although -q and --zzz are no options. *)
Definition version_words : list str := [lit "-dq"; lit "--zzz"; lit "-pv"; lit "--no"].
(** md_toc -p github a.md -u + -cho b.md: the help for the parser. *)
Definition help_words : list str := [lit "-p"; lit "github"; lit "a.md"; lit "-u"; lit "+"; lit "-cho"; lit "b.md"].
Example C65_help_ex : parse_args ascii_env simple_int help_words = Shown /\ help_line simple_int (e_digit ascii_env) help_words
  /\ ~ help_line simple_int (e_digit ascii_env) version_words /\ help_line simple_int (e_digit ascii_env) (removelast version_words).
Proof.
  assert (P : parse_args ascii_env simple_int help_words = Shown) by (vm_compute; reflexivity). split; [exact P|].
  split; [apply C65_help; [exact digit_ascii_ex|exact P]|]. split; [rewrite <- (C65_help ascii_env simple_int version_words digit_ascii_ex); vm_compute; discriminate|].
  apply C65_help; [exact digit_ascii_ex|]. vm_compute. reflexivity.
Qed.
(** Read from the specification alone. *)
Example C65_help_spec_ex : help_line simple_int (e_digit ascii_env) help_words.
Proof.
  pose (cp := Choice (lit "--in-place") 112 Nothing). pose (cu := Choice (lit "--unordered-list-marker") 117 MaybeValue). pose (cc := Choice (lit "--constant-ordered-list") 99 Nothing).
  pose (co := Choice (lit "--ordered-list-marker") 111 MaybeValue). pose (ch := Choice (lit "--help") 104 Nothing).
  split; [apply (marks_clear ascii_env main_table _ _ _ main_all); vm_compute; discriminate|]. right.
  exists [lit "-p"], [(cp, None)], [Turn InPlace], Github, [lit "a.md"; lit "-u"; lit "+"], [(cu, Some (lit "+"))], [lit "-cho"; lit "b.md"], [(cc, None)], [], [Unordered (lit "+"); Constant].
  split; [discriminate|]. split; [reflexivity|]. split.
  { apply (p_option _ _ _ _ [lit "-p"] [(cp, None)] false [] []); [apply o_group|constructor|discriminate]. apply (g_letters global_options global_choices _ [cp]); [constructor; [split; [cbn; tauto|reflexivity]|constructor]|discriminate]. }
  split; [constructor; [apply (mg_switch _ cp InPlace); reflexivity|constructor]|]. split.
  { apply p_name; [reflexivity|left; right; discriminate|]. apply (p_option _ _ _ _ [lit "-u"; lit "+"] [(cu, Some (lit "+"))] false [] []); [apply o_group|constructor|discriminate].
    apply (g_next local_options local_choices _ [] cu (lit "+")); [constructor|split; [cbn; tauto|discriminate]|left; right; discriminate]. }
  split.
  { exists ch, [(co, Some (lit "b.md"))], false. split; [left; reflexivity|]. split; [apply o_group|discriminate].
    apply (g_next local_options (local_helps ++ local_choices) _ [cc; ch] co (lit "b.md")); [|split; [cbn; tauto|discriminate]|left; right; discriminate].
    constructor; [split; [cbn; tauto|reflexivity]|]. constructor; [split; [cbn; tauto|reflexivity]|constructor]. }
  split; [constructor; [apply ml_unordered; [reflexivity|cbn; tauto]|constructor; [apply ml_constant; reflexivity|constructor]]|].
  split; [intros [(I & _)|((m & I) & _)]; cbn in I; intuition discriminate|]. apply (marks_clear ascii_env sub_table _ _ _ sub_all). vm_compute. discriminate.
Qed.
Example C65_refused_ex : parse_args ascii_env simple_int version_words = Usage /\ ~ help_line simple_int (e_digit ascii_env) version_words.
Proof.
  assert (P : parse_args ascii_env simple_int version_words = Usage) by (vm_compute; reflexivity). split; [exact P|]. apply (C65_refused ascii_env simple_int version_words digit_ascii_ex). exact P.
Qed.
