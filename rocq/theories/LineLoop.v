(** Proofs for LineSpec.v: what the words set, and the loops over the words. *)
From Coq Require Import String List NArith ZArith Bool Arith Lia.
From Verif Require Import Str StrFacts EnvSpec Anchor Toc Cli Args CallSpec Argv ArgvSpec LineSpec PropArgs PropArgv PropArgv2 LineProof.
Import ListNotations.
Local Open Scope list_scope.

(** ** What is set *)
Definition fit (cs : list choice) (x : choice * option str) : Prop :=
  In (fst x) cs /\ match ch_takes (fst x) with Nothing => snd x = None | Value => snd x <> None | MaybeValue => True end.
Lemma fit_flags cs ss : flags cs ss -> Forall (fit cs) (set ss).
Proof. unfold flags. induction 1 as [|s ss (I & H) _ IH]; cbn; constructor; [|exact IH]. split; [exact I|]. cbn. rewrite H. reflexivity. Qed.
Lemma fit_value cs c v : with_value cs c -> fit cs (c, Some v).
Proof. intros (I & H). split; [exact I|]. cbn. destruct (ch_takes c); [congruence|discriminate|exact Logic.I]. Qed.
Lemma fit_maybe cs c v : In c cs -> ch_takes c = MaybeValue -> fit cs (c, v).
Proof. intros I H. split; [exact I|]. cbn. rewrite H. exact Logic.I. Qed.
Lemma group_fit o cs digit ws acts b : group o cs digit ws acts b -> Forall (fit cs) acts.
Proof.
  destruct 1; repeat (apply Forall_app; split); try (apply fit_flags; assumption); (apply Forall_cons; [|apply Forall_nil]);
    try (apply fit_value; assumption); try (apply fit_maybe; assumption). split; [assumption|]. cbn. rewrite H0. reflexivity.
Qed.
Lemma groups_fit o cs digit ws acts b : groups o cs digit ws acts b -> Forall (fit cs) acts.
Proof. induction 1 as [|ws a b ws' a' b' G _ IH]; [constructor|]. apply Forall_app. split; [eapply group_fit, G|exact IH]. Qed.
Lemma take_all_app num p l l' : forall r, take_all num p (l ++ l') r = then_ (take_all num p l r) (take_all num p l').
Proof. induction l as [|(k, v) l IH]; intros r; [reflexivity|]. cbn [app take_all]. rewrite then_assoc. apply then_ext. exact IH. Qed.
Lemma take_all_no_help num p l : forall r r', take_all num p l r = Got r' -> no_help (hp:=help) l.
Proof.
  induction l as [|(k, v) l IH]; intros r r' H; [constructor|]. cbn [take_all] in H. destruct (take num p k v r) as [r1| |] eqn:E; try discriminate. cbn [then_] in H.
  constructor; [|eapply IH, H]. cbn. intros [-> | ->]; discriminate.
Qed.
Lemma global_means num x r r' : fit global_choices x -> take num OtherParser (fst (keyed x)) (snd (keyed x)) r = Got r' -> exists g, means_global num x g.
Proof.
  destruct x as (c & v). intros (I & F) H. cbn [fst snd keyed] in *. in_pairs I.
  each I; cbn [ch_takes] in F.
  1-5: subst v; eexists; eapply mg_switch.
  1: instantiate (1 := NoCoherence); reflexivity. 1: instantiate (1 := NoIndentation); reflexivity. 1: instantiate (1 := Diff); reflexivity. 1: instantiate (1 := NoLinks); reflexivity. 1: instantiate (1 := InPlace); reflexivity.
  all: destruct v as [v|]; [|congruence].
  - eexists. apply mg_marker. reflexivity.
  - change (key_of _) with KNewline in H. cbn [take] in H. destruct (sin v _) eqn:S; [|discriminate]. apply sin_iff in S. eexists. apply mg_newline; [reflexivity|exact S].
  - change (key_of _) with KSkip in H. cbn [take] in H. destruct (num v) as [n|] eqn:S; [|discriminate]. eexists. apply (mg_skip num _ _ n); [reflexivity|exact S].
Qed.
Lemma global_does num x g r : fit global_choices x -> means_global num x g -> take num OtherParser (fst (keyed x)) (snd (keyed x)) r = do_global g r.
Proof.
  intros (I & _) M. destruct M as [c s Hn|c m Hn|c n Hn Hm|c v n Hn Hm]; cbn [fst snd keyed] in *; in_pairs I.
  - each I; destruct s; try discriminate Hn; reflexivity.
  - each I; try discriminate Hn. reflexivity.
  - each I; try discriminate Hn. change (key_of _) with KNewline. cbn [take do_global]. rewrite (proj2 (sin_iff _ _) Hm). reflexivity.
  - each I; try discriminate Hn. change (key_of _) with KSkip. cbn [take do_global]. rewrite Hm. reflexivity.
Qed.
Lemma globals_means num acts : forall r r', Forall (fit global_choices) acts -> take_all num OtherParser (map keyed acts) r = Got r' -> exists gs, Forall2 (means_global num) acts gs.
Proof.
  induction acts as [|x acts IH]; intros r r' F H; [exists []; constructor|]. inversion F as [|? ? Fx Fs]; subst. cbn [map take_all] in H. destruct (keyed x) as (k & v) eqn:Ek.
  destruct (take num OtherParser k v r) as [r1| |] eqn:Et; try discriminate. cbn [then_] in H. destruct (IH _ _ Fs H) as (gs & M). destruct (global_means num x r r1 Fx) as (g & Mg); [rewrite Ek; exact Et|].
  exists (g :: gs). constructor; assumption.
Qed.
Lemma globals_does num acts gs : Forall (fit global_choices) acts -> Forall2 (means_global num) acts gs -> forall r, take_all num OtherParser (map keyed acts) r = do_all do_global gs r.
Proof.
  intros F M. induction M as [|x g acts gs Mx _ IH]; intros r; [reflexivity|]. inversion F as [|? ? Fx Fs]; subst. cbn [map take_all do_all]. rewrite <- (global_does num x g r Fx Mx).
  destruct (keyed x) as (k & v). apply then_ext. exact (IH Fs).
Qed.
Lemma marker_lists p : p <> OtherParser -> (forall m, sin m (bullet_markers p) = true <-> In m [lit "-"; lit "+"; lit "*"]) /\ forall m, sin m (closing_markers p) = true <-> right_marker p true m.
Proof. intros Hp. split; intros m; rewrite sin_iff; destruct p; try congruence; reflexivity. Qed.
Lemma local_means num p x r r' : p <> OtherParser -> fit local_choices x -> take num p (fst (keyed x)) (snd (keyed x)) r = Got r' -> exists l, means_local num p x l.
Proof.
  intros Hp. destruct (marker_lists p Hp) as (B & C). destruct x as (c & v). intros (I & F) H. cbn [fst snd keyed] in *. in_pairs I.
  each I; cbn [ch_takes] in F.
  - subst v. exists Constant. apply ml_constant. reflexivity.
  - destruct v as [v|]; [|eexists; apply ml_unordered_bare; reflexivity]. change (key_of _) with KUnordered in H. cbn [take] in H. destruct (sin v _) eqn:S; [|discriminate]. apply B in S. eexists. apply ml_unordered; [reflexivity|exact S].
  - destruct v as [v|]; [|eexists; apply ml_ordered_bare; reflexivity]. change (key_of _) with KOrdered in H. cbn [take] in H. destruct (sin v _) eqn:S; [|discriminate]. apply C in S. eexists. apply ml_ordered; [reflexivity|exact S].
  - destruct v as [v|]; [|eexists; apply ml_levels_bare; reflexivity]. change (key_of _) with KLevels in H. cbn [take] in H. destruct (num v) as [n|] eqn:S; [|discriminate].
    destruct (cli_levels n) eqn:L; [|discriminate]. eexists. apply (ml_levels num p _ _ n); [reflexivity|exact S|]. unfold cli_levels in L. lia.
Qed.
Lemma local_does num p x l r : p <> OtherParser -> fit local_choices x -> means_local num p x l -> take num p (fst (keyed x)) (snd (keyed x)) r = do_local p l r.
Proof.
  intros Hp (I & _) M. destruct M as [c m Hn Hm|c Hn|c m Hn Hm|c Hn|c Hn|c v n Hn Hm Hl|c Hn]; cbn [fst snd keyed] in *; in_pairs I; each I; try discriminate Hn; try reflexivity.
  change (key_of _) with KLevels. cbn [take do_local]. rewrite Hm. replace (cli_levels n) with true; [reflexivity|]. symmetry. unfold cli_levels. lia.
Qed.
Lemma locals_means num p acts : p <> OtherParser -> forall r r', Forall (fit local_choices) acts -> take_all num p (map keyed acts) r = Got r' -> exists ls, Forall2 (means_local num p) acts ls.
Proof.
  intros Hp. induction acts as [|x acts IH]; intros r r' F H; [exists []; constructor|]. inversion F as [|? ? Fx Fs]; subst. cbn [map take_all] in H. destruct (keyed x) as (k & v) eqn:Ek.
  destruct (take num p k v r) as [r1| |] eqn:Et; try discriminate. cbn [then_] in H. destruct (IH _ _ Fs H) as (ls & M). destruct (local_means num p x r r1 Hp Fx) as (l & Ml); [rewrite Ek; exact Et|].
  exists (l :: ls). constructor; assumption.
Qed.
Lemma locals_does num p acts ls : p <> OtherParser -> Forall (fit local_choices) acts -> Forall2 (means_local num p) acts ls -> forall r, take_all num p (map keyed acts) r = do_all (do_local p) ls r.
Proof.
  intros Hp F M. induction M as [|x l acts ls Mx _ IH]; intros r; [reflexivity|]. inversion F as [|? ? Fx Fs]; subst. cbn [map take_all do_all]. rewrite <- (local_does num p x l r Hp Fx Mx).
  destruct (keyed x) as (k & v). apply then_ext. exact (IH Fs).
Qed.
Lemma means_valid num p acts ls : Forall2 (means_local num p) acts ls -> Forall (valid_local p) ls.
Proof. induction 1 as [|x l acts ls M _ IH]; constructor; [|exact IH]. destruct M; cbn; auto; destruct p; cbn; auto. Qed.

(** ** Groups of words *)
Lemma global_group_whole digit ws acts b : group global_options global_choices digit ws acts b -> b = false.
Proof.
  assert (X : forall c, In c global_choices -> ch_takes c = MaybeValue -> False) by (intros c I H; in_pairs I; each I; discriminate).
  destruct 1; try reflexivity; exfalso; eapply X; eassumption.
Qed.
Lemma global_groups_whole digit ws acts b : groups global_options global_choices digit ws acts b -> b = false.
Proof. induction 1 as [|ws a b ws' a' b' G _ IH]; [reflexivity|]. apply global_group_whole in G. destruct ws'; assumption. Qed.
Lemma groups_main E num ws acts b : digit_ascii E -> groups global_options global_choices (e_digit E) ws acts b -> exists ms, marked E main_table ws ms /\
  forall rest r extra, main_loop E num (ms ++ rest) r extra = then_ (take_all num OtherParser (map keyed acts) r) (fun r => main_loop E num rest r extra).
Proof.
  intros Hd. induction 1 as [|ws a b ws' a' b' G _ (ms' & M' & S')]; [exists []; split; [constructor|reflexivity]|].
  pose proof (global_group_whole _ _ _ _ G) as Z. rewrite Z in G. destruct (step_bwd E main_table _ _ main_ok Hd _ _ _ G) as (ms & M & Y). exists (ms ++ ms'). split; [apply marked_app; assumption|].
  intros rest r extra. rewrite <- app_assoc, (main_step E num ms _ _ r extra Y), map_app, take_all_app, then_assoc. apply then_ext. intros r1. apply S'.
Qed.
Lemma groups_sub E num p ws acts b : digit_ascii E -> groups local_options local_choices (e_digit E) ws acts b -> exists ms, marked E sub_table ws ms /\
  (ws <> [] -> forall rest, next_arg (ms ++ rest) = None /\ run (ms ++ rest) = []) /\ (ws = [] -> acts = []) /\
  forall rest r named inside extra, (b = true -> next_arg rest = None) ->
    sub_loop num p (ms ++ rest) r named inside extra = then_ (take_all num p (map keyed acts) r) (fun r => sub_loop num p rest r named (match ws with [] => inside | _ => false end) extra).
Proof.
  intros Hd. induction 1 as [|ws a b ws' a' b' G _ (ms' & M' & X' & Z' & S')].
  - exists []. split; [constructor|]. split; [congruence|]. split; reflexivity.
  - destruct (step_bwd E sub_table _ _ sub_ok Hd _ _ _ G) as (ms & M & Y). exists (ms ++ ms'). split; [apply marked_app; assumption|].
    assert (Nw : ws <> []) by (intros ->; inversion M; subst; destruct Y as (? & ? & ? & ? & ? & ? & ? & _); discriminate).
    split; [intros _ rest; rewrite <- app_assoc; split; [eapply yields_next, Y|eapply yields_run, Y]|]. split; [intros Z; apply app_eq_nil in Z as (Z & _); congruence|].
    intros rest r named inside extra Hb. destruct ws' as [|w' ws'].
    + rewrite (Z' eq_refl). inversion M'; subst. rewrite !app_nil_r in *. rewrite (sub_step num p ms _ _ _ r named inside extra Y Hb). destruct ws; [congruence|]. reflexivity.
    + assert (Q : next_arg (ms' ++ rest) = None) by (apply X'; discriminate).
      rewrite <- app_assoc, (sub_step num p ms _ _ _ r named inside extra Y) by (intros _; exact Q). rewrite map_app, take_all_app, then_assoc. apply then_ext. intros r1. rewrite S' by exact Hb.
      destruct ws; [congruence|]. reflexivity.
Qed.

(** ** Doubtful words *)
Lemma doubtful_iff E w : w <> lit "--" -> parse_optional E main_table w = None <-> doubtful w.
Proof.
  intros Hw. pose proof (parse_cases E main_table _ _ w main_ok Hw) as W. split.
  - intros H. rewrite H in W. inversion W as [|U Z| | |n x y r1 r2 NP H2 Ix Iy Nxy Ex Ey]; subst; [destruct (looks_negative E w); [discriminate|]; destruct (cin cSP w); discriminate|].
    exists n, (n ++ r1), (n ++ r2), r1, r2. repeat split; try assumption; apply NP.
  - intros (n & x & y & r1 & r2 & NP & H2 & Ix & Iy & Nxy & Ex & Ey).
    assert (Hh : exists u, w = 45%N :: 45%N :: u).
    { destruct n as [|a [|b n]]; try discriminate. injection H2 as -> ->. destruct NP as (_ & [->|(v & ->)]); eexists; reflexivity. }
    destruct W as [P|U|c k sep e N0 N1 F Z|n' name k e I J S N0 Z|]; [exfalso|exfalso|exfalso|exfalso|reflexivity].
    + destruct Hh as (u & ->). destruct P as [P|P]; [discriminate|cbn in P; congruence].
    + destruct Hh as (u & Hu). destruct U as [(c & t & Z & Nc & _)|(_ & n' & NP' & H)]; [rewrite Hu in Z; injection Z as <- _; congruence|]. rewrite (named_unique _ _ _ NP' NP) in H. exact (H x r1 Ix Ex).
    + destruct Hh as (u & Hu). destruct Z as [(_ & _ & Z)|[(v & _ & _ & Z)|(v & _ & _ & Z & _)]]; rewrite Hu in Z; injection Z as <- _; congruence.
    + assert (NP' : named_part w n') by (split; [exact N0|destruct Z as [(_ & ->)|(v & _ & ->)]; eauto]). rewrite (named_unique _ _ _ NP' NP) in S. destruct S as (_ & _ & S).
      apply Nxy. rewrite (S x r1 Ix Ex), (S y r2 Iy Ey). reflexivity.
Qed.
Lemma marks_doubt E ws : marks E main_table ws <> None <-> forall u w v, ws = u ++ w :: v -> ~ In (lit "--") (u ++ [w]) -> ~ doubtful w.
Proof.
  induction ws as [|x ws IH]; [split; [intros _ u w v Z; destruct u; discriminate|discriminate]|]. cbn [marks]. destruct (seqb x (lit "--")) eqn:Ex.
  - apply seqb_eq in Ex. subst x. split; [|discriminate]. intros _ u w v Z N0. exfalso. apply N0. destruct u as [|a u]; injection Z as <- _; left; reflexivity.
  - apply seqb_neq in Ex. pose proof (doubtful_iff E x Ex) as D. split.
    + intros H [|a u] w v Z N0; injection Z as <- Z.
      * rewrite <- D. intros Q. rewrite Q in H. congruence.
      * destruct (parse_optional E main_table x); [|congruence]. destruct (marks E main_table ws); [|congruence]. apply (proj1 IH ltac:(discriminate) u w v Z). intros I. apply N0. right. exact I.
    + intros H. assert (D1 : ~ doubtful x) by (apply (H [] x ws eq_refl); intros [I|[]]; congruence). destruct (parse_optional E main_table x); [|tauto].
      assert (R : marks E main_table ws <> None); [|destruct (marks E main_table ws); [discriminate|congruence]]. apply IH. intros u w v Z N0. apply (H (x :: u) w v); [rewrite Z; reflexivity|]. intros [I|I]; [congruence|exact (N0 I)].
Qed.
