(** A run in the middle of anything else that happens to the files (C72). *)
From Coq Require Import String List NArith ZArith Bool Arith Lia.
From Verif Require Import Str StrFacts Atx Anchor Toc Write Cli Killed Args Argv Disk Program Steps Spec EnvSpec AnchorSpec WriteSpec RerunSpec CliSpec DiskSpec CallSpec ArgvSpec LineSpec EmphSpec LinkSpec SafeSpec DocSpec TableSpec BookSpec
  CommandSpec HistorySpec ProgramSpec KeptSpec StepsSpec WorldSpec StepsProof AsciiEnv PropTable PropWrite WriteProof WriteLoop PropMulti PropArgs PropArgv LineProof LineLoop PropLine PropRerun PropEmphasis PropErrors PropHtml PropLinks PropPlain PropBook PropCommand PropDisk PropHistory PropProgram PropKept PropSteps.
Import ListNotations.
Local Open Scope list_scope.

(** ** Others that leave the named files alone *)
Lemma good_amid {A} (p : steps A) (k : disk) (R W F : str -> Prop) c l c' : (forall n, R n \/ W n -> F n) ->
  amid (except F) c l c' -> good p k R W (fst c) (snd c) -> good p k R W (fst c') (snd c').
Proof.
  intros HF. induction 1 as [c|n f k0 l c _ IH|n s t k0 l c _ IH|m k0 k1 l c M _ IH]; cbn [fst snd] in *; intros G.
  - exact G.
  - apply IH. destruct G as (ki & G1 & G2 & (G3 & G4) & G5). exists ki. rewrite (G5 n (or_introl G3)). split; [exact G1|]. split; [exact G2|]. split; [apply G4|exact G5].
  - apply IH. destruct G as (ki & G1 & G2 & (G3 & G4) & G5). exists (disk_set ki n s). split; [exact G1|].
    split; [intros x Hx; apply G2; right; exact Hx|]. split; [exact G4|]. intros m Hm. destruct (list_eq_dec N.eq_dec m n) as [->|Hne]; [rewrite !disk_get_same; reflexivity|rewrite !disk_get_other by exact Hne; apply G5, Hm].
  - apply IH. destruct G as (ki & G1 & G2 & G3 & G5). exists ki. split; [exact G1|]. split; [exact G2|]. split; [exact G3|]. intros n Hn. rewrite (M n (HF n Hn)). apply G5, Hn.
Qed.
(** C72: if others leave the files alone that the command line names, and any file called "-", the run is the same
    as alone, whatever else they do and whenever they do it.  At any moment the named files are as they are at some
    moment of the run alone; when it has ended, its output, its status and its files are those of the run alone. *)
Theorem C72_undisturbed : forall E num j k l rest k',
  digit_ascii E ->
  amid (except (fun n => touches E num j n \/ n = lit "-")) (program_steps E num (fst j) (snd j), k) l (rest, k') ->
  exists moment, In moment (program_states E num (fst j) k (snd j))
    /\ (forall n, touches E num j n -> disk_get k' n = disk_get moment n)
    /\ forall r, rest = Done r -> let alone := program E num (fst j) k (snd j) in
         r = (y_out alone, y_status alone) /\ moment = y_disk alone.
Proof.
  intros E num j k l rest k' Hd H. set (p := program_steps E num (fst j) (snd j)) in *. set (F := fun n => touches E num j n \/ n = lit "-") in *. set (W := fun n => changes E num j n /\ n <> lit "-").
  destruct (good_amid p k F W F _ _ _ ltac:(intros n [Hn|(Hn & _)]; [exact Hn|left; apply changes_touches; exact Hn]) H) as (ki & G1 & G2 & _ & G4).
  - exists k. split; [reflexivity|]. split; [apply incl_refl|]. split; [exact (job_within E num j Hd)|reflexivity].
  - cbn [fst snd] in *. exists ki. split; [apply program_trace; apply G2; left; reflexivity|]. split; [intros n Hn; apply G4; left; left; exact Hn|].
    intros r ->. unfold p in G1. rewrite program_run in G1. cbn [run] in G1. injection G1 as -> ->. split; reflexivity.
Qed.
Print Assumptions C72_undisturbed.

(** ** Others that do anything *)
(** What holds of every access, given what the run did before, and of the result. *)
Fixpoint tame {A} (R : str -> Prop) (W : list access -> str -> stored -> Prop) (V : list access -> A -> Prop) (h : list access) (m : steps A) : Prop :=
  match m with
  | Done a => V h a
  | Reads n f => R n /\ forall s, tame R W V (h ++ [Saw n s]) (f s)
  | Writes n s t => W h n s /\ tame R W V (h ++ [Wrote n s]) t
  end.
Lemma tame_mono {A} R W (V V' : list access -> A -> Prop) m : forall h, (forall h' a, incl h h' -> V h' a -> V' h' a) -> tame R W V h m -> tame R W V' h m.
Proof.
  induction m as [a|n f IH|n s t IH]; intros h HV; cbn [tame].
  - apply HV, incl_refl.
  - intros (H1 & H2). split; [exact H1|]. intros s. apply IH; [|apply H2]. intros h' a I. apply HV. intros x Hx. apply I, in_or_app. left. exact Hx.
  - intros (H1 & H2). split; [exact H1|]. apply IH; [|exact H2]. intros h' a I. apply HV. intros x Hx. apply I, in_or_app. left. exact Hx.
Qed.
Lemma tame_andthen {A B} R W (V : list access -> A -> Prop) (V' : list access -> B -> Prop) m (f : A -> steps B) : forall h,
  tame R W V h m -> (forall h' a, incl h h' -> V h' a -> tame R W V' h' (f a)) -> tame R W V' h (andthen m f).
Proof.
  induction m as [a|n g IH|n s t IH]; intros h; cbn [tame andthen].
  - intros H HV. apply HV; [apply incl_refl|exact H].
  - intros (H1 & H2) HV. split; [exact H1|]. intros s. apply IH; [apply H2|]. intros h' a I. apply HV. intros x Hx. apply I, in_or_app. left. exact Hx.
  - intros (H1 & H2) HV. split; [exact H1|]. apply IH; [exact H2|]. intros h' a I. apply HV. intros x Hx. apply I, in_or_app. left. exact Hx.
Qed.
Lemma tame_try {A B} R W (V : list access -> res A -> Prop) (V' : list access -> res B -> Prop) m (f : A -> steps (res B)) h :
  tame R W V h m -> (forall h' a, incl h h' -> V h' (Ok a) -> tame R W V' h' (f a)) -> (forall h' e, V' h' (Err e)) -> tame R W V' h (try m f).
Proof. intros H HV HE. unfold try. eapply tame_andthen; [exact H|]. intros h' [a|e] I Hv; [apply HV; assumption|apply HE]. Qed.
Lemma tame_amid {A} R W (V : list access -> A -> Prop) may c l c' : amid may c l c' -> forall h, tame R W V h (fst c) ->
  (forall a n s b, l = a ++ Saw n s :: b -> R n) /\ (forall a n s b, l = a ++ Wrote n s :: b -> W (h ++ a) n s) /\ forall r, fst c' = Done r -> V (h ++ l) r.
Proof.
  induction 1 as [c|n f k0 l c _ IH|n s t k0 l c _ IH|m k0 k1 l c M _ IH]; cbn [fst snd] in *; intros h T.
  - split; [intros a n s b X; destruct a; discriminate X|]. split; [intros a n s b X; destruct a; discriminate X|]. intros r Hr. rewrite Hr in T. rewrite app_nil_r. exact T.
  - destruct T as (T1 & T2). destruct (IH _ (T2 (disk_get k0 n))) as (I1 & I2 & I3). split; [|split].
    + intros a m s b X. destruct a as [|x a]; [injection X as <- _ _; exact T1|]. injection X as _ X. exact (I1 _ _ _ _ X).
    + intros a m s b X. destruct a as [|x a]; [discriminate X|]. injection X as <- X. specialize (I2 _ _ _ _ X). rewrite <- app_assoc in I2. exact I2.
    + intros r Hr. specialize (I3 r Hr). rewrite <- app_assoc in I3. exact I3.
  - destruct T as (T1 & T2). destruct (IH _ T2) as (I1 & I2 & I3). split; [|split].
    + intros a m s' b X. destruct a as [|x a]; [discriminate X|]. injection X as <- X. exact (I1 _ _ _ _ X).
    + intros a m s' b X. destruct a as [|x a]; [injection X as <- <- X; rewrite app_nil_r; exact T1|]. injection X as <- X. specialize (I2 _ _ _ _ X). rewrite <- app_assoc in I2. exact I2.
    + intros r Hr. specialize (I3 r Hr). rewrite <- app_assoc in I3. exact I3.
  - exact (IH h T).
Qed.

Section Run.
Context (E : env) (a : cli_args).
Definition nl := cli_newline (a_newline a).
(** The table of what the run saw in file [n]. *)
Definition tabled (h : list access) (n t : str) : Prop := exists s, In (Saw n (Some s)) h /\ build_toc E (args_opts a) n (seen s) = Ok t.
Definition R0 (n : str) : Prop := In n (a_names a) \/ n = lit "-".
Definition W0 (h : list access) (n : str) (s : stored) : Prop :=
  a_in_place a = true /\ In n (a_names a) /\ n <> lit "-"
  /\ exists h' text, h = h' ++ [Saw n (Some (Stored text false))] /\ st_bad s = false
       /\ rewritten nl (fun b => exists t, tabled h n t /\ b = block_text E nl (a_toc_marker a) t) text (st_text s).
Lemma tabled_mono h h' n t : incl h h' -> tabled h n t -> tabled h' n t.
Proof. intros I (s & H1 & H2). exists s. split; [apply I; exact H1|exact H2]. Qed.
Lemma rewritten_mono (P Q : str -> Prop) x y : (forall b, P b -> Q b) -> rewritten nl P x y -> rewritten nl Q x y.
Proof. intros H [b g c X Y|b c d X Y|ls g b X Y]; [apply (rw_out _ _ _ b g c X Y)|apply (rw_in _ _ _ b c d X (H _ Y))|apply (rw_past _ _ _ ls g b X (H _ Y))]. Qed.

Definition Vtoc n h (r : res (str * stdin_state)) : Prop := match r with Ok (t, _) => is_stdin n = true \/ tabled h n t | Err _ => True end.
Lemma tame_toc W input n h : R0 n -> tame R0 W (Vtoc n) h (toc_steps E (args_opts a) input n).
Proof.
  intros HR. unfold toc_steps. destruct (is_stdin n) eqn:S; [rewrite orb_true_r; cbn [tame]; unfold Vtoc; match goal with |- match ?r with _ => _ end => destruct r as [(t & i)|] end; [left; exact S|exact I]|].
  destruct (_ <? _)%Z eqn:K; cbn [orb tame]; unfold Vtoc, read_toc; rewrite K, ?S; [exact I|]. split; [exact HR|]. intros [s|]; cbn [w_fs fs_get]; [|exact I]. rewrite seqb_refl.
  destruct (build_toc E (args_opts a) n (seen s)) as [t|e] eqn:B; cbn [bind w_stdin]; [|exact I]. right. exists s. split; [apply in_or_app; right; left; reflexivity|exact B].
Qed.
Definition Vtocs ns h (r : res (list str)) : Prop := match r with Ok ts => Forall2 (fun n t => is_stdin n = true \/ tabled h n t) ns ts | Err _ => True end.
Lemma tame_tocs W ns : forall input h, Forall R0 ns -> tame R0 W (Vtocs ns) h (tocs_steps E (args_opts a) input ns).
Proof.
  induction ns as [|n ns IH]; intros input h HR; cbn [tocs_steps tame]; [constructor|]. inversion HR; subst. eapply tame_try; [apply (tame_toc W input n h); assumption| |intros; exact I].
  intros h1 (t & i) I1 V1. eapply tame_try; [apply (IH i h1); assumption| |intros; exact I]. intros h2 ts I2 V2. cbn [tame]. cbn [Vtoc Vtocs] in *. constructor; [|exact V2].
  destruct V1 as [V1|V1]; [left; exact V1|right; exact (tabled_mono _ _ _ _ I2 V1)].
Qed.
Lemma tame_existing W n h : R0 n -> tame R0 W (fun _ _ => True) h (existing_steps E (a_toc_marker a) n).
Proof.
  intros HR. unfold existing_steps. cbn [tame]. split; [exact HR|]. intros [s|]; cbn [tame]; [|exact I]. destruct (st_bad s); cbn [tame]; [exact I|].
  destruct (pair_loop _ _ _ _) as ((r & len) & two). destruct r as [(x & y)|]; cbn [tame]; [|exact I]. destruct (_ <=? _)%Z; cbn [tame]; [|exact I]. split; [exact HR|].
  intros [s'|]; cbn [tame]; [|exact I]. destruct (st_bad s'); cbn [tame]; [exact I|]. destruct (extract_lines _ _ _); exact I.
Qed.
Lemma skip_skip {A} (l : list A) : forall i j, skipn i (skipn j l) = skipn (j + i) l.
Proof. intros i j. revert l. induction j as [|j IH]; intros l; [reflexivity|]. destruct l; [rewrite !skipn_nil; reflexivity|apply IH]. Qed.
Lemma tame_remove n ivs : forall h, a_in_place a = true -> In n (a_names a) -> n <> lit "-" -> tame R0 W0 (fun _ _ => True) h (remove_steps n ivs).
Proof.
  intros h H1 H2 H3. revert h. induction ivs as [|iv ivs IH]; intros h; [exact I|]. destruct iv as [|x [|y [|? ?]]]; try exact I. cbn [remove_steps]. destruct (_ || _ || _) eqn:C; [exact I|]. cbn [tame].
  split; [left; exact H2|]. intros [s|]; [|exact I]. destruct s as (text & bad). cbn [st_bad]. destruct bad; [exact I|]. cbn [seen d_lines st_text].
  destruct (fpy_remove _ _ _) as [ls|e] eqn:F; [|exact I]. cbn [tame]. split; [|apply IH]. split; [exact H1|]. split; [exact H2|]. split; [exact H3|]. exists h, text. split; [reflexivity|]. split; [reflexivity|]. cbn [st_text].
  unfold fpy_remove in F. match type of F with (if ?c then _ else _) = _ => destruct c eqn:D end; [discriminate F|]. injection F as <-. apply orb_false_iff in D as (D & D3). apply orb_false_iff in D as (D1 & D2). apply Nat.ltb_ge in D1, D2, D3.
  rewrite concat_app. set (ls := lines_of (universal text)) in *. set (p := Z.to_nat x) in *. set (q := Z.to_nat y) in *.
  assert (X : skipn q ls = skipn (q - (p - 1)) (skipn (p - 1) ls)) by (rewrite skip_skip; f_equal; lia). rewrite X.
  apply (rw_out _ _ _ (firstn (p - 1) ls) (firstn (q - (p - 1)) (skipn (p - 1) ls))).
  - rewrite !firstn_skipn. apply seen_reads.
  - intros Y. apply (f_equal (@length _)) in Y. rewrite firstn_length, skipn_length in Y. cbn in Y. lia.
Qed.
Lemma tame_insert n t line h : a_in_place a = true -> In n (a_names a) -> n <> lit "-" -> tabled h n t ->
  tame R0 W0 (fun _ _ => True) h (insert_steps n (final_toc E nl (a_toc_marker a) t) line nl).
Proof.
  intros H1 H2 H3 H4. unfold insert_steps. cbn [tame]. split; [left; exact H2|]. intros [s|]; [|exact I]. destruct s as (text & bad). cbn [st_bad]. destruct bad; [exact I|].
  destruct (line <? 1) eqn:L; [exact I|]. apply Nat.ltb_ge in L. cbn [tame seen d_lines st_text]. split; [|exact I]. split; [exact H1|]. split; [exact H2|]. split; [exact H3|]. exists h, text.
  split; [reflexivity|]. split; [reflexivity|]. cbn [st_text]. set (ls := lines_of (universal text)).
  assert (B : exists t0, tabled (h ++ [Saw n (Some (Stored text false))]) n t0 /\ final_toc E nl (a_toc_marker a) t = block_text E nl (a_toc_marker a) t0).
  { exists t. split; [|reflexivity]. refine (tabled_mono _ _ _ _ _ H4). intros x Hx. apply in_or_app. left. exact Hx. }
  destruct (le_lt_dec (line - 1) (length ls)) as [C|C].
  - replace (line - 1 - length ls) with 0 by lia. cbn [repeat concat app]. apply rw_in; [rewrite firstn_skipn; apply seen_reads|exact B].
  - rewrite firstn_all2, skipn_all2 by lia. cbn [concat]. rewrite app_nil_r. apply rw_past; [apply seen_reads|exact B].
Qed.
Lemma tame_write n t h : a_in_place a = true -> R0 n -> (is_stdin n = true \/ tabled h n t) -> tame R0 W0 (fun _ _ => True) h (write_steps E nl t (a_toc_marker a) n).
Proof.
  intros H1 HR H4. unfold write_steps. destruct (is_stdin n) eqn:S; [exact I|]. destruct H4 as [H4|H4]; [discriminate|].
  assert (H3 : n <> lit "-") by (intros ->; discriminate S). assert (H5 : In n (a_names a)) by (destruct HR as [X|X]; [exact X|contradiction]).
  eapply tame_try; [apply (tame_existing W0); exact HR| |intros; exact I]. intros h1 x I1 _.
  eapply tame_try; [apply tame_remove; assumption| |intros; exact I]. intros h2 [] I2 _.
  eapply tame_try; [instantiate (1 := fun _ _ => True); destruct (_ && _); [destruct (x_positions x); [exact I|apply tame_remove; assumption]|exact I]| |intros; exact I]. intros h3 [] I3 _.
  destruct (_ <=? _); [|exact I]. eapply tame_try; [apply tame_insert; try assumption| |intros; exact I].
  - refine (tabled_mono _ _ _ _ _ H4). intros y Hy. apply I3, I2, I1, Hy.
  - intros h4 [] _ _. exact I.
Qed.
Lemma tame_writes l : forall h b, a_in_place a = true -> Forall (fun p => R0 (fst p) /\ (is_stdin (fst p) = true \/ tabled h (fst p) (snd p))) l ->
  tame R0 W0 (fun _ _ => True) h (writes_steps E nl (a_toc_marker a) l b).
Proof.
  induction l as [|(n & t) l IH]; intros h b H1 H; cbn [writes_steps]; [exact I|]. inversion H as [|? ? (X1 & X3) X4]; subst. cbn [fst snd] in *.
  eapply tame_try; [apply tame_write; eassumption| |intros; exact I]. intros h' b' I' _. apply IH; [exact H1|]. refine (Forall_impl _ _ X4). intros (n' & t') (Y1 & Y3). cbn [fst snd] in *.
  split; [exact Y1|]. destruct Y3 as [Y3|Y3]; [left; exact Y3|right; exact (tabled_mono _ _ _ _ I' Y3)].
Qed.
Lemma tame_print l : forall h b, a_in_place a = false -> Forall (fun p => R0 (fst p)) l -> tame R0 W0 (fun _ _ => True) h (print_steps E a l b).
Proof.
  induction l as [|(n & t) l IH]; intros h b H1 H; cbn [print_steps]; [exact I|]. inversion H as [|? ? X1 X4]; subst. cbn [fst] in *.
  assert (Rest : forall h b, tame R0 W0 (fun _ _ => True) h (andthen (print_steps E a l b) (fun '(out, r) => Done (t ++ out, r)))).
  { intros h0 b0. eapply tame_andthen; [apply IH; assumption|]. intros h' (out & r) _ _. exact I. }
  destruct (a_diff a); [|apply Rest]. eapply tame_andthen; [apply (tame_existing W0); exact X1|]. intros h' [x|e] _ _; [apply Rest|exact I].
Qed.
Lemma combine_all (Q : str -> str -> Prop) (P : str -> Prop) ns ts : Forall P ns -> Forall2 Q ns ts -> Forall (fun p => P (fst p) /\ Q (fst p) (snd p)) (combine ns ts).
Proof. intros H F. revert H. induction F as [|n t ns ts X F IH]; intros H; inversion H; subst; cbn [combine]; constructor; auto. Qed.
Definition Vcli (h : list access) (r : str * res bool) : Prop := a_in_place a = true -> fst r = [].
Lemma tame_cli input h : tame R0 W0 Vcli h (cli_steps E a input).
Proof.
  assert (HR : Forall R0 (effective_names (a_names a))).
  { apply Forall_forall. intros n Hn. unfold effective_names in Hn. destruct (a_names a) as [|x l] eqn:X; [destruct Hn as [<-|[]]; right; reflexivity|left; rewrite X; exact Hn]. }
  unfold cli_steps. eapply tame_andthen; [apply (tame_tocs W0 (effective_names (a_names a)) input h HR)|]. intros h1 [ts|e] I1 V1; [|intros _; reflexivity]. destruct (a_in_place a) eqn:P.
  - destruct (_ =? _); [|intros _; reflexivity]. eapply tame_andthen; [apply tame_writes; [exact P|exact (combine_all _ _ _ _ HR V1)]|intros h2 r _ _; intros _; reflexivity].
  - eapply tame_andthen; [apply tame_print; [exact P|]|intros h2 (out & r) _ _; intros X; congruence]. refine (Forall_impl _ _ (combine_all _ _ _ _ HR V1)). intros x (X & _). exact X.
Qed.
Lemma tame_program num ws input : parse_args E num ws = Got a -> tame R0 W0 (fun _ r => In (snd r) [0; 1; 128]%Z /\ (a_in_place a = true -> fst r = [])) [] (program_steps E num ws input).
Proof.
  intros P. unfold program_steps. rewrite P. eapply tame_andthen; [apply tame_cli|]. intros h (out & r) _ V. cbn [tame fst snd]. split; [|exact V]. destruct r as [[|]|e]; cbn; auto.
Qed.
End Run.

Lemma amid_done {A} may (a : A) k l rest k' : amid may (Done a, k) l (rest, k') -> l = [] /\ rest = Done a.
Proof.
  intros H. remember (Done a, k) as c eqn:Ec. remember (rest, k') as c' eqn:Ec'. revert k Ec. induction H as [c|n f k0 l c _ IH|n s t k0 l c _ IH|m k0 k1 l c M _ IH]; intros k Ec.
  - split; [reflexivity|]. congruence.
  - discriminate.
  - discriminate.
  - injection Ec as -> _. exact (IH Ec' k1 eq_refl).
Qed.
(** C72: whatever others do to the files, and whenever they do it, a run only looks at files that its command line
    names or that are called "-"; it writes a file only if it is named and --in-place is given. *)
Theorem C72_own_files : forall E num j k l rest k',
  digit_ascii E -> amid anything (program_steps E num (fst j) (snd j), k) l (rest, k') ->
  (forall n s, In (Saw n s) l -> touches E num j n \/ n = lit "-")
  /\ (forall n s, In (Wrote n s) l -> changes E num j n)
  /\ forall r, rest = Done r -> In (snd r) [0; 1; 2; 128]%Z.
Proof.
  intros E num (ws & input) k l rest k' Hd H. cbn [fst snd] in *. destruct (parse_args E num ws) as [a| |] eqn:P.
  - destruct (tame_amid _ _ _ _ _ _ _ H [] (tame_program E a num ws input P)) as (T1 & T2 & T3). cbn [fst] in T3. apply C65_exactly in P as (gs & p & ls & names & X & C & ->); [|exact Hd]. split; [|split].
    + intros n s Hn. apply in_split in Hn as (b & c & Y). destruct (T1 _ _ _ _ Y) as [Z|Z]; [|right; exact Z]. left. exists gs, p, ls, names. auto.
    + intros n s Hn. apply in_split in Hn as (b & c & Y). destruct (T2 _ _ _ _ Y) as (Z1 & Z2 & _). exists gs, p, ls, names. auto.
    + intros r Hr. destruct (T3 r Hr) as (Z & _). cbn in *. tauto.
  - unfold program_steps in H. rewrite P in H. destruct (amid_done _ _ _ _ _ _ H) as (-> & ->). split; [intros n s []|]. split; [intros n s []|]. intros r Hr. injection Hr as <-. cbn. tauto.
  - unfold program_steps in H. rewrite P in H. destruct (amid_done _ _ _ _ _ _ H) as (-> & ->). split; [intros n s []|]. split; [intros n s []|]. intros r Hr. injection Hr as <-. cbn. tauto.
Qed.
Print Assumptions C72_own_files.

(** C72: and every write comes right after the run has seen that file.  It writes the lines that it saw, without
    some consecutive ones, or with one block put in: the markers and the table of the file as the run saw it. *)
Theorem C72_writes : forall E num ws gs p ls names o input k l rest k',
  digit_ascii E -> accepted_line num (e_digit E) ws gs p ls names -> ~ clash gs ls -> selects (asks gs p ls names) o ->
  amid anything (program_steps E num ws input, k) l (rest, k') ->
  (forall before n s after, l = before ++ Wrote n s :: after ->
     exists before' text, before = before' ++ [Saw n (Some (Stored text false))] /\ st_bad s = false
       /\ rewritten (o_newline o)
            (fun b => exists seen_before t, In (Saw n (Some seen_before)) before /\ build_toc E o n (seen seen_before) = Ok t
                        /\ b = block_text E (o_newline o) (a_toc_marker (asks gs p ls names)) t)
            text (st_text s))
  /\ (turned InPlace gs = true -> forall r, rest = Done r -> fst r = []).
Proof.
  intros E num ws gs p ls names o input k l rest k' Hd Hl Hc Ho H. pose proof (accepted_args E num ws gs p ls names Hd Hl Hc) as P. apply selects_model in Ho as ->.
  destruct (tame_amid _ _ _ _ _ _ _ H [] (tame_program E _ num ws input P)) as (_ & T2 & T3). cbn [fst app] in *. split.
  - intros b n s c X. destruct (T2 _ _ _ _ X) as (_ & _ & _ & h & text & Y1 & Y2 & Y3). exists h, text. split; [exact Y1|]. split; [exact Y2|]. refine (rewritten_mono _ _ _ _ _ _ Y3).
    intros b0 (t & (s0 & Z1 & Z2) & ->). exists s0, t. auto.
  - intros I r Hr. apply (T3 r Hr). exact I.
Qed.
Print Assumptions C72_writes.

(** ** Runs to compute with *)
Definition quiet (k k' : disk) : Prop := False.
(** The first accesses of a run, nobody else being there. *)
Fixpoint go {A} (fuel : nat) (m : steps A) (k : disk) : list access * (steps A * disk) :=
  match fuel with
  | 0 => ([], (m, k))
  | S fuel =>
      match m with
      | Done a => ([], (Done a, k))
      | Reads n f => let '(l, c) := go fuel (f (disk_get k n)) k in (Saw n (disk_get k n) :: l, c)
      | Writes n s t => let '(l, c) := go fuel t (disk_set k n s) in (Wrote n s :: l, c)
      end
  end.
Lemma go_amid {A} may fuel : forall (m : steps A) k, amid may (m, k) (fst (go fuel m k)) (snd (go fuel m k)).
Proof.
  induction fuel as [|fuel IH]; intros m k; cbn [go]; [constructor|]. destruct m as [a|n f|n s t]; cbn [fst snd]; [constructor| |].
  - specialize (IH (f (disk_get k n)) k). destruct (go fuel (f (disk_get k n)) k) as (l & c). cbn [fst snd] in *. constructor. exact IH.
  - specialize (IH t (disk_set k n s)). destruct (go fuel t (disk_set k n s)) as (l & c). cbn [fst snd] in *. constructor. exact IH.
Qed.
Lemma amid_app {A} may (c : steps A * disk) l c1 l' c2 : amid may c l c1 -> amid may c1 l' c2 -> amid may c (l ++ l') c2.
Proof. induction 1; intros X; cbn [app]; [exact X|constructor; auto|constructor; auto|econstructor; eauto]. Qed.

(** Before the last access of a run that updates a.md: it has seen the file and is about to write it. *)
Definition about : steps (str * Z) * disk := snd (go 5 (program_steps ascii_env simple_int diary_words Closed) disk0).
Definition late : str := ln "a late line".
Definition edited : disk := disk_set (snd about) (lit "a.md") (Stored (concat (skipn 1 guide ++ [late])) false).
Lemma amid_pair {A} may (c : steps A * disk) l c' : amid may c l c' -> amid may c l (fst c', snd c').
Proof. destruct c'. exact (fun H => H). Qed.
Lemma about_amid : amid quiet (program_steps ascii_env simple_int diary_words Closed, disk0) (fst (go 5 (program_steps ascii_env simple_int diary_words Closed) disk0)) (fst about, snd about).
Proof. exact (amid_pair _ _ _ _ (go_amid quiet 5 (program_steps ascii_env simple_int diary_words Closed) disk0)). Qed.
Lemma late_end : snd (go 1 (fst about) edited) = (Done ([], 128%Z), disk1).
Proof. vm_compute. reflexivity. Qed.
Lemma late_amid : amid quiet (fst about, edited) (fst (go 1 (fst about) edited)) (Done ([], 128%Z), disk1).
Proof. exact (eq_ind _ (fun c => amid quiet (fst about, edited) (fst (go 1 (fst about) edited)) c) (go_amid quiet 1 (fst about) edited) _ late_end). Qed.
(** What a user adds to a file while the run updates it can be lost, although the run ends as if all were well: what
    holds for edits between runs (C69) does not hold for those in the middle of one. *)
Theorem C72_edit_kept_refuted :
  ~ (forall E num n marker k above below last ws gs p ls names o hs t input l1 m k1 lines line k2 l2 r k3,
       python_tables E -> zs_ascii E -> word_ascii E -> entity_tables E -> space_ascii E -> neutral_marker E marker ->
       kept E num n marker k above below last ->
       accepted_line num (e_digit E) ws gs p ls names -> ~ clash gs ls -> turned InPlace gs = true ->
       suits E n marker k above below gs p ls names o hs -> table_of_titles o hs t ->
       amid quiet (program_steps E num ws input, k) l1 (m, k1) ->
       keeps k1 n lines -> keeps k2 n (lines ++ [line]) -> ~ is_marker E marker line ->
       amid quiet (m, k2) l2 (Done r, k3) -> snd r <> 1%Z ->
       exists lines', keeps k3 n lines' /\ In line lines').
Proof.
  intros H.
  destruct (H ascii_env simple_int (lit "a.md") (lit "<!--TOC-->") disk0 [] (skipn 1 guide) None diary_words diary_globals Github diary_locals [lit "a.md"] diary_opts ([] ++ guide_headings) (expected_table diary_opts guide_headings) Closed
     (fst (go 5 (program_steps ascii_env simple_int diary_words Closed) disk0)) (fst about) (snd about) (skipn 1 guide) late edited (fst (go 1 (fst about) edited)) ([], 128%Z) disk1
     python_tables_ascii zs_ascii_ex word_ascii_ex ascii_entities space_ascii_ex (proj1 C63_history_ex) diary_0 (proj1 diary_line) (proj2 diary_line) eq_refl) as (lines' & (text & G & Rd) & Hin).
  - apply diary_suits; [constructor|cbn; lia].
  - left. split; [apply coherent_by; repeat split|reflexivity].
  - exact about_amid.
  - eapply keeps_by; vm_compute; reflexivity.
  - eapply keeps_by; vm_compute; reflexivity.
  - intros X. vm_compute in X. discriminate X.
  - exact late_amid.
  - discriminate.
  - rewrite <- (reads_seen _ _ Rd) in Hin. clear - G Hin. vm_compute in G. injection G as <-. vm_compute in Hin. repeat (destruct Hin as [Hin|Hin]; [discriminate Hin|]). exact Hin.
Qed.
Print Assumptions C72_edit_kept_refuted.

Lemma go_step {A} may fuel (m : steps A) k r : r = go fuel m k -> amid may (m, k) (fst r) (fst (snd r), snd (snd r)).
Proof. intros ->. apply amid_pair, go_amid. Qed.
(** While the run updates a.md, others write b.md twice and delete c.md. *)
Definition others_files : disk := disk2 ++ [(lit "c.md", Stored (lit "gone soon") false)].
Definition first : list access * (steps (str * Z) * disk) := go 2 (program_steps ascii_env simple_int diary_words Closed) others_files.
Lemma first_is : first = go 2 (program_steps ascii_env simple_int diary_words Closed) others_files.
Proof. unfold first. reflexivity. Qed.
Definition b_first : disk := disk_set (snd (snd first)) (lit "b.md") (Stored (lit "b") false).
Definition second : list access * (steps (str * Z) * disk) := go 3 (fst (snd first)) b_first.
Lemma second_is : second = go 3 (fst (snd first)) b_first.
Proof. unfold second. reflexivity. Qed.
Definition b_second : disk := filter (fun f => negb (seqb (fst f) (lit "c.md"))) (disk_set (snd (snd second)) (lit "b.md") (Stored (lit "bb") false)).
Definition third : list access * (steps (str * Z) * disk) := go 9 (fst (snd second)) b_second.
Lemma third_is : third = go 9 (fst (snd second)) b_second.
Proof. unfold third. reflexivity. Qed.
Example C72_undisturbed_ex :
  (forall n, (touches ascii_env simple_int (diary_words, Closed) n \/ n = lit "-") <-> In n [lit "a.md"; lit "-"])
  /\ amid (except (fun n => touches ascii_env simple_int (diary_words, Closed) n \/ n = lit "-")) (program_steps ascii_env simple_int diary_words Closed, others_files)
       (fst first ++ fst second ++ fst third)
       (Done ([], 128%Z), snd (snd third))
  /\ disk_get (snd (snd third)) (lit "a.md") = disk_get disk3 (lit "a.md") /\ disk_get disk3 (lit "a.md") <> disk_get disk2 (lit "a.md")
  /\ disk_get (snd (snd third)) (lit "b.md") = Some (Stored (lit "bb") false) /\ disk_get (snd (snd third)) (lit "c.md") = None.
Proof.
  assert (T : forall n, (touches ascii_env simple_int (diary_words, Closed) n \/ n = lit "-") <-> In n [lit "a.md"; lit "-"]).
  { intros n. split.
    - intros [H| ->]; [|right; left; reflexivity]. apply changed_names in H; [|exact digit_ascii_ex]. vm_compute in H. destruct H as [<-|[]]. left. vm_compute. reflexivity.
    - intros [<-|[<-|[]]]; [left|right; reflexivity]. exists diary_globals, Github, diary_locals, [lit "a.md"]. split; [apply diary_line|]. split; [apply diary_line|]. left. reflexivity. }
  split; [exact T|]. split; [|split; [vm_compute; reflexivity|split; [vm_compute; discriminate|split; vm_compute; reflexivity]]].
  assert (L : snd third = (Done ([], 128%Z), snd (snd third))) by (vm_compute; reflexivity).
  refine (amid_app _ _ _ _ _ _ (go_step _ 2 (program_steps ascii_env simple_int diary_words Closed) others_files first first_is) _). apply (amid_others _ _ _ b_first).
  { intros n Hn. apply T in Hn. destruct Hn as [<-|[<-|[]]]; vm_compute; reflexivity. }
  refine (amid_app _ _ _ _ _ _ (go_step _ 3 (fst (snd first)) b_first second second_is) _). apply (amid_others _ _ _ b_second).
  { intros n Hn. apply T in Hn. destruct Hn as [<-|[<-|[]]]; vm_compute; reflexivity. }
  refine (eq_ind _ (amid _ (fst (snd second), b_second) (fst third)) _ _ L). rewrite (surjective_pairing (snd third)). exact (go_step _ 9 (fst (snd second)) b_second third third_is).
Qed.
(** Others empty a.md after the run has taken its old table out: the new one is put in after an empty line. *)
Definition taken_out : list access * (steps (str * Z) * disk) := go 5 (program_steps ascii_env simple_int diary_words Closed) disk2.
Lemma taken_out_is : taken_out = go 5 (program_steps ascii_env simple_int diary_words Closed) disk2.
Proof. unfold taken_out. reflexivity. Qed.
Definition emptied : disk := disk_set (snd (snd taken_out)) (lit "a.md") (Stored [] false).
Definition rest_of : list access * (steps (str * Z) * disk) := go 9 (fst (snd taken_out)) emptied.
Lemma rest_of_is : rest_of = go 9 (fst (snd taken_out)) emptied.
Proof. unfold rest_of. reflexivity. Qed.
Example C72_writes_ex :
  amid anything (program_steps ascii_env simple_int diary_words Closed, disk2)
    (fst taken_out ++ fst rest_of) (fst (snd rest_of), snd (snd rest_of))
  /\ fst rest_of = [Saw (lit "a.md") (Some (Stored [] false));
                    Wrote (lit "a.md") (Stored ([10%N] ++ block_text ascii_env [10%N] (lit "<!--TOC-->") (expected_table diary_opts deeper)) false)].
Proof.
  split; [|vm_compute; reflexivity].
  refine (amid_app _ _ _ _ _ _ (go_step _ 5 (program_steps ascii_env simple_int diary_words Closed) disk2 taken_out taken_out_is) _). apply (amid_others _ _ _ emptied); [exact I|]. exact (go_step _ 9 (fst (snd taken_out)) emptied rest_of rest_of_is).
Qed.
