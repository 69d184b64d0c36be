(** Several runs at the same time (C70). *)
From Coq Require Import String List NArith ZArith Bool Arith Lia.
From Verif Require Import Str StrFacts Atx Anchor Toc Write Cli Killed Args Argv Disk Program Steps Spec EnvSpec AnchorSpec WriteSpec RerunSpec CliSpec DiskSpec CallSpec ArgvSpec LineSpec EmphSpec LinkSpec SafeSpec DocSpec TableSpec BookSpec
  CommandSpec HistorySpec ProgramSpec KeptSpec StepsSpec StepsProof AsciiEnv PropTable PropWrite WriteProof WriteLoop PropMulti PropArgs PropArgv LineProof LineLoop PropLine PropRerun PropEmphasis PropErrors PropHtml PropLinks PropPlain PropBook PropCommand PropDisk PropHistory PropProgram PropKept.
Import ListNotations.
Local Open Scope list_scope.

(** ** A run that nobody disturbs *)
Section Undisturbed.
Context {A : Type} (p : steps A) (k : disk) (R W : str -> Prop).
Let RW n := R n \/ W n.
Let calm (m : steps A) := within (fun _ => True) (fun n => ~ RW n) m.
Definition good (q : steps A) (k' : disk) : Prop :=
  exists ki, run q ki = run p k /\ incl (ki :: trace q ki) (k :: trace p k) /\ within R W q /\ forall n, RW n -> disk_get k' n = disk_get ki n.
Lemma calm_read n f : calm (Reads n f) -> forall s, calm (f s).
Proof. intros (_ & H). exact H. Qed.
Lemma good_moves c c1 before q after : moves c c1 -> fst c = before ++ q :: after -> good q (snd c) -> Forall calm before -> Forall calm after ->
  exists before' q' after', fst c1 = before' ++ q' :: after' /\ length before' = length before /\ good q' (snd c1) /\ Forall calm before' /\ Forall calm after'.
Proof.
  intros M. destruct M as [b n f a k0|b n s t a k0]; cbn [fst snd]; intros Eq G Hb Ha; destruct (split_cases _ _ _ _ _ _ Eq) as [(-> & <- & ->)|[(mid & -> & ->)|(mid & -> & ->)]].
  - exists before, (f (disk_get k0 n)), after. split; [reflexivity|]. split; [reflexivity|]. split; [|auto]. destruct G as (ki & G1 & G2 & (G3 & G4) & G5). exists ki. rewrite (G5 n (or_introl G3)).
    split; [exact G1|]. split; [exact G2|]. split; [apply G4|exact G5].
  - exists (b ++ f (disk_get k0 n) :: mid), q, after. rewrite <- app_assoc. split; [reflexivity|]. split; [rewrite !app_length; reflexivity|]. split; [exact G|]. split; [|exact Ha].
    apply Forall_app in Hb as (H1 & H2). apply Forall_app. split; [exact H1|]. inversion H2 as [|? ? H3 H4]; subst. constructor; [exact (calm_read _ _ H3 _)|exact H4].
  - exists before, q, (mid ++ f (disk_get k0 n) :: a). rewrite <- app_assoc. split; [reflexivity|]. split; [reflexivity|]. split; [exact G|]. split; [exact Hb|].
    apply Forall_app in Ha as (H1 & H2). apply Forall_app. split; [exact H1|]. inversion H2 as [|? ? H3 H4]; subst. constructor; [exact (calm_read _ _ H3 _)|exact H4].
  - exists before, t, after. split; [reflexivity|]. split; [reflexivity|]. split; [|auto]. destruct G as (ki & G1 & G2 & (G3 & G4) & G5). exists (disk_set ki n s). split; [exact G1|].
    split; [intros x Hx; apply G2; right; exact Hx|]. split; [exact G4|]. intros m Hm. destruct (list_eq_dec N.eq_dec m n) as [->|Hne]; [rewrite !disk_get_same; reflexivity|rewrite !disk_get_other by exact Hne; apply G5, Hm].
  - exists (b ++ t :: mid), q, after. rewrite <- app_assoc. split; [reflexivity|]. split; [rewrite !app_length; reflexivity|]. apply Forall_app in Hb as (H1 & H2). inversion H2 as [|? ? H35 H4]; subst; destruct H35 as (H3 & H5). split; [|split; [|exact Ha]].
    + destruct G as (ki & G1 & G2 & G3 & G5). exists ki. split; [exact G1|]. split; [exact G2|]. split; [exact G3|]. intros m Hm. rewrite disk_get_other; [apply G5, Hm|]. intros ->. exact (H3 Hm).
    + apply Forall_app. split; [exact H1|]. constructor; [exact H5|exact H4].
  - exists before, q, (mid ++ t :: a). rewrite <- app_assoc. split; [reflexivity|]. split; [reflexivity|]. apply Forall_app in Ha as (H1 & H2). inversion H2 as [|? ? H35 H4]; subst; destruct H35 as (H3 & H5). split; [|split; [exact Hb|]].
    + destruct G as (ki & G1 & G2 & G3 & G5). exists ki. split; [exact G1|]. split; [exact G2|]. split; [exact G3|]. intros m Hm. rewrite disk_get_other; [apply G5, Hm|]. intros ->. exact (H3 Hm).
    + apply Forall_app. split; [exact H1|]. constructor; [exact H5|exact H4].
Qed.
Lemma good_schedule c ds c' : schedule c ds c' -> forall before q after, fst c = before ++ q :: after -> good q (snd c) -> Forall calm before -> Forall calm after ->
  exists q', nth_error (fst c') (length before) = Some q' /\ good q' (snd c').
Proof.
  induction 1 as [c|c c1 ds c2 M _ IH]; intros before q after Eq G Hb Ha.
  - exists q. rewrite Eq. split; [|exact G]. rewrite nth_error_app2 by lia. rewrite Nat.sub_diag. reflexivity.
  - destruct (good_moves c c1 before q after M Eq G Hb Ha) as (b' & q' & a' & E1 & E2 & G' & Hb' & Ha'). rewrite <- E2. exact (IH b' q' a' E1 G' Hb' Ha').
Qed.
End Undisturbed.

Lemma job_within E num j : digit_ascii E -> within (fun n => touches E num j n \/ n = lit "-") (fun n => changes E num j n /\ n <> lit "-") (program_steps E num (fst j) (snd j)).
Proof.
  intros Hd. pose proof (program_within E num (fst j) (snd j)) as H. destruct (parse_args E num (fst j)) as [a| |] eqn:P.
  - apply C65_exactly in P as (gs & p & ls & names & X & C & ->); [|exact Hd]. refine (within_mono _ _ _ _ _ _ _ H); cbn [a_names a_in_place asks].
    + intros n [Hn| ->]; [left|right; reflexivity]. exists gs, p, ls, names. auto.
    + intros n (H1 & H2 & H3). split; [|exact H3]. exists gs, p, ls, names. auto.
  - refine (within_mono _ _ _ _ _ _ _ H); intros n [].
  - refine (within_mono _ _ _ _ _ _ _ H); intros n [].
Qed.
Lemma changes_touches E num j n : changes E num j n -> touches E num j n.
Proof. intros (gs & p & ls & names & H1 & H2 & H3 & _). exists gs, p, ls, names. auto. Qed.

(** C70: a run whose files no other run changes is not disturbed by the others, whatever the schedule and
    whatever the others are.  At any moment the files that it names are as they are at some moment of that run
    alone; when it has ended, its output, its status and its files are those of the run alone. *)
Theorem C70_undisturbed : forall E num before j after k ds runs k',
  digit_ascii E -> undisturbed E num before after j ->
  schedule (begin E num (before ++ j :: after), k) ds (runs, k') ->
  exists rest moment, nth_error runs (length before) = Some rest
    /\ In moment (program_states E num (fst j) k (snd j))
    /\ (forall n, touches E num j n -> disk_get k' n = disk_get moment n)
    /\ forall r, rest = Done r -> let alone := program E num (fst j) k (snd j) in
         r = (y_out alone, y_status alone) /\ moment = y_disk alone.
Proof.
  intros E num before j after k ds runs k' Hd Hu H. set (p := program_steps E num (fst j) (snd j)). set (R := fun n => touches E num j n \/ n = lit "-"). set (W := fun n => changes E num j n /\ n <> lit "-").
  assert (Calm : forall l, incl l (before ++ after) -> Forall (within (fun _ => True) (fun n => ~ (R n \/ W n))) (begin E num l)).
  { intros l Hl. apply Forall_forall. intros m Hm. apply in_map_iff in Hm as (o & <- & Ho). refine (within_mono _ _ _ _ _ (fun _ _ => I) _ (job_within E num o Hd)). intros n (Hc & Hn).
    specialize (Hl o Ho). intros [[Ht|Hx]|(Hw & _)]; [exact (Hu o n Hl Ht Hc)|exact (Hn Hx)|exact (Hu o n Hl (changes_touches _ _ _ _ Hw) Hc)]. }
  destruct (good_schedule p k R W _ _ _ H (begin E num before) p (begin E num after)) as (q & Hq & ki & G1 & G2 & _ & G4).
  - cbn [fst]. unfold begin. rewrite map_app. reflexivity.
  - exists k. split; [reflexivity|]. split; [apply incl_refl|]. split; [exact (job_within E num j Hd)|reflexivity].
  - apply Calm. apply incl_appl, incl_refl.
  - apply Calm. apply incl_appr, incl_refl.
  - cbn [fst snd] in *. unfold begin in Hq. rewrite map_length in Hq. exists q, ki. split; [exact Hq|]. split; [apply program_trace; apply G2; left; reflexivity|]. split; [intros n Hn; apply G4; left; left; exact Hn|].
    intros r ->. unfold p in G1. rewrite program_run in G1. cbn [run] in G1. injection G1 as -> ->. split; reflexivity.
Qed.
Print Assumptions C70_undisturbed.

(** ** Files that nobody changes *)
Lemma calm_schedule {A} (n : str) (c : list (steps A) * disk) ds c' : schedule c ds c' -> Forall (within (fun _ => True) (fun m => m <> n)) (fst c) ->
  disk_get (snd c') n = disk_get (snd c) n.
Proof.
  induction 1 as [c|c c1 ds c2 M _ IH]; [reflexivity|]. intros H. destruct M as [b m f a k0|b m s t a k0]; cbn [fst snd] in *; apply Forall_app in H as (H1 & H2); inversion H2 as [|? ? H35 H4]; subst; destruct H35 as (H3 & H5).
  - apply IH. apply Forall_app. split; [exact H1|]. constructor; [apply H5|exact H4].
  - rewrite IH; [apply disk_get_other; intros X; apply H3; symmetry; exact X|]. apply Forall_app. split; [exact H1|]. constructor; [apply H5|exact H4].
Qed.
Theorem C70_unchanged : forall E num js k ds runs k' n,
  digit_ascii E -> (forall j, In j js -> n <> lit "-" -> ~ changes E num j n) ->
  schedule (begin E num js, k) ds (runs, k') -> disk_get k' n = disk_get k n.
Proof.
  intros E num js k ds runs k' n Hd Hn H. apply (calm_schedule n _ _ _ H). cbn [fst]. apply Forall_forall. intros m Hm. apply in_map_iff in Hm as (j & <- & Hj).
  refine (within_mono _ _ _ _ _ (fun _ _ => I) _ (job_within E num j Hd)). intros x (Hc & Hx) ->. exact (Hn j Hj Hx Hc).
Qed.
Print Assumptions C70_unchanged.

(** ** Every schedule comes to an end, and then every run has ended. *)
Section Ends.
Context {A : Type}.
Inductive child : steps A -> steps A -> Prop :=
| ch_read : forall n f s, child (f s) (Reads n f)
| ch_write : forall n s t, child t (Writes n s t).
Inductive children : list (steps A) -> list (steps A) -> Prop :=
| chs : forall b q p a, child q p -> children (b ++ q :: a) (b ++ p :: a).
Lemma child_wf : well_founded child.
Proof. intros m. induction m as [a|n f IH|n s t IH]; constructor; intros q H; inversion H; subst; [apply IH|exact IH]. Qed.
Lemma children_wf l : Acc children l.
Proof.
  induction l as [|p l IHl]; [constructor; intros y H; inversion H as [b q p a C X Y]; destruct b; discriminate Y|].
  revert l IHl. induction p as [p IHp] using (well_founded_induction child_wf). intros l Hl. induction Hl as [l Hl' IHl]. constructor. intros y H. inversion H as [b q p' a C X Y]; subst.
  destruct b as [|z b]; cbn [app] in *; injection Y as Y1 Y2; subst.
  - apply IHp; [exact C|]. constructor. exact Hl'.
  - apply IHl. constructor. exact C.
Qed.
Lemma moves_children c c1 : moves c c1 -> children (fst c1) (fst c).
Proof. intros [b n f a k|b n s t a k]; cbn [fst]; constructor; constructor. Qed.
Lemma no_endless l : Acc children l -> forall s : nat -> list (steps A) * disk, fst (s 0) = l -> (forall i, moves (s i) (s (S i))) -> False.
Proof.
  induction 1 as [l _ IH]. intros s H0 H. apply (IH (fst (s 1))) with (s := fun i => s (S i)); [|reflexivity|intros i; apply H]. rewrite <- H0. apply moves_children, H.
Qed.
Lemma stuck_done (rs : list (steps A)) k : (forall c, ~ moves (rs, k) c) -> exists results, rs = map Done results.
Proof.
  induction rs as [|p rs IH]; intros H; [exists []; reflexivity|]. destruct p as [a|n f|n s t].
  - destruct IH as (l & ->); [|exists (a :: l); reflexivity]. intros c M. inversion M as [b n f a' k0 X|b n s t a' k0 X]; subst.
    + apply (H (Done a :: b ++ f (disk_get k n) :: a', k)). apply (moves_read (Done a :: b)).
    + apply (H (Done a :: b ++ t :: a', disk_set k n s)). apply (moves_write (Done a :: b)).
  - destruct (H (f (disk_get k n) :: rs, k)). apply (moves_read []).
  - destruct (H (t :: rs, disk_set k n s)). apply (moves_write []).
Qed.
End Ends.
Theorem C70_ends : forall E num js k,
  (~ exists s : nat -> list (steps (str * Z)) * disk, s 0 = (begin E num js, k) /\ forall i, moves (s i) (s (S i)))
  /\ forall ds runs k', schedule (begin E num js, k) ds (runs, k') -> (forall c, ~ moves (runs, k') c) ->
       exists results, runs = map Done results /\ length results = length js.
Proof.
  intros E num js k. split.
  - intros (s & _ & H). exact (no_endless _ (children_wf (fst (s 0))) s eq_refl H).
  - intros ds runs k' H S. destruct (stuck_done runs k' S) as (l & ->). exists l. split; [reflexivity|].
    assert (L : forall (c c' : list (steps (str * Z)) * disk) d, schedule c d c' -> length (fst c') = length (fst c)).
    { induction 1 as [c|c c1 d c2 M _ IH]; [reflexivity|]. rewrite IH. destruct M; cbn [fst]; rewrite !app_length; reflexivity. }
    specialize (L _ _ _ H). cbn [fst] in L. unfold begin in L. rewrite !map_length in L. exact L.
Qed.
Print Assumptions C70_ends.

(** ** Runs on separate files: at the same time is the same as one after the other *)
Lemma schedule_app {A} (c c1 c2 : list (steps A) * disk) ds1 ds2 : schedule c ds1 c1 -> schedule c1 ds2 c2 -> exists ds, schedule c ds c2.
Proof. induction 1 as [c|c c0 ds c1 M _ IH]; intros H; [eauto|]. destruct (IH H) as (ds' & H'). eexists. eapply sch_move; eassumption. Qed.
Lemma run_schedule {A} (m : steps A) : forall before after k, exists ds, schedule (before ++ m :: after, k) ds (before ++ Done (fst (run m k)) :: after, snd (run m k)).
Proof.
  induction m as [a|n f IH|n s t IH]; intros before after k; cbn [run].
  - eexists. apply sch_none.
  - destruct (IH (disk_get k n) before after k) as (ds & H). eexists. eapply sch_move; [apply moves_read|exact H].
  - destruct (IH before after (disk_set k n s)) as (ds & H). eexists. eapply sch_move; [apply moves_write|exact H].
Qed.
Lemma in_turn_schedule E num js : forall done k, exists ds, schedule (map Done done ++ begin E num js, k) ds (map Done (done ++ fst (in_turn E num js k)), snd (in_turn E num js k)).
Proof.
  induction js as [|j js IH]; intros done k; cbn [in_turn begin map].
  - cbn [fst snd]. rewrite !app_nil_r. eexists. apply sch_none.
  - destruct (run_schedule (program_steps E num (fst j) (snd j)) (map Done done) (begin E num js) k) as (ds & H). rewrite program_run in H. cbn [fst snd] in H.
    set (y := program E num (fst j) k (snd j)) in *. destruct (IH (done ++ [(y_out y, y_status y)]) (y_disk y)) as (ds' & H'). rewrite map_app, <- app_assoc in H'. cbn [map app] in H'.
    destruct (schedule_app _ _ _ _ _ H H') as (d & X). exists d. destruct (in_turn E num js (y_disk y)) as (rs & k'). cbn [fst snd] in *. rewrite <- app_assoc in X. exact X.
Qed.
Theorem C70_separate : forall E num js k ds results k',
  digit_ascii E -> separate E num js ->
  schedule (begin E num js, k) ds (map Done results, k') ->
  Forall2 (fun j r => let alone := program E num (fst j) k (snd j) in r = (y_out alone, y_status alone)) js results
  /\ forall n, (forall j, In j js -> changes E num j n -> disk_get k' n = disk_get (y_disk (program E num (fst j) k (snd j))) n)
     /\ ((forall j, In j js -> ~ changes E num j n) -> disk_get k' n = disk_get k n).
Proof.
  intros E num js k ds results k' Hd Hs H.
  assert (P : forall before j after, js = before ++ j :: after -> exists r, nth_error results (length before) = Some r /\ let alone := program E num (fst j) k (snd j) in
    r = (y_out alone, y_status alone) /\ forall n, touches E num j n -> disk_get k' n = disk_get (y_disk alone) n).
  { intros before j after ->. destruct (C70_undisturbed E num before j after k ds _ k' Hd (Hs _ _ _ eq_refl) H) as (q & ki & N1 & _ & T & F). rewrite nth_error_map in N1.
    destruct (nth_error results (length before)) as [r|]; [|discriminate N1]. injection N1 as <-. exists r. split; [reflexivity|]. destruct (F r eq_refl) as (-> & ->). split; [reflexivity|exact T]. }
  split.
  - assert (L : length results = length js).
    { destruct (C70_ends E num js k) as (_ & X). destruct (X ds _ k' H) as (l & Y & Z).
      - intros c M. inversion M as [b n f a k0 X0|b n s t a k0 X0]; subst; clear - X0.
        + assert (I0 : In (Reads n f) (map Done results)) by (rewrite <- X0; apply in_elt). apply in_map_iff in I0 as (? & ? & _). discriminate.
        + assert (I0 : In (Writes n s t) (map Done results)) by (rewrite <- X0; apply in_elt). apply in_map_iff in I0 as (? & ? & _). discriminate.
      - rewrite <- Z. apply (f_equal (@length _)) in Y. rewrite !map_length in Y. exact Y. }
    clear H Hs. revert results P L. induction js as [|j js IH]; intros rs P L; destruct rs as [|r rs]; try discriminate L; [constructor|]. constructor.
    + destruct (P [] j js eq_refl) as (r' & N1 & X & _). injection N1 as <-. exact X.
    + apply IH; [|injection L as L; exact L]. intros before j' after ->. destruct (P (j :: before) j' after eq_refl) as (r' & N1 & X). exists r'. split; [exact N1|exact X].
  - intros n. split.
    + intros j Hj Hc. apply in_split in Hj as (before & after & ->). destruct (P before j after eq_refl) as (r & _ & _ & T). apply T, changes_touches, Hc.
    + intros Hn. apply (C70_unchanged E num js k ds _ k' n Hd (fun j Hj _ => Hn j Hj) H).
Qed.
Print Assumptions C70_separate.
(** Any two complete schedules of such runs give the same, and it is what the runs give one after the other. *)
Lemma parsed_changes E num j n : digit_ascii E -> {changes E num j n} + {~ changes E num j n}.
Proof.
  intros Hd. destruct (parse_args E num (fst j)) as [a| |] eqn:P.
  - destruct (in_dec (list_eq_dec N.eq_dec) n (a_names a)) as [Hi|Hi].
    + destruct (a_in_place a) eqn:Hp.
      * left. apply C65_exactly in P as (gs & p & ls & names & X & C & ->); [|exact Hd]. exists gs, p, ls, names. auto.
      * right. intros (gs & p & ls & names & X & C & _ & T). pose proof (accepted_args E num (fst j) gs p ls names Hd X C) as P'. rewrite P in P'. injection P' as ->. cbn [a_in_place asks] in Hp. congruence.
    + right. intros (gs & p & ls & names & X & C & Y & _). pose proof (accepted_args E num (fst j) gs p ls names Hd X C) as P'. rewrite P in P'. injection P' as ->. contradiction.
  - right. intros (gs & p & ls & names & X & C & _). pose proof (accepted_args E num (fst j) gs p ls names Hd X C) as P'. rewrite P in P'. discriminate P'.
  - right. intros (gs & p & ls & names & X & C & _). pose proof (accepted_args E num (fst j) gs p ls names Hd X C) as P'. rewrite P in P'. discriminate P'.
Qed.
Theorem C70_in_turn : forall E num js k ds results k',
  digit_ascii E -> separate E num js ->
  schedule (begin E num js, k) ds (map Done results, k') ->
  results = fst (in_turn E num js k) /\ forall n, disk_get k' n = disk_get (snd (in_turn E num js k)) n.
Proof.
  intros E num js k ds results k' Hd Hs H. destruct (in_turn_schedule E num js [] k) as (ds' & H'). cbn [map app] in H'.
  destruct (C70_separate E num js k ds results k' Hd Hs H) as (A & B). destruct (C70_separate E num js k ds' _ _ Hd Hs H') as (A' & B'). split.
  - revert A A'. generalize (fst (in_turn E num js k)). clear. revert results. induction js as [|j js IH]; intros rs rs' A A'; inversion A; inversion A'; subst; [reflexivity|]. f_equal; [congruence|]. apply IH; assumption.
  - intros n. destruct (B n) as (B1 & B2). destruct (B' n) as (B1' & B2').
    destruct (Exists_dec (fun j => changes E num j n) js (fun j => parsed_changes E num j n Hd)) as [X|X].
    + apply Exists_exists in X as (j & Hj & Hc). rewrite (B1 j Hj Hc), (B1' j Hj Hc). reflexivity.
    + assert (Y : forall j, In j js -> ~ changes E num j n) by (intros j Hj Hc; apply X, Exists_exists; exists j; auto). rewrite (B2 Y), (B2' Y). reflexivity.
Qed.
Print Assumptions C70_in_turn.

(** ** A run that only prints, among runs that write the same files *)
Inductive once {A} : list str -> steps A -> Prop :=
| on_done : forall l a, once l (Done a)
| on_read : forall l n f, In n l -> (forall s, once (remove (list_eq_dec N.eq_dec) n l) (f s)) -> once l (Reads n f).
Lemma once_within {A} l (m : steps A) : once l m -> within (fun n => In n l) (fun _ => False) m.
Proof. induction 1 as [l a|l n f Hn _ IH]; [exact I|]. split; [exact Hn|]. intros s. refine (within_mono _ _ _ _ _ _ _ (IH s)); [|intros ? []]. intros x Hx. apply in_remove in Hx. tauto. Qed.
Lemma run_agree {A} (m : steps A) (R : str -> Prop) k k' : within R (fun _ => False) m -> (forall n, R n -> disk_get k n = disk_get k' n) -> fst (run m k) = fst (run m k').
Proof.
  intros H Ha. induction m as [a|n f IH|n s t IH]; cbn [run]; [reflexivity| |destruct H as ([] & _)]. destruct H as (H1 & H2). rewrite (Ha n H1). apply IH, H2.
Qed.
Definition disk_put (k : disk) (n : str) (s : option stored) : disk :=
  match s with Some s => disk_set k n s | None => filter (fun x => negb (seqb (fst x) n)) k end.
Lemma put_same k n s : disk_get (disk_put k n s) n = s.
Proof.
  destruct s as [s|]; [apply disk_get_same|]. induction k as [|(m & r) k IH]; [reflexivity|]. cbn. destruct (seqb m n) eqn:X; cbn; [exact IH|rewrite X; exact IH].
Qed.
Lemma put_other k n s m : m <> n -> disk_get (disk_put k n s) m = disk_get k m.
Proof.
  intros H. destruct s as [s|]; [apply disk_get_other; exact H|]. induction k as [|(x & r) k IH]; [reflexivity|]. cbn. destruct (seqb x n) eqn:X; cbn.
  - apply seqb_eq in X. subst x. destruct (seqb n m) eqn:Y; [apply seqb_eq in Y; congruence|exact IH].
  - destruct (seqb x m); [reflexivity|exact IH].
Qed.
Lemma looks_schedule {A} (c c' : list (steps A) * disk) ds : schedule c ds c' -> forall l before m after r, fst c = before ++ m :: after -> once l m ->
  nth_error (fst c') (length before) = Some (Done r) ->
  exists kr, (forall n, exists d, In d ds /\ disk_get kr n = disk_get d n) /\ fst (run m kr) = r.
Proof.
  induction 1 as [c|c c1 ds c2 M _ IH]; intros l before m after r Eq O Hr.
  - rewrite Eq, nth_error_app2, Nat.sub_diag in Hr by lia. injection Hr as ->. exists (snd c). split; [intros n; exists (snd c); split; [left; reflexivity|reflexivity]|reflexivity].
  - assert (K : forall l' b' q a' (X : fst c1 = b' ++ q :: a') (L : length b' = length before), once l' q ->
      exists kr, (forall n, exists d, In d (snd c :: ds) /\ disk_get kr n = disk_get d n) /\ fst (run q kr) = r).
    { intros l' b' q a' X L Oq. rewrite <- L in Hr. destruct (IH l' b' q a' r X Oq Hr) as (kr & K1 & K2). exists kr. split; [|exact K2]. intros n. destruct (K1 n) as (d & Hd & Hn). exists d. split; [right; exact Hd|exact Hn]. }
    destruct M as [b n f a k0|b n s t a k0]; cbn [fst snd] in *; destruct (split_cases _ _ _ _ _ _ Eq) as [(-> & <- & ->)|[(mid & -> & ->)|(mid & -> & ->)]].
    + inversion O as [|? ? ? Hn Hf]; subst. destruct (K _ before (f (disk_get k0 n)) after eq_refl eq_refl (Hf _)) as (kr & K1 & K2). exists (disk_put kr n (disk_get k0 n)). split.
      * intros x. destruct (list_eq_dec N.eq_dec x n) as [->|Hne]; [exists k0; split; [left; reflexivity|apply put_same]|]. rewrite put_other by exact Hne. apply K1.
      * cbn [run]. rewrite put_same, <- K2. refine (run_agree _ _ _ _ (once_within _ _ (Hf _)) _). intros x Hx. apply put_other. apply in_remove in Hx. tauto.
    + apply (K l (b ++ f (disk_get k0 n) :: mid) m after); [rewrite <- app_assoc; reflexivity|rewrite !app_length; reflexivity|exact O].
    + apply (K l before m (mid ++ f (disk_get k0 n) :: a)); [rewrite <- app_assoc; reflexivity|reflexivity|exact O].
    + inversion O.
    + apply (K l (b ++ t :: mid) m after); [rewrite <- app_assoc; reflexivity|rewrite !app_length; reflexivity|exact O].
    + apply (K l before m (mid ++ t :: a)); [rewrite <- app_assoc; reflexivity|reflexivity|exact O].
Qed.
Lemma once_andthen {A B} l (m : steps A) (f : A -> steps B) : once l m -> (forall a, exists v, f a = Done v) -> once l (andthen m f).
Proof. intros H F. induction H as [l a|l n g Hn _ IH]; cbn [andthen]; [destruct (F a) as (v & ->); constructor|]. constructor; [exact Hn|exact IH]. Qed.
Lemma tocs_once E o names : forall input l, NoDup names -> incl names l -> once l (tocs_steps E o input names).
Proof.
  induction names as [|n ns IH]; intros input l Hd Hl; [constructor|]. inversion Hd as [|? ? Hn Hd']; subst. cbn [tocs_steps].
  assert (F : forall l' (r : res (str * stdin_state)), incl ns l' -> once l' (match r with Ok a => (fun '(t, input') => try (tocs_steps E o input' ns) (fun ts => Done (Ok (t :: ts)))) a | Err e => Done (Err e) end)).
  { intros l' [(t & i)|e] Hl'; [|constructor]. apply once_andthen; [apply IH; assumption|]. intros [ts|e]; eexists; reflexivity. }
  unfold try at 1. unfold toc_steps. destruct (_ || _); cbn [andthen].
  - apply F. intros x Hx. apply Hl. right. exact Hx.
  - constructor; [apply Hl; left; reflexivity|]. intros s. apply F. intros x Hx. apply in_in_remove; [intros ->; exact (Hn Hx)|]. apply Hl. right. exact Hx.
Qed.
Lemma print_done E a l : a_diff a = false -> forall b, exists v, print_steps E a l b = Done v.
Proof. intros D. induction l as [|(n & t) l IH]; intros b; cbn [print_steps]; [eauto|]. rewrite D. destruct (IH b) as ((out & r) & ->). cbn [andthen]. eauto. Qed.

(** A run that only prints, with each file named once, among any others (md_toc or not): it prints what it would
    print alone if each of its files had stayed as it was at some moment of the schedule. *)
Theorem C70_prints : forall E num ws gs p ls names input before after k ds runs k' r,
  digit_ascii E -> accepted_line num (e_digit E) ws gs p ls names -> ~ clash gs ls ->
  turned InPlace gs = false -> turned Diff gs = false -> NoDup names ->
  schedule (before ++ program_steps E num ws input :: after, k) ds (runs, k') ->
  nth_error runs (length before) = Some (Done r) ->
  exists seen_files, (forall n, exists moment, In moment ds /\ disk_get seen_files n = disk_get moment n)
    /\ let alone := program E num ws seen_files input in r = (y_out alone, y_status alone).
Proof.
  intros E num ws gs p ls names input before after k ds runs k' r Hd Hl Hc Hi Hf Hn H Hr.
  assert (O : once (effective_names names) (program_steps E num ws input)).
  { unfold program_steps. rewrite (accepted_args E num ws gs p ls names Hd Hl Hc). apply once_andthen; [|intros (out & v); eauto]. unfold cli_steps. cbn [a_names a_in_place asks]. rewrite Hi. apply once_andthen.
    - apply tocs_once; [|apply incl_refl]. destruct names; [constructor; [intros []|constructor]|exact Hn].
    - intros [ts|e]; [|eauto]. destruct (print_done E (asks gs p ls names) (combine (effective_names names) ts) Hf true) as ((out & v) & ->). cbn [andthen]. eauto. }
  destruct (looks_schedule _ _ _ H _ before _ after r eq_refl O Hr) as (kr & K1 & K2). exists kr. split; [exact K1|]. rewrite program_run in K2. cbn [fst] in K2. symmetry. exact K2.
Qed.
Print Assumptions C70_prints.

(** The same for a file that is kept up to date: while a run updates it, another one that prints prints the
    table of the titles of its users, at whatever moment it reads the file; and the update is as alone. *)
Lemma schedule_part {A} (c c' : list (steps A) * disk) ds : schedule c ds c' -> forall d, In d ds -> exists ds' runs, schedule c ds' (runs, d).
Proof.
  induction 1 as [(rs & k)|c c1 ds c2 M _ IH]; intros d Hd.
  - destruct Hd as [<-|[]]. exists [k], rs. apply sch_none.
  - destruct Hd as [<-|Hd]; [exists [snd c], (fst c); destruct c; apply sch_none|]. destruct (IH d Hd) as (ds' & runs & H). exists (snd c :: ds'), runs. eapply sch_move; eassumption.
Qed.
Section Reader.
Context (E : env) (num : str -> option Z) (n marker : str) (Ht : python_tables E) (Hz : zs_ascii E) (Hw : word_ascii E) (He : entity_tables E) (Hd : digit_ascii E) (Hs : space_ascii E) (Hm : neutral_marker E marker).
Lemma kept_reads k above below last : kept E num n marker k above below last ->
  exists shown, n <> lit "-" /\ keeps k n (above ++ shown ++ below) /\ forall q l, In l shown -> plain_line q l.
Proof.
  intros H. destruct (history_state E n marker Ht Hz Hw He Hd Hs Hm _ _ _ _ (kept_maintained E num n marker Ht Hz Hw He Hd Hs Hm k above below last H Closed)) as (sh & t & Hn & _ & _ & Hh & _ & (_ & Hp) & _).
  exists sh. split; [exact Hn|]. split; [apply keeps_holds in Hh; exact Hh|exact Hp].
Qed.
End Reader.
Theorem C70_prints_table : forall E num n marker k above below last wj ws gs p ls names o hs t gs' p' ls' o' hs' t' input others ds rest k' r more,
  python_tables E -> zs_ascii E -> word_ascii E -> entity_tables E -> space_ascii E -> neutral_marker E marker ->
  kept E num n marker k above below last ->
  accepted_line num (e_digit E) (fst wj) gs p ls names -> ~ clash gs ls -> turned InPlace gs = true ->
  suits E n marker k above below gs p ls names o hs -> table_of_titles o hs t ->
  accepted_line num (e_digit E) ws gs' p' ls' [n] -> ~ clash gs' ls' -> turned InPlace gs' = false -> turned Diff gs' = false ->
  suits E n marker k above below gs' p' ls' [n] o' hs' -> table_of_titles o' hs' t' ->
  (forall j m, In j others -> In m names -> ~ changes E num j m) ->
  schedule (begin E num (wj :: (ws, input) :: others), k) ds (rest :: Done r :: more, k') ->
  r = (t', 0%Z)
  /\ (forall r', rest = Done r' -> fst r' = [] /\ In (snd r') [0; 128]%Z /\ kept E num n marker k' above below (Some (o, t))).
Proof.
  intros E num n marker k above below last wj ws gs p ls names o hs t gs' p' ls' o' hs' t' input others ds rest k' r more Ht Hz Hw He Hs Hm Hk L1 C1 I1 S1 T1 L2 C2 I2 D2 S2 T2 Ho H. pose proof Ht as (_ & Hd & _).
  assert (U : undisturbed E num [] ((ws, input) :: others) wj).
  { intros other m Hin (gs1 & p1 & ls1 & names1 & A1 & A2 & A3) (gs2 & p2 & ls2 & names2 & B1 & B2 & B3 & B4).
    assert (In m names) as Hmn. { pose proof (accepted_args E num _ _ _ _ _ Hd A1 A2) as X. rewrite (accepted_args E num _ _ _ _ _ Hd L1 C1) in X. apply (f_equal (fun g => match g with Got a => a_names a | _ => [] end)) in X. cbn [a_names asks] in X. rewrite X. exact A3. }
    destruct Hin as [<-|Hin]; [|exact (Ho other m Hin Hmn (ex_intro _ gs2 (ex_intro _ p2 (ex_intro _ ls2 (ex_intro _ names2 (conj B1 (conj B2 (conj B3 B4)))))))) ].
    pose proof (accepted_args E num _ _ _ _ _ Hd B1 B2) as X. cbn [fst] in X. rewrite (accepted_args E num _ _ _ _ _ Hd L2 C2) in X. apply (f_equal (fun g => match g with Got a => a_in_place a | _ => false end)) in X. cbn [a_in_place asks] in X. congruence. }
  assert (Tn : touches E num wj n) by (exists gs, p, ls, names; destruct S1 as [_ (X & _) _ _ _ _]; auto).
  split.
  - destruct (C70_prints E num ws gs' p' ls' [n] input [program_steps E num (fst wj) (snd wj)] (begin E num others) k ds (rest :: Done r :: more) k' r Hd L2 C2 I2 D2) as (kr & K1 & ->).
    + constructor; [intros []|constructor].
    + exact H.
    + reflexivity.
    + destruct (K1 n) as (d & Hin & Gd). destruct (schedule_part _ _ _ H d Hin) as (ds' & rs' & H'). destruct (C70_undisturbed E num [] wj _ k ds' rs' d Hd U H') as (q & ki & _ & Hki & Gk & _).
      specialize (Gk n Tn).
      assert (X : exists shown, n <> lit "-" /\ keeps ki n (above ++ shown ++ below) /\ forall q l, In l shown -> plain_line q l).
      { pose proof (kept_reads E num n marker Ht Hz Hw He Hd Hs Hm k above below last Hk) as (_ & Hn & _).
        destruct (C69_killed E num n marker k above below last (fst wj) gs p ls names o hs t (snd wj) ki Ht Hz Hw He Hs Hm Hk L1 C1 I1 S1 T1 Hki) as [X|[X|(X & _)]].
        - exact (kept_reads E num n marker Ht Hz Hw He Hd Hs Hm _ _ _ _ X).
        - exact (kept_reads E num n marker Ht Hz Hw He Hd Hs Hm _ _ _ _ X).
        - exists []. split; [exact Hn|]. split; [exact X|]. intros q0 l []. }
      destruct X as (shown & Hn & (text & G & Rd) & Hp). destruct S2 as [(A1 & A2 & A3 & A4) _ A5 (A6 & A7) _ _].
      assert (Ok' : o_skip o' = a_skip (asks gs' p' ls' [n])) by (destruct A1 as (_ & _ & _ & _ & _ & _ & _ & _ & X & _); exact X).
      assert (Tab : its_table E o' kr input n t').
      { exists (above ++ shown ++ below), hs'. split; [right; split; [exact Hn|]; exists text; split; [congruence|exact Rd]|]. split; [|exact T2]. split; [|auto].
        pose proof (C65_accepted E num ws _ (accepted_args E num ws gs' p' ls' [n] Hd L2 C2)) as Hoff. destruct (usable _ o' Hoff A1 (proj1 A2)) as (U1 & _).
        apply whole; [rewrite Ok'; apply A2|rewrite Ok'; apply A2|exact U1|exact (proj1 Rd)|exact Hp|exact A5]. }
      destruct (C68_accepted E num ws gs' p' ls' [n] kr input o' [t'] Ht Hz Hw He L2 C2 A1) as (Y1 & _ & Y2 & Y3).
      * lia.
      * constructor; [intros []|constructor].
      * intros [X|X]; congruence.
      * constructor; [exact Tab|constructor].
      * cbn zeta. destruct (Y1 I2) as (Y & _). rewrite Y. cbn [concat]. rewrite app_nil_r. f_equal. apply Y3. intros X. apply Y2 in X as (X & _). congruence.
  - intros r' ->. destruct (C70_undisturbed E num [] wj _ k ds _ k' Hd U H) as (q & ki & N1 & _ & Gk & F). injection N1 as <-. destruct (F r' eq_refl) as (-> & ->). cbn [fst snd].
    destruct (C69_update E num n marker k above below last (fst wj) gs p ls names o hs t (snd wj) Ht Hz Hw He Hs Hm Hk L1 C1 I1 S1 T1) as (Z1 & Z2 & Z3 & Z4). split; [exact Z1|]. split; [exact Z2|].
    pose proof (kept_reads E num n marker Ht Hz Hw He Hd Hs Hm _ above below _ Z4) as (shown & Hn & (text & G & Rd) & _).
    destruct (history_state E n marker Ht Hz Hw He Hd Hs Hm _ _ _ _ (kept_maintained E num n marker Ht Hz Hw He Hd Hs Hm _ above below _ Z4 Closed)) as (sh & t0 & _ & N2 & N3 & _).
    apply (k_edit E num n marker _ above below (Some (o, t)) k' shown above below Z4); [exists text; split; assumption| |assumption|assumption]. exists text. split; [rewrite (Gk n Tn); exact G|exact Rd].
Qed.
Print Assumptions C70_prints_table.

(** ** Schedules to compute with *)
Fixpoint follow {A} (picks : list nat) (c : list (steps A) * disk) : list (steps A) * disk :=
  match picks with
  | [] => c
  | i :: picks' =>
      follow picks' (match nth_error (fst c) i with
                     | Some (Reads n f) => (firstn i (fst c) ++ f (disk_get (snd c) n) :: skipn (S i) (fst c), snd c)
                     | Some (Writes n s t) => (firstn i (fst c) ++ t :: skipn (S i) (fst c), disk_set (snd c) n s)
                     | _ => c
                     end)
  end.
Lemma follow_schedule {A} picks : forall c : list (steps A) * disk, exists ds, schedule c ds (follow picks c).
Proof.
  induction picks as [|i picks IH]; intros c; [eexists; apply sch_none|]. cbn [follow]. destruct (nth_error (fst c) i) as [m|] eqn:X; [|apply IH]. destruct c as (rs & k). cbn [fst snd] in *.
  assert (Y : rs = firstn i rs ++ m :: skipn (S i) rs). { apply nth_error_split in X as (l1 & l2 & -> & <-). rewrite firstn_app, Nat.sub_diag, firstn_all. cbn [firstn]. rewrite app_nil_r. f_equal. rewrite skipn_app, skipn_all2 by lia. replace (S (length l1) - length l1) with 1 by lia. reflexivity. }
  destruct m as [a|n f|n s t]; [apply IH| |].
  - match goal with |- exists ds, schedule _ ds (follow picks ?c1) => destruct (IH c1) as (ds & H) end. exists (k :: ds). refine (sch_move (rs, k) _ ds _ _ H). rewrite Y at 1. apply moves_read.
  - match goal with |- exists ds, schedule _ ds (follow picks ?c1) => destruct (IH c1) as (ds & H) end. exists (k :: ds). refine (sch_move (rs, k) _ ds _ _ H). rewrite Y at 1. apply moves_write.
Qed.

(** ** Two updates of the same file *)
Definition diary_job : job := (diary_words, Closed).
Definition diary_pair : list (steps (str * Z)) * disk := (begin ascii_env simple_int [diary_job; diary_job], disk0).
(** Both runs read the file and find the marker in its first line; then both remove that line. *)
Definition race : list nat := [0; 1; 0; 1; 0; 0; 1; 1; 0; 0; 1; 1].
Definition after_race : disk := Eval vm_compute in snd (follow race diary_pair).
Lemma race_end : follow race diary_pair = (map Done [([], 128%Z); ([], 128%Z)], after_race).
Proof. vm_compute. reflexivity. Qed.
(** What holds for one update (C69_update) and for a run that prints (C70_prints_table) does not hold for two
    updates of the same file at the same time: both end as if all were well, and a line of the users is lost. *)
Theorem C70_two_updates_refuted :
  ~ (forall E num n marker k above below last j gs p ls names o hs t ds results k',
       python_tables E -> zs_ascii E -> word_ascii E -> entity_tables E -> space_ascii E -> neutral_marker E marker ->
       kept E num n marker k above below last ->
       accepted_line num (e_digit E) (fst j) gs p ls names -> ~ clash gs ls -> turned InPlace gs = true ->
       suits E n marker k above below gs p ls names o hs -> table_of_titles o hs t ->
       schedule (begin E num [j; j], k) ds (map Done results, k') ->
       exists shown, keeps k' n (above ++ shown ++ below)).
Proof.
  intros H. destruct (follow_schedule race diary_pair) as (ds & S). rewrite race_end in S.
  destruct (H ascii_env simple_int (lit "a.md") (lit "<!--TOC-->") disk0 [] (skipn 1 guide) None diary_job diary_globals Github diary_locals [lit "a.md"] diary_opts ([] ++ guide_headings) (expected_table diary_opts guide_headings) ds [([], 128%Z); ([], 128%Z)] after_race
     python_tables_ascii zs_ascii_ex word_ascii_ex ascii_entities space_ascii_ex (proj1 C63_history_ex) diary_0 (proj1 diary_line) (proj2 diary_line) eq_refl) as (shown & text & G & Rd).
  - apply diary_suits; [constructor|cbn; lia].
  - left. split; [apply coherent_by; repeat split|reflexivity].
  - exact S.
  - vm_compute in G. injection G as <-. apply reads_seen in Rd. cbn [app] in Rd.
    apply (f_equal (fun l => skipn (length l - length (skipn 1 guide)) l)) in Rd. rewrite app_length, Nat.add_sub, skipn_app, skipn_all, Nat.sub_diag in Rd. vm_compute in Rd. discriminate Rd.
Qed.
Print Assumptions C70_two_updates_refuted.
Example C70_race_ex : exists lost text, hd_error (skipn 1 guide) = Some lost
  /\ disk_get after_race (lit "a.md") = Some (Stored text false) /\ ~ In lost (lines_of text).
Proof.
  eexists. eexists. split; [vm_compute; reflexivity|]. split; [vm_compute; reflexivity|]. intros X. vm_compute in X. repeat (destruct X as [X|X]; [discriminate X|]). exact X.
Qed.

(** ** Two updates of different files and one that prints: md_toc -pd github -o. -l3 a.md, md_toc -p github -l3 b.md,
    md_toc github -o. -l3 a.md *)
Definition b_job : job := ([lit "-p"; lit "github"; lit "-l3"; lit "b.md"], Closed).
Definition print_words : list str := [lit "github"; lit "-o."; lit "-l3"; lit "a.md"].
Lemma changed_names E num j n : digit_ascii E -> touches E num j n -> In n (match parse_args E num (fst j) with Got a => a_names a | _ => [] end).
Proof. intros Hd (gs & p & ls & names & A & C & I). rewrite (accepted_args E num (fst j) gs p ls names Hd A C). exact I. Qed.
Example C70_separate_ex :
  let k := [(lit "a.md", Stored (windows (concat marked)) false); (lit "b.md", Stored (concat marked) false)] in
  separate ascii_env simple_int [diary_job; b_job]
  /\ changes ascii_env simple_int diary_job (lit "a.md")
  /\ follow [0; 1; 1; 0; 0; 1; 1; 0; 0; 1; 1; 0] (begin ascii_env simple_int [diary_job; b_job], k)
     = (map Done [([], 128%Z); ([], 0%Z)], snd (in_turn ascii_env simple_int [diary_job; b_job] k))
  /\ length (program_states ascii_env simple_int (fst b_job) k Closed) = 4.
Proof.
  split; [|split; [|split; vm_compute; reflexivity]].
  - intros before j after Eq. assert (X : forall x, In x [diary_job; b_job] -> forall n, touches ascii_env simple_int x n -> n = if seqb (hd [] (fst x)) (lit "-pd") then lit "a.md" else lit "b.md").
    { intros x Hx n Hn. apply changed_names in Hn; [|exact digit_ascii_ex]. destruct Hx as [<-|[<-|[]]]; vm_compute in Hn; destruct Hn as [<-|[]]; vm_compute; reflexivity. }
    intros other n Ho Hn Hc. apply changes_touches in Hc. pose proof (X j) as Xj. pose proof (X other) as Xo. rewrite Eq in Xj, Xo. specialize (Xj (in_elt _ _ _) n Hn).
    assert (In other (before ++ j :: after)) as Io by (apply in_app_or in Ho; apply in_or_app; destruct Ho; [left; assumption|right; right; assumption]). specialize (Xo Io n Hc).
    destruct before as [|b1 [|b2 before]].
    + injection Eq as <- <-. destruct Ho as [<-|[]]. subst n. vm_compute in Xo. discriminate Xo.
    + injection Eq as <- <- <-. destruct Ho as [<-|[]]. subst n. vm_compute in Xo. discriminate Xo.
    + exfalso. apply (f_equal (@length _)) in Eq. cbn in Eq. rewrite app_length in Eq. cbn in Eq. lia.
  - exists diary_globals, Github, diary_locals, [lit "a.md"]. split; [apply diary_line|]. split; [apply diary_line|]. split; [left; reflexivity|reflexivity].
Qed.
Lemma print_line : accepted_line simple_int (e_digit ascii_env) print_words [] Github diary_locals [lit "a.md"] /\ ~ clash [] diary_locals.
Proof.
  split; [|intros [(I & _)|(_ & m & I & _)]; cbn in I; intuition discriminate]. split; [discriminate|].
  pose (cl := Choice (lit "--header-levels") 108 MaybeValue). pose (co := Choice (lit "--ordered-list-marker") 111 MaybeValue).
  exists [], [], [lit "-o."; lit "-l3"; lit "a.md"]. split; [reflexivity|]. split; [constructor|]. split; [constructor|]. split.
  - exists [lit "-o."; lit "-l3"], [(co, Some (lit ".")); (cl, Some (lit "3"))], false, [lit "a.md"], [], [], false.
    split; [reflexivity|]. split; [|split; [constructor|split; [|split; [reflexivity|split; [discriminate|]]]]].
    + apply (gs_more _ _ _ [lit "-o."] [(co, Some (lit "."))] false [lit "-l3"] [(cl, Some (lit "3"))] false).
      * apply (g_joined local_options local_choices (e_digit ascii_env) [] co (lit ".")); [constructor|split; [cbn; tauto|discriminate]|discriminate|discriminate].
      * apply (gs_more _ _ _ [lit "-l3"] [(cl, Some (lit "3"))] false [] [] false); [|constructor].
        apply (g_joined local_options local_choices (e_digit ascii_env) [] cl (lit "3")); [constructor|split; [cbn; tauto|discriminate]|discriminate|discriminate].
    + apply fw_plain. constructor; [left; right; discriminate|constructor].
    + constructor; [apply ml_ordered; [reflexivity|cbn; tauto]|]. constructor; [apply (ml_levels _ _ cl (lit "3") 3); [reflexivity|reflexivity|lia]|constructor].
  - apply (marks_doubt ascii_env). vm_compute. discriminate.
Qed.
(** The one that prints reads the file when the old table has gone and the new one is not yet there. *)
Example C70_prints_table_ex :
  accepted_line simple_int (e_digit ascii_env) print_words [] Github diary_locals [lit "a.md"] /\ ~ clash [] diary_locals
  /\ suits ascii_env (lit "a.md") (lit "<!--TOC-->") disk2 [ln "# Deep"] (skipn 1 guide) [] Github diary_locals [lit "a.md"] diary_opts deeper
  /\ follow [0; 0; 0; 0; 0; 1; 0; 0] (begin ascii_env simple_int [diary_job; (print_words, Closed)], disk2)
     = (map Done [([], 128%Z); (expected_table diary_opts deeper, 0%Z)], disk3)
  /\ disk_get (snd (follow [0; 0; 0; 0; 0] (begin ascii_env simple_int [diary_job; (print_words, Closed)], disk2))) (lit "a.md")
     = Some (Stored (concat [ln "# Deep"] ++ concat (skipn 1 guide)) false).
Proof.
  split; [apply print_line|]. split; [apply print_line|]. split; [|split; vm_compute; reflexivity].
  destruct (diary_suits disk2 _ _ deep_document (le_S _ _ (le_S _ _ (le_S _ _ (le_S _ _ (le_n 1)))))) as [S1 S2 S3 S4 S5 S6]. constructor; try assumption.
Qed.
