(** Stored files and command lines, through any history (C69). *)
From Coq Require Import String List NArith ZArith Bool Arith Lia.
From Verif Require Import Str StrFacts Atx Anchor Toc Write Cli Killed Args Argv Disk Program Spec EnvSpec AnchorSpec WriteSpec RerunSpec CliSpec DiskSpec CallSpec ArgvSpec LineSpec EmphSpec LinkSpec SafeSpec TableSpec BookSpec
  CommandSpec HistorySpec ProgramSpec KeptSpec AsciiEnv PropTable PropWrite WriteProof WriteLoop PropMulti PropArgs PropArgv LineProof LineLoop PropLine PropRerun PropEmphasis PropErrors PropHtml PropLinks PropPlain PropBook PropCommand PropDisk PropHistory PropProgram.
Import ListNotations.
Local Open Scope list_scope.

Lemma keeps_holds k n lines input : keeps k n lines <-> holds (mkWorld (seen_disk k) input) n lines.
Proof.
  unfold keeps, holds. cbn [w_fs]. rewrite seen_get. split.
  - intros (text & G & R). rewrite G. cbn [option_map]. unfold seen. cbn [st_text st_bad]. rewrite (reads_seen _ _ R). reflexivity.
  - intros G. destruct (disk_get k n) as [[text bad]|]; [|discriminate]. cbn [option_map] in G. unfold seen in G. cbn [st_text st_bad] in G. injection G as <- ->. exists text. split; [reflexivity|apply seen_reads].
Qed.
Lemma keeps_text k n lines : keeps k n lines -> text_lines lines.
Proof. intros (text & _ & R). exact (proj1 R). Qed.
Lemma turned_in s gs : turned s gs = true <-> In (Turn s) gs.
Proof.
  unfold turned. rewrite existsb_exists. split.
  - intros (g & Hg & X). destruct g as [s'| | |]; try discriminate X. destruct s, s'; try discriminate X; exact Hg.
  - intros H. exists (Turn s). split; [exact H|]. destruct s; reflexivity.
Qed.
Lemma suits_fits E num n marker k input above below ws gs p ls names o hs : digit_ascii E ->
  accepted_line num (e_digit E) ws gs p ls names -> ~ clash gs ls -> suits E n marker k above below gs p ls names o hs ->
  fits E n marker (mkWorld (seen_disk k) input) above below (asks gs p ls names) o hs /\ inputs (asks gs p ls names) = names.
Proof.
  intros Hd Hl Hc [(S1 & S2 & S3 & S4) (S5 & S6) S7 S8 S9 S10].
  assert (En : inputs (asks gs p ls names) = names) by (unfold inputs; cbn [a_names asks]; destruct names; [destruct S5|reflexivity]). split; [|exact En].
  pose proof (accepted_args E num ws gs p ls names Hd Hl Hc) as P. pose proof (C65_accepted E num ws _ P) as Hacc.
  assert (Ek : o_skip o = a_skip (asks gs p ls names)) by (destruct S1 as (_ & _ & _ & _ & _ & _ & _ & _ & X & _); exact X).
  constructor; rewrite ?En; auto.
  - split; [exact Hacc|]. split; [exact S1|]. split; [lia|]. auto.
  - lia.
  - rewrite <- Ek. exact S7.
  - intros m Hm Hne. destruct (S10 m Hm Hne) as (X & lines & hs' & Y1 & Y2 & Y3). split; [exact X|]. exists lines, hs'. split; [apply keeps_holds; exact Y1|]. split; [exact (keeps_text _ _ _ Y1)|]. auto.
Qed.
Lemma program_seen E num ws gs p ls names k input : digit_ascii E -> accepted_line num (e_digit E) ws gs p ls names -> ~ clash gs ls ->
  let e := cli_write_toc E (asks gs p ls names) (mkWorld (seen_disk k) input) in let run := program E num ws k input in
  f_out e = y_out run /\ f_fs e = seen_disk (y_disk run) /\ exit_status (f_result e) = y_status run.
Proof.
  intros Hd Hl Hc. cbn zeta. unfold program. rewrite (accepted_args E num ws gs p ls names Hd Hl Hc), (C66_run_as_seen E _ k input). auto.
Qed.
Lemma stored_dec (x y : option stored) : {x = y} + {x <> y}.
Proof. decide equality. decide equality; [apply bool_dec|apply list_eq_dec, N.eq_dec]. Qed.
Lemma program_other E num ws k input n : digit_ascii E ->
  (forall gs p ls names, accepted_line num (e_digit E) ws gs p ls names -> ~ clash gs ls -> turned InPlace gs = true -> ~ In n names) ->
  disk_get (y_disk (program E num ws k input)) n = disk_get k n.
Proof.
  intros Hd H. destruct (stored_dec (disk_get (y_disk (program E num ws k input)) n) (disk_get k n)) as [X|X]; [exact X|]. exfalso.
  destruct (C68_always E num ws k input Hd) as (_ & Y). destruct (Y n X) as (gs & p & ls & names & A & C & I & J & _). apply (H gs p ls names A C); [apply turned_in; exact I|exact J].
Qed.

Section History.
Variables (E : env) (num : str -> option Z) (n marker : str).
Hypothesis (Ht : python_tables E) (Hz : zs_ascii E) (Hw : word_ascii E) (He : entity_tables E) (Hd : digit_ascii E) (Hs : space_ascii E).
Hypothesis (Hneu : neutral_marker E marker).

Lemma kept_maintained k above below last : kept E num n marker k above below last -> forall input, maintained E n marker (mkWorld (seen_disk k) input) above below last.
Proof.
  induction 1 as [k above m below Hn Hk Hm Ha Hb|k above below last k' shown above' below' _ IH Hk Hk' Ha Hb|k above below last ws gs p ls names o hs t inp _ IH Hl Hc Hi Hsu Hta
    |k above below last ws gs p ls names o hs inp _ IH Hl Hc Hsu Hun|k above below last ws inp _ IH Hno]; intros input.
  - apply (h_new E n marker _ above m below); try assumption; [apply keeps_holds; exact Hk|exact (keeps_text _ _ _ Hk)].
  - apply (h_edit E n marker (mkWorld (seen_disk k) input) above below last _ shown); try assumption; [apply IH|apply keeps_holds; exact Hk|apply keeps_holds; exact Hk'|exact (keeps_text _ _ _ Hk')].
  - destruct (suits_fits E num n marker k inp above below ws gs p ls names o hs Hd Hl Hc Hsu) as (Hf & _). destruct (program_seen E num ws gs p ls names k inp Hd Hl Hc) as (_ & P & _).
    apply (h_update E n marker (mkWorld (seen_disk k) inp) above below last (asks gs p ls names) o hs t); [apply IH|exact Hf|exact Hi|exact Hta|]. cbn [w_fs]. cbn zeta in P. rewrite P. reflexivity.
  - destruct (suits_fits E num n marker k inp above below ws gs p ls names o hs Hd Hl Hc Hsu) as (Hf & _). destruct (program_seen E num ws gs p ls names k inp Hd Hl Hc) as (_ & P & _). cbn zeta in P. rewrite <- P.
    apply (h_refused E n marker (mkWorld (seen_disk k) inp) above below last (asks gs p ls names) o hs); [apply IH|exact Hf|exact Hun].
  - destruct (C63_history E n marker (mkWorld (seen_disk k) input) above below last Ht Hz Hw He Hd Hs Hneu (IH input)) as (shown & S & _).
    destruct (history_state E n marker Ht Hz Hw He Hd Hs Hneu _ _ _ _ (IH input)) as (sh & t & _ & N1 & N2 & S4 & S5 & _).
    apply (h_edit E n marker (mkWorld (seen_disk k) input) above below last _ sh); try assumption; [apply IH|].
    apply keeps_holds with (input := input) in S4. apply keeps_holds. destruct S4 as (text & G & R). exists text. split; [|exact R]. rewrite program_other by assumption. exact G.
Qed.
End History.

(** C69: whatever edits, command lines and refused words follow each other, the stored file reads as the
    lines of its users and, between them, exactly the table of the last update. *)
Theorem C69_history : forall E num n marker k above below last,
  python_tables E -> zs_ascii E -> word_ascii E -> entity_tables E -> space_ascii E -> neutral_marker E marker ->
  kept E num n marker k above below last ->
  exists shown, keeps k n (above ++ shown ++ below) /\ shows E marker last shown.
Proof.
  intros E num n marker k above below last Ht Hz Hw He Hs Hm H. pose proof Ht as (_ & Hd & _).
  destruct (C63_history E n marker _ above below last Ht Hz Hw He Hd Hs Hm (kept_maintained E num n marker Ht Hz Hw He Hd Hs Hm k above below last H Closed)) as (shown & X & Y).
  exists shown. split; [apply keeps_holds in X; exact X|exact Y].
Qed.
Print Assumptions C69_history.

(** The characters of the file after an update: the lines above with LF ends, the block with the chosen line
    ends, the lines below with LF ends.  So a second update with the same options leaves every character. *)
Theorem C69_update : forall E num n marker k above below last ws gs p ls names o hs t input,
  python_tables E -> zs_ascii E -> word_ascii E -> entity_tables E -> space_ascii E -> neutral_marker E marker ->
  kept E num n marker k above below last ->
  accepted_line num (e_digit E) ws gs p ls names -> ~ clash gs ls -> turned InPlace gs = true ->
  suits E n marker k above below gs p ls names o hs -> table_of_titles o hs t ->
  let run := program E num ws k input in
  y_out run = [] /\ In (y_status run) [0; 128]%Z
  /\ disk_get (y_disk run) n = Some (Stored (concat above ++ block_text E (o_newline o) marker t ++ concat below) false)
  /\ kept E num n marker (y_disk run) above below (Some (o, t)).
Proof.
  intros E num n marker k above below last ws gs p ls names o hs t input Ht Hz Hw He Hs Hm H Hl Hc Hi Hsu Hta run. pose proof Ht as (_ & Hd & _).
  destruct (suits_fits E num n marker k input above below ws gs p ls names o hs Hd Hl Hc Hsu) as (Hf & En).
  destruct (history_state E n marker Ht Hz Hw He Hd Hs Hm _ _ _ _ (kept_maintained E num n marker Ht Hz Hw He Hd Hs Hm k above below last H input)) as (sh & t0 & Hst).
  pose proof (fit_all E n marker _ above below last _ o hs sh t0 Hf Hst t Hta) as Hall. destruct (some_tables _ _ Hall) as (ts & Hts).
  pose proof Hf as [(F1 & F2 & F3 & F4 & F5) (G1 & G2) _ _ _ _ Fo].
  assert (Hts' : Forall2 (its_table E o k input) (inputs (asks gs p ls names)) ts) by (clear -Hts; induction Hts; constructor; auto; apply its_expected; assumption).
  assert (Hstd : ~ In (lit "-") (inputs (asks gs p ls names))).
  { intros X. destruct (list_eq_dec N.eq_dec (lit "-") n) as [Y|Y]; [destruct Hst as (Z & _); congruence|]. destruct (Fo _ X Y) as (Z & _). congruence. }
  destruct (C68_accepted E num ws gs p ls names k input o ts Ht Hz Hw He Hl Hc F2 F3 G2 (fun _ => Hstd) Hts') as (_ & W & St & St'). cbn zeta in W, St, St'. destruct (W Hi) as (W1 & _ & W2). fold run in W1, W2, St, St'.
  split; [exact W1|]. split. { destruct (Z.eq_dec (y_status run) 128) as [->|X]; [cbn; auto|rewrite (St' X); cbn; auto]. }
  split; [|apply (k_update E num n marker k above below last ws gs p ls names o hs t input); assumption].
  destruct (in_forall2 _ _ _ _ Hts G1) as (t1 & Hin & Hex).
  pose proof (table_fun E _ o _ F1 F2 F3 Ht Hz Hw He _ _ _ Hex (fit_expect E n marker _ above below last _ o hs sh t0 Hf Hst t Hta)) as ->.
  destruct (W2 n t Hin) as (text & text' & G & G' & lines & R & X). rewrite G'. f_equal. f_equal. rewrite F4 in X.
  destruct Hst as (S1 & S2 & S3 & S4 & S5 & (S6 & _) & _). apply keeps_holds in S4 as (text2 & G2' & R2). rewrite G in G2'. injection G2' as <-.
  assert (lines = above ++ sh ++ below) as -> by (rewrite <- (reads_seen _ _ R), <- (reads_seen _ _ R2); reflexivity).
  destruct X as [(Hno & _)|(pre & old & post & u & Hg & ->)].
  - exfalso. destruct S6 as [m Hmm|m1 mid m2 Hmm _ _ _]; (refine (Hno _ _ Hmm); apply in_or_app; right; left; reflexivity).
  - destruct (target_fun _ _ _ _ _ _ _ _ _ _ _ (block_target E marker above sh below t0 S2 S3 S6) Hg) as (<- & _ & <- & _). reflexivity.
Qed.
Print Assumptions C69_update.

(** A command line with --diff and this file alone, at any time: status 128 if and only if the table of the
    titles as they are now is not the one that was written last. *)
Theorem C69_diff : forall E num n marker k above below last ws gs p ls o hs t0 table input,
  python_tables E -> zs_ascii E -> word_ascii E -> entity_tables E -> space_ascii E -> neutral_marker E marker ->
  kept E num n marker k above below last ->
  accepted_line num (e_digit E) ws gs p ls [n] -> ~ clash gs ls -> turned Diff gs = true ->
  suits E n marker k above below gs p ls [n] o hs -> table_of_titles o hs t0 ->
  match last with None => table = marker | Some (_, t1) => exists t, normalized t1 t /\ table = trim (e_space E) t end ->
  let status := y_status (program E num ws k input) in
  (status = 128%Z <-> trim (e_space E) t0 <> table) /\ (status <> 128%Z -> status = 0%Z).
Proof.
  intros E num n marker k above below last ws gs p ls o hs t0 table input Ht Hz Hw He Hs Hm H Hl Hc Hi Hsu Hta Htab. pose proof Ht as (_ & Hd & _).
  destruct (suits_fits E num n marker k input above below ws gs p ls [n] o hs Hd Hl Hc Hsu) as (Hf & En). destruct (program_seen E num ws gs p ls [n] k input Hd Hl Hc) as (_ & _ & P). cbn zeta in P |- *. rewrite <- P.
  exact (C63_diff E n marker _ above below last _ o hs t0 table Ht Hz Hw He Hd Hs Hm (kept_maintained E num n marker Ht Hz Hw He Hd Hs Hm k above below last H input) Hf Hta En Hi Htab).
Qed.
Print Assumptions C69_diff.

(** A command line that is killed: the file is as it was, or the update is complete, or exactly what the tool
    wrote is missing, and a marker can be put back. *)
Lemma states_seen E num ws gs p ls names k input : digit_ascii E -> accepted_line num (e_digit E) ws gs p ls names -> ~ clash gs ls ->
  cli_states E (asks gs p ls names) (mkWorld (seen_disk k) input) = map seen_disk (program_states E num ws k input).
Proof.
  intros Hd Hl Hc. unfold program_states, cli_states. rewrite (accepted_args E num ws gs p ls names Hd Hl Hc). destruct (build_multiple_tocs _ _ _ _) as [(ts & w)|e]; [|reflexivity].
  cbv zeta. destruct (_ && _); [|reflexivity]. apply C66_killed_as_seen.
Qed.
Lemma shows_fun E marker o t a b : shows E marker (Some (o, t)) a -> shows E marker (Some (o, t)) b -> a = b.
Proof.
  intros (u & U1 & U2) (v & V1 & V2). rewrite (normalized_fun _ _ _ U1 V1) in U2. rewrite <- (lines_of_text _ _ U2), <- (lines_of_text _ _ V2). reflexivity.
Qed.
Theorem C69_killed : forall E num n marker k above below last ws gs p ls names o hs t input k',
  python_tables E -> zs_ascii E -> word_ascii E -> entity_tables E -> space_ascii E -> neutral_marker E marker ->
  kept E num n marker k above below last ->
  accepted_line num (e_digit E) ws gs p ls names -> ~ clash gs ls -> turned InPlace gs = true ->
  suits E n marker k above below gs p ls names o hs -> table_of_titles o hs t ->
  In k' (program_states E num ws k input) ->
  kept E num n marker k' above below last
  \/ kept E num n marker k' above below (Some (o, t))
  \/ (keeps k' n (above ++ below)
      /\ forall m k2, is_marker E marker (m ++ [10%N]) -> keeps k2 n (above ++ [m ++ [10%N]] ++ below) ->
           kept E num n marker k2 above below None).
Proof.
  intros E num n marker k above below last ws gs p ls names o hs t input k' Ht Hz Hw He Hs Hm H Hl Hc Hi Hsu Hta Hk'. pose proof Ht as (_ & Hd & _).
  destruct (suits_fits E num n marker k input above below ws gs p ls names o hs Hd Hl Hc Hsu) as (Hf & En).
  pose proof (kept_maintained E num n marker Ht Hz Hw He Hd Hs Hm k above below last H input) as M.
  destruct (history_state E n marker Ht Hz Hw He Hd Hs Hm _ _ _ _ M) as (_ & _ & Hn & Ha & Hb & _).
  assert (K : forall k0 last0, kept E num n marker k0 above below last0 -> maintained E n marker (mkWorld (seen_disk k') input) above below last0 -> kept E num n marker k' above below last0).
  { intros k0 last0 H0 M'. destruct (C63_history E n marker _ above below last0 Ht Hz Hw He Hd Hs Hm M') as (sh' & S1 & S2). apply keeps_holds in S1. destruct last0 as [(o1 & t1)|].
    - destruct (C69_history E num n marker k0 above below _ Ht Hz Hw He Hs Hm H0) as (sh & S3 & S4). rewrite (shows_fun _ _ _ _ _ _ S2 S4) in S1.
      apply (k_edit E num n marker k0 above below _ k' sh); assumption.
    - destruct S2 as (m & -> & Hmm). apply (k_new E num n marker k' above m below); assumption. }
  assert (G : In (seen_disk k') (cli_states E (asks gs p ls names) (mkWorld (seen_disk k) input))) by (rewrite (states_seen E num ws) by assumption; apply in_map; exact Hk').
  destruct (C63_killed E n marker _ above below last _ o hs t (seen_disk k') input Ht Hz Hw He Hd Hs Hm M Hf Hta Hi G) as [X|[X|(X & _)]].
  - left. exact (K k last H X).
  - right. left. apply (K (y_disk (program E num ws k input))); [|exact X]. apply (k_update E num n marker k above below last ws gs p ls names o hs t input); assumption.
  - right. right. split; [apply keeps_holds in X; exact X|]. intros m k2 Hmm Hk2. apply (k_new E num n marker k2 above (m ++ [10%N]) below); assumption.
Qed.
Print Assumptions C69_killed.

(** Any other words, killed at any moment, leave every character of the file. *)
Lemma disk_states_other E nl marker n : forall l k k', ~ In n (map fst l) -> In k' (disk_states E nl k l marker) -> disk_get k' n = disk_get k n.
Proof.
  induction l as [|(m & t) l IH]; intros k k' Hn; cbn [disk_states map fst In] in *; [intros [<-|[]]; reflexivity|]. intros [<-|H]; [reflexivity|]. destruct (is_stdin m); [destruct H|]. destruct (disk_get k m) as [s|]; [|destruct H].
  destruct (disk_steps E nl t marker s) as [(steps & b)|e]; [|destruct H]. apply in_app_or in H as [H|H].
  - apply in_map_iff in H as (u & <- & _). apply disk_get_other. intros ->. tauto.
  - rewrite (IH _ _ ltac:(tauto) H). apply disk_get_other. intros ->. tauto.
Qed.
Theorem C69_killed_other : forall E num n ws k input k', digit_ascii E -> n <> lit "-" ->
  (forall gs p ls names, accepted_line num (e_digit E) ws gs p ls names -> ~ clash gs ls -> turned InPlace gs = true -> ~ In n names) ->
  In k' (program_states E num ws k input) -> disk_get k' n = disk_get k n.
Proof.
  intros E num n ws k input k' Hd Hn H Hk. unfold program_states in Hk. destruct (parse_args E num ws) as [a| |] eqn:P; [|destruct Hk as [<-|[]]; reflexivity|destruct Hk as [<-|[]]; reflexivity].
  destruct (build_multiple_tocs _ _ _ _) as [(ts & w)|e]; [|destruct Hk as [<-|[]]; reflexivity]. cbv zeta in Hk.
  apply C65_exactly in P as (gs & p & ls & names & A & C & ->); [|exact Hd]. specialize (H gs p ls names A C). cbn [a_in_place asks a_names] in Hk.
  destruct (turned InPlace gs); cbn [andb] in Hk; [|destruct Hk as [<-|[]]; reflexivity]. destruct (Nat.eqb_spec (length (effective_names names)) (length ts)) as [L|_]; [|destruct Hk as [<-|[]]; reflexivity].
  refine (disk_states_other _ _ _ _ _ _ _ _ Hk). rewrite map_fst_combine by exact L. unfold effective_names. destruct names; [intros [X|[]]; apply Hn; symmetry; exact X|apply H; reflexivity].
Qed.
Print Assumptions C69_killed_other.
(** The moments: a run begins with the files as they were and ends with those that it leaves. *)
Lemma last_disk {A} (x d : A) l : last (x :: l) d = last l x.
Proof. revert x d. induction l as [|y l IH]; intros x d; [reflexivity|]. change (last (y :: l) d = last (y :: l) x). rewrite (IH y d), (IH y x). reflexivity. Qed.
Lemma disk_states_cons E nl marker l k : exists r, disk_states E nl k l marker = k :: r.
Proof. destruct l as [|(m & t) l]; cbn [disk_states]; eauto. Qed.
Lemma disk_states_last E nl marker : forall l k b d, last (disk_states E nl k l marker) d = snd (disk_loop E nl k l marker b).
Proof.
  induction l as [|(m & t) l IH]; intros k b d; [reflexivity|]. cbn [disk_states disk_loop]. unfold disk_one, disk_write. rewrite last_disk. destruct (is_stdin m); [reflexivity|]. destruct (disk_get k m) as [s|]; [|reflexivity].
  destruct (disk_steps E nl t marker s) as [(steps & e)|e]; [|reflexivity]. cbn [bind].
  set (k2 := disk_set k m (Stored (last steps (st_text s)) (st_bad s))). destruct (disk_states_cons E nl marker l k2) as (r & Er).
  rewrite <- (IH k2 (b && e) k). rewrite Er. generalize (map (fun u => disk_set k m (Stored u (st_bad s))) steps). intros a. generalize k2. clear. revert k. induction a as [|x a IH]; intros k k2; [reflexivity|]. cbn [app]. rewrite last_disk, IH, !last_disk. reflexivity.
Qed.
Theorem C69_moments : forall E num ws k input d,
  hd d (program_states E num ws k input) = k /\ last (program_states E num ws k input) d = y_disk (program E num ws k input).
Proof.
  intros E num ws k input d. unfold program_states, program. destruct (parse_args E num ws) as [a| |]; [|split; reflexivity|split; reflexivity]. unfold disk_cli.
  destruct (build_multiple_tocs _ _ _ _) as [(ts & w)|e]; [|split; reflexivity]. cbv zeta. destruct (a_in_place a); cbn [andb].
  - unfold disk_strings. destruct (_ =? _); [|split; reflexivity]. split; [destruct (disk_states_cons E (cli_newline (a_newline a)) (a_toc_marker a) (combine (effective_names (a_names a)) ts) k) as (r & ->); reflexivity|].
    rewrite (disk_states_last _ _ _ _ _ true). destruct (disk_loop _ _ _ _ _ _) as (r & k'). reflexivity.
  - destruct (print_loop _ _ _ _ _) as (out & r). split; reflexivity.
Qed.
Print Assumptions C69_moments.

(** ** md_toc -pd github -o. -l3 a.md: on a file with CR LF line ends, then again after a title was added *)
Definition diary_words : list str := [lit "-pd"; lit "github"; lit "-o."; lit "-l3"; lit "a.md"].
Definition diary_globals : list global := [Turn InPlace; Turn Diff].
Definition diary_locals : list local := [Ordered (lit "."); Levels 3].
Definition diary_opts : opts := args_opts (asks diary_globals Github diary_locals [lit "a.md"]).
Lemma diary_line : accepted_line simple_int (e_digit ascii_env) diary_words diary_globals Github diary_locals [lit "a.md"] /\ ~ clash diary_globals diary_locals.
Proof.
  split; [|intros [(I & _)|(_ & m & I & _)]; cbn in I; intuition discriminate]. split; [discriminate|].
  pose (cp := Choice (lit "--in-place") 112 Nothing). pose (cd := Choice (lit "--diff") 100 Nothing).
  pose (cl := Choice (lit "--header-levels") 108 MaybeValue). pose (co := Choice (lit "--ordered-list-marker") 111 MaybeValue).
  exists [lit "-pd"], [(cp, None); (cd, None)], [lit "-o."; lit "-l3"; lit "a.md"]. split; [reflexivity|]. split; [|split; [|split]].
  - apply (gs_more _ _ _ [lit "-pd"] [(cp, None); (cd, None)] false [] [] false); [|constructor].
    apply (g_letters global_options global_choices (e_digit ascii_env) [cp; cd]); [|discriminate]. constructor; [split; [cbn; tauto|reflexivity]|]. constructor; [split; [cbn; tauto|reflexivity]|constructor].
  - constructor; [apply (mg_switch _ cp InPlace); reflexivity|]. constructor; [apply (mg_switch _ cd Diff); reflexivity|constructor].
  - exists [lit "-o."; lit "-l3"], [(co, Some (lit ".")); (cl, Some (lit "3"))], false, [lit "a.md"], [], [], false.
    split; [reflexivity|]. split; [|split; [constructor|split; [|split; [reflexivity|split; [discriminate|]]]]].
    + apply (gs_more _ _ _ [lit "-o."] [(co, Some (lit "."))] false [lit "-l3"] [(cl, Some (lit "3"))] false).
      * apply (g_joined local_options local_choices (e_digit ascii_env) [] co (lit ".")); [constructor|split; [cbn; tauto|discriminate]|discriminate|discriminate].
      * apply (gs_more _ _ _ [lit "-l3"] [(cl, Some (lit "3"))] false [] [] false); [|constructor].
        apply (g_joined local_options local_choices (e_digit ascii_env) [] cl (lit "3")); [constructor|split; [cbn; tauto|discriminate]|discriminate|discriminate].
    + apply fw_plain. constructor; [left; right; discriminate|constructor].
    + constructor; [apply ml_ordered; [reflexivity|cbn; tauto]|]. constructor; [apply (ml_levels _ _ cl (lit "3") 3); [reflexivity|reflexivity|lia]|constructor].
  - apply (marks_doubt ascii_env). vm_compute. discriminate.
Qed.
Lemma diary_suits k above hs : document ascii_env Github true None above hs -> length hs <= 5 ->
  suits ascii_env (lit "a.md") (lit "<!--TOC-->") k above (skipn 1 guide) diary_globals Github diary_locals [lit "a.md"] diary_opts (hs ++ guide_headings).
Proof.
  intros Hd Hl. constructor.
  - split; [|split; [cbn; lia|split; [reflexivity|left; reflexivity]]].
    split; [cbn; split; intros; [discriminate|reflexivity]|]. split; [intros m X; injection X as <-; reflexivity|]. split; [discriminate|]. repeat (split; [reflexivity|]). apply nc_default.
  - split; [left; reflexivity|]. constructor; [intros []|constructor].
  - exists hs, guide_headings. split; [reflexivity|]. split; [exact Hd|exact guide_document].
  - split; [intros _; apply titles_slugs_distinct|]. rewrite app_length. cbn. lia.
  - intros l h r _ _ _. split; [discriminate|discriminate].
  - intros m [<-|[]] Hm. destruct Hm. reflexivity.
Qed.
Definition disk0 : disk := [(lit "a.md", Stored (windows (concat marked)) false)].
Definition disk1 : disk := y_disk (program ascii_env simple_int diary_words disk0 Closed).
Definition disk2 : disk := [(lit "a.md", Stored (concat [ln "# Deep"] ++ concat table1 ++ concat (skipn 1 guide)) false); (lit "b.md", Stored [] true)].
Definition disk3 : disk := y_disk (program ascii_env simple_int diary_words disk2 Closed).
Definition deeper : list heading := Heading 1 (lit "Deep") (lit "deep") :: guide_headings.
Lemma keeps_by k n text lines : disk_get k n = Some (Stored text false) -> lines_of (universal text) = lines -> keeps k n lines.
Proof. intros G <-. exists text. split; [exact G|apply seen_reads]. Qed.
Lemma diary_0 : kept ascii_env simple_int (lit "a.md") (lit "<!--TOC-->") disk0 [] (skipn 1 guide) None.
Proof.
  apply (k_new _ _ _ _ disk0 [] (ln "<!--TOC-->")); [discriminate|eapply keeps_by; [reflexivity|vm_compute; reflexivity]|vm_compute; reflexivity|intros l []|exact guide_no_marker].
Qed.
Lemma diary_1 : kept ascii_env simple_int (lit "a.md") (lit "<!--TOC-->") disk1 [] (skipn 1 guide) (Some (diary_opts, expected_table diary_opts guide_headings)).
Proof.
  apply (k_update _ _ _ _ disk0 [] (skipn 1 guide) None diary_words diary_globals Github diary_locals [lit "a.md"] diary_opts ([] ++ guide_headings)); [exact diary_0|apply diary_line|apply diary_line|reflexivity| |].
  - apply diary_suits; [constructor|cbn; lia].
  - left. split; [apply coherent_by; repeat split|reflexivity].
Qed.
Lemma diary_2 : kept ascii_env simple_int (lit "a.md") (lit "<!--TOC-->") disk2 [ln "# Deep"] (skipn 1 guide) (Some (diary_opts, expected_table diary_opts guide_headings)).
Proof.
  apply (k_edit _ _ _ _ disk1 [] (skipn 1 guide) _ disk2 table1); [exact diary_1|eapply keeps_by; [vm_compute; reflexivity|vm_compute; reflexivity]|eapply keeps_by; [reflexivity|vm_compute; reflexivity]|apply not_marker_dec; vm_compute; reflexivity|exact guide_no_marker].
Qed.
Lemma diary_table : table_of_titles diary_opts deeper (expected_table diary_opts deeper).
Proof. left. split; [apply coherent_by; repeat split|reflexivity]. Qed.
Example C69_history_ex :
  python_tables ascii_env /\ zs_ascii ascii_env /\ word_ascii ascii_env /\ entity_tables ascii_env /\ space_ascii ascii_env /\ neutral_marker ascii_env (lit "<!--TOC-->")
  /\ kept ascii_env simple_int (lit "a.md") (lit "<!--TOC-->") disk3 [ln "# Deep"] (skipn 1 guide) (Some (diary_opts, expected_table diary_opts deeper))
  /\ keeps disk3 (lit "a.md") ([ln "# Deep"] ++ table3 ++ skipn 1 guide).
Proof.
  split; [exact python_tables_ascii|]. split; [exact zs_ascii_ex|]. split; [exact word_ascii_ex|]. split; [exact ascii_entities|]. split; [exact space_ascii_ex|]. split; [exact (proj1 C63_history_ex)|]. split.
  - apply (k_update _ _ _ _ disk2 [ln "# Deep"] (skipn 1 guide) (Some (diary_opts, expected_table diary_opts guide_headings)) diary_words diary_globals Github diary_locals [lit "a.md"] diary_opts deeper); [exact diary_2|apply diary_line|apply diary_line|reflexivity|exact (diary_suits disk2 _ _ deep_document (le_S _ _ (le_S _ _ (le_S _ _ (le_S _ _ (le_n 1))))))|exact diary_table].
  - eapply keeps_by; vm_compute; reflexivity.
Qed.
(** The hypotheses of C69_update, C69_diff and C69_killed. *)
Example C69_update_ex :
  kept ascii_env simple_int (lit "a.md") (lit "<!--TOC-->") disk2 [ln "# Deep"] (skipn 1 guide) (Some (diary_opts, expected_table diary_opts guide_headings))
  /\ accepted_line simple_int (e_digit ascii_env) diary_words diary_globals Github diary_locals [lit "a.md"] /\ ~ clash diary_globals diary_locals
  /\ suits ascii_env (lit "a.md") (lit "<!--TOC-->") disk2 [ln "# Deep"] (skipn 1 guide) diary_globals Github diary_locals [lit "a.md"] diary_opts deeper
  /\ table_of_titles diary_opts deeper (expected_table diary_opts deeper)
  /\ program ascii_env simple_int diary_words disk2 Closed
     = Outcome [] [(lit "a.md", Stored (concat [ln "# Deep"] ++ concat table3 ++ concat (skipn 1 guide)) false); (lit "b.md", Stored [] true)] 128
  /\ program ascii_env simple_int diary_words disk3 Closed = Outcome [] disk3 0.
Proof.
  split; [exact diary_2|]. split; [apply diary_line|]. split; [apply diary_line|]. split; [exact (diary_suits disk2 _ _ deep_document (le_S _ _ (le_S _ _ (le_S _ _ (le_S _ _ (le_n 1))))))|]. split; [exact diary_table|]. split; vm_compute; reflexivity.
Qed.
Example C69_killed_ex :
  map (fun k => option_map st_text (disk_get k (lit "a.md"))) (program_states ascii_env simple_int diary_words disk2 Closed) =
  map Some [concat [ln "# Deep"] ++ concat table1 ++ concat (skipn 1 guide); concat [ln "# Deep"] ++ concat (skipn 1 guide);
            concat [ln "# Deep"] ++ concat table3 ++ concat (skipn 1 guide); concat [ln "# Deep"] ++ concat table3 ++ concat (skipn 1 guide)].
Proof. vm_compute. reflexivity. Qed.
Example C69_killed_other_ex :
  let ws := [lit "-p"; lit "github"; lit "-l3"; lit "b.md"] in let k := [(lit "a.md", Stored (concat marked) false); (lit "b.md", Stored (concat marked) false)] in
  (forall gs p ls names, accepted_line simple_int (e_digit ascii_env) ws gs p ls names -> ~ clash gs ls -> turned InPlace gs = true -> ~ In (lit "a.md") names)
  /\ length (program_states ascii_env simple_int ws k Closed) = 4.
Proof.
  intros ws k. split; [|vm_compute; reflexivity].
  intros gs p ls names A C _ I. pose proof (accepted_args ascii_env simple_int ws gs p ls names digit_ascii_ex A C) as P. apply (f_equal (fun g => match g with Got a => a_names a | _ => [] end)) in P. vm_compute in P. subst names.
  destruct I as [X|[]]. discriminate X.
Qed.
