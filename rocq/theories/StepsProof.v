(** Lemmas for C70. *)
From Coq Require Import String List NArith ZArith Bool Arith Lia.
From Verif Require Import Str StrFacts Anchor Toc Write Cli Argv Disk Program Steps WriteSpec WriteProof WriteLoop PropWrite PropDisk.
Import ListNotations.
Local Open Scope list_scope.

(** ** A run alone *)
Fixpoint run {A} (m : steps A) (k : disk) : A * disk :=
  match m with
  | Done a => (a, k)
  | Reads n f => run (f (disk_get k n)) k
  | Writes n s t => run t (disk_set k n s)
  end.
Fixpoint trace {A} (m : steps A) (k : disk) : list disk :=
  match m with
  | Done a => []
  | Reads n f => trace (f (disk_get k n)) k
  | Writes n s t => disk_set k n s :: trace t (disk_set k n s)
  end.
Lemma run_andthen {A B} (m : steps A) (f : A -> steps B) : forall k, run (andthen m f) k = run (f (fst (run m k))) (snd (run m k)).
Proof. induction m as [a|n g IH|n s t IH]; intros k; cbn [andthen run]; [reflexivity|apply IH|apply IH]. Qed.
Lemma trace_andthen {A B} (m : steps A) (f : A -> steps B) : forall k, trace (andthen m f) k = trace m k ++ trace (f (fst (run m k))) (snd (run m k)).
Proof. induction m as [a|n g IH|n s t IH]; intros k; cbn [andthen run trace]; [reflexivity|apply IH|rewrite IH; reflexivity]. Qed.

Lemma disk_set_same k n s : disk_get k n = Some s -> disk_set k n s = k.
Proof.
  induction k as [|(m & r) k IH]; cbn; [discriminate|]. destruct (seqb m n) eqn:X; [intros H; injection H as ->; reflexivity|]. intros H. rewrite IH by exact H. reflexivity.
Qed.
Lemma disk_set_set k n s s' : disk_set (disk_set k n s) n s' = disk_set k n s'.
Proof.
  induction k as [|(m & r) k IH]; cbn; [rewrite seqb_refl; reflexivity|]. destruct (seqb m n) eqn:X; cbn; rewrite X; [reflexivity|]. rewrite IH. reflexivity.
Qed.

Lemma toc_run E o input n k : run (toc_steps E o input n) k = (do '(t, w) <- read_toc E o (mkWorld (seen_disk k) input) n; Ok (t, w_stdin w), k)
  /\ trace (toc_steps E o input n) k = [].
Proof.
  unfold toc_steps, read_toc. destruct (o_skip o <? 0)%Z; [split; reflexivity|]. cbn [orb]. cbn [w_stdin w_fs]. destruct (is_stdin n); cbn [run trace].
  - split; [|reflexivity]. destruct input as [d| |].
    + destruct (build_toc E o n d); reflexivity.
    + destruct (fix_marker o); reflexivity.
    + destruct (fix_marker o); reflexivity.
  - split; [|reflexivity]. rewrite seen_get. destruct (disk_get k n) as [s|]; cbn [option_map fs_get]; [|reflexivity]. rewrite seqb_refl. destruct (build_toc E o n (seen s)); reflexivity.
Qed.
Lemma read_toc_fs E o w n t w' : read_toc E o w n = Ok (t, w') -> w_fs w' = w_fs w.
Proof.
  unfold read_toc. destruct (_ <? _)%Z; [discriminate|]. destruct (is_stdin n).
  - destruct (w_stdin w) as [d| |].
    + destruct (build_toc E o n d); cbn [bind]; [|discriminate]. intros H. injection H as <- <-. reflexivity.
    + destruct (fix_marker o); cbn [bind]; discriminate.
    + destruct (fix_marker o); cbn [bind]; discriminate.
  - destruct (fs_get _ _) as [d|]; [|discriminate]. destruct (build_toc E o n d); cbn [bind]; [|discriminate]. intros H. injection H as <- <-. reflexivity.
Qed.
Lemma tocs_run E o k names : forall input, run (tocs_steps E o input names) k = (do '(ts, w) <- read_tocs E o (mkWorld (seen_disk k) input) names; Ok ts, k)
  /\ trace (tocs_steps E o input names) k = [].
Proof.
  induction names as [|n ns IH]; intros input; [split; reflexivity|]. cbn [tocs_steps read_tocs]. unfold try. rewrite run_andthen, trace_andthen.
  destruct (toc_run E o input n k) as (-> & ->). cbn [fst snd app]. destruct (read_toc E o _ n) as [(t & w)|e] eqn:R; cbn [bind]; [|split; reflexivity].
  apply read_toc_fs in R. cbn [w_fs] in R. rewrite run_andthen, trace_andthen. destruct (IH (w_stdin w)) as (-> & ->). cbn [fst snd app].
  destruct w as (f & i). cbn [w_fs w_stdin] in *. subst f. destruct (read_tocs _ _ _ ns) as [(ts & w)|e]; cbn [bind]; split; reflexivity.
Qed.

Lemma pair_existing E lines pos : forall len, existing_loop E lines pos len = match pair_loop E lines pos len with
  | (Some (a, b), l, two) => do old <- (if (Z.of_nat a + 1 <=? Z.of_nat b - 1)%Z then do t <- extract_lines lines (Z.of_nat a + 1) (Z.of_nat b - 1); Ok (py_strip E t) else Ok []);
                             Ok (Some (old, a, b), l, two)
  | (None, l, two) => Ok (None, l, two)
  end.
Proof.
  induction pos as [|a pos IH]; intros len; [reflexivity|]. destruct pos as [|b pos]; [reflexivity|].
  set (P := b :: pos) in *. change (existing_loop E lines (a :: P) len) with (
      if detect_toc_list E (read_line_interval (concat lines) (Z.of_nat a + 2) (Z.of_nat b - 2)) || string_empty (read_line_interval (concat lines) (Z.of_nat a + 1) (Z.of_nat b - 1)) then
        do old <- (if (Z.of_nat a + 1 <=? Z.of_nat b - 1)%Z then do t <- extract_lines lines (Z.of_nat a + 1) (Z.of_nat b - 1); Ok (py_strip E t) else Ok []);
        Ok (Some (old, a, b), len - 1, true)
      else do '(r, l, _) <- existing_loop E lines P (len - 1); Ok (r, l, true)).
  change (pair_loop E lines (a :: P) len) with (
      if detect_toc_list E (read_line_interval (concat lines) (Z.of_nat a + 2) (Z.of_nat b - 2)) || string_empty (read_line_interval (concat lines) (Z.of_nat a + 1) (Z.of_nat b - 1))
      then (Some (a, b), len - 1, true) else let '(r, l, _) := pair_loop E lines P (len - 1) in (r, l, true)).
  destruct (_ || _); [reflexivity|]. rewrite IH. destruct (pair_loop E lines P (len - 1)) as ((r & l) & two). destruct r as [(x & y)|]; [|reflexivity].
  destruct (_ <=? _)%Z; [destruct (extract_lines _ _ _)|]; reflexivity.
Qed.
Lemma existing_run E marker n k : run (existing_steps E marker n) k = (match disk_get k n with None => Err FileNotFoundError | Some s => get_existing_toc E marker (seen s) end, k)
  /\ trace (existing_steps E marker n) k = [].
Proof.
  unfold existing_steps. cbn [run trace]. destruct (disk_get k n) as [s|] eqn:G; [|split; reflexivity]. unfold get_existing_toc. cbn [seen d_bad]. destruct (st_bad s) eqn:Bs; [split; reflexivity|].
  rewrite pair_existing. cbn [seen d_lines]. destruct (pair_loop _ _ _ _) as ((r & l) & two). destruct r as [(x & y)|]; [|split; reflexivity].
  destruct (_ <=? _)%Z; cbn [run trace]; [|split; reflexivity]. rewrite G, Bs. cbn [seen d_lines]. destruct (extract_lines _ _ _); split; reflexivity.
Qed.
Lemma remove_run n ivs : forall k s ts, disk_get k n = Some s -> st_bad s = false -> disk_remove (st_text s) ivs = Ok ts ->
  run (remove_steps n ivs) k = (Ok tt, disk_set k n (Stored (last ts (st_text s)) false)) /\ trace (remove_steps n ivs) k = map (fun u => disk_set k n (Stored u false)) ts.
Proof.
  induction ivs as [|iv ivs IH]; intros k s ts G B R; cbn [disk_remove] in R.
  - injection R as <-. cbn [remove_steps run trace map last]. split; [|reflexivity]. destruct s as (t & b). cbn in B |- *. subst b. rewrite disk_set_same by exact G. reflexivity.
  - destruct iv as [|a [|b [|? ?]]]; try discriminate R. cbn [remove_steps]. destruct (_ || _ || _); [discriminate R|]. cbn [run trace]. rewrite G, B. cbn [seen d_lines].
    destruct (fpy_remove _ _ _) as [ls|e]; cbn [bind] in R; [|discriminate R]. destruct (disk_remove (concat ls) ivs) as [us|e] eqn:D; cbn [bind] in R; [|discriminate R]. injection R as <-.
    cbn [run trace map]. destruct (IH (disk_set k n (Stored (concat ls) false)) (Stored (concat ls) false) us (disk_get_same _ _ _) eq_refl D) as (-> & ->). cbn [st_text].
    rewrite disk_set_set, last_cons. split; [reflexivity|]. f_equal. apply map_ext. intros u. apply disk_set_set.
Qed.
Lemma insert_run n s j nl k d t : disk_get k n = Some d -> st_bad d = false -> disk_insert (st_text d) s j = Ok t ->
  run (insert_steps n s j nl) k = (Ok tt, disk_set k n (Stored t false)) /\ trace (insert_steps n s j nl) k = [disk_set k n (Stored t false)].
Proof.
  intros G B I. unfold insert_steps. cbn [run trace]. rewrite G, B. unfold disk_insert in I. cbv zeta in I. destruct (_ || _) eqn:C; [discriminate|]. injection I as <-.
  apply orb_false_iff in C as (C1 & C2). rewrite C1. apply Nat.ltb_ge in C1, C2. cbn [run trace seen d_lines]. replace (j - 1 - length (lines_of (universal (st_text d)))) with 0 by lia. split; reflexivity.
Qed.
Lemma disk_steps_ok E nl toc marker s x : get_existing_toc E marker (seen s) = Ok x -> exists ss b, disk_steps E nl toc marker s = Ok (ss, b).
Proof.
  intros H. assert (B : st_bad s = false) by (unfold get_existing_toc in H; cbn [seen d_bad] in H; destruct (st_bad s); [discriminate|reflexivity]).
  destruct (existing_target E marker (d_lines (seen s)) (seen_text s)) as [Hn|(pre & old & post & t & y & Hg & _)].
  - destruct s as (u & b0). cbn in B. subst b0. unfold disk_steps, get_existing_toc. cbn [seen d_bad d_lines st_text st_bad] in *. rewrite (marker_lines_none _ _ _ Hn). cbn. eauto.
  - destruct (disk_steps_target E nl toc marker s pre old post t B Hg) as (f & _ & ->). eauto.
Qed.
Lemma last_app_d {A} (l l' : list A) d : last (l ++ l') d = last l' (last l d).
Proof.
  revert d. induction l as [|a l IH]; intros d; [reflexivity|]. cbn [app]. rewrite !last_cons. apply IH.
Qed.
Lemma write_run E nl toc marker n k : run (write_steps E nl toc marker n) k = disk_one E nl k n toc marker
  /\ (forall x, In x (trace (write_steps E nl toc marker n) k) -> exists s ss b, is_stdin n = false /\ disk_get k n = Some s /\ disk_steps E nl toc marker s = Ok (ss, b) /\ In x (map (fun u => disk_set k n (Stored u (st_bad s))) ss)).
Proof.
  unfold write_steps, disk_one. destruct (is_stdin n); [split; [reflexivity|intros x []]|]. unfold try at 1 5. rewrite run_andthen, trace_andthen. destruct (existing_run E marker n k) as (-> & ->). cbn [fst snd app].
  destruct (disk_get k n) as [s|] eqn:G; [|split; [reflexivity|intros x []]]. unfold disk_write.
  destruct (get_existing_toc E marker (seen s)) as [x|e] eqn:X; [|split; [|intros x []]; unfold disk_steps; rewrite X; reflexivity].
  assert (B : st_bad s = false) by (unfold get_existing_toc in X; cbn [seen d_bad] in X; destruct (st_bad s); [discriminate|reflexivity]).
  destruct (disk_steps_ok E nl toc marker s x X) as (ss & b & D). rewrite D. cbn [bind]. pose proof D as D0.
  unfold disk_steps in D. rewrite X in D. cbn [bind] in D.
  destruct (disk_remove (st_text s) (x_delete x)) as [s1|e] eqn:D1; cbn [bind] in D; [|discriminate D].
  destruct (remove_run n _ k s s1 G B D1) as (R1 & T1). unfold try at 1 4. rewrite run_andthen, trace_andthen, R1, T1. cbn [fst snd].
  set (k1 := disk_set k n (Stored (last s1 (st_text s)) false)) in *.
  assert (G1 : disk_get k1 n = Some (Stored (last s1 (st_text s)) false)) by apply disk_get_same.
  assert (P2 : exists s2, (if negb (x_two x) && (x_len x =? 1) then match x_positions x with p :: _ => disk_remove (last s1 (st_text s)) [[Z.of_nat p; Z.of_nat p]] | [] => Err KeyError end else Ok []) = Ok s2).
  { destruct (if negb (x_two x) && (x_len x =? 1) then _ else Ok []) as [s2|e]; [eauto|discriminate D]. }
  destruct P2 as (s2 & P2). rewrite P2 in D. cbn [bind] in D.
  set (m2 := if negb (x_two x) && (x_len x =? 1) then _ else Done (Ok tt)).
  assert (M2 : run m2 k1 = (Ok tt, disk_set k n (Stored (last s2 (last s1 (st_text s))) false)) /\ trace m2 k1 = map (fun u => disk_set k n (Stored u false)) s2).
  { subst m2. destruct (negb (x_two x) && (x_len x =? 1)).
    - destruct (x_positions x) as [|p ps]; [discriminate P2|]. destruct (remove_run n _ k1 (Stored (last s1 (st_text s)) false) s2 G1 eq_refl P2) as (-> & ->). cbn [st_text]. unfold k1. rewrite disk_set_set. split; [reflexivity|].
      apply map_ext. intros u. apply disk_set_set.
    - injection P2 as <-. cbn [run trace last map]. split; reflexivity. }
  clearbody m2. destruct M2 as (R2 & T2). unfold try at 1 3. rewrite run_andthen, trace_andthen, R2, T2. cbn [fst snd].
  set (k2 := disk_set k n (Stored (last s2 (last s1 (st_text s))) false)) in *.
  assert (G2 : disk_get k2 n = Some (Stored (last s2 (last s1 (st_text s))) false)) by apply disk_get_same.
  destruct (1 <=? x_len x).
  - destruct (disk_insert _ _ _) as [t3|e] eqn:D3; cbn [bind] in D; [|discriminate D]. injection D as <- <-.
    destruct (insert_run n (final_toc E nl marker toc) (x_first x) nl k2 _ t3 G2 eq_refl D3) as (R3 & T3). unfold try. rewrite run_andthen, trace_andthen, R3, T3. cbn [fst snd run trace].
    rewrite !last_app_d. cbn [last]. rewrite B. unfold k2. rewrite disk_set_set. split; [reflexivity|]. intros y Hy. exists s. do 2 eexists. split; [reflexivity|]. split; [reflexivity|]. split; [exact D0|].
    rewrite B, !map_app. cbn [map]. rewrite app_nil_r in Hy. exact Hy.
  - injection D as <- <-. cbn [run trace]. rewrite !last_app_d, B. split; [reflexivity|]. intros y Hy. exists s. do 2 eexists. split; [reflexivity|]. split; [reflexivity|]. split; [exact D0|].
    rewrite B, map_app. rewrite app_nil_r in Hy. exact Hy.
Qed.
Lemma disk_states_first E nl marker l k : In k (disk_states E nl k l marker).
Proof. destruct l; left; reflexivity. Qed.
Lemma writes_run E nl marker l : forall k equal, run (writes_steps E nl marker l equal) k = disk_loop E nl k l marker equal
  /\ (forall x, In x (trace (writes_steps E nl marker l equal) k) -> In x (disk_states E nl k l marker)).
Proof.
  induction l as [|(n & t) l IH]; intros k equal; cbn [writes_steps disk_loop disk_states]; [split; [reflexivity|intros x []]|].
  unfold try. rewrite run_andthen, trace_andthen. destruct (write_run E nl t marker n k) as (-> & T). destruct (disk_one E nl k n t marker) as ([b|e] & k') eqn:O; cbn [fst snd].
  - destruct (IH k' (equal && b)) as (-> & I2). split; [reflexivity|]. intros x Hx. right. unfold disk_one in O. destruct (is_stdin n); [discriminate O|]. destruct (disk_get k n) as [s|]; [|discriminate O].
    unfold disk_write in O. destruct (disk_steps E nl t marker s) as [(ss & b0)|e] eqn:D; cbn [bind] in O; [|discriminate O]. injection O as <- <-. apply in_or_app. apply in_app_or in Hx as [Hx|Hx]; [left|right; apply I2; exact Hx].
    destruct (T x Hx) as (s' & ss' & b' & _ & G & D' & I). injection G as <-. rewrite D in D'. injection D' as <- <-. exact I.
  - cbn [run trace]. split; [reflexivity|]. rewrite app_nil_r. intros x Hx. destruct (T x Hx) as (s & ss & b & S & G & D & I). right. rewrite S, G, D. apply in_or_app. left. exact I.
Qed.
Lemma print_run E a k l : forall equal, run (print_steps E a l equal) k = (print_loop E a (seen_disk k) l equal, k) /\ trace (print_steps E a l equal) k = [].
Proof.
  induction l as [|(n & t) l IH]; intros equal; cbn [print_steps print_loop]; [split; reflexivity|]. destruct (a_diff a).
  - rewrite run_andthen, trace_andthen. destruct (existing_run E (a_toc_marker a) n k) as (-> & ->). cbn [fst snd app]. rewrite seen_get. destruct (disk_get k n) as [s|]; cbn [option_map]; [|split; reflexivity].
    unfold tocs_equal. destruct (get_existing_toc _ _ _) as [x|e]; cbn [bind]; [|split; reflexivity]. rewrite run_andthen, trace_andthen. destruct (IH (equal && seqb (py_strip E t) (x_old x))) as (-> & ->). cbn [fst snd app].
    destruct (print_loop _ _ _ _ _) as (out & r). split; reflexivity.
  - rewrite run_andthen, trace_andthen. destruct (IH equal) as (-> & ->). cbn [fst snd app]. destruct (print_loop _ _ _ _ _) as (out & r). split; reflexivity.
Qed.
Lemma cli_run E a input k : let e := disk_cli E a k input in run (cli_steps E a input) k = ((k_out e, k_result e), k_disk e).
Proof.
  unfold cli_steps, disk_cli, build_multiple_tocs. rewrite run_andthen. destruct (tocs_run E (args_opts a) k (effective_names (a_names a)) input) as (-> & _). cbn [fst snd].
  destruct (read_tocs _ _ _ _) as [(ts & w)|e]; cbn [bind]; [|reflexivity]. destruct (a_in_place a).
  - unfold disk_strings. destruct (_ =? _); [|reflexivity]. rewrite run_andthen. destruct (writes_run E (cli_newline (a_newline a)) (a_toc_marker a) (combine (effective_names (a_names a)) ts) k true) as (-> & _).
    destruct (disk_loop _ _ _ _ _ _) as (r & k'). reflexivity.
  - rewrite run_andthen. destruct (print_run E a k (combine (effective_names (a_names a)) ts) true) as (-> & _). cbn [fst snd]. destruct (print_loop _ _ _ _ _) as (out & r). reflexivity.
Qed.
Lemma program_run E num ws input k : let y := program E num ws k input in run (program_steps E num ws input) k = ((y_out y, y_status y), y_disk y).
Proof.
  unfold program_steps, program. destruct (parse_args E num ws) as [a| |]; [|reflexivity|reflexivity]. rewrite run_andthen, cli_run. reflexivity.
Qed.
Lemma program_trace E num ws input k x : In x (k :: trace (program_steps E num ws input) k) -> In x (program_states E num ws k input).
Proof.
  unfold program_steps, program_states. destruct (parse_args E num ws) as [a| |]; [|exact (fun H => H)|exact (fun H => H)]. rewrite trace_andthen, cli_run. cbn [fst snd].
  unfold cli_steps, build_multiple_tocs. rewrite trace_andthen. destruct (tocs_run E (args_opts a) k (effective_names (a_names a)) input) as (-> & ->). cbn [fst snd app].
  destruct (read_tocs _ _ _ _) as [(ts & w)|e]; cbn [bind trace app]; [|exact (fun H => H)]. cbv zeta. destruct (a_in_place a); cbn [andb].
  - destruct (_ =? _); [|exact (fun H => H)]. rewrite trace_andthen. destruct (writes_run E (cli_newline (a_newline a)) (a_toc_marker a) (combine (effective_names (a_names a)) ts) k true) as (_ & T).
    cbn [trace]. rewrite !app_nil_r. intros [<-|H]; [apply disk_states_first|apply T; exact H].
  - rewrite trace_andthen. destruct (print_run E a k (combine (effective_names (a_names a)) ts) true) as (-> & ->). cbn [fst snd app]. destruct (print_loop _ _ _ _ _) as (out & r). exact (fun H => H).
Qed.

(** ** The files that a run reads and writes *)
Fixpoint within {A} (R W : str -> Prop) (m : steps A) : Prop :=
  match m with
  | Done _ => True
  | Reads n f => R n /\ forall s, within R W (f s)
  | Writes n _ t => W n /\ within R W t
  end.
Lemma within_andthen {A B} (R W : str -> Prop) (m : steps A) (f : A -> steps B) : within R W m -> (forall a, within R W (f a)) -> within R W (andthen m f).
Proof. intros H F. induction m as [a|n g IH|n s t IH]; cbn in *; [apply F|destruct H as (H1 & H2); split; [exact H1|intros s; apply IH, H2]|destruct H as (H1 & H2); split; [exact H1|apply IH, H2]]. Qed.
Lemma within_try {A B} (R W : str -> Prop) (m : steps (res A)) (f : A -> steps (res B)) : within R W m -> (forall a, within R W (f a)) -> within R W (try m f).
Proof. intros H F. apply within_andthen; [exact H|]. intros [a|e]; [apply F|exact I]. Qed.
Lemma within_mono {A} (R W R' W' : str -> Prop) (m : steps A) : (forall n, R n -> R' n) -> (forall n, W n -> W' n) -> within R W m -> within R' W' m.
Proof. intros HR HW. induction m as [a|n g IH|n s t IH]; cbn; [auto|intros (H1 & H2); split; [apply HR, H1|intros s; apply IH, H2]|intros (H1 & H2); split; [apply HW, H1|apply IH, H2]]. Qed.
Lemma existing_within E marker n (R W : str -> Prop) : R n -> within R W (existing_steps E marker n).
Proof.
  intros H. unfold existing_steps. cbn [within]. split; [exact H|]. intros [s|]; [|exact I]. destruct (st_bad s); [exact I|]. cbv zeta. destruct (pair_loop E _ _ _) as ((r & l) & two). destruct r as [(a & b)|]; [|exact I].
  destruct (_ <=? _)%Z; [|exact I]. cbn [within]. split; [exact H|]. intros [s'|]; [|exact I]. destruct (st_bad s'); [exact I|]. destruct (extract_lines _ _ _); exact I.
Qed.
Lemma remove_within n ivs (R W : str -> Prop) : R n -> W n -> within R W (remove_steps n ivs).
Proof.
  intros H1 H2. induction ivs as [|iv ivs IH]; [exact I|]. destruct iv as [|a [|b [|? ?]]]; try exact I. cbn [remove_steps]. destruct (_ || _ || _); [exact I|].
  split; [exact H1|]. intros [s|]; [|exact I]. destruct (st_bad s); [exact I|]. destruct (fpy_remove _ _ _); [|exact I]. split; [exact H2|exact IH].
Qed.
Lemma write_within E nl toc marker n (R W : str -> Prop) : (is_stdin n = false -> R n /\ W n) -> within R W (write_steps E nl toc marker n).
Proof.
  unfold write_steps. destruct (is_stdin n); [intros _; exact I|]. intros H. destruct (H eq_refl) as (H1 & H2). apply within_try; [apply existing_within; exact H1|]. intros x. cbv zeta.
  apply within_try; [apply remove_within; assumption|]. intros _. apply within_try.
  - destruct (_ && _); [|exact I]. destruct (x_positions x); [exact I|apply remove_within; assumption].
  - intros _. destruct (1 <=? x_len x); [|exact I]. apply within_try; [|intros _; exact I]. split; [exact H1|]. intros [s|]; [|exact I]. destruct (st_bad s); [exact I|]. destruct (_ <? 1); [exact I|]. split; [exact H2|exact I].
Qed.
Lemma writes_within E nl marker l (R W : str -> Prop) : (forall n t, In (n, t) l -> is_stdin n = false -> R n /\ W n) -> forall b, within R W (writes_steps E nl marker l b).
Proof.
  induction l as [|(n & t) l IH]; intros H b; [exact I|]. apply within_try; [apply write_within; intros X; exact (H n t (or_introl eq_refl) X)|]. intros b'. apply IH. intros m u Hm. apply (H m u). right. exact Hm.
Qed.
Lemma print_within E a l (R W : str -> Prop) : (a_diff a = true -> forall n t, In (n, t) l -> R n) -> forall b, within R W (print_steps E a l b).
Proof.
  induction l as [|(n & t) l IH]; intros H b; [exact I|]. assert (H' : a_diff a = true -> forall m u, In (m, u) l -> R m) by (intros D m u Hm; apply (H D m u); right; exact Hm).
  cbn [print_steps]. destruct (a_diff a) eqn:D.
  - apply within_andthen; [apply existing_within; exact (H eq_refl n t (or_introl eq_refl))|]. intros [x|e]; [|exact I]. apply within_andthen; [apply IH; exact H'|]. intros (out & r). exact I.
  - apply within_andthen; [apply IH; exact H'|]. intros (out & r). exact I.
Qed.
Lemma tocs_within E o names (R W : str -> Prop) : (forall n, In n names -> is_stdin n = false -> R n) -> forall input, within R W (tocs_steps E o input names).
Proof.
  induction names as [|n ns IH]; intros H input; [exact I|]. apply within_try.
  - unfold toc_steps. destruct (is_stdin n) eqn:S; [rewrite orb_true_r; exact I|]. destruct (_ || _); [exact I|]. split; [apply H; [left; reflexivity|exact S]|]. intros s. exact I.
  - intros (t & input'). apply within_try; [apply IH; intros m Hm; apply H; right; exact Hm|]. intros ts. exact I.
Qed.
Lemma stdin_dash n : is_stdin n = false -> n <> lit "-".
Proof. intros H ->. discriminate H. Qed.
Lemma effective_in names n : In n (effective_names names) -> In n names \/ n = lit "-".

Proof. destruct names; [intros [<-|[]]; right; reflexivity|intros H; left; exact H]. Qed.
Lemma program_within E num ws input : match parse_args E num ws with
  | Got a => within (fun n => In n (a_names a) \/ n = lit "-") (fun n => a_in_place a = true /\ In n (a_names a) /\ n <> lit "-") (program_steps E num ws input)
  | _ => within (fun _ => False) (fun _ => False) (program_steps E num ws input)
  end.
Proof.
  unfold program_steps. destruct (parse_args E num ws) as [a| |]; [|exact I|exact I]. apply within_andthen; [|intros (out & r); exact I]. unfold cli_steps. apply within_andthen.
  - apply tocs_within. intros n Hn _. apply effective_in. exact Hn.
  - intros [ts|e]; [|exact I]. destruct (a_in_place a) eqn:P.
    + destruct (_ =? _); [|exact I]. apply within_andthen; [|intros r; exact I]. apply writes_within. intros n t Hn S. apply in_combine_l in Hn. apply stdin_dash in S. apply effective_in in Hn as [Hn| ->]; [auto|contradiction].
    + apply within_andthen; [|intros (out & r); exact I]. apply print_within. intros _ n t Hn. apply in_combine_l in Hn. apply effective_in. exact Hn.
Qed.

(** ** Lists of runs *)
Lemma split_cases {A} (b0 : list A) : forall x a0 b q a, b0 ++ x :: a0 = b ++ q :: a ->
  (b0 = b /\ x = q /\ a0 = a) \/ (exists mid, b = b0 ++ x :: mid /\ a0 = mid ++ q :: a) \/ (exists mid, b0 = b ++ q :: mid /\ a = mid ++ x :: a0).
Proof.
  induction b0 as [|y b0 IH]; intros x a0 b q a H; destruct b as [|z b]; cbn [app] in H; injection H as H1 H2.
  - auto.
  - subst. right. left. exists b. auto.
  - subst. right. right. exists b0. auto.
  - subst. destruct (IH _ _ _ _ _ H2) as [(-> & -> & ->)|[(mid & -> & ->)|(mid & -> & ->)]]; [left; auto|right; left; exists mid; auto|right; right; exists mid; auto].
Qed.
