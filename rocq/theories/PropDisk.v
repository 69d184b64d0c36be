(** Files as they are stored, with their line ends (C66). *)
From Coq Require Import String List NArith ZArith Bool Arith Lia.
From Verif Require Import Str Fence Atx Inlines Anchor Toc Write Cli Disk Spec EnvSpec TocSpec DocSpec TableSpec WriteSpec DiskSpec CliSpec EmphSpec SafeSpec BookSpec CommandSpec RerunSpec LinkSpec WriteSpec
  StrFacts FenceProof AtxProof TocProof WriteProof WriteLoop WriteTwice AsciiEnv PropDoc PropTable PropWrite PropMulti PropHtml PropRerun Inert PropNewline PropArgs PropPlain PropBook PropCommand DecFacts AnchorSpec.
Import ListNotations.
Local Open Scope list_scope.

(** ** One file *)
Lemma seen_text s : text_lines (d_lines (seen s)).
Proof. apply text_lines_universal. Qed.
Lemma seen_lines ls : text_lines ls -> lines_of (universal (concat ls)) = ls.
Proof. intros H. rewrite universal_id by (apply text_no_cr; exact H). apply lines_of_concat. exact H. Qed.
Lemma removed_text (ls : list str) a b r : text_lines ls -> fpy_remove ls a b = Ok r -> text_lines r.
Proof.
  intros Ht. unfold fpy_remove. destruct (_ || _ || _) eqn:G; [discriminate|]. intros H. injection H as <-. apply orb_false_iff in G as (G & G3). apply orb_false_iff in G as (G1 & G2).
  apply Nat.ltb_ge in G1, G2, G3. rewrite <- (firstn_skipn (a - 1) ls) in Ht.
  assert (F : full_lines (firstn (a - 1) ls)).
  { destruct (skipn (a - 1) ls) as [|x y] eqn:S; [|exact (text_full _ _ _ Ht)]. exfalso. assert (L : length (skipn (a - 1) ls) = 0) by (rewrite S; reflexivity). rewrite skipn_length in L. lia. }
  apply WriteProof.full_text; [exact F|]. rewrite firstn_skipn in Ht. rewrite <- (firstn_skipn b ls) in Ht. exact (text_app_r _ _ Ht).
Qed.
Lemma last_cons {A} (x : A) l d : last (x :: l) d = last l x.
Proof. revert x d. induction l as [|y l IH]; intros x d; [reflexivity|]. change (last (y :: l) d = last (y :: l) x). rewrite !IH. reflexivity. Qed.
Lemma disk_remove_spec ivs : forall t, match remove_line_intervals (lines_of (universal t)) ivs with
  | Err e => disk_remove t ivs = Err e
  | Ok ls => exists ts, disk_remove t ivs = Ok ts /\ lines_of (universal (last ts t)) = ls /\ length ts = length ivs
  end.
Proof.
  induction ivs as [|iv ivs IH]; intros t; cbn [remove_line_intervals disk_remove]; [exists []; auto|].
  destruct iv as [|a [|b [|c iv]]]; try reflexivity. destruct (_ || _ || _); [reflexivity|].
  destruct (fpy_remove _ _ _) as [ls|e] eqn:F; cbn [bind]; [|reflexivity]. pose proof (removed_text _ _ _ _ (text_lines_universal t) F) as Ht.
  specialize (IH (concat ls)). rewrite (seen_lines ls Ht) in IH. destruct (remove_line_intervals ls ivs) as [ls'|e]; [|rewrite IH; reflexivity].
  destruct IH as (ts & -> & L & N0). cbn [bind]. exists (concat ls :: ts). split; [reflexivity|]. split; [|cbn; rewrite N0; reflexivity].
  rewrite last_cons. exact L.
Qed.
Lemma existing_deletes E marker d x : get_existing_toc E marker d = Ok x -> length (x_delete x) <= 1.
Proof.
  unfold get_existing_toc. destruct (d_bad d); [discriminate|]. destruct (existing_loop _ _ _ _) as [((r & l) & two)|e]; cbn [bind]; [|discriminate].
  destruct r as [((old & a) & b)|]; intros H; injection H as <-; cbn; lia.
Qed.
(** Reading the stored texts of a write gives the texts of Write.v. *)
Lemma disk_steps_seen E nl toc marker s : match disk_steps E nl toc marker s with
  | Ok (steps, b) => write_toc_steps E nl toc marker (seen s) = Ok (map (fun u => lines_of (universal u)) steps, b)
  | Err e => write_toc_steps E nl toc marker (seen s) = Err e
  end.
Proof.
  unfold disk_steps, write_toc_steps. destruct (get_existing_toc E marker (seen s)) as [x|e] eqn:X; cbn [bind]; [|reflexivity].
  pose proof (existing_deletes _ _ _ _ X) as D. cbn [seen d_lines].
  pose proof (disk_remove_spec (x_delete x) (st_text s)) as R1. destruct (remove_line_intervals (lines_of (universal (st_text s))) (x_delete x)) as [l1|e]; [|rewrite R1; reflexivity].
  destruct R1 as (s1 & -> & L1 & N1). cbn [bind].
  assert (M1 : map (fun u => lines_of (universal u)) s1 = match x_delete x with [] => [] | _ => [l1] end).
  { destruct (x_delete x) as [|iv [|? ?]]; [|destruct s1 as [|u [|? ?]]; try discriminate N1; cbn in L1; rewrite <- L1; reflexivity|cbn in D; lia]. destruct s1; [reflexivity|discriminate N1]. }
  assert (R2 : match (if negb (x_two x) && (x_len x =? 1) then match x_positions x with p :: _ => disk_remove (last s1 (st_text s)) [[Z.of_nat p; Z.of_nat p]] | [] => Err KeyError end else Ok []) with
    | Ok s2 => (if negb (x_two x) && (x_len x =? 1) then match x_positions x with p :: _ => do l <- remove_line_intervals l1 [[Z.of_nat p; Z.of_nat p]]; Ok ([l], l) | [] => Err KeyError end else Ok ([], l1))
               = Ok (map (fun u => lines_of (universal u)) s2, lines_of (universal (last s2 (last s1 (st_text s)))))
    | Err e => (if negb (x_two x) && (x_len x =? 1) then match x_positions x with p :: _ => do l <- remove_line_intervals l1 [[Z.of_nat p; Z.of_nat p]]; Ok ([l], l) | [] => Err KeyError end else Ok ([], l1)) = Err e
    end).
  { destruct (negb (x_two x) && (x_len x =? 1)); [|cbn [map last]; rewrite L1; reflexivity]. destruct (x_positions x) as [|p ps]; [reflexivity|].
    pose proof (disk_remove_spec [[Z.of_nat p; Z.of_nat p]] (last s1 (st_text s))) as R2. rewrite L1 in R2. destruct (remove_line_intervals l1 [[Z.of_nat p; Z.of_nat p]]) as [l2|e]; [|rewrite R2; reflexivity].
    destruct R2 as (s2 & -> & L2 & N2). destruct s2 as [|u [|? ?]]; try discriminate N2. cbn [map last bind] in L2 |- *. rewrite L2. reflexivity. }
  destruct (if negb (x_two x) && (x_len x =? 1) then _ else Ok []) as [s2|e] eqn:S2; rewrite R2; cbn [bind]; [|reflexivity].
  destruct (1 <=? x_len x); [|rewrite map_app, M1; reflexivity]. unfold disk_insert, fpy_insert. cbv zeta. destruct (_ || _); cbn [bind]; [reflexivity|]. rewrite !map_app, M1. reflexivity.
Qed.
Lemma last_map {A B} (f : A -> B) l d : last (map f l) (f d) = f (last l d).
Proof. induction l as [|a [|b l] IH]; [reflexivity|reflexivity|exact IH]. Qed.
Lemma disk_write_seen E nl toc marker s : match disk_write E nl toc marker s with
  | Ok (s', b) => write_toc E nl toc marker (seen s) = Ok (seen s', b)
  | Err e => write_toc E nl toc marker (seen s) = Err e
  end.
Proof.
  unfold disk_write, write_toc. pose proof (disk_steps_seen E nl toc marker s) as H. destruct (disk_steps E nl toc marker s) as [(steps & b)|e]; rewrite H; cbn [bind]; [|reflexivity].
  unfold seen. cbn [d_lines d_bad st_text st_bad]. rewrite (last_map (fun u => lines_of (universal u))). reflexivity.
Qed.

(** ** Several files *)
Lemma seen_get k n : fs_get (seen_disk k) n = option_map seen (disk_get k n).
Proof. induction k as [|(m & s) k IH]; [reflexivity|]. cbn. destruct (seqb m n); [reflexivity|exact IH]. Qed.
Lemma seen_set k n s : seen_disk (disk_set k n s) = fs_set (seen_disk k) n (seen s).
Proof. unfold seen_disk. induction k as [|(m & r) k IH]; [reflexivity|]. cbn [disk_set map fst snd fs_set]. destruct (seqb m n); [reflexivity|]. cbn [map fst snd]. rewrite IH. reflexivity. Qed.
Lemma disk_one_seen E nl k name toc marker : write_one E nl (seen_disk k) name toc marker = (fst (disk_one E nl k name toc marker), seen_disk (snd (disk_one E nl k name toc marker))).
Proof.
  unfold write_one, disk_one. destruct (is_stdin name); [reflexivity|]. rewrite seen_get. destruct (disk_get k name) as [s|]; cbn [option_map]; [|reflexivity].
  pose proof (disk_write_seen E nl toc marker s) as H. destruct (disk_write E nl toc marker s) as [(s' & b)|e]; rewrite H; cbn [fst snd]; [rewrite seen_set|]; reflexivity.
Qed.
Lemma disk_loop_seen E nl marker l : forall k b, write_loop E nl (seen_disk k) l marker b = (fst (disk_loop E nl k l marker b), seen_disk (snd (disk_loop E nl k l marker b))).
Proof.
  induction l as [|(n & t) l IH]; intros k b; cbn [write_loop disk_loop]; [reflexivity|]. rewrite disk_one_seen. destruct (disk_one E nl k n t marker) as ([v|e] & k'); cbn [fst snd]; [apply IH|reflexivity].
Qed.
Lemma disk_strings_seen E nl k names tocs marker :
  write_strings E nl (seen_disk k) names tocs marker = (fst (disk_strings E nl k names tocs marker), seen_disk (snd (disk_strings E nl k names tocs marker))).
Proof. unfold write_strings, disk_strings. destruct (_ =? _); [apply disk_loop_seen|reflexivity]. Qed.
Lemma disk_states_seen E nl marker l : forall k, write_states E nl (seen_disk k) l marker = map seen_disk (disk_states E nl k l marker).
Proof.
  induction l as [|(n & t) l IH]; intros k; cbn [write_states disk_states map]; [reflexivity|]. f_equal. destruct (is_stdin n); [reflexivity|]. rewrite seen_get. destruct (disk_get k n) as [s|]; cbn [option_map]; [|reflexivity].
  pose proof (disk_steps_seen E nl t marker s) as H. destruct (disk_steps E nl t marker s) as [(steps & b)|e]; rewrite H; [|reflexivity]. rewrite map_app, !map_map. f_equal.
  - apply map_ext. intros u. rewrite seen_set. reflexivity.
  - rewrite <- IH, seen_set. do 2 f_equal. unfold seen. cbn [d_lines d_bad st_text st_bad]. rewrite <- (last_map (fun u => lines_of (universal u))). reflexivity.
Qed.

(** *** C66 *)
(** Reading the disk after a run gives the files of the run on what reading the disk before gives; output and
    status are the same.  So all that is proved about the command (C40, C43, C49, C52, C61, C63) is true of
    stored files. *)
Theorem C66_run_as_seen : forall E a k input,
  let run := disk_cli E a k input in
  cli_write_toc E a (mkWorld (seen_disk k) input) = mkEffect (k_out run) (seen_disk (k_disk run)) (k_result run).
Proof.
  intros E a k input. unfold disk_cli, cli_write_toc. destruct (build_multiple_tocs _ _ _ _) as [(tocs & w)|e]; [|reflexivity].
  cbv zeta. destruct (a_in_place a); cbn [w_fs].
  - rewrite disk_strings_seen. destruct (disk_strings _ _ _ _ _ _) as (r & k'). reflexivity.
  - destruct (print_loop _ _ _ _ _) as (out & r). reflexivity.
Qed.
Print Assumptions C66_run_as_seen.
(** The same for a run that was killed: what is on the disk then. *)
Theorem C66_killed_as_seen : forall E nl k names tocs marker,
  write_states E nl (seen_disk k) (combine names tocs) marker = map seen_disk (disk_states E nl k (combine names tocs) marker).
Proof. intros. apply disk_states_seen. Qed.
Print Assumptions C66_killed_as_seen.

(** ** The characters of the new file *)
Lemma disk_remove_one t a b (ls : list str) : (1 <= a)%Z -> (a <= b)%Z -> fpy_remove (lines_of (universal t)) (Z.to_nat a) (Z.to_nat b) = Ok ls ->
  disk_remove t [[a; b]] = Ok [concat ls].
Proof.
  intros Ha Hb H. cbn [disk_remove]. replace (a <? 1)%Z with false by (symmetry; apply Z.ltb_ge; lia). replace (b <? 1)%Z with false by (symmetry; apply Z.ltb_ge; lia).
  replace (b <? a)%Z with false by (symmetry; apply Z.ltb_ge; lia). cbn [orb]. rewrite H. reflexivity.
Qed.
Lemma disk_insert_at t s (pre post : list str) : lines_of (universal t) = pre ++ post -> disk_insert t s (S (length pre)) = Ok (concat pre ++ s ++ concat post).
Proof.
  intros H. unfold disk_insert. rewrite H, app_length. cbv zeta. replace (S (length pre) <? 1) with false by (symmetry; apply Nat.ltb_ge; lia).
  replace (S (length pre + length post) <? S (length pre)) with false by (symmetry; apply Nat.ltb_ge; lia). cbn [orb]. replace (S (length pre) - 1) with (length pre) by lia.
  rewrite firstn_app, skipn_app, Nat.sub_diag, firstn_all, skipn_all. cbn [firstn skipn app]. rewrite app_nil_r. reflexivity.
Qed.
Lemma target_text E marker ls pre old post t : text_lines ls -> WriteSpec.target E marker ls pre old post t -> text_lines (pre ++ post).
Proof. intros Ht Hg. destruct (target_full_pre _ _ _ _ _ _ _ Ht Hg) as (A & B). apply WriteProof.full_text; assumption. Qed.
Lemma disk_steps_target E nl toc marker s pre old post t : st_bad s = false -> WriteSpec.target E marker (d_lines (seen s)) pre old post t ->
  exists first, (first = [] /\ old = [] \/ first = [concat (pre ++ post)]) /\
  disk_steps E nl toc marker s = Ok (first ++ [concat pre ++ final_toc E nl marker toc ++ concat post], seqb (py_strip E toc) t).
Proof.
  intros Hbad Hg. destruct s as (x0 & bad). cbn in Hbad. subst bad. cbn [seen st_text st_bad d_lines] in Hg. pose proof (text_lines_universal x0) as Ht.
  destruct (target_existing _ _ _ _ _ _ _ Ht Hg) as (x & Hx & Ho & Hf & Hl & Hcase).
  pose proof (target_split _ _ _ _ _ _ _ Hg) as Hs. pose proof (seen_lines _ (target_text _ _ _ _ _ _ _ Ht Hg)) as Hpp.
  unfold disk_steps, seen. cbn [st_text st_bad]. rewrite Hx. cbn [bind]. rewrite Ho, Hf.
  destruct Hcase as [(C1 & C2 & C3 & C4 & C5)|[(C1 & C2 & C3)|(C1 & C2 & C3)]].
  - rewrite C1, C2, C3, C4. change (disk_remove x0 []) with (Ok (@nil str)). cbn [bind negb Nat.eqb andb last].
    exists [concat (pre ++ post)]. split; [right; reflexivity|].
    assert (Hr : disk_remove x0 [[Z.of_nat (S (length pre)); Z.of_nat (S (length pre))]] = Ok [concat (pre ++ post)]).
    { apply disk_remove_one; [lia|lia|]. rewrite !Nat2Z.id, Hs. replace (S (length pre)) with (length pre + length old) at 2 by lia.
      apply fpy_remove_mid. destruct old; discriminate. }
    rewrite Hr. cbn [bind Nat.leb last]. rewrite (disk_insert_at _ _ pre post Hpp). reflexivity.
  - rewrite C1, C2. assert (Hr : disk_remove x0 [[Z.of_nat (S (length pre)); Z.of_nat (length pre + length old)]] = Ok [concat (pre ++ post)]).
    { apply disk_remove_one; [lia|lia|]. rewrite !Nat2Z.id, Hs. apply fpy_remove_mid. destruct old; [cbn in C3; lia|discriminate]. }
    cbn [negb andb]. rewrite Hr. cbn [bind last]. exists [concat (pre ++ post)]. split; [right; reflexivity|].
    replace (1 <=? x_len x) with true by (symmetry; apply Nat.leb_le; exact Hl). rewrite (disk_insert_at _ _ pre post Hpp). reflexivity.
  - rewrite C1, C2. cbn [disk_remove negb andb bind last]. exists []. split; [left; auto|].
    replace (1 <=? x_len x) with true by (symmetry; apply Nat.leb_le; exact Hl). rewrite (disk_insert_at _ _ pre post). { reflexivity. }
    rewrite Hs, C3. reflexivity.
Qed.
Lemma reads_seen text lines : reads_as text lines -> lines_of (universal text) = lines.
Proof. intros (A & B). rewrite (universal_is _ _ B). apply lines_of_concat. exact A. Qed.
Lemma seen_reads text : reads_as text (lines_of (universal text)).
Proof. split; [apply text_lines_universal|]. rewrite concat_lines_of. apply normalized_universal. Qed.

(** Every stored text reads as lines, in one way. *)
Theorem C66_every_text_reads : forall text, exists lines, reads_as text lines /\ forall lines', reads_as text lines' -> lines' = lines.
Proof. intros text. exists (lines_of (universal text)). split; [apply seen_reads|]. intros l H. symmetry. apply reads_seen. exact H. Qed.
Print Assumptions C66_every_text_reads.

(** For every newline string: the file after a write has the characters of the lines before the target, then
    the block with that newline string, then the lines after the target, and these lines have LF ends. *)
Theorem C66_file_after : forall E nl toc marker text lines pre old post t0,
  reads_as text lines -> WriteSpec.target E marker lines pre old post t0 ->
  exists b, disk_write E nl toc marker (Stored text false) = Ok (Stored (concat pre ++ block_text E nl marker toc ++ concat post) false, b)
    /\ (b = true <-> trim (e_space E) toc = t0).
Proof.
  intros E nl toc marker text lines pre old post t0 Hr Hg. pose proof (reads_seen _ _ Hr) as L. subst lines.
  destruct (disk_steps_target E nl toc marker (Stored text false) pre old post t0 eq_refl Hg) as (first & _ & S). unfold disk_write. rewrite S. cbn [bind st_text st_bad]. rewrite last_last.
  eexists. split; [reflexivity|]. apply seqb_eq.
Qed.
Print Assumptions C66_file_after.
Theorem C66_no_marker : forall E nl toc marker text lines,
  reads_as text lines -> no_marker E marker lines -> exists b, disk_write E nl toc marker (Stored text false) = Ok (Stored text false, b).
Proof.
  intros E nl toc marker text lines Hr Hm. pose proof (reads_seen _ _ Hr) as L. subst lines. unfold disk_write, disk_steps, get_existing_toc, seen. cbn [d_bad d_lines st_text st_bad].
  rewrite (marker_lines_none _ _ _ Hm). cbn. eauto.
Qed.
Print Assumptions C66_no_marker.
(** With LF line ends only, the characters outside the replaced lines stay as they are. *)
Theorem C66_lf_file : forall E nl toc marker text lines pre old post t0,
  ~ In 13%N text -> reads_as text lines -> WriteSpec.target E marker lines pre old post t0 ->
  text = concat pre ++ concat old ++ concat post
  /\ exists b, disk_write E nl toc marker (Stored text false) = Ok (Stored (concat pre ++ block_text E nl marker toc ++ concat post) false, b).
Proof.
  intros E nl toc marker text lines pre old post t0 Hc Hr Hg. split.
  - pose proof (target_split _ _ _ _ _ _ _ Hg) as Hs. rewrite <- (reads_seen _ _ Hr), universal_id in Hs by exact Hc.
    transitivity (concat (pre ++ old ++ post)); [rewrite <- Hs; symmetry; apply concat_lines_of|rewrite !concat_app; reflexivity].
  - destruct (C66_file_after E nl toc marker text _ _ _ _ _ Hr Hg) as (b & W & _). exists b. exact W.
Qed.
Print Assumptions C66_lf_file.
(** Two files that differ in their line ends only: same table, and the same file afterwards. *)
Theorem C66_line_ends_do_not_matter : forall E o fn nl toc marker text text' lines,
  reads_as text lines -> reads_as text' lines ->
  build_toc E o fn (seen (Stored text false)) = build_toc E o fn (seen (Stored text' false))
  /\ (~ no_marker E marker lines -> disk_write E nl toc marker (Stored text false) = disk_write E nl toc marker (Stored text' false)).
Proof.
  intros E o fn nl toc marker text text' lines H H'. unfold seen. cbn [st_text st_bad]. rewrite (reads_seen _ _ H), (reads_seen _ _ H'). split; [reflexivity|]. intros Hm.
  destruct (existing_target E marker lines (proj1 H)) as [Hn|(pre & old & post & t & x & Hg & _)]; [contradiction|].
  pose proof (reads_seen _ _ H) as L. pose proof (reads_seen _ _ H') as L'.
  destruct (disk_steps_target E nl toc marker (Stored text false) pre old post t eq_refl) as (f & _ & W); [cbn [seen d_lines st_text]; rewrite L; exact Hg|].
  destruct (disk_steps_target E nl toc marker (Stored text' false) pre old post t eq_refl) as (f' & _ & W'); [cbn [seen d_lines st_text]; rewrite L'; exact Hg|].
  unfold disk_write. rewrite W, W'. cbn [bind st_text st_bad]. rewrite !last_last. reflexivity.
Qed.
Print Assumptions C66_line_ends_do_not_matter.

(** ** The command *)
Lemma disk_get_same k n s : disk_get (disk_set k n s) n = Some s.
Proof. induction k as [|(m & r) k IH]; cbn [disk_set disk_get]; [rewrite seqb_refl; reflexivity|]. destruct (seqb m n) eqn:X; cbn [disk_get]; rewrite X; [reflexivity|exact IH]. Qed.
Lemma disk_get_other k n s m : m <> n -> disk_get (disk_set k n s) m = disk_get k m.
Proof.
  intros H. induction k as [|(x & r) k IH]; cbn [disk_set disk_get].
  - replace (seqb n m) with false by (symmetry; apply seqb_neq; congruence). reflexivity.
  - destruct (seqb x n) eqn:X; cbn [disk_get]; [|rewrite IH; reflexivity]. apply seqb_eq in X. subst x. replace (seqb n m) with false by (symmetry; apply seqb_neq; congruence). reflexivity.
Qed.
Lemma disk_loop_spec E nl marker : forall l k b r k', NoDup (map fst l) -> disk_loop E nl k l marker b = (Ok r, k') ->
  (forall n, ~ In n (map fst l) -> disk_get k' n = disk_get k n)
  /\ forall n t, In (n, t) l -> exists s s' v, disk_get k n = Some s /\ disk_write E nl t marker s = Ok (s', v) /\ disk_get k' n = Some s'.
Proof.
  induction l as [|(n & t) l IH]; intros k b r k' Hnd H; cbn [disk_loop] in H.
  - injection H as _ <-. split; [reflexivity|intros ? ? []].
  - inversion Hnd as [|? ? Hn Hnd']; subst. unfold disk_one in H. destruct (is_stdin n); [discriminate|]. destruct (disk_get k n) as [s|] eqn:G; [|discriminate].
    destruct (disk_write E nl t marker s) as [(s' & v)|e] eqn:W; [|discriminate]. destruct (IH _ _ _ _ Hnd' H) as (A & B). split.
    + intros m Hm. cbn [map fst In] in Hm. rewrite A by tauto. apply disk_get_other. intros ->. tauto.
    + intros m u [X|Hin].
      * injection X as <- <-. exists s, s', v. split; [exact G|]. split; [exact W|]. rewrite A by exact Hn. apply disk_get_same.
      * destruct (B m u Hin) as (s2 & s3 & v2 & B1 & B2 & B3). exists s2, s3, v2. split; [|auto]. rewrite disk_get_other in B1; [exact B1|].
        intros ->. apply Hn. cbn [fst]. change n with (fst (n, u)). apply in_map. exact Hin.
Qed.
(** The command writing in place, on documents whose tables one knows: each named file has the characters
    of [stored_after], for every newline option, and all other files keep theirs. *)
Theorem C66_command : forall E a o k input ts,
  offered a -> selects a o -> (0 <= a_skip a)%Z -> a_in_place a = true ->
  python_tables E -> zs_ascii E -> word_ascii E -> entity_tables E ->
  NoDup (inputs a) -> ~ In (lit "-") (inputs a) ->
  Forall2 (to_expect E o (mkWorld (seen_disk k) input)) (inputs a) ts ->
  let run := disk_cli E a k input in
  k_out run = []
  /\ (forall n, ~ In n (inputs a) -> disk_get (k_disk run) n = disk_get k n)
  /\ (forall n t, In (n, t) (combine (inputs a) ts) -> exists text text',
        disk_get k n = Some (Stored text false) /\ disk_get (k_disk run) n = Some (Stored text' false)
        /\ stored_after E (o_newline o) (a_toc_marker a) t text text').
Proof.
  intros E a o k input ts Hacc Hsel Hskip Hi Ht Hz Hw He Hnd Hst H run. set (w := mkWorld (seen_disk k) input) in *.
  assert (Htext : a_in_place a = true \/ a_diff a = true -> forall n lines, In n (inputs a) -> supplies w n lines -> n <> lit "-" /\ text_lines lines).
  { intros _ n lines Hn Hs. assert (N : n <> lit "-") by (intros ->; contradiction). split; [exact N|]. destruct Hs as [(X & _)|(_ & G)]; [contradiction|].
    cbn [w w_fs] in G. rewrite seen_get in G. destruct (disk_get k n) as [s|]; [|discriminate]. injection G as <- _. apply text_lines_universal. }
  destruct (run_ok E a o w Hacc Hsel Hskip Ht Hz Hw He Hnd Htext ts H) as (b & R & O). destruct (all_tables E a o w Hacc Hsel Hskip Ht Hz Hw He Hnd ts H) as (w' & B).
  pose proof (C66_run_as_seen E a k input) as S. cbn zeta in S. fold run w in S. rewrite S in R, O. rewrite Hi in O. cbn [f_result f_out] in R, O. split; [exact O|].
  pose proof (Forall2_length _ _ _ H) as Hl. apply selects_model in Hsel as Eo.
  clear S O. unfold run, disk_cli in R |- *. rewrite <- Eo in R |- *. fold w in R |- *. rewrite B, <- inputs_effective, Hi in R |- *. unfold disk_strings in R |- *.
  replace (length (inputs a) =? length ts) with true in R |- * by (symmetry; apply Nat.eqb_eq; exact Hl).
  destruct (disk_loop _ _ _ _ _ _) as ([v|e] & k') eqn:D; cbn [k_result bind] in R; [|discriminate]. cbn [k_disk].
  apply disk_loop_spec in D; [|rewrite map_fst_combine by exact Hl; exact Hnd]. rewrite map_fst_combine in D by exact Hl. destruct D as (D1 & D2). split; [exact D1|].
  intros n t Hin. destruct (D2 n t Hin) as (s & s' & v' & G & W & G'). pose proof (in_combine_l _ _ _ _ Hin) as Hn. pose proof (Forall2_combine _ _ _ H n t Hin) as (lines & hs & Hs & _).
  destruct Hs as [(X & _)|(_ & F)]; [subst n; contradiction|]. cbn [w w_fs] in F. rewrite seen_get, G in F. injection F as F1 F2. destruct s as (text & bad). cbn in F2. subst bad. cbn [st_text] in F1.
  replace (cli_newline (a_newline a)) with (o_newline o) in W by (rewrite Eo; reflexivity).
  pose proof (seen_reads text) as Hr. rewrite F1 in Hr. exists text. destruct (existing_target E (a_toc_marker a) lines (proj1 Hr)) as [Hm|(pre & old & post & t0 & x & Hg & _)].
  - destruct (C66_no_marker E (o_newline o) t (a_toc_marker a) text lines Hr Hm) as (b' & W'). rewrite W' in W. injection W as <- _. exists text. split; [exact G|]. split; [exact G'|]. exists lines. auto.
  - destruct (C66_file_after E (o_newline o) t (a_toc_marker a) text lines pre old post t0 Hr Hg) as (b' & W' & _). rewrite W' in W. injection W as <- _.
    eexists. split; [exact G|]. split; [exact G'|]. exists lines. split; [exact Hr|]. right. exists pre, old, post, t0. auto.
Qed.
Print Assumptions C66_command.

(** ** A second run *)
Lemma second_target E o fn n marker lines pre old post t0 ks t :
  word_ascii E -> digit_ascii E -> space_ascii E -> line_end (o_newline o) -> neutral_marker E marker ->
  text_lines lines -> WriteSpec.target E marker lines pre old post t0 ->
  applies E (with_skip o 0) fn (skipn n lines) ks -> recognisable E o ks ->
  build_toc E (with_skip o (Z.of_nat n)) fn (mkDoc lines false) = Ok t ->
  let new := lines_of (universal (final_toc E (o_newline o) marker t)) in
  exists t1, WriteSpec.target E marker (pre ++ new ++ post) pre new post t1.
Proof.
  intros Hw Hd Hs Hn Hm Ht Hg Ha Hrec Hb. cbn zeta.
  assert (Hlf : e_space E 10%N = true) by (apply Hs; lia). assert (Hcr : e_space E 13%N = true) by (apply Hs; lia).
  rewrite C20_skip_drops_first_lines in Hb.
  destruct (C48_rows_are_single_lines E (with_skip o 0) fn _ ks t Hw Ha Hb) as (rows & Hrows & Hnl).
  assert (Et0 : t = PropNewline.ended (o_newline o) rows). { specialize (Hnl (o_newline o)). change (with_newline (with_skip o 0) (o_newline o)) with (with_newline (with_skip o 0) (o_newline (with_skip o 0))) in Hnl. rewrite with_newline_same, Hb in Hnl. injection Hnl as ->. reflexivity. }
  set (t' := PropNewline.ended [10%N] rows). assert (Hno : normalized t t') by (rewrite Et0; apply ended_normalized; assumption).
  specialize (Hnl [10%N]). change (concat (map (fun r : list N => r ++ [10%N]) rows)) with t' in Hnl.
  destruct (table_lines E (with_newline (with_skip o 0) [10%N]) fn _ ks t' Hw eq_refl Ha Hnl) as (rs & Et & Hf & Hp & Hr).
  assert (Hmn : py_strip E marker <> []) by (destruct Hm as (_ & c & r & Ec & _); intros X; change (trim (e_space E) marker = []) in X; rewrite Ec in X; discriminate).
  assert (Hnm : no_marker E marker rs).
  { intros l Hl. rewrite Forall_forall in Hr. destruct (Hr l Hl) as (ws & c & r & -> & X & Y). apply row_not_marker; assumption. }
  assert (Hitem : list_item E (chomp (rstrip (e_space E) t')) \/ py_strip E t' = []).
  { destruct (C42_table_is_recognised E (with_newline (with_skip o 0) [10%N]) fn _ ks t' Hs Hd Ha Hrec Hnl) as [X|X]; [right; rewrite X; reflexivity|auto]. }
  destruct (written_target E (o_newline o) marker t t' rs lines pre old post t0 Hn Hno Hlf Hcr (proj1 Hm) Hmn (PropRerun.full_text _ Hf) Et Hnm Hitem Ht Hg) as (_ & Hg2). eauto.
Qed.
(** Under the conditions of C43, a second run leaves every character of the file as it is, also the CRs of
    the block when the newline option is CR LF. *)
Theorem C66_second_run_same_characters : forall E o fn n marker text lines pre old post t0 ks t s1 b,
  word_ascii E -> digit_ascii E -> space_ascii E -> line_end (o_newline o) -> neutral_marker E marker ->
  reads_as text lines -> WriteSpec.target E marker lines pre old post t0 ->
  n <= length pre -> Forall (plain_line (o_parser o)) old ->
  outside (o_parser o) None (skipn n lines) ks None ->
  applies E (with_skip o 0) fn (skipn n lines) ks -> recognisable E o ks ->
  build_toc E (with_skip o (Z.of_nat n)) fn (mkDoc lines false) = Ok t ->
  disk_write E (o_newline o) t marker (Stored text false) = Ok (s1, b) ->
  (exists lines1, reads_as (st_text s1) lines1 /\ build_toc E (with_skip o (Z.of_nat n)) fn (mkDoc lines1 false) = Ok t)
  /\ exists b', disk_write E (o_newline o) t marker s1 = Ok (s1, b').
Proof.
  intros E o fn n marker text lines pre old post t0 ks t s1 b Hw Hd Hs Hn Hm Hr Hg Hsk Hold Hout Ha Hrec Hb Hwr. pose proof (proj1 Hr) as Ht.
  destruct (target_full_pre _ _ _ _ _ _ _ Ht Hg) as (Hfull & Hpost).
  destruct (C66_file_after E (o_newline o) t marker text lines pre old post t0 Hr Hg) as (b1 & W1 & _). rewrite W1 in Hwr. injection Hwr as <- _.
  destruct (second_target E o fn n marker lines pre old post t0 ks t Hw Hd Hs Hn Hm Ht Hg Ha Hrec Hb) as (t1 & Hg1).
  pose proof (disk_write_seen E (o_newline o) t marker (Stored text false)) as S. rewrite W1 in S. unfold seen in S at 1. cbn [st_text st_bad] in S. rewrite (reads_seen _ _ Hr) in S.
  destruct (C43_second_run_changes_nothing E o fn n marker lines pre old post t0 ks t _ _ Hw Hd Hs Hn Hm Ht Hg Hsk Hold Hout Ha Hrec Hb S) as (Hb2 & _).
  set (raw := concat pre ++ block_text E (o_newline o) marker t ++ concat post) in *.
  assert (L : lines_of (universal raw) = pre ++ lines_of (universal (final_toc E (o_newline o) marker t)) ++ post) by (apply lines_of_final; assumption).
  split.
  - exists (lines_of (universal raw)). split; [apply seen_reads|exact Hb2].
  - rewrite <- L in Hg1. destruct (C66_file_after E (o_newline o) t marker raw _ _ _ _ _ (seen_reads raw) Hg1) as (b2 & W2 & _). exists b2. exact W2.
Qed.
Print Assumptions C66_second_run_same_characters.
Lemma in_fst_combine {A B} (x : A) : forall (l : list A) (l' : list B), length l = length l' -> In x l -> exists y, In (x, y) (combine l l').
Proof. induction l as [|a l IH]; intros [|b l'] H Hin; try discriminate; [destruct Hin|]. destruct Hin as [->|Hin]; [exists b; left; reflexivity|]. destruct (IH l') as (y & Y); [cbn in H; lia|exact Hin|]. exists y. right. exact Y. Qed.
(** The command run in place twice: the second run leaves all characters of all files as they are. *)
Theorem C66_command_twice : forall E a o k input k1 r,
  selects a o -> line_end (o_newline o) ->
  word_ascii E -> digit_ascii E -> space_ascii E -> neutral_marker E (a_toc_marker a) ->
  a_in_place a = true -> a_names a <> [] -> NoDup (a_names a) -> ~ In (lit "-") (a_names a) ->
  (forall n, In n (a_names a) -> exists text lines, disk_get k n = Some (Stored text false) /\ reads_as text lines /\ rerunnable E o (a_toc_marker a) n lines) ->
  disk_cli E a k input = DiskEffect [] k1 (Ok r) ->
  let again := disk_cli E a k1 input in
  (exists r2, k_result again = Ok r2) /\ forall n, disk_get (k_disk again) n = disk_get k1 n.
Proof.
  intros E a o k input k1 r Hsel Hnl Hw Hd Hs Hm Hip Hne Hnd Hst Hfiles H again.
  pose proof (C66_run_as_seen E a k input) as S1. cbn zeta in S1. rewrite H in S1. cbn [k_out k_disk k_result] in S1.
  pose proof (C66_run_as_seen E a k1 input) as S2. cbn zeta in S2. fold again in S2.
  destruct (C43_command_twice E a o (mkWorld (seen_disk k) input) (seen_disk k1) r Hsel Hnl Hw Hd Hs Hm Hip Hne Hnd Hst) as ((r2 & R2 & _) & _); [|exact S1|].
  { intros n Hn. destruct (Hfiles n Hn) as (text & lines & G & Hr & X). exists lines. split; [|exact X]. cbn [w_fs]. rewrite seen_get, G. cbn [option_map seen st_text st_bad]. unfold seen. cbn [st_text st_bad]. rewrite (reads_seen _ _ Hr). reflexivity. }
  cbn [w_stdin] in R2. rewrite S2 in R2. cbn [f_result] in R2. split; [eauto|].
  assert (Hns : forall n, In n (a_names a) -> is_stdin n = false).
  { intros n Hn. destruct (is_stdin n) eqn:X; [|reflexivity]. apply is_stdin_iff in X. subst n. contradiction. }
  assert (Hen : effective_names (a_names a) = a_names a) by (destruct (a_names a); [congruence|reflexivity]).
  pose proof Hsel as Eo. apply selects_model in Eo. clear S1 S2. unfold again in *. clear again. unfold disk_cli, build_multiple_tocs in H, R2 |- *. rewrite Hen, Hip, <- Eo in H, R2 |- *.
  destruct (read_tocs E o (mkWorld (seen_disk k) input) (a_names a)) as [(tocs & w')|] eqn:R; [|discriminate].
  destruct (read_tocs E o (mkWorld (seen_disk k1) input) (a_names a)) as [(tocs2 & w2)|] eqn:R'; [|discriminate].
  destruct (read_tocs_files _ _ _ _ _ _ Hns R) as (_ & F). destruct (read_tocs_files _ _ _ _ _ _ Hns R') as (_ & F2). clear R R'. cbn [w_fs] in F, F2.
  pose proof (Forall2_length _ _ _ F) as Hl. pose proof (Forall2_length _ _ _ F2) as Hl2. unfold disk_strings in H, R2 |- *.
  replace (length (a_names a) =? length tocs) with true in H by (symmetry; apply Nat.eqb_eq; exact Hl). replace (length (a_names a) =? length tocs2) with true in R2 |- * by (symmetry; apply Nat.eqb_eq; exact Hl2).
  destruct (disk_loop E _ k _ _ _) as ([v|] & k') eqn:D; cbn [bind] in H; [|discriminate]. injection H as -> _.
  destruct (disk_loop E _ k1 _ _ _) as ([v2|] & k2) eqn:D2; cbn [k_result bind] in R2; [|discriminate]. cbn [k_disk].
  apply disk_loop_spec in D; [|rewrite map_fst_combine by exact Hl; exact Hnd]. apply disk_loop_spec in D2; [|rewrite map_fst_combine by exact Hl2; exact Hnd].
  rewrite map_fst_combine in D by exact Hl. rewrite map_fst_combine in D2 by exact Hl2. destruct D as (_ & D). destruct D2 as (N2 & D2).
  intros n. destruct (in_dec (list_eq_dec N.eq_dec) n (a_names a)) as [Hn|Hn]; [|apply N2; exact Hn].
  assert (I1 : exists t, In (n, t) (combine (a_names a) tocs)) by (apply in_fst_combine; assumption). assert (I2 : exists t, In (n, t) (combine (a_names a) tocs2)) by (apply in_fst_combine; assumption).
  destruct I1 as (t & I1). destruct I2 as (t2 & I2).
  destruct (D n t I1) as (s & s1 & b & G & W & G1). destruct (D2 n t2 I2) as (s1' & s2 & b2 & G1' & W2 & G2). rewrite G1 in G1'. injection G1' as <-.
  destruct (Forall2_combine _ _ _ F n t I1) as (d & Q1 & Q2). destruct (Forall2_combine _ _ _ F2 n t2 I2) as (d2 & Q3 & Q4).
  destruct (Hfiles n Hn) as (text & lines & G' & Hr & Htl & pre & old & post & t0 & ks & j & T1 & T2 & T3 & T4 & T5 & T6 & T7).
  rewrite G in G'. injection G' as ->. rewrite seen_get, G in Q1. injection Q1 as <-. unfold seen in Q2. cbn [st_text st_bad] in Q2. rewrite (reads_seen _ _ Hr) in Q2. rewrite seen_get, G1 in Q3. injection Q3 as <-.
  replace (cli_newline (a_newline a)) with (o_newline o) in W, W2 by (rewrite Eo; reflexivity).
  rewrite <- (with_skip_same o), T2 in Q2, Q4.
  destruct (C66_second_run_same_characters E o n j (a_toc_marker a) text lines pre old post t0 ks t s1 b) as ((lines1 & L1 & B1) & b' & W'); auto.
  destruct s1 as (text1 & bad1). cbn [st_text] in L1. assert (bad1 = false).
  { destruct (C66_file_after E (o_newline o) t (a_toc_marker a) text lines pre old post t0 Hr T1) as (? & Z & _). rewrite Z in W. injection W as _ <- _. reflexivity. }
  subst bad1. unfold seen in Q4. cbn [st_text st_bad] in Q4. rewrite (reads_seen _ _ L1) in Q4. rewrite B1 in Q4. injection Q4 as <-. rewrite W' in W2. injection W2 as <- _. rewrite G1, G2. reflexivity.
Qed.
Print Assumptions C66_command_twice.

(** ** Cases *)
Definition crlf_doc : str := lit "intro" ++ [13%N; 10%N] ++ lit "<!--TOC-->" ++ [13%N; 10%N] ++ lit "# One" ++ [13%N; 10%N].
Definition crlf_args : cli_args := mkArgs [lit "f.md"] None (lit "-") false false false 3 Github 0 false true false (lit "<!--TOC-->") (lit "\r\n").
Lemma crlf_check text : forallb (fun i => negb (N.eqb (nth (S i) text 0%N) 10) || N.eqb (nth i text 0%N) 13) (seq 0 (length text)) = true -> hd 0%N text <> 10%N -> crlf_only text.
Proof.
  intros H H0 a b E. destruct a as [|x a] using rev_ind; [subst text; cbn in H0; congruence|]. exists a. rewrite forallb_forall in H.
  specialize (H (length a)). rewrite E in H. assert (I : In (length a) (seq 0 (length ((a ++ [x]) ++ 10%N :: b)))) by (apply in_seq; rewrite !app_length; cbn; lia).
  specialize (H I). replace (nth (S (length a)) ((a ++ [x]) ++ 10%N :: b) 0%N) with 10%N in H.
  2:{ replace (S (length a)) with (length (a ++ [x])) by (rewrite app_length; cbn; lia). symmetry. apply nth_middle. }
  replace (nth (length a) ((a ++ [x]) ++ 10%N :: b) 0%N) with x in H by (rewrite <- app_assoc; symmetry; apply nth_middle). cbn in H.
  apply N.eqb_eq in H. subst x. reflexivity.
Qed.
(** cli.py:357-361 says that in place all the newlines of the input file are replaced with the newline
    string: they are replaced with LF (if fpyutils uses [newline_character] for missing lines only), even if both the file and the option have CR LF. *)
Theorem C66_newline_option_refuted : ~ (forall E a k input n s s' r,
  a_in_place a = true -> a_newline a = lit "\r\n" -> In n (a_names a) -> disk_get k n = Some s -> crlf_only (st_text s) ->
  k_result (disk_cli E a k input) = Ok r -> disk_get (k_disk (disk_cli E a k input)) n = Some s' -> crlf_only (st_text s')).
Proof.
  intros H. specialize (H ascii_env crlf_args [(lit "f.md", Stored crlf_doc false)] Closed (lit "f.md") (Stored crlf_doc false)).
  destruct (disk_get (k_disk (disk_cli ascii_env crlf_args [(lit "f.md", Stored crlf_doc false)] Closed)) (lit "f.md")) as [s'|] eqn:G; [|vm_compute in G; discriminate].
  assert (R : k_result (disk_cli ascii_env crlf_args [(lit "f.md", Stored crlf_doc false)] Closed) = Ok false) by (vm_compute; reflexivity).
  specialize (H s' false eq_refl eq_refl (or_introl eq_refl) eq_refl). assert (C : crlf_only crlf_doc) by (apply crlf_check; [vm_compute; reflexivity|discriminate]).
  specialize (H C R eq_refl). vm_compute in G. injection G as <-. destruct (H (lit "intro") _ eq_refl) as (a' & X).
  destruct a' as [|? [|? [|? [|? [|? [|? ?]]]]]]; discriminate.
Qed.
Print Assumptions C66_newline_option_refuted.
Definition windows (text : str) : str := flat_map (fun c => if N.eqb c 10 then [13%N; 10%N] else [c]) text.
Lemma reads_check text lines : text_lines lines -> universal text = concat lines -> reads_as text lines.
Proof. intros H E. split; [exact H|]. rewrite <- E. apply normalized_universal. Qed.
Lemma crlf_reads : reads_as crlf_doc [ln "intro"; ln "<!--TOC-->"; ln "# One"].
Proof. apply reads_check; [|vm_compute; reflexivity]. unfold ln. repeat (apply tl_line; [split; cbn; intuition discriminate|]). constructor. Qed.
Example C66_file_after_ex :
  reads_as crlf_doc [ln "intro"; ln "<!--TOC-->"; ln "# One"]
  /\ WriteSpec.target ascii_env mk1 [ln "intro"; ln "<!--TOC-->"; ln "# One"] [ln "intro"] [ln "<!--TOC-->"] [ln "# One"] mk1
  /\ disk_write ascii_env [13%N; 10%N] (lit "- x") mk1 (Stored crlf_doc false)
     = Ok (Stored (ln "intro" ++ windows (ln "<!--TOC-->" ++ ln "" ++ ln "- x" ++ ln "" ++ ln "<!--TOC-->") ++ ln "# One") false, false)
  /\ reads_as (ln "intro" ++ ln "<!--TOC-->" ++ ln "# One") [ln "intro"; ln "<!--TOC-->"; ln "# One"] /\ ~ In 13%N (ln "intro" ++ ln "<!--TOC-->" ++ ln "# One")
  /\ no_marker ascii_env mk1 [ln "intro"].
Proof.
  split; [exact crlf_reads|]. split; [|split; [vm_compute; reflexivity|split; [|split; [cbn; intuition discriminate|]]]].
  - apply (tg_single ascii_env mk1 [ln "intro"] (ln "<!--TOC-->") [ln "# One"]); [vm_compute; reflexivity| |]; apply not_marker_dec; vm_compute; reflexivity.
  - apply reads_check; [exact (proj1 crlf_reads)|vm_compute; reflexivity].
  - apply not_marker_dec; vm_compute; reflexivity.
Qed.
Definition guide_disk : disk := [(lit "b.md", Stored (concat guide) false); (lit "c.md", Stored [] true); (lit "a.md", Stored (windows (concat marked)) false)].
Example C66_command_ex :
  let a := guide_args 3 true in let o := args_opts a in
  offered a /\ selects a o /\ a_in_place a = true /\ NoDup (inputs a) /\ ~ In (lit "-") (inputs a)
  /\ Forall2 (to_expect ascii_env o (mkWorld (seen_disk guide_disk) (w_stdin guide_world))) (inputs a) [guide_table; guide_table]
  /\ option_map st_text (disk_get (k_disk (disk_cli ascii_env a guide_disk Closed)) (lit "a.md"))
     = Some (concat [ln "<!--TOC-->"; ln ""; ln "1. [One *two*](#one-two)"; ln "   1. [<b>Tag</b>](#tag)"; ln "   2. [\[x\]](#x)"; ln "2. [Deep](#deep-1)"; ln ""; ln "<!--TOC-->"] ++ concat (skipn 1 guide)).
Proof.
  intros a o. pose proof C61_command_ex as X. cbn zeta in X. fold a o in X. destruct X as (A & B & _ & D & F & _).
  split; [exact A|]. split; [exact B|]. split; [reflexivity|]. split; [exact D|]. split; [cbn; intuition discriminate|]. split; [|vm_compute; reflexivity].
  replace (mkWorld (seen_disk guide_disk) (w_stdin guide_world)) with guide_world by (vm_compute; reflexivity). exact F.
Qed.
Example C66_command_twice_ex :
  let a := args1 [lit "f.md"] true true in let k := [(lit "f.md", Stored (windows (concat doc_marked)) false)] in
  (exists o, selects a o /\ line_end (o_newline o) /\ rerunnable ascii_env o (a_toc_marker a) (lit "f.md") doc_marked)
  /\ reads_as (windows (concat doc_marked)) doc_marked
  /\ exists k1, disk_cli ascii_env a k Closed = DiskEffect [] k1 (Ok true) /\ k1 <> k
     /\ k_result (disk_cli ascii_env a k1 Closed) = Ok false.
Proof.
  intros a k. split; [exact (proj1 C43_command_twice_ex)|]. split; [apply reads_check; [exact doc_marked_text|vm_compute; reflexivity]|].
  exists (k_disk (disk_cli ascii_env a k Closed)). split; [vm_compute; reflexivity|]. split; [|vm_compute; reflexivity].
  intros X. assert (Y : option_map st_text (disk_get (k_disk (disk_cli ascii_env a k Closed)) (lit "f.md")) = option_map st_text (disk_get k (lit "f.md"))) by (rewrite X; reflexivity).
  vm_compute in Y. discriminate Y.
Qed.
(** A killed run: the file has been emptied of its marker. *)
Example C66_killed_as_seen_ex :
  map (fun k => option_map st_text (disk_get k (lit "f.md"))) (disk_states ascii_env [10%N] [(lit "f.md", Stored crlf_doc false)] (combine [lit "f.md"] [lit "- x"]) mk1)
  = [Some crlf_doc; Some (ln "intro" ++ ln "# One"); Some (ln "intro" ++ ln "<!--TOC-->" ++ ln "" ++ ln "- x" ++ ln "" ++ ln "<!--TOC-->" ++ ln "# One");
     Some (ln "intro" ++ ln "<!--TOC-->" ++ ln "" ++ ln "- x" ++ ln "" ++ ln "<!--TOC-->" ++ ln "# One")].
Proof. vm_compute. reflexivity. Qed.
