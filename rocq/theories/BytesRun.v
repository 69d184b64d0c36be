(** A run on bytes is a run on the texts that the bytes stand for. *)
From Coq Require Import String List NArith ZArith Bool Arith Lia.
From Verif Require Import Str StrFacts Anchor Toc Write Cli Args Argv Disk Program.
From Verif Require Import PropArgs PropArgv PropDisk.
From Verif Require Import Bytes BytesSpec BytesProof BytesText.
Import ListNotations.
Local Open Scope list_scope.

Section Run.
Context (sy : system) (E : env).
Lemma opened_good b : st_bad (opened sy b) = false -> utf8 (st_text (opened sy b)) b.
Proof. unfold opened. destruct (decode b) as (s & bad) eqn:D. cbn. intros ->. apply decode_iff. exact D. Qed.
Lemma opened_utf8 s b : utf8 s b -> opened sy b = Stored s false.
Proof. intros H. unfold opened. apply decode_iff in H. rewrite H. reflexivity. Qed.
Lemma opened_bad b : not_utf8 b <-> st_bad (opened sy b) = true.
Proof. rewrite <- decode_bad. unfold opened. destruct (decode b). reflexivity. Qed.
Lemma opened_get k n : disk_get (opened_files sy k) n = option_map (opened sy) (file_get k n).
Proof. induction k as [|(m & s) k IH]; [reflexivity|]. cbn. destruct (seqb m n); [reflexivity|exact IH]. Qed.
Lemma opened_set k n b : opened_files sy (file_set k n b) = disk_set (opened_files sy k) n (opened sy b).
Proof. unfold opened_files. induction k as [|(m & r) k IH]; [reflexivity|]. cbn [file_set map fst snd disk_set]. destruct (seqb m n); [reflexivity|]. cbn [map fst snd]. rewrite IH. reflexivity. Qed.
Lemma file_set_same k n b : file_get k n = Some b -> file_set k n b = k.
Proof. induction k as [|(m & r) k IH]; [discriminate|]. cbn. destruct (seqb m n); [intros H; injection H as ->; reflexivity|intros H; rewrite (IH H); reflexivity]. Qed.
Lemma file_get_same k n b : file_get (file_set k n b) n = Some b.
Proof. induction k as [|(m & r) k IH]; cbn [file_set file_get]; [rewrite seqb_refl; reflexivity|]. destruct (seqb m n) eqn:X; cbn [file_get]; rewrite X; [reflexivity|exact IH]. Qed.
Lemma file_get_other k n b m : m <> n -> file_get (file_set k n b) m = file_get k m.
Proof.
  intros H. induction k as [|(x & r) k IH]; cbn [file_set file_get].
  - replace (seqb n m) with false by (symmetry; apply seqb_neq; congruence). reflexivity.
  - destruct (seqb x n) eqn:X; cbn [file_get]; [|rewrite IH; reflexivity]. apply seqb_eq in X. subst x. replace (seqb n m) with false by (symmetry; apply seqb_neq; congruence). reflexivity.
Qed.
Lemma encode_clean ts : Forall clean ts -> exists bs, encode_steps sy ts = (bs, false) /\ map (opened sy) bs = map (fun u => Stored u false) ts /\ Forall2 utf8 ts bs.
Proof.
  induction 1 as [|t ts C F (bs & Eb & M & U)]; [exists []; repeat split; constructor|]. cbn [encode_steps]. apply encode_scalar in C. destruct (encode t) as (b & bad) eqn:T. cbn in C. subst bad. rewrite Eb. cbn [fst snd].
  apply encode_iff in T. exists (b :: bs). split; [reflexivity|]. split; [cbn [map]; rewrite (opened_utf8 _ _ T), M; reflexivity|constructor; assumption].
Qed.

Context (Hu : unicode_tables E) (nl marker : str) (Hn : clean nl).
Lemma byte_steps_sim t b : (st_bad (opened sy b) = false -> clean t) ->
  match disk_steps E nl t marker (opened sy b) with
  | Ok (ts, e) => exists bs, byte_steps sy E nl t marker b = (bs, Ok e) /\ map (opened sy) bs = map (fun u => Stored u false) ts /\ st_bad (opened sy b) = false
  | Err e => byte_steps sy E nl t marker b = ([], Err e)
  end.
Proof.
  intros Ht. unfold byte_steps. destruct (disk_steps E nl t marker (opened sy b)) as [(ts & e)|e] eqn:D; [|reflexivity].
  assert (B : st_bad (opened sy b) = false).
  { unfold disk_steps in D. destruct (get_existing_toc E marker (seen (opened sy b))) as [x|] eqn:X; [|discriminate]. unfold get_existing_toc in X. cbn [seen d_bad] in X. destruct (st_bad (opened sy b)); [discriminate|reflexivity]. }
  destruct (clean_steps E Hu _ _ _ _ _ _ D (utf8_scalar _ _ (opened_good _ B)) Hn (Ht B)) as (_ & C).
  destruct (encode_clean ts C) as (bs & -> & M & _). exists bs. auto.
Qed.
Lemma last_opened bs ts b : map (opened sy) bs = map (fun u => Stored u false) ts -> st_bad (opened sy b) = false ->
  opened sy (last bs b) = Stored (last ts (st_text (opened sy b))) (st_bad (opened sy b)).
Proof.
  intros M B. transitivity (last (map (opened sy) bs) (opened sy b)); [symmetry; apply last_map|]. rewrite M, B.
  replace (opened sy b) with ((fun u => Stored u false) (st_text (opened sy b))) at 1; [apply (last_map (fun u => Stored u false))|]. destruct (opened sy b). cbn in *. congruence.
Qed.
(** What has to be known of a table: it can be written into a good file. *)
Definition fits (k : files) (x : str * str) : Prop :=
  is_stdin (fst x) = false -> forall b, file_get k (fst x) = Some b -> st_bad (opened sy b) = false -> clean (snd x).
Lemma byte_one_sim k n t : fits k (n, t) ->
  disk_one E nl (opened_files sy k) n t marker = (fst (byte_one sy E nl k n t marker), opened_files sy (snd (byte_one sy E nl k n t marker))).
Proof.
  intros Hf. unfold disk_one, byte_one. destruct (is_stdin n) eqn:I; [reflexivity|]. rewrite opened_get. destruct (file_get k n) as [b|] eqn:G; cbn [option_map]; [|reflexivity].
  pose proof (byte_steps_sim t b (Hf I b G)) as S. unfold disk_write. destruct (disk_steps E nl t marker (opened sy b)) as [(ts & e)|e]; cbn [bind].
  - destruct S as (bs & -> & M & B). cbn [fst snd]. rewrite opened_set, (last_opened _ _ _ M B). reflexivity.
  - rewrite S. cbn [fst snd last]. rewrite (file_set_same _ _ _ G). reflexivity.
Qed.
(** Whether a file can be decoded does not change. *)
Definition same_kind (k k' : files) : Prop :=
  forall n, option_map (fun b => st_bad (opened sy b)) (file_get k n) = option_map (fun b => st_bad (opened sy b)) (file_get k' n).
Lemma same_set k n b b' : file_get k n = Some b -> st_bad (opened sy b) = st_bad (opened sy b') -> same_kind k (file_set k n b').
Proof.
  intros G S m. destruct (seqb m n) eqn:X.
  - apply seqb_eq in X. subst m. rewrite file_get_same, G. cbn. congruence.
  - apply seqb_neq in X. rewrite file_get_other by exact X. reflexivity.
Qed.
Lemma same_fits k k' x : same_kind k k' -> fits k x -> fits k' x.
Proof.
  intros S F I b G B. specialize (S (fst x)). rewrite G in S. destruct (file_get k (fst x)) as [b0|] eqn:G0; [|discriminate]. cbn in S. injection S as S. eapply F; [exact I|exact G0|congruence].
Qed.
Lemma byte_one_kind k n t : fits k (n, t) -> same_kind k (snd (byte_one sy E nl k n t marker)).
Proof.
  intros Hf. unfold byte_one. destruct (is_stdin n) eqn:I; [intros m; reflexivity|]. destruct (file_get k n) as [b|] eqn:G; [|intros m; reflexivity].
  pose proof (byte_steps_sim t b (Hf I b G)) as S. destruct (disk_steps E nl t marker (opened sy b)) as [(ts & e)|e].
  - destruct S as (bs & -> & M & B). cbn [snd]. apply (same_set _ _ b); [exact G|]. rewrite (last_opened _ _ _ M B). reflexivity.
  - rewrite S. cbn [snd last]. apply (same_set _ _ b); [exact G|reflexivity].
Qed.
Lemma byte_loop_sim l : forall k e, Forall (fits k) l ->
  disk_loop E nl (opened_files sy k) l marker e = (fst (byte_loop sy E nl k l marker e), opened_files sy (snd (byte_loop sy E nl k l marker e)))
  /\ same_kind k (snd (byte_loop sy E nl k l marker e)).
Proof.
  induction l as [|(n & t) l IH]; intros k e F; cbn [disk_loop byte_loop]; [split; [reflexivity|intros m; reflexivity]|]. inversion F; subst.
  rewrite byte_one_sim by assumption. pose proof (byte_one_kind k n t ltac:(assumption)) as K. destruct (byte_one sy E nl k n t marker) as ([v|x] & k'); cbn [fst snd] in *; [|split; [reflexivity|exact K]].
  destruct (IH k' (e && v)) as (S & K'); [eapply Forall_impl; [|eassumption]; intros y; apply same_fits; exact K|]. split; [exact S|]. intros m. rewrite (K m). apply K'.
Qed.
Lemma byte_states_sim l : forall k, Forall (fits k) l -> disk_states E nl (opened_files sy k) l marker = map (opened_files sy) (byte_states sy E nl k l marker).
Proof.
  induction l as [|(n & t) l IH]; intros k F; cbn [disk_states byte_states map]; [reflexivity|]. f_equal. inversion F as [|? ? Hf F']; subst. destruct (is_stdin n) eqn:I; [reflexivity|].
  rewrite opened_get. destruct (file_get k n) as [b|] eqn:G; cbn [option_map]; [|reflexivity]. pose proof (byte_steps_sim t b (Hf I b G)) as S. destruct (disk_steps E nl t marker (opened sy b)) as [(ts & e)|e]; [|rewrite S; reflexivity].
  destruct S as (bs & -> & M & B). rewrite map_app. f_equal.
  - rewrite map_map. erewrite (map_ext (fun x => opened_files sy (file_set k n x))); [|intros x; apply opened_set].
    rewrite <- (map_map (opened sy) (disk_set (opened_files sy k) n)), M, map_map. rewrite B. reflexivity.
  - rewrite <- IH; [rewrite opened_set, (last_opened _ _ _ M B); reflexivity|].
    eapply Forall_impl; [|exact F']. intros y. apply same_fits. apply (same_set _ _ b); [exact G|]. rewrite (last_opened _ _ _ M B). reflexivity.
Qed.
Lemma same_trans k k1 k2 : same_kind k k1 -> same_kind k1 k2 -> same_kind k k2.
Proof. intros A B m. rewrite (A m). apply B. Qed.
Lemma byte_states_kind l : forall k, Forall (fits k) l -> Forall (same_kind k) (byte_states sy E nl k l marker).
Proof.
  induction l as [|(n & t) l IH]; intros k F; cbn [byte_states]; [repeat constructor|]. constructor; [intros m; reflexivity|]. inversion F as [|? ? Hf F']; subst. destruct (is_stdin n) eqn:I; [constructor|].
  destruct (file_get k n) as [b|] eqn:G; [|constructor]. pose proof (byte_steps_sim t b (Hf I b G)) as S. destruct (disk_steps E nl t marker (opened sy b)) as [(ts & e)|e]; [|rewrite S; constructor].
  destruct S as (bs & -> & M & B). apply Forall_app. split.
  - apply Forall_map, Forall_forall. intros x Hx. apply (same_set _ _ b); [exact G|]. rewrite B. apply (in_map (opened sy)) in Hx. rewrite M in Hx. apply in_map_iff in Hx as (u & <- & _). reflexivity.
  - assert (K : same_kind k (file_set k n (last bs b))) by (apply (same_set _ _ b); [exact G|]; rewrite (last_opened _ _ _ M B); reflexivity).
    eapply Forall_impl; [|apply IH; eapply Forall_impl; [|exact F']; intros y; apply same_fits; exact K]. intros k2. apply same_trans. exact K.
Qed.
End Run.

(** ** The tables of a run *)
Lemma read_toc_fits sy E o w k n t w' : unicode_tables E -> clean (o_newline o) -> w_fs w = seen_disk (opened_files sy k) -> read_toc E o w n = Ok (t, w') -> fits sy k (n, t) /\ w_fs w' = w_fs w.
Proof.
  intros Hu Hn W H. unfold read_toc in H. destruct (_ <? _)%Z; [discriminate|]. destruct (is_stdin n) eqn:I.
  - split; [intros X; cbn [fst] in X; congruence|]. destruct (w_stdin w) as [d| |].
    + destruct (build_toc _ _ _ _); cbn [bind] in H; [|discriminate]. injection H as _ <-. reflexivity.
    + destruct (fix_marker o); discriminate.
    + destruct (fix_marker o); discriminate.
  - rewrite W, seen_get, opened_get in H. destruct (file_get k n) as [b|] eqn:G; cbn [option_map] in H; [|discriminate].
    destruct (build_toc E o n (seen (opened sy b))) as [t0|] eqn:B; cbn [bind] in H; [|discriminate]. injection H as <- <-. split; [|reflexivity].
    intros _ b0 G0 Good. cbn [fst snd] in *. rewrite G in G0. injection G0 as <-. unfold seen in B. rewrite Good in B. eapply clean_toc; [exact Hu|exact B| |exact Hn].
    apply clean_lines, clean_universal. exact (utf8_scalar _ _ (opened_good sy _ Good)).
Qed.
Lemma read_tocs_fits sy E o k : unicode_tables E -> clean (o_newline o) -> forall names w ts w', w_fs w = seen_disk (opened_files sy k) ->
  read_tocs E o w names = Ok (ts, w') -> Forall (fits sy k) (combine names ts).
Proof.
  intros Hu Hn. induction names as [|n names IH]; intros w ts w' W H; cbn [read_tocs] in H; [injection H as <- _; constructor|].
  destruct (read_toc E o w n) as [(t & w1)|] eqn:R; cbn [bind] in H; [|discriminate]. destruct (read_tocs E o w1 names) as [(ts' & w2)|] eqn:Rs; cbn [bind] in H; [|discriminate]. injection H as <- <-.
  destruct (read_toc_fits sy E o w k n t w1 Hu Hn W R) as (F & W1). cbn [combine]. constructor; [exact F|]. eapply IH; [|exact Rs]. congruence.
Qed.
Lemma newline_clean E num ws a : parse_args E num ws = Got a -> clean (cli_newline (a_newline a)).
Proof.
  intros P. apply parse_args_sound in P. apply C49_accepted_arguments in P as (_ & _ & _ & _ & _ & H). cbn in H. destruct H as [<-|[<-|[<-|[<-|[]]]]]; apply clean_lit; reflexivity.
Qed.
Ltac triv := split; [reflexivity|split; [reflexivity|split; [intros m; reflexivity|repeat constructor]]].
Lemma byte_program_sim sy E num ws k input : unicode_tables E ->
  program E num ws (opened_files sy k) input
    = (let r := byte_program sy E num ws k input in Outcome (by_out r) (opened_files sy (by_files r)) (by_status r))
  /\ program_states E num ws (opened_files sy k) input = map (opened_files sy) (byte_program_states sy E num ws k input)
  /\ same_kind sy k (by_files (byte_program sy E num ws k input))
  /\ Forall (same_kind sy k) (byte_program_states sy E num ws k input).
Proof.
  intros Hu. unfold program, byte_program, program_states, byte_program_states. destruct (parse_args E num ws) as [a| |] eqn:P; [|triv|triv].
  pose proof (newline_clean _ _ _ _ P) as Hn. unfold disk_cli, byte_cli. cbv zeta. unfold build_multiple_tocs.
  destruct (read_tocs _ _ _ _) as [(ts & w)|e] eqn:R; [|triv].
  pose proof (read_tocs_fits sy E (args_opts a) k Hu Hn _ (mkWorld (seen_disk (opened_files sy k)) input) _ _ eq_refl R) as F. destruct (a_in_place a); cbn [andb].
  - unfold disk_strings, byte_strings. destruct (_ =? _); [|triv].
    destruct (byte_loop_sim sy E Hu (cli_newline (a_newline a)) (a_toc_marker a) Hn _ k true F) as (S & K). rewrite S. rewrite (byte_states_sim sy E Hu _ (a_toc_marker a) Hn _ k F).
    destruct (byte_loop _ _ _ _ _ _ _) as (r & k'). cbn [fst snd b_out b_files b_result k_out k_disk k_result] in *. split; [reflexivity|split; [reflexivity|split; [exact K|exact (byte_states_kind sy E Hu _ (a_toc_marker a) Hn _ k F)]]].
  - destruct (print_loop _ _ _ _ _) as (out & r). triv.
Qed.
