(** Files as bytes (C71). *)
From Coq Require Import String List NArith ZArith Bool Arith Lia.
From Verif Require Import Str StrFacts Anchor Toc Write Cli Args Argv Disk Program EnvSpec WriteSpec DiskSpec AsciiEnv PropArgs PropArgv PropDisk AtxProof WriteLoop PropWrite.
From Verif Require Import Bytes BytesSpec BytesProof BytesText BytesRun.
Import ListNotations.
Local Open Scope list_scope.

(** ** Reading *)
(** However the reading of a file is divided: bytes that are the UTF-8 of a text are read as this text, and only
    bytes that are the UTF-8 of no text are an error.  A text has one UTF-8, and bytes are the UTF-8 of one text. *)
Theorem C71_reading : forall sy b,
  (forall s, opened sy b = Stored s false <-> utf8 s b)
  /\ (st_bad (opened sy b) = true <-> not_utf8 b)
  /\ (forall s s', utf8 s b -> utf8 s' b -> s = s')
  /\ (forall s b', utf8 s b -> utf8 s b' -> b = b').
Proof.
  intros sy b. split; [|split; [|split]].
  - intros s. split; [|apply opened_utf8]. intros H. pose proof (opened_good sy b) as G. rewrite H in G. exact (G eq_refl).
  - symmetry. apply opened_bad.
  - intros s s' H H'. apply decode_iff in H, H'. congruence.
  - intros s b' H H'. apply encode_iff in H, H'. congruence.
Qed.
Print Assumptions C71_reading.
(** A text can be written if it has no surrogates. *)
Theorem C71_writing : forall s, (exists b, utf8 s b) <-> Forall scalar s.
Proof.
  intros s. split; [intros (b & H); exact (utf8_scalar _ _ H)|]. intros H. apply encode_scalar in H. destruct (encode s) as (b & bad) eqn:S. cbn in H. subst bad. exists b. apply encode_iff. exact S.
Qed.
Print Assumptions C71_writing.
Lemma unicode_ascii : unicode_tables ascii_env.
Proof.
  intros c H. left. apply N.nle_gt. intros G. cbn [ascii_env e_word e_space] in H. unfold ascii_alnum, ascii_alpha, ascii_upper, ascii_lower, ascii_digit, in_range in H. lia.
Qed.
(** Nothing before an error is delivered, and writing is in place. *)
Definition plain_system : system := System (fun _ => 0) (fun t => Some (fst (encode t))).
(** 'é€😀' and three sequences that are not UTF-8: an overlong form, a surrogate, a character sy off. *)
Example C71_reading_ex : utf8 [0xE9; 0x20AC; 0x1F600]%N [0xC3; 0xA9; 0xE2; 0x82; 0xAC; 0xF0; 0x9F; 0x98; 0x80]%N
  /\ not_utf8 [0xC0; 0xAF]%N /\ not_utf8 [0xED; 0xA0; 0x80]%N /\ not_utf8 [97; 0xE2; 0x82]%N.
Proof. split; [apply decode_iff; reflexivity|]. repeat split; apply decode_bad; reflexivity. Qed.

(** ** Runs *)
(** Any command line, any files: the run on bytes prints, leaves and returns what the run on the texts that the
    bytes stand for does, at every moment.  So all that is proved about stored files (C66, C68, C69) is true of
    bytes. *)
Theorem C71_run_as_text : forall sy E num ws k input, unicode_tables E ->
  let run := byte_program sy E num ws k input in
  program E num ws (opened_files sy k) input = Outcome (by_out run) (opened_files sy (by_files run)) (by_status run)
  /\ program_states E num ws (opened_files sy k) input = map (opened_files sy) (byte_program_states sy E num ws k input).
Proof. intros sy E num ws k input Hu run. destruct (byte_program_sim sy E num ws k input Hu) as (A & B & _). split; [exact A|exact B]. Qed.
Print Assumptions C71_run_as_text.

(** A file that is not UTF-8 keeps its bytes, at every moment of every run. *)
Lemma byte_steps_bad sy E nl t marker b : not_utf8 b -> exists e, byte_steps sy E nl t marker b = ([], Err e).
Proof.
  intros H. apply (opened_bad sy) in H. unfold byte_steps, disk_steps, get_existing_toc. cbn [seen d_bad]. rewrite H. cbn [bind]. eauto.
Qed.
Lemma set_kept k m b n c : file_get k n = Some c -> (m = n -> b = c) -> file_get (file_set k m b) n = Some c.
Proof.
  intros H B. destruct (seqb n m) eqn:X.
  - apply seqb_eq in X. subst m. rewrite file_get_same, (B eq_refl). reflexivity.
  - apply seqb_neq in X. rewrite file_get_other by exact X. exact H.
Qed.
Lemma loop_kept sy E nl marker n b : not_utf8 b -> forall l k e, file_get k n = Some b -> file_get (snd (byte_loop sy E nl k l marker e)) n = Some b.
Proof.
  intros Hb. induction l as [|(m & t) l IH]; intros k e G; cbn [byte_loop]; [exact G|]. unfold byte_one. destruct (is_stdin m); [exact G|]. destruct (file_get k m) as [c|] eqn:Gm; [|exact G].
  destruct (byte_steps sy E nl t marker c) as (bs & r) eqn:S.
  assert (K : file_get (file_set k m (last bs c)) n = Some b).
  { apply (set_kept _ _ _ _ _ G). intros ->. assert (c = b) by congruence. subst c. destruct (byte_steps_bad sy E nl t marker b Hb) as (x & X). rewrite X in S. injection S as <- _. reflexivity. }
  destruct r; [apply IH; exact K|exact K].
Qed.
Lemma states_kept sy E nl marker n b : not_utf8 b -> forall l k, file_get k n = Some b -> Forall (fun k' => file_get k' n = Some b) (byte_states sy E nl k l marker).
Proof.
  intros Hb. induction l as [|(m & t) l IH]; intros k G; cbn [byte_states]; [repeat constructor; exact G|]. constructor; [exact G|]. destruct (is_stdin m); [constructor|]. destruct (file_get k m) as [c|] eqn:Gm; [|constructor].
  destruct (byte_steps sy E nl t marker c) as (bs & r) eqn:S.
  assert (K : bs = [] \/ m <> n).
  { destruct (seqb m n) eqn:X; [|right; apply seqb_neq; exact X]. apply seqb_eq in X. subst m. assert (c = b) by congruence. subst c. destruct (byte_steps_bad sy E nl t marker b Hb) as (x & X). rewrite X in S. injection S as <- _. auto. }
  apply Forall_app. split.
  - destruct K as [->|K]; [constructor|]. apply Forall_map, Forall_forall. intros x _. rewrite file_get_other by congruence. exact G.
  - destruct r; [|constructor]. apply IH. destruct K as [->|K]; [cbn [last]; rewrite (file_set_same _ _ _ Gm); exact G|rewrite file_get_other by congruence; exact G].
Qed.
Theorem C71_other_bytes_kept : forall sy E num ws k input n b, file_get k n = Some b -> not_utf8 b ->
  file_get (by_files (byte_program sy E num ws k input)) n = Some b
  /\ forall k', In k' (byte_program_states sy E num ws k input) -> file_get k' n = Some b.
Proof.
  intros sy E num ws k input n b G Hb. unfold byte_program, byte_program_states. destruct (parse_args E num ws) as [a| |]; [|split; [exact G|intros k' [<-|[]]; exact G]|split; [exact G|intros k' [<-|[]]; exact G]].
  unfold byte_cli. cbv zeta. destruct (build_multiple_tocs _ _ _ _) as [(ts & w)|e]; [|split; [exact G|intros k' [<-|[]]; exact G]]. destruct (a_in_place a); cbn [andb].
  - unfold byte_strings. destruct (_ =? _); [|split; [exact G|intros k' [<-|[]]; exact G]]. split.
    + pose proof (loop_kept sy E (cli_newline (a_newline a)) (a_toc_marker a) n b Hb (combine (effective_names (a_names a)) ts) k true G) as K. destruct (byte_loop _ _ _ _ _ _ _) as (r & k'). exact K.
    + pose proof (states_kept sy E (cli_newline (a_newline a)) (a_toc_marker a) n b Hb (combine (effective_names (a_names a)) ts) k G) as K. rewrite Forall_forall in K. exact K.
  - destruct (print_loop _ _ _ _ _) as (out & r). split; [exact G|intros k' [<-|[]]; exact G].
Qed.
Print Assumptions C71_other_bytes_kept.
(** A file that is UTF-8 is UTF-8 at every moment of every run. *)
Lemma kind_utf8 sy k k' n s b : same_kind sy k k' -> file_get k n = Some b -> utf8 s b -> exists s' b', file_get k' n = Some b' /\ utf8 s' b'.
Proof.
  intros K G U. specialize (K n). rewrite G in K. cbn in K. rewrite (opened_utf8 sy _ _ U) in K. destruct (file_get k' n) as [b'|]; [|discriminate]. cbn in K. injection K as K.
  eexists _, b'. split; [reflexivity|]. exact (opened_good sy b' (eq_sym K)).
Qed.
Theorem C71_stays_utf8 : forall sy E num ws k input n s b, unicode_tables E -> file_get k n = Some b -> utf8 s b ->
  (exists s' b', file_get (by_files (byte_program sy E num ws k input)) n = Some b' /\ utf8 s' b')
  /\ forall k', In k' (byte_program_states sy E num ws k input) -> exists s' b', file_get k' n = Some b' /\ utf8 s' b'.
Proof.
  intros sy E num ws k input n s b Hu G U. destruct (byte_program_sim sy E num ws k input Hu) as (_ & _ & K & Ks). split; [exact (kind_utf8 _ _ _ _ _ _ K G U)|].
  intros k' Hk. rewrite Forall_forall in Ks. exact (kind_utf8 _ _ _ _ _ _ (Ks k' Hk) G U).
Qed.
Print Assumptions C71_stays_utf8.
(** md_toc -p github a.md b.md, a.md with 'é', b.md not UTF-8: a.md is written, b.md is the error. *)
Definition accent : files :=
  [(lit "a.md", lit "# " ++ [0xC3; 0xA9]%N ++ [10%N] ++ lit "<!--TOC-->" ++ [10%N]); (lit "b.md", lit "# b" ++ [10%N; 0xFF%N; 10%N])].
Definition accent_words : list str := [lit "-p"; lit "github"; lit "a.md"; lit "b.md"].
Example C71_run_ex : by_status (byte_program plain_system ascii_env simple_int accent_words accent Closed) = 1%Z
  /\ file_get (by_files (byte_program plain_system ascii_env simple_int accent_words accent Closed)) (lit "a.md")
     = Some (lit "# " ++ [0xC3; 0xA9]%N ++ [10%N] ++ lit "<!--TOC-->" ++ [10%N; 10%N] ++ lit "- [" ++ [0xC3; 0xA9]%N ++ lit "](#)" ++ [10%N; 10%N] ++ lit "<!--TOC-->" ++ [10%N])
  /\ length (byte_program_states plain_system ascii_env simple_int accent_words accent Closed) = 4
  /\ (exists s b, file_get accent (lit "a.md") = Some b /\ utf8 s b) /\ (exists b, file_get accent (lit "b.md") = Some b /\ not_utf8 b).
Proof.
  split; [vm_compute; reflexivity|]. split; [vm_compute; reflexivity|]. split; [vm_compute; reflexivity|]. split.
  - eexists _, _. split; [reflexivity|]. apply decode_iff. vm_compute. reflexivity.
  - eexists. split; [reflexivity|]. apply decode_bad. vm_compute. reflexivity.
Qed.

(** ** The bytes around the block *)
(** In a file without CR, the bytes before and after the replaced lines stay as they are. *)
Theorem C71_outside : forall sy E nl toc marker k n b text lines pre old post t0,
  unicode_tables E -> Forall scalar nl -> Forall scalar toc -> is_stdin n = false ->
  file_get k n = Some b -> utf8 text b -> ~ In 13%N text -> reads_as text lines -> WriteSpec.target E marker lines pre old post t0 ->
  exists p o q new r,
    utf8 (concat pre) p /\ utf8 (concat old) o /\ utf8 (concat post) q /\ utf8 (block_text E nl marker toc) new
    /\ b = p ++ o ++ q /\ byte_one sy E nl k n toc marker = (Ok r, file_set k n (p ++ new ++ q)).
Proof.
  intros sy E nl toc marker k n b text lines pre old post t0 Hu Hn Ht Hi G U Hc Hr Hg.
  destruct (C66_lf_file E nl toc marker text lines pre old post t0 Hc Hr Hg) as (T & e & W).
  rewrite T in U. destruct (utf8_split _ _ _ U) as (p & b2 & -> & Up & U2). destruct (utf8_split _ _ _ U2) as (o & q & -> & Uo & Uq). rewrite <- T in U.
  assert (S := opened_utf8 sy _ _ U). pose proof (byte_steps_sim sy E Hu nl marker Hn toc (p ++ o ++ q) (fun _ => Ht)) as Sim. rewrite S in Sim.
  unfold disk_write in W. destruct (disk_steps E nl toc marker (Stored text false)) as [(ts & e')|] eqn:D; cbn [bind] in W; [|discriminate]. injection W as L ->.
  destruct Sim as (bs & B & M & _). pose proof (last_opened sy bs ts (p ++ o ++ q) M) as Lo. rewrite S in Lo. specialize (Lo eq_refl). cbn [st_text st_bad] in Lo. rewrite L in Lo.
  pose proof (opened_good sy (last bs (p ++ o ++ q))) as Ul. rewrite Lo in Ul. specialize (Ul eq_refl). cbn [st_text] in Ul.
  destruct (utf8_split _ _ _ Ul) as (p' & r1 & Z & Up' & Ur). destruct (utf8_split _ _ _ Ur) as (new & q' & -> & Un & Uq').
  apply encode_iff in Up', Uq'. pose proof (proj2 (encode_iff _ _) Up) as Ep. pose proof (proj2 (encode_iff _ _) Uq) as Eq. rewrite Ep in Up'. rewrite Eq in Uq'. injection Up' as <-. injection Uq' as <-.
  exists p, o, q, new, e. repeat (split; [assumption || reflexivity|]). unfold byte_one. rewrite Hi, G, B. rewrite Z. reflexivity.
Qed.
Print Assumptions C71_outside.

(** ** Refuted *)
(** A byte order mark is not skipped: it is a character of the first line, which is then no heading. *)
Theorem C71_bom_refuted : exists E num ws k input n b,
  file_get k n = Some b /\ by_out (byte_program plain_system E num ws k input) <> []
  /\ by_out (byte_program plain_system E num ws [(n, [0xEF; 0xBB; 0xBF]%N ++ b)] input) = []
  /\ utf8 (0xFEFF%N :: lit "# a" ++ [10%N]) ([0xEF; 0xBB; 0xBF]%N ++ b).
Proof.
  exists ascii_env, simple_int, [lit "github"; lit "a.md"], [(lit "a.md", lit "# a" ++ [10%N])], Closed, (lit "a.md"), (lit "# a" ++ [10%N]).
  split; [reflexivity|]. split; [vm_compute; discriminate|]. split; [vm_compute; reflexivity|]. apply decode_iff. vm_compute. reflexivity.
Qed.
Print Assumptions C71_bom_refuted.
(** A string with a surrogate, as Python makes it of bytes that are not UTF-8: the call raises and the file has
    changed, whether files are written in place or replaced. *)
Theorem C71_surrogate_refuted : exists E nl toc marker k n b, unicode_tables E /\ file_get k n = Some b /\
  forall sy, (forall t, torn sy t = None) \/ (forall t, torn sy t = Some (fst (encode t))) ->
  exists k' b', byte_one sy E nl k n toc marker = (Err UnicodeEncodeError, k') /\ file_get k' n = Some b' /\ b' <> b.
Proof.
  exists ascii_env, [10%N], [0xDCFF%N], (lit "<!--TOC-->"), [(lit "a.md", lit "<!--TOC-->" ++ [10%N] ++ lit "kept" ++ [10%N])], (lit "a.md"), (lit "<!--TOC-->" ++ [10%N] ++ lit "kept" ++ [10%N]).
  split; [exact unicode_ascii|]. split; [reflexivity|]. intros sy H.
  pose (kept := lit "kept" ++ [10%N]). pose (new := final_toc ascii_env [10%N] (lit "<!--TOC-->") [0xDCFF%N] ++ kept).
  assert (O : opened sy (lit "<!--TOC-->" ++ [10%N] ++ kept) = Stored (lit "<!--TOC-->" ++ [10%N] ++ kept) false) by (apply opened_utf8, decode_iff; vm_compute; reflexivity).
  assert (D : disk_steps ascii_env [10%N] [0xDCFF%N] (lit "<!--TOC-->") (Stored (lit "<!--TOC-->" ++ [10%N] ++ kept) false) = Ok ([kept; new], false)) by (vm_compute; reflexivity).
  assert (B : byte_steps sy ascii_env [10%N] [0xDCFF%N] (lit "<!--TOC-->") (lit "<!--TOC-->" ++ [10%N] ++ kept) = (kept :: match torn sy new with Some b => [b] | None => [] end, Err UnicodeEncodeError)).
  { unfold byte_steps. rewrite O, D. cbn [encode_steps]. replace (encode kept) with (kept, false) by (vm_compute; reflexivity). replace (encode new) with (lit "<!--TOC-->" ++ [10%N; 10%N], true) by (vm_compute; reflexivity). reflexivity. }
  eexists _, _. split; [|split].
  - unfold byte_one. change (is_stdin (lit "a.md")) with false. cbn [file_get]. rewrite seqb_refl. fold kept. rewrite B. reflexivity.
  - rewrite file_get_same. reflexivity.
  - destruct H as [H|H]; rewrite H; vm_compute; discriminate.
Qed.
Print Assumptions C71_surrogate_refuted.
(** Example for C71_outside: 'é' before the marker, '€' after it. *)
Example C71_outside_ex : exists b text, b = [0xC3; 0xA9; 10]%N ++ (lit "<!--TOC-->" ++ [10%N]) ++ [0xE2; 0x82; 0xAC; 10]%N /\ utf8 text b /\ ~ In 13%N text
  /\ reads_as text [[0xE9; 10]%N; lit "<!--TOC-->" ++ [10%N]; [0x20AC; 10]%N]
  /\ exists pre old post t0, WriteSpec.target ascii_env (lit "<!--TOC-->") [[0xE9; 10]%N; lit "<!--TOC-->" ++ [10%N]; [0x20AC; 10]%N] pre old post t0.
Proof.
  eexists _, _. split; [reflexivity|]. split; [apply decode_iff; vm_compute; reflexivity|]. split; [cbn; intuition discriminate|]. split.
  - split; [|apply normalized_model]. exact (text_lines_universal [0xE9; 10; 60; 33; 45; 45; 84; 79; 67; 45; 45; 62; 10; 0x20AC; 10]%N).
  - exists [[0xE9; 10]%N], [lit "<!--TOC-->" ++ [10%N]], [[0x20AC; 10]%N], (lit "<!--TOC-->"). apply (tg_single ascii_env (lit "<!--TOC-->") [[0xE9; 10]%N] (lit "<!--TOC-->" ++ [10%N]) [[0x20AC; 10]%N]); [reflexivity| |]; apply not_marker_dec; reflexivity.
Qed.
