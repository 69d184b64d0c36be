(** The whole program (C68). *)
From Coq Require Import String List NArith ZArith Bool Arith Lia.
From Verif Require Import Str Atx Anchor Toc Write Cli Args Argv Disk Program Spec EnvSpec WriteSpec CliSpec DiskSpec CallSpec ArgvSpec LineSpec EmphSpec LinkSpec SafeSpec TableSpec BookSpec CommandSpec ProgramSpec
  StrFacts AsciiEnv WriteProof PropMulti PropArgs PropArgv LineProof LineLoop PropLine HelpSpec PropHelp PropRerun PropEmphasis PropErrors PropHtml PropLinks PropBook PropCommand PropDisk.
Import ListNotations.
Local Open Scope list_scope.

Lemma content_supplies k input n lines : content k input n lines <-> supplies (mkWorld (seen_disk k) input) n lines.
Proof.
  unfold content, supplies. cbn [w_stdin w_fs]. rewrite seen_get. split.
  - intros [X|(N & text & G & R)]; [left; exact X|]. right. split; [exact N|]. rewrite G. cbn [option_map]. unfold seen. cbn [st_text st_bad]. rewrite (reads_seen _ _ R). reflexivity.
  - intros [X|(N & G)]; [left; exact X|]. right. split; [exact N|]. destruct (disk_get k n) as [[text bad]|]; [|discriminate]. cbn [option_map] in G. unfold seen in G. cbn [st_text st_bad] in G. injection G as <- ->.
    exists text. split; [reflexivity|apply seen_reads].
Qed.
Lemma its_expected E o k input n t : its_table E o k input n t <-> to_expect E o (mkWorld (seen_disk k) input) n t.
Proof. unfold its_table, to_expect. split; intros (lines & hs & C & X); exists lines, hs; (split; [apply content_supplies; exact C|exact X]). Qed.
Lemma content_text k input n lines : n <> lit "-" -> content k input n lines -> text_lines lines.
Proof. intros N [(X & _)|(_ & text & _ & R)]; [contradiction|exact (proj1 R)]. Qed.
Lemma accepted_args E num ws gs p ls names : digit_ascii E -> accepted_line num (e_digit E) ws gs p ls names -> ~ clash gs ls -> parse_args E num ws = Got (asks gs p ls names).
Proof. intros Hd A C. apply C65_exactly; [exact Hd|]. exists gs, p, ls, names. auto. Qed.
Lemma effect_seen E a k input : let e := disk_cli E a k input in
  f_out (cli_write_toc E a (mkWorld (seen_disk k) input)) = k_out e /\ f_result (cli_write_toc E a (mkWorld (seen_disk k) input)) = k_result e
  /\ (a_in_place a = false -> k_disk e = k).
Proof.
  cbn zeta. rewrite (C66_run_as_seen E a k input). split; [reflexivity|]. split; [reflexivity|]. intros H. unfold disk_cli. rewrite H. destruct (build_multiple_tocs _ _ _ _) as [(ts & w)|e]; [|reflexivity].
  cbv zeta. destruct (print_loop _ _ _ _ _). reflexivity.
Qed.

(** C68: an accepted line on files whose tables one knows.  Without --in-place the tables are printed in the
    order of the names and no file changes; with it nothing is printed, each named file gets its table, other
    files keep every character; the status is 128 exactly if --diff is given and a file was stale, else 0. *)
Theorem C68_accepted : forall E num ws gs p ls names k input o ts,
  python_tables E -> zs_ascii E -> word_ascii E -> entity_tables E ->
  accepted_line num (e_digit E) ws gs p ls names -> ~ clash gs ls ->
  let a := asks gs p ls names in
  selects a o -> (0 <= a_skip a)%Z -> NoDup (inputs a) ->
  (turned InPlace gs = true \/ turned Diff gs = true -> ~ In (lit "-") (inputs a)) ->
  Forall2 (its_table E o k input) (inputs a) ts ->
  let run := program E num ws k input in
  (turned InPlace gs = false -> y_out run = concat ts /\ y_disk run = k)
  /\ (turned InPlace gs = true -> y_out run = []
      /\ (forall n, ~ In n (inputs a) -> disk_get (y_disk run) n = disk_get k n)
      /\ (forall n t, In (n, t) (combine (inputs a) ts) -> exists text text',
            disk_get k n = Some (Stored text false) /\ disk_get (y_disk run) n = Some (Stored text' false)
            /\ stored_after E (o_newline o) (a_toc_marker a) t text text'))
  /\ (y_status run = 128%Z <-> turned Diff gs = true /\ exists n, In n (inputs a) /\ stale E o (a_toc_marker a) k input n)
  /\ (y_status run <> 128%Z -> y_status run = 0%Z).
Proof.
  intros E num ws gs p ls names k input o ts Ht Hz Hw He Hl Hc a Hsel Hsk Hnd Hst H run. pose proof Ht as (_ & Hd & _).
  pose proof (accepted_args E num ws gs p ls names Hd Hl Hc) as P. fold a in P. pose proof (C65_accepted E num ws a P) as Hacc.
  set (w := mkWorld (seen_disk k) input).
  assert (H' : Forall2 (to_expect E o w) (inputs a) ts) by (clear -H; induction H; constructor; auto; apply its_expected; assumption).
  assert (Htext : a_in_place a = true \/ a_diff a = true -> forall n lines, In n (inputs a) -> supplies w n lines -> n <> lit "-" /\ text_lines lines).
  { intros M n lines Hn Hs. assert (N : n <> lit "-") by (intros ->; exact (Hst M Hn)). split; [exact N|]. apply (content_text k input n); [exact N|]. apply content_supplies. exact Hs. }
  destruct (C61_command E a o w ts Hacc Hsel Hsk Ht Hz Hw He Hnd H' Htext) as (A & _ & S & S'). cbn zeta in A, S, S'.
  destruct (effect_seen E a k input) as (E1 & E2 & E3). fold w in E1, E2. rewrite E1 in A. rewrite E2 in S, S'.
  assert (R : run = Outcome (k_out (disk_cli E a k input)) (k_disk (disk_cli E a k input)) (exit_status (k_result (disk_cli E a k input)))) by (unfold run, program; rewrite P; reflexivity).
  rewrite R. cbn [y_out y_disk y_status]. split; [|split; [|split]].
  - intros I. split; [apply A; exact I|apply E3; exact I].
  - intros I. apply (C66_command E a o k input ts); auto.
  - rewrite S. split; intros (D & n & Hn & X); (split; [exact D|]; exists n; split; [exact Hn|]).
    + destruct X as (lines & t & t0 & G & X1 & X2 & X3). assert (N : n <> lit "-") by (intros ->; exact (Hst (or_intror D) Hn)). split; [exact N|].
      exists lines, t, t0. split; [apply content_supplies; right; auto|]. split; [apply its_expected; exact X1|auto].
    + destruct X as (N & lines & t & t0 & C & X1 & X2 & X3). apply content_supplies in C. exists lines, t, t0. split; [apply supplies_file; assumption|]. split; [apply its_expected; exact X1|auto].
  - exact S'.
Qed.
Print Assumptions C68_accepted.

(** A title that skips a level in one of the files: nothing is printed, nothing changes, status 1. *)
Theorem C68_unrenderable : forall E num ws gs p ls names k input o,
  python_tables E -> zs_ascii E -> word_ascii E -> entity_tables E ->
  accepted_line num (e_digit E) ws gs p ls names -> ~ clash gs ls ->
  let a := asks gs p ls names in
  selects a o -> (0 <= a_skip a)%Z -> NoDup (inputs a) ->
  (forall n, In n (inputs a) -> exists lines hs, content k input n lines /\ titled E o lines hs) ->
  (exists n lines hs, In n (inputs a) /\ content k input n lines /\ titled E o lines hs /\ unrenderable o hs) ->
  program E num ws k input = Outcome [] k 1.
Proof.
  intros E num ws gs p ls names k input o Ht Hz Hw He Hl Hc a Hsel Hsk Hnd Hall Hex. pose proof Ht as (_ & Hd & _).
  pose proof (accepted_args E num ws gs p ls names Hd Hl Hc) as P. fold a in P. pose proof (C65_accepted E num ws a P) as Hacc.
  set (w := mkWorld (seen_disk k) input).
  destruct (C61_unrenderable E a o w Hacc Hsel Hsk Ht Hz Hw He Hnd) as (U & _).
  - intros n Hn. destruct (Hall n Hn) as (lines & hs & C & T). exists lines, hs. split; [apply content_supplies; exact C|exact T].
  - destruct Hex as (n & lines & hs & Hn & C & X). exists n, lines, hs. split; [exact Hn|]. split; [apply content_supplies; exact C|exact X].
  - unfold program. rewrite P. pose proof (C66_run_as_seen E a k input) as S. cbn zeta in S. fold w in S. rewrite U in S.
    assert (B : build_multiple_tocs E (args_opts a) w (a_names a) = Err TocDoesNotRenderAsCoherentList).
    { unfold cli_write_toc in U. destruct (build_multiple_tocs E (args_opts a) w (a_names a)) as [(ts & w')|e] eqn:B; [exfalso|congruence].
      destruct (C22_each_as_alone E (args_opts a) w _ _ _ (inputs_nonempty a) (eq_trans (eq_sym (build_inputs E a (args_opts a) w)) B)) as (_ & F & _).
      destruct Hex as (n & lines & hs & Hn & C & T & Un). apply selects_model in Hsel as Eo. rewrite <- Eo in F.
      assert (X : exists t, alone E o w n t) by (clear -F Hn; induction F; [destruct Hn|destruct Hn as [<-|Hn]; [eauto|auto]]). destruct X as (t & X). apply alone_iff in X as (u & X).
      apply content_supplies in C. pose proof (fails_of E a o w Hacc Hsel Hsk Ht Hz Hw He n lines hs C T Un) as Y. apply alone_fails_iff in Y. congruence. }
    unfold disk_cli. fold w. rewrite B. reflexivity.
Qed.
Print Assumptions C68_unrenderable.

(** A line that is not accepted and asks for no help prints nothing (but the usage), changes no file and ends
    with status 2. *)
Theorem C68_refused : forall E num ws k input, digit_ascii E ->
  (forall gs p ls names, accepted_line num (e_digit E) ws gs p ls names -> clash gs ls) -> ~ help_line num (e_digit E) ws ->
  program E num ws k input = Outcome [] k 2.
Proof.
  intros E num ws k input Hd H Nh. unfold program. rewrite (proj2 (C65_refused E num ws Hd)); [reflexivity|]. split; assumption.
Qed.
Print Assumptions C68_refused.
(** A line that asks for the help or the version changes no file, whatever it says about files, and ends with
    status 0. *)
Theorem C68_help : forall E num ws k input, digit_ascii E -> help_line num (e_digit E) ws -> program E num ws k input = Outcome [] k 0.
Proof. intros E num ws k input Hd H. unfold program. rewrite (proj2 (C65_help E num ws Hd) H). reflexivity. Qed.
Print Assumptions C68_help.

(** Whatever the words and the files: the status is 0, 1, 2 or 128, and a file whose characters differ
    afterwards was named on an accepted line with --in-place. *)
Lemma disk_loop_other E nl marker n : forall l k b, ~ In n (map fst l) -> disk_get (snd (disk_loop E nl k l marker b)) n = disk_get k n.
Proof.
  induction l as [|(m & t) l IH]; intros k b Hn; [reflexivity|]. cbn [disk_loop map fst In] in *. unfold disk_one. destruct (is_stdin m); [reflexivity|]. destruct (disk_get k m) as [s|]; [|reflexivity].
  destruct (disk_write E nl t marker s) as [(s' & v)|e]; [|reflexivity]. rewrite IH by tauto. apply disk_get_other. intros ->. tauto.
Qed.
Lemma disk_loop_stdin E nl marker : forall l k b, disk_get (snd (disk_loop E nl k l marker b)) (lit "-") = disk_get k (lit "-").
Proof.
  induction l as [|(m & t) l IH]; intros k b; [reflexivity|]. cbn [disk_loop]. unfold disk_one. destruct (is_stdin m) eqn:Hm; [reflexivity|]. destruct (disk_get k m) as [s|]; [|reflexivity].
  destruct (disk_write E nl t marker s) as [(s' & v)|e]; [|reflexivity]. rewrite IH. apply disk_get_other. intros <-. vm_compute in Hm. discriminate.
Qed.
Theorem C68_always : forall E num ws k input, digit_ascii E ->
  let run := program E num ws k input in
  In (y_status run) [0; 1; 2; 128]%Z
  /\ forall n, disk_get (y_disk run) n <> disk_get k n ->
       exists gs p ls names, accepted_line num (e_digit E) ws gs p ls names /\ ~ clash gs ls
         /\ In (Turn InPlace) gs /\ In n names /\ n <> lit "-".
Proof.
  intros E num ws k input Hd run. unfold run, program. destruct (parse_args E num ws) as [a| |] eqn:P; cbn [y_status y_disk]; [|split; [cbn; auto|congruence]|split; [cbn; auto|congruence]].
  split. { pose proof (C40_status_values (k_result (disk_cli E a k input))) as S. cbn in S |- *. intuition. }
  intros n Hn. apply C65_exactly in P as (gs & p & ls & names & A & C & ->); [|exact Hd]. exists gs, p, ls, names. split; [exact A|]. split; [exact C|]. clear A C.
  set (a := asks gs p ls names) in *. destruct (a_in_place a) eqn:I.
  - unfold disk_cli in Hn. destruct (build_multiple_tocs _ _ _ _) as [(ts & w)|e]; [|exfalso; apply Hn; reflexivity]. cbv zeta in Hn. rewrite I in Hn. unfold disk_strings in Hn.
    destruct (Nat.eqb_spec (length (effective_names (a_names a))) (length ts)) as [Hlen|_]; [|exfalso; apply Hn; reflexivity].
    pose proof (disk_loop_other E (cli_newline (a_newline a)) (a_toc_marker a) n (combine (effective_names (a_names a)) ts) k true) as O.
    pose proof (disk_loop_stdin E (cli_newline (a_newline a)) (a_toc_marker a) (combine (effective_names (a_names a)) ts) k true) as O'.
    destruct (disk_loop _ _ _ _ _ _) as (r & k'). cbn [k_disk snd] in *. rewrite map_fst_combine in O by exact Hlen.
    assert (N : n <> lit "-") by (intros ->; contradiction).
    assert (X : In n (effective_names (a_names a))). { destruct (in_dec (list_eq_dec N.eq_dec) n (effective_names (a_names a))) as [Y|Y]; [exact Y|]. exfalso. apply Hn, O, Y. }
    split; [|split; [|exact N]].
    + change (turned InPlace gs = true) in I. unfold turned in I. apply existsb_exists in I as (g & Hg & X'). destruct g as [[]| | |]; try discriminate X'. exact Hg.
    + unfold effective_names in X. change (a_names a) with names in X. destruct names as [|m names]; [|exact X]. destruct X as [<-|[]]. contradiction.
  - exfalso. apply Hn. destruct (effect_seen E a k input) as (_ & _ & Z). rewrite (Z I). reflexivity.
Qed.
Print Assumptions C68_always.
(** ** md_toc -pds1 '-n\n' github -o. -l3 a.md b.md, on a file with CR LF line ends and one with LF *)
Definition guide_words (v : str) : list str := [lit "-pds1"; lit "-n\n"; lit "github"; lit "-o."; lit "-l" ++ v; lit "a.md"; lit "b.md"].
Definition guide_globals : list global := [Turn InPlace; Turn Diff; SkipLines 1; Newline (lit "\n")].
Definition guide_locals (n : Z) : list local := [Ordered (lit "."); Levels n].
Lemma guide_line v n : v = [48 + Z.to_N n]%N -> (1 <= n <= 6)%Z -> accepted_line simple_int (e_digit ascii_env) (guide_words v) guide_globals Github (guide_locals n) [lit "a.md"; lit "b.md"].
Proof.
  intros Ev Hn.
  assert (Hv : v <> [] /\ hd 0%N v <> 61%N /\ simple_int v = Some n /\ marks ascii_env main_table [lit "-o."; lit "-l" ++ v; lit "a.md"; lit "b.md"] <> None).
  { assert (C : n = 1%Z \/ n = 2%Z \/ n = 3%Z \/ n = 4%Z \/ n = 5%Z \/ n = 6%Z) by lia. destruct C as [->|[->|[->|[->|[->| ->]]]]]; subst v; vm_compute; repeat split; discriminate. }
  clear Ev. destruct Hv as (V1 & V2 & V3 & V4). split; [discriminate|].
  pose (cp := Choice (lit "--in-place") 112 Nothing). pose (cd := Choice (lit "--diff") 100 Nothing). pose (ck := Choice (lit "--skip-lines") 115 Value). pose (cn := Choice (lit "--newline-string") 110 Value).
  pose (cl := Choice (lit "--header-levels") 108 MaybeValue). pose (co := Choice (lit "--ordered-list-marker") 111 MaybeValue).
  exists [lit "-pds1"; lit "-n\n"], [(cp, None); (cd, None); (ck, Some (lit "1")); (cn, Some (lit "\n"))], [lit "-o."; lit "-l" ++ v; lit "a.md"; lit "b.md"].
  split; [reflexivity|]. split; [|split; [|split]].
  - apply (gs_more _ _ _ [lit "-pds1"] [(cp, None); (cd, None); (ck, Some (lit "1"))] false [lit "-n\n"] [(cn, Some (lit "\n"))] false).
    + apply (g_joined global_options global_choices (e_digit ascii_env) [cp; cd] ck (lit "1")); [|split; [cbn; tauto|discriminate]|discriminate|discriminate].
      constructor; [split; [cbn; tauto|reflexivity]|]. constructor; [split; [cbn; tauto|reflexivity]|constructor].
    + apply (gs_more _ _ _ [lit "-n\n"] [(cn, Some (lit "\n"))] false [] [] false); [|constructor].
      apply (g_joined global_options global_choices (e_digit ascii_env) [] cn (lit "\n")); [constructor|split; [cbn; tauto|discriminate]|discriminate|discriminate].
  - constructor; [apply (mg_switch _ cp InPlace); reflexivity|]. constructor; [apply (mg_switch _ cd Diff); reflexivity|]. constructor; [apply (mg_skip _ ck (lit "1") 1); reflexivity|].
    constructor; [apply mg_newline; [reflexivity|cbn; tauto]|constructor].
  - exists [lit "-o."; lit "-l" ++ v], [(co, Some (lit ".")); (cl, Some v)], false, [lit "a.md"; lit "b.md"], [], [], false.
    split; [reflexivity|]. split; [|split; [constructor|split; [|split; [reflexivity|split; [discriminate|]]]]].
    + apply (gs_more _ _ _ [lit "-o."] [(co, Some (lit "."))] false [lit "-l" ++ v] [(cl, Some v)] false).
      * apply (g_joined local_options local_choices (e_digit ascii_env) [] co (lit ".")); [constructor|split; [cbn; tauto|discriminate]|discriminate|discriminate].
      * apply (gs_more _ _ _ [lit "-l" ++ v] [(cl, Some v)] false [] [] false); [|constructor].
        apply (g_joined local_options local_choices (e_digit ascii_env) [] cl v); [constructor|split; [cbn; tauto|discriminate]|exact V1|exact V2].
    + apply fw_plain. constructor; [left; right; discriminate|constructor; [left; right; discriminate|constructor]].
    + constructor; [apply ml_ordered; [reflexivity|cbn; tauto]|]. constructor; [apply (ml_levels _ _ cl v n); [reflexivity|exact V3|exact Hn]|constructor].
  - apply (marks_doubt ascii_env). exact V4.
Qed.
Lemma guide_clash n : ~ clash guide_globals (guide_locals n).
Proof. intros [(I & _)|(_ & m & I & _)]; cbn in I; intuition discriminate. Qed.
Lemma guide_seen : mkWorld (seen_disk guide_disk) Closed = guide_world.
Proof. vm_compute. reflexivity. Qed.
Example C68_accepted_ex :
  let a := asks guide_globals Github (guide_locals 3) [lit "a.md"; lit "b.md"] in let o := args_opts a in
  python_tables ascii_env /\ zs_ascii ascii_env /\ word_ascii ascii_env /\ entity_tables ascii_env
  /\ accepted_line simple_int (e_digit ascii_env) (guide_words (lit "3")) guide_globals Github (guide_locals 3) [lit "a.md"; lit "b.md"] /\ ~ clash guide_globals (guide_locals 3)
  /\ selects a o /\ (0 <= a_skip a)%Z /\ NoDup (inputs a) /\ ~ In (lit "-") (inputs a)
  /\ Forall2 (its_table ascii_env o guide_disk Closed) (inputs a) [guide_table; guide_table]
  /\ program ascii_env simple_int (guide_words (lit "3")) guide_disk Closed
     = Outcome [] [(lit "b.md", Stored (concat guide) false); (lit "c.md", Stored [] true);
                   (lit "a.md", Stored (concat [ln "<!--TOC-->"; ln ""; ln "1. [One *two*](#one-two)"; ln "   1. [<b>Tag</b>](#tag)"; ln "   2. [\[x\]](#x)"; ln "2. [Deep](#deep-1)"; ln ""; ln "<!--TOC-->"] ++ concat (skipn 1 guide)) false)] 128.
Proof.
  intros a o. pose proof C61_command_ex as X. cbn zeta in X. assert (Ea : a = guide_args 3 true) by reflexivity. unfold o. rewrite Ea. destruct X as (_ & B & C & D & F & _).
  split; [exact python_tables_ascii|]. split; [exact zs_ascii_ex|]. split; [exact word_ascii_ex|]. split; [exact ascii_entities|].
  split; [apply guide_line; [reflexivity|lia]|]. split; [apply guide_clash|]. split; [exact B|]. split; [exact C|]. split; [exact D|]. split; [cbn; intuition discriminate|]. split; [|vm_compute; reflexivity].
  rewrite <- guide_seen in F. clear -F. induction F; constructor; auto. apply its_expected. assumption.
Qed.
Example C68_unrenderable_ex :
  let a := asks guide_globals Github (guide_locals 6) [lit "a.md"; lit "b.md"] in let o := args_opts a in
  accepted_line simple_int (e_digit ascii_env) (guide_words (lit "6")) guide_globals Github (guide_locals 6) [lit "a.md"; lit "b.md"] /\ ~ clash guide_globals (guide_locals 6)
  /\ selects a o /\ (0 <= a_skip a)%Z /\ NoDup (inputs a)
  /\ (forall n, In n (inputs a) -> exists lines, content guide_disk Closed n lines /\ titled ascii_env o lines guide_headings) /\ unrenderable o guide_headings
  /\ program ascii_env simple_int (guide_words (lit "6")) guide_disk Closed = Outcome [] guide_disk 1.
Proof.
  intros a o. pose proof C61_unrenderable_ex as X. cbn zeta in X. assert (Ea : a = guide_args 6 true) by reflexivity. unfold o. rewrite Ea. destruct X as (_ & B & C & D & F & _).
  split; [apply guide_line; [reflexivity|lia]|]. split; [apply guide_clash|]. split; [exact B|]. split; [cbn; lia|]. split; [exact C|]. split; [|split; [exact F|vm_compute; reflexivity]].
  intros n Hn. destruct (D n Hn) as (lines & S & T). exists lines. split; [|exact T]. apply content_supplies. rewrite guide_seen. exact S.
Qed.
Example C68_refused_ex : let ws := [lit "-p"; lit "github"; lit "-u"; lit "a.md"] in
  (forall gs p ls names, accepted_line simple_int (e_digit ascii_env) ws gs p ls names -> clash gs ls) /\ ~ help_line simple_int (e_digit ascii_env) ws
  /\ program ascii_env simple_int ws guide_disk Closed = Outcome [] guide_disk 2.
Proof.
  intros ws. destruct (proj1 (C65_refused ascii_env simple_int ws digit_ascii_ex)) as (A & B); [vm_compute; reflexivity|]. split; [exact B|]. split; [exact A|vm_compute; reflexivity].
Qed.
Example C68_help_ex : help_line simple_int (e_digit ascii_env) help_words /\ program ascii_env simple_int help_words guide_disk Closed = Outcome [] guide_disk 0.
Proof. split; [exact C65_help_spec_ex|]. apply C68_help; [exact digit_ascii_ex|exact C65_help_spec_ex]. Qed.
Example C68_always_ex :
  disk_get (y_disk (program ascii_env simple_int (guide_words (lit "3")) guide_disk Closed)) (lit "a.md") <> disk_get guide_disk (lit "a.md")
  /\ disk_get (y_disk (program ascii_env simple_int (guide_words (lit "3")) guide_disk Closed)) (lit "b.md") = disk_get guide_disk (lit "b.md").
Proof. split; vm_compute; congruence. Qed.
