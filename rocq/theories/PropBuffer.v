(** C67: the string buffers behind remove_emphasis. *)
From Coq Require Import String List NArith ZArith Bool Arith Lia.
From Verif Require Import Str StrFacts Spec EnvSpec Regex HtmlRe Fence Atx Entity Inlines AsciiEnv HelperSpec EntityProof Buffer BufferSpec BufferProof
  EmphSpec PropEmphasis.
Import ListNotations.
Local Open Scope list_scope.

(** With buffers that have a size, are reallocated, overwritten in place and refuse to grow beyond
    2^30, the result on every text of less than 2^27 characters is the one of the functions that just
    append texts: the same value, or the same exception. *)
Theorem C67_same_result : forall E p line, few_bytes E -> fits line ->
  match remove_emphasis E p line with
  | Ok t => remove_emphasis_buf E p line = Done t
  | Err e => remove_emphasis_buf E p line = Raised e
  end.
Proof. intros E p line F Hf. rewrite remove_alike by assumption. destruct (remove_emphasis E p line); reflexivity. Qed.
Print Assumptions C67_same_result.
Lemma few_bytes_ascii : few_bytes ascii_env.
Proof. unfold few_bytes. cbv [e_entities ascii_env]. repeat apply Forall_cons; try apply Forall_nil; vm_compute; lia. Qed.
Lemma fits_short s : length s <= 1000 -> fits s.
Proof. unfold fits. change (2 ^ 27)%Z with 134217728%Z. lia. Qed.
Example C67_same_result_ex : let s := lit "*a* `b & c` &amp; [d](<e&lt;f> 'g&#33;') <mailto:x@y.z> &#x41;" in
  few_bytes ascii_env /\ fits s /\ remove_emphasis_buf ascii_env Github s = Done (lit "a `b & c` &amp; [d](<e&lt;f> 'g&#33;') <mailto:x@y.z> &#x41;").
Proof. split; [apply few_bytes_ascii|]. split; [apply fits_short; vm_compute; lia|vm_compute; reflexivity]. Qed.

(** The program never ends there through sys.exit. *)
Theorem C67_never_exits : forall E p line, few_bytes E -> fits line -> remove_emphasis_buf E p line <> Exited.
Proof. intros E p line F Hf. rewrite remove_alike by assumption. destruct (remove_emphasis E p line); discriminate. Qed.
Print Assumptions C67_never_exits.
(* the hypotheses are those of C67_same_result_ex *)

(** No bookkeeping of a buffer is ever the reason of an exception: on harmless texts (C28) there is none. *)
Theorem C67_harmless_text_never_raises : forall E p line, few_bytes E -> fits line ->
  e_entities E <> [] -> ~ In 0%N line -> harmless E line -> exists t, remove_emphasis_buf E p line = Done t.
Proof.
  intros E p line F Hf He H0 Hh. destruct (C28_harmless_text_never_raises E p line He H0 Hh) as (t & Ht). rewrite remove_alike, Ht by assumption. exists t. reflexivity.
Qed.
Print Assumptions C67_harmless_text_never_raises.
Example C67_harmless_text_never_raises_ex : let s := lit "[x] **a &amp; [\\\](u ""t"" <b *c* `d\" in
  few_bytes ascii_env /\ fits s /\ e_entities ascii_env <> [] /\ ~ In 0%N s /\ harmless ascii_env s.
Proof. split; [apply few_bytes_ascii|]. split; [apply fits_short; vm_compute; lia|apply C28_harmless_text_never_raises_ex]. Qed.

(** Some limit is needed: a code span of 2^30 characters or more ends the program. *)
Lemma close_far : forall n pos bt, 0 < n -> close_ticks (repeat 97%N n ++ [cTICK]) pos 0 1 bt = (Some (pos + n + 1), (1, pos + n) :: bt).
Proof.
  assert (G : forall n pos bt, close_ticks (repeat 97%N n ++ [cTICK]) pos 0 1 bt = (Some (pos + n + 1), (1, pos + n) :: bt)).
  { induction n as [|n IH]; intros pos bt.
    - cbn [repeat app close_ticks]. change (N.eqb cTICK cTICK) with true. cbv iota. cbn [close_ticks Nat.eqb]. change (1 <=? MAXBACKTICKS) with true. cbv iota. f_equal; [f_equal; lia|f_equal; f_equal; lia].
    - cbn [repeat app close_ticks]. change (N.eqb 97 cTICK) with false. cbn [Nat.eqb]. rewrite IH. f_equal; [f_equal; lia|f_equal; f_equal; lia]. }
  intros n pos bt _. apply G.
Qed.
Theorem C67_huge_code_span_exits : forall E p n, p <> OtherParser -> e_zs E 96%N = false -> (2 ^ 30 <= Z.of_nat n < 2 ^ 31)%Z ->
  remove_emphasis_buf E p (code_span n) = Exited.
Proof.
  intros E p n Hp Hz Hn. assert (B : (1073741824 <= Z.of_nat n < 2147483648)%Z) by exact Hn. clear Hn.
  assert (Ed : delete_char 0 (code_span n) = code_span n).
  { unfold delete_char, code_span. cbn [filter]. change (negb (N.eqb 96 0)) with true. cbv iota. f_equal. clear. induction n as [|n IH]; [reflexivity|]. cbn [repeat app filter]. change (negb (N.eqb 97 0)) with true. cbv iota. f_equal. exact IH. }
  assert (X : parse_inlines_buf E (code_span n) = Exited).
  { unfold parse_inlines_buf. destruct (rtrim_alike E (length (code_span n)) (code_span n) (le_n _)) as (-> & _). rewrite firstn_all. cbn [lift obind].
    assert (rstrip (cm_space E) (code_span n) = code_span n) as ->.
    { change (code_span n) with ((96%N :: repeat 97%N n) ++ [96%N]). unfold rstrip. rewrite rev_app_distr. cbn [rev app lstrip]. unfold cm_space at 1. rewrite Hz. change (cin 96 [9%N; 10%N; 12%N; 13%N]) with false. cbn [orb].
      change (96%N :: rev (repeat 97%N n) ++ [96%N]) with (rev [96%N] ++ rev (96%N :: repeat 97%N n)). rewrite <- rev_app_distr, rev_involutive. reflexivity. }
    cbn [parse_loop_buf]. unfold peek. cbn [s_pos init_subject c_len c_data]. change (0 <? length (code_span n)) with true. cbv iota. change (nth_error (code_span n) 0) with (Some 96%N). cbv iota.
    unfold parse_inline_buf. change (N.eqb 96 cTICK) with true. cbv iota. unfold handle_backticks_buf. cbn [s_pos init_subject s_scanned s_backticks]. unfold c_inp. cbn [c_len c_data]. rewrite firstn_all. cbn [skipn andb].
    assert (span_len (N.eqb cTICK) (code_span n) = 1) as ->. { unfold code_span. destruct n as [|n]; [lia|]. reflexivity. }
    change (MAXBACKTICKS <? 1) with false. cbv iota. change (0 + 1) with 1. change (skipn 1 (code_span n)) with (repeat 97%N n ++ [cTICK]). rewrite close_far by lia. cbv iota.
    replace (Z.of_nat (1 + n + 1) - Z.of_nat 1 - Z.of_nat 1)%Z with (Z.of_nat n) by lia. unfold buf_set. destruct (Z.leb_spec (Z.of_nat n) 0); [lia|].
    assert (seqb (repeat 97%N n ++ [cTICK]) (b_ptr buf_init) = false) as -> by (destruct n; [lia|reflexivity]). change (b_asize buf_init) with 0%Z. destruct (Z.leb_spec 0 (Z.of_nat n)); [|lia].
    unfold buf_grow. destruct (Z.leb_spec (Z.of_nat n) 0); [lia|]. change (b_asize buf_init) with 0%Z. destruct (Z.ltb_spec (Z.of_nat n) 0); [lia|].
    change INT32_MAX with (Z.ones 31). rewrite Z.land_ones by lia. change (2 ^ 31)%Z with 2147483648%Z. rewrite Z.mod_small by lia. change (Z.ones 31 / 2)%Z with 1073741823%Z. destruct (Z.ltb_spec 1073741823 (Z.of_nat n)); [reflexivity|lia]. }
  unfold remove_emphasis_buf. rewrite Ed. destruct p; try contradiction; rewrite X; reflexivity.
Qed.
Print Assumptions C67_huge_code_span_exits.
Example C67_huge_code_span_exits_ex : e_zs ascii_env 96%N = false /\ exists n, (2 ^ 30 <= Z.of_nat n < 2 ^ 31)%Z.
Proof. split; [reflexivity|]. exists (Z.to_nat (2 ^ 30)). rewrite Z2Nat.id by lia. lia. Qed.
