(** Deletion of lines: _remove_line_intervals (C44). *)
From Coq Require Import String List NArith ZArith Bool Arith Lia.
From Verif Require Import Str Write IntervalSpec.
Import ListNotations.
Local Open Scope list_scope.

Lemma removed_fun ivs lines r : removed ivs lines r -> remove_line_intervals lines ivs = r.
Proof.
  induction 1 as [lines|a b ivs before gone after r Ha Hb Hg _ IH|iv ivs lines H|a b ivs lines H1 H2]; cbn [remove_line_intervals].
  - reflexivity.
  - assert (length gone <> 0) by (intros X; apply Hg, length_zero_iff_nil, X).
    destruct (Z.ltb_spec a 1); [lia|]. destruct (Z.ltb_spec b 1); [lia|]. destruct (Z.ltb_spec b a); [lia|]. cbn [orb]. unfold fpy_remove.
    replace (Z.to_nat a) with (S (length before)) by lia. replace (Z.to_nat b) with (length before + length gone) by lia. rewrite !app_length.
    destruct (Nat.ltb_spec (S (length before)) 1); [lia|]. destruct (Nat.ltb_spec (length before + length gone) (S (length before))); [lia|].
    destruct (Nat.ltb_spec (length before + (length gone + length after)) (length before + length gone)); [lia|]. cbn [orb bind]. rewrite <- IH. f_equal.
    replace (S (length before) - 1) with (length before + 0) by lia. rewrite firstn_app_2. cbn [firstn]. rewrite app_nil_r. f_equal. rewrite app_assoc, skipn_app, skipn_all2 by (rewrite app_length; lia). rewrite app_length, Nat.sub_diag. reflexivity.
  - destruct iv as [|a [|b [|? ?]]]; try reflexivity. specialize (H a b eq_refl). destruct (Z.ltb_spec a 1); [reflexivity|]. destruct (Z.ltb_spec b 1); [reflexivity|]. destruct (Z.ltb_spec b a); [reflexivity|lia].
  - destruct (Z.ltb_spec a 1); [lia|]. destruct (Z.ltb_spec b 1); [lia|]. destruct (Z.ltb_spec b a); [lia|]. cbn [orb]. unfold fpy_remove.
    destruct (Nat.ltb_spec (length lines) (Z.to_nat b)); [|lia]. rewrite orb_true_r. reflexivity.
Qed.
Lemma removed_total ivs : forall lines, exists r, removed ivs lines r.
Proof.
  induction ivs as [|iv ivs IH]; intros lines; [eexists; constructor|].
  assert (D : (exists a b, iv = [a; b] /\ (1 <= a <= b)%Z) \/ forall a b, iv = [a; b] -> ~ (1 <= a <= b)%Z).
  { destruct iv as [|a [|b [|? ?]]]; try (right; intros ? ? X; discriminate X). destruct (Z.ltb_spec a 1); [right; intros ? ? X; injection X as <- <-; lia|]. destruct (Z.ltb_spec b a); [right; intros ? ? X; injection X as <- <-; lia|].
    left. exists a, b. split; [reflexivity|lia]. }
  destruct D as [(a & b & -> & H)|H]; [|eexists; apply rm_wrong; exact H]. destruct (Z.ltb_spec (Z.of_nat (length lines)) b) as [L|L]; [eexists; apply rm_past; assumption|].
  set (p := Z.to_nat a - 1). set (q := Z.to_nat b - p). destruct (IH (firstn p lines ++ skipn q (skipn p lines))) as (r & Hr). exists r.
  rewrite <- (firstn_skipn p lines) at 1. rewrite <- (firstn_skipn q (skipn p lines)) at 1.
  assert (P : length (firstn p lines) = p) by (rewrite firstn_length; unfold p; lia). assert (Q : length (firstn q (skipn p lines)) = q) by (rewrite firstn_length, skipn_length; unfold p, q; lia).
  apply rm_lines; [rewrite P; unfold p; lia|rewrite P, Q; unfold p, q; lia| |exact Hr]. intros X. rewrite X in Q. cbn in Q. unfold q, p in Q. lia.
Qed.
(** C44: _remove_line_intervals takes out exactly the lines of the intervals, or raises as the specification says. *)
Theorem C44_remove_line_intervals : forall ivs lines r, remove_line_intervals lines ivs = r <-> removed ivs lines r.
Proof.
  intros ivs lines r. split; [|apply removed_fun]. intros <-. destruct (removed_total ivs lines) as (r & H). rewrite (removed_fun _ _ _ H). exact H.
Qed.
Print Assumptions C44_remove_line_intervals.
Example C44_remove_line_intervals_ex :
  let lines := [lit "a"; lit "b"; lit "c"; lit "d"; lit "e"] in
  removed [[2; 3]; [1; 1]]%Z lines (Ok [lit "d"; lit "e"]) /\ removed [[0; 1]]%Z lines (Err ValueError) /\ removed [[2; 6]]%Z lines (Err LineOutOfFileBoundsError).
Proof. cbn zeta. split; [|split]; apply C44_remove_line_intervals; reflexivity. Qed.
