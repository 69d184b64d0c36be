(** Facts about decimal printing. *)
From Coq Require Import String List NArith ZArith Bool Arith Lia.
From Coq Require Decimal DecimalFacts DecimalN DecimalPos.
From Verif Require Import Str Spec.
Import ListNotations.
Local Open Scope list_scope.

Lemma uint_str_digits u : Forall decimal_digit (uint_str u).
Proof. induction u; cbn; constructor; auto; unfold decimal_digit; lia. Qed.

Lemma decimal_value_app s t acc : decimal_value acc (s ++ t) = decimal_value (decimal_value acc s) t.
Proof. revert acc. induction s; intros acc; cbn; auto. Qed.

Lemma uint_acc_value u acc : decimal_value (Npos acc) (uint_str u) = Npos (Pos.of_uint_acc u acc).
Proof.
  revert acc. induction u; intros acc; cbn -[N.mul N.add N.sub Pos.mul Pos.add]; auto; rewrite <- IHu; f_equal; lia.
Qed.
Lemma uint_value u : decimal_value 0 (uint_str u) = N.of_uint u.
Proof.
  induction u; cbn -[N.mul N.add N.sub Pos.mul]; auto; rewrite <- uint_acc_value; f_equal.
Qed.
Lemma decN_value n : decimal_value 0 (decN n) = n.
Proof. unfold decN. rewrite uint_value. apply DecimalN.Unsigned.of_to. Qed.

Lemma nzhead_no_zero u v : Decimal.nzhead u <> Decimal.D0 v.
Proof. induction u; cbn; try discriminate; assumption. Qed.

Lemma decN_norm n : decN n = [48%N] \/ (exists c r, decN n = c :: r /\ c <> 48%N).
Proof.
  unfold decN. assert (E : N.to_uint n = Decimal.unorm (N.to_uint n)).
  { rewrite <- (DecimalN.Unsigned.of_to n) at 1. apply DecimalN.Unsigned.to_of. }
  rewrite E. unfold Decimal.unorm. destruct (Decimal.nzhead (N.to_uint n)) eqn:G; cbn; auto;
    try (right; eexists; eexists; split; [reflexivity|discriminate]).
  exfalso. eapply nzhead_no_zero. exact G.
Qed.
Lemma decN_decimal n : decimal n (decN n).
Proof.
  split; [apply uint_str_digits|]. split; [apply decN_value|].
  destruct (decN_norm n) as [E|(c & r & E & H)]; [left; exact E|right]. exists c, r. auto.
Qed.
Lemma dec_nat k : dec (Z.of_nat k) = decN (N.of_nat k).
Proof. unfold dec. destruct k; [reflexivity|]. cbn [Z.of_nat]. cbn. reflexivity. Qed.
Lemma dec_nonneg z : (0 <= z)%Z -> dec z = decN (Z.to_N z).
Proof. intros H. destruct z; try reflexivity. lia. Qed.
Lemma decN_inj a b : decN a = decN b -> a = b.
Proof. intros H. rewrite <- (decN_value a), <- (decN_value b), H. reflexivity. Qed.
Lemma decN_nonempty n : decN n <> [].
Proof. destruct (decN_norm n) as [->|(c & r & -> & _)]; discriminate. Qed.

(** A decimal representation is unique. *)
Lemma decimal_value_last s c acc : decimal_value acc (s ++ [c]) = (decimal_value acc s * 10 + (c - 48))%N.
Proof. rewrite decimal_value_app. reflexivity. Qed.
Lemma decimal_value_lead c r : c <> 48%N -> decimal_digit c -> Forall decimal_digit r ->
  (decimal_value 0 (c :: r) > 0)%N.
Proof.
  intros Hc Hd F. cbn [decimal_value]. assert (G : forall s a, (0 < a)%N -> (0 < decimal_value a s)%N).
  { induction s as [|x s IH]; intros a Ha; cbn [decimal_value]; [exact Ha|]. apply IH. lia. }
  apply N.lt_gt, G. unfold decimal_digit in Hd. lia.
Qed.
Lemma decimal_unique n s t : decimal n s -> decimal n t -> s = t.
Proof.
  assert (U : forall s t, Forall decimal_digit s -> Forall decimal_digit t ->
     (forall r, s <> 48%N :: r) -> (forall r, t <> 48%N :: r) -> decimal_value 0 s = decimal_value 0 t -> s = t).
  { clear. induction s as [|c s IH] using rev_ind; intros t Fs Ft Hs Ht E.
    - destruct t as [|d t]; [reflexivity|]. exfalso. inversion Ft; subst.
      assert (Hd : d <> 48%N) by (intros ->; exact (Ht t eq_refl)).
      pose proof (decimal_value_lead d t Hd H1 H2). cbn in E. cbn in H. lia.
    - apply Forall_app in Fs as (Fs & Fc). inversion Fc; subst.
      destruct t as [|d t _] using rev_ind.
      + exfalso. destruct s as [|x s].
        * cbn in E. assert (c <> 48%N) by (intros ->; exact (Hs [] eq_refl)). unfold decimal_digit in *. lia.
        * inversion Fs; subst. assert (Hx : x <> 48%N) by (intros ->; exact (Hs (s ++ [c]) eq_refl)).
          rewrite decimal_value_last in E. pose proof (decimal_value_lead x s Hx H3 H4).
          change (decimal_value 0 []) with 0%N in E. lia.
      + apply Forall_app in Ft as (Ft & Fd). inversion Fd; subst.
        rewrite !decimal_value_last in E. unfold decimal_digit in *.
        assert (c = d /\ decimal_value 0 s = decimal_value 0 t) as (-> & E') by lia.
        f_equal. apply IH; auto.
        * intros r ->. apply (Hs (r ++ [d])). reflexivity.
        * intros r ->. apply (Ht (r ++ [d])). reflexivity. }
  intros (F1 & V1 & N1) (F2 & V2 & N2).
  assert (Z : forall s, Forall decimal_digit s -> decimal_value 0 s = 0%N -> (exists c r, s = c :: r /\ c <> 48%N) -> False).
  { intros u Fu Vu (c & r & -> & Hc). inversion Fu; subst. pose proof (decimal_value_lead c r Hc H1 H2). lia. }
  destruct N1 as [-> | N1], N2 as [-> | N2]; [reflexivity| | |].
  - exfalso. apply (Z t F2); [|exact N2]. rewrite V2. symmetry. exact V1.
  - exfalso. apply (Z s F1); [|exact N1]. rewrite V1. symmetry. exact V2.
  - apply U; auto; try congruence.
    + intros r ->. destruct N1 as (c & r' & E & H). injection E as E1 E2. congruence.
    + intros r ->. destruct N2 as (c & r' & E & H). injection E as E1 E2. congruence.
Qed.
