(** Facts about the string functions of [Str], [Fence], [Atx]. *)
From Coq Require Import String List NArith ZArith Bool Arith Lia.
From Verif Require Import Str Fence Atx.
Import ListNotations.
Local Open Scope list_scope.

Global Arguments N.eqb : simpl never.
Global Arguments N.leb : simpl never.
Global Arguments N.ltb : simpl never.

Lemma seqb_eq a b : seqb a b = true <-> a = b.
Proof.
  revert b; induction a as [|x a IH]; intros [|y b]; cbn; split; intros H; try easy.
  - apply andb_true_iff in H as [H1 H2]. apply N.eqb_eq in H1. apply IH in H2. congruence.
  - injection H as -> ->. rewrite N.eqb_refl. apply IH. reflexivity.
Qed.
Lemma seqb_refl a : seqb a a = true.
Proof. apply seqb_eq. reflexivity. Qed.
Lemma seqb_neq a b : seqb a b = false <-> a <> b.
Proof.
  split; intros H.
  - intros ->. rewrite seqb_refl in H. discriminate.
  - destruct (seqb a b) eqn:E; [|reflexivity]. apply seqb_eq in E. contradiction.
Qed.
Lemma str_dec (a b : str) : {a = b} + {a <> b}.
Proof. apply list_eq_dec. apply N.eq_dec. Qed.

Lemma cin_In c s : cin c s = true <-> In c s.
Proof.
  unfold cin. rewrite existsb_exists. split.
  - intros (x & H & E). apply N.eqb_eq in E. subst. exact H.
  - intros H. exists c. split; [exact H|apply N.eqb_refl].
Qed.
Lemma cin_not_In c s : cin c s = false <-> ~ In c s.
Proof. rewrite <- cin_In. destruct (cin c s); split; intros; easy. Qed.

Lemma startswith_iff p s : startswith p s = true <-> exists t, s = p ++ t.
Proof.
  revert s; induction p as [|x p IH]; intros s; cbn.
  - split; [intros _; exists s; reflexivity|reflexivity].
  - destruct s as [|y s].
    + split; [discriminate|intros (t & H); discriminate].
    + rewrite andb_true_iff, IH. split.
      * intros (E & t & ->). apply N.eqb_eq in E as ->. exists t; reflexivity.
      * intros (t & H). injection H as -> ->. split; [apply N.eqb_refl|exists t; reflexivity].
Qed.

(** A list either is empty or has a head; "does not start with p". *)
Definition nostart (p : N -> bool) (s : str) : Prop :=
  match s with [] => True | c :: _ => p c = false end.
Definition noend (p : N -> bool) (s : str) : Prop := nostart p (rev s).

Lemma noend_app p s c : noend p (s ++ [c]) <-> p c = false.
Proof. unfold noend. rewrite rev_app_distr. cbn. tauto. Qed.
Lemma noend_cons p c s : s <> [] -> noend p (c :: s) <-> noend p s.
Proof.
  intros H. unfold noend. cbn. destruct (rev s) eqn:E; cbn.
  - apply (f_equal (@rev N)) in E. rewrite rev_involutive in E. contradiction.
  - tauto.
Qed.

Lemma lstrip_split p s :
  exists pre, s = pre ++ lstrip p s /\ Forall (fun c => p c = true) pre /\ nostart p (lstrip p s).
Proof.
  induction s as [|x s (pre & H1 & H2 & H3)]; cbn.
  - exists []. repeat split; auto.
  - destruct (p x) eqn:E.
    + exists (x :: pre). cbn. rewrite <- H1. repeat split; auto.
    + exists []. cbn. repeat split; auto.
Qed.
Lemma lstrip_unique p pre t :
  Forall (fun c => p c = true) pre -> nostart p t -> lstrip p (pre ++ t) = t.
Proof.
  induction pre as [|x pre IH]; cbn; intros H N.
  - destruct t as [|y t]; cbn in *; [reflexivity|rewrite N; reflexivity].
  - inversion H; subst. rewrite H2. auto.
Qed.
Lemma lstrip_id p s : nostart p s -> lstrip p s = s.
Proof. intros H. apply (lstrip_unique p [] s); auto. Qed.
Lemma lstrip_all p s : Forall (fun c => p c = true) s -> lstrip p s = [].
Proof. intros H. rewrite <- (app_nil_r s). apply lstrip_unique; cbn; auto. Qed.

Lemma rstrip_split p s :
  exists suf, s = rstrip p s ++ suf /\ Forall (fun c => p c = true) suf /\ noend p (rstrip p s).
Proof.
  destruct (lstrip_split p (rev s)) as (pre & H1 & H2 & H3).
  exists (rev pre). unfold rstrip, noend. rewrite rev_involutive. split; [|split; [|exact H3]].
  - rewrite <- rev_app_distr, <- H1, rev_involutive. reflexivity.
  - apply Forall_rev. exact H2.
Qed.
Lemma rstrip_unique p t suf :
  Forall (fun c => p c = true) suf -> noend p t -> rstrip p (t ++ suf) = t.
Proof.
  intros H N. unfold rstrip. rewrite rev_app_distr, lstrip_unique.
  - apply rev_involutive.
  - apply Forall_rev. exact H.
  - exact N.
Qed.
Lemma rstrip_id p s : noend p s -> rstrip p s = s.
Proof. intros H. rewrite <- (app_nil_r s) at 1. apply rstrip_unique; auto. Qed.
Lemma rstrip_all p s : Forall (fun c => p c = true) s -> rstrip p s = [].
Proof. intros H. apply (rstrip_unique p [] s); cbn; auto; try exact I. Qed.
Lemma noend_nil p : noend p [].
Proof. exact I. Qed.

Lemma lstrip_nostart p s : nostart p (lstrip p s).
Proof. destruct (lstrip_split p s) as (? & _ & _ & H). exact H. Qed.
Lemma rstrip_noend p s : noend p (rstrip p s).
Proof. destruct (rstrip_split p s) as (? & _ & _ & H). exact H. Qed.

Lemma strip_split p s :
  exists pre suf, s = pre ++ strip p s ++ suf
    /\ Forall (fun c => p c = true) pre /\ Forall (fun c => p c = true) suf
    /\ nostart p (strip p s) /\ noend p (strip p s).
Proof.
  unfold strip.
  destruct (lstrip_split p s) as (pre & H1 & H2 & H3).
  destruct (rstrip_split p (lstrip p s)) as (suf & G1 & G2 & G3).
  exists pre, suf. split; [|split; [exact H2|split; [exact G2|split; [|exact G3]]]].
  - rewrite <- G1. exact H1.
  - destruct (rstrip p (lstrip p s)) as [|c r]; [exact I|].
    rewrite G1 in H3. exact H3.
Qed.
Lemma nostart_app_l p a b : a <> [] -> nostart p a -> nostart p (a ++ b).
Proof. destruct a; cbn; easy. Qed.
Lemma noend_app_r p a b : b <> [] -> noend p b -> noend p (a ++ b).
Proof.
  intros H Hn. unfold noend in *. rewrite rev_app_distr. apply nostart_app_l; [|exact Hn].
  intros E. apply (f_equal (@rev N)) in E. rewrite rev_involutive in E. contradiction.
Qed.
Lemma strip_unique p pre t suf :
  Forall (fun c => p c = true) pre -> Forall (fun c => p c = true) suf ->
  nostart p t -> noend p t -> strip p (pre ++ t ++ suf) = t.
Proof.
  intros Hp Hs N1 N2. unfold strip. destruct t as [|c t].
  - cbn. rewrite lstrip_all; [apply rstrip_all; constructor|]. apply Forall_app; auto.
  - rewrite lstrip_unique; auto. apply rstrip_unique; auto.
Qed.
Lemma strip_id p s : nostart p s -> noend p s -> strip p s = s.
Proof.
  intros. rewrite <- (app_nil_r s) at 1. apply (strip_unique p [] s []); auto.
Qed.
Lemma strip_all p s : Forall (fun c => p c = true) s -> strip p s = [].
Proof.
  intros H. rewrite <- (app_nil_r s). apply (strip_unique p s [] []); cbn; auto; try exact I.
Qed.
Lemma strip_nil_all p s : strip p s = [] -> Forall (fun c => p c = true) s.
Proof.
  intros H. destruct (strip_split p s) as (a & b & E & Ha & Hb & _). rewrite H in E. rewrite E.
  apply Forall_app; split; auto.
Qed.

(** [leading] *)
Lemma leading_span c s : leading c s = span_len (fun x => N.eqb x c) s.
Proof. induction s as [|x s IH]; cbn; [reflexivity|]. destruct (N.eqb x c); congruence. Qed.

Lemma span_split p s :
  exists pre rest, s = pre ++ rest /\ length pre = span_len p s
    /\ Forall (fun c => p c = true) pre /\ nostart p rest
    /\ firstn (span_len p s) s = pre /\ skipn (span_len p s) s = rest.
Proof.
  induction s as [|x s (pre & rest & H1 & H2 & H3 & H4 & H5 & H6)]; cbn.
  - exists [], []. repeat split; auto.
  - destruct (p x) eqn:E.
    + exists (x :: pre), rest. cbn. rewrite H2, H5, H6. subst s. repeat split; auto.
    + exists [], (x :: s). cbn. repeat split; auto.
Qed.
Lemma span_unique p pre rest :
  Forall (fun c => p c = true) pre -> nostart p rest -> span_len p (pre ++ rest) = length pre.
Proof.
  induction pre as [|x pre IH]; cbn; intros H N.
  - destruct rest as [|y r]; cbn in *; [reflexivity|rewrite N; reflexivity].
  - inversion H; subst. rewrite H2. f_equal. auto.
Qed.
Lemma skipn_span p pre rest :
  Forall (fun c => p c = true) pre -> nostart p rest ->
  skipn (span_len p (pre ++ rest)) (pre ++ rest) = rest.
Proof.
  intros H N. rewrite span_unique by assumption. rewrite skipn_app, skipn_all, Nat.sub_diag. reflexivity.
Qed.
Lemma span_le p s : span_len p s <= length s.
Proof. induction s; cbn; [lia|]. destruct (p a); lia. Qed.
Lemma span_ext p q s : (forall c, In c s -> p c = q c) -> span_len p s = span_len q s.
Proof.
  induction s as [|x s IH]; cbn; intros H; [reflexivity|].
  rewrite (H x) by auto. destruct (q x); [f_equal; apply IH; auto|reflexivity].
Qed.

Lemma Forall_eqb_repeat c s : Forall (fun x => N.eqb x c = true) s -> s = repeat c (length s).
Proof.
  induction s as [|x s IH]; cbn; intros H; [reflexivity|].
  inversion H; subst. apply N.eqb_eq in H2 as ->. f_equal. auto.
Qed.
Lemma Forall_eqb_repeat' c s : Forall (fun x => N.eqb c x = true) s -> s = repeat c (length s).
Proof.
  intros H. apply Forall_eqb_repeat. eapply Forall_impl; [|exact H].
  intros a. cbn. rewrite N.eqb_sym. auto.
Qed.
Lemma Forall_repeat {A} (P : A -> Prop) c n : P c -> Forall P (repeat c n).
Proof. induction n; cbn; auto. Qed.

Lemma leading_split c s :
  exists rest, s = repeat c (leading c s) ++ rest /\ hd_error rest <> Some c.
Proof.
  rewrite leading_span.
  destruct (span_split (fun x => N.eqb x c) s) as (pre & rest & H1 & H2 & H3 & H4 & _).
  exists rest. apply Forall_eqb_repeat in H3. rewrite <- H2, <- H3. split; [exact H1|].
  destruct rest; cbn in *; [easy|]. apply N.eqb_neq in H4. congruence.
Qed.
Lemma leading_unique c n rest : hd_error rest <> Some c -> leading c (repeat c n ++ rest) = n.
Proof.
  intros H. rewrite leading_span, span_unique.
  - apply repeat_length.
  - apply Forall_repeat. apply N.eqb_refl.
  - destruct rest; cbn in *; [exact I|]. apply N.eqb_neq. congruence.
Qed.
Lemma leading_skip c s rest n :
  s = repeat c n ++ rest -> hd_error rest <> Some c -> leading c s = n /\ skipn n s = rest.
Proof.
  intros -> H. split; [apply leading_unique; exact H|].
  rewrite skipn_app, repeat_length, Nat.sub_diag, skipn_all2 by (rewrite repeat_length; lia).
  reflexivity.
Qed.

Lemma firstn_repeat_app c n (rest : str) : firstn n (repeat c n ++ rest) = repeat c n.
Proof.
  rewrite firstn_app, repeat_length, Nat.sub_diag, firstn_all2 by (rewrite repeat_length; lia).
  apply app_nil_r.
Qed.
Lemma skipn_repeat_app c n (rest : str) : skipn n (repeat c n ++ rest) = rest.
Proof.
  rewrite skipn_app, repeat_length, Nat.sub_diag, skipn_all2 by (rewrite repeat_length; lia).
  reflexivity.
Qed.
Lemma skipn_app_len {A} (a b : list A) : skipn (length a) (a ++ b) = b.
Proof. rewrite skipn_app, skipn_all, Nat.sub_diag. reflexivity. Qed.
Lemma firstn_app_len {A} (a b : list A) : firstn (length a) (a ++ b) = a.
Proof. rewrite firstn_app, firstn_all, Nat.sub_diag. cbn. apply app_nil_r. Qed.

Lemma all_same_iff s : all_same s = true <-> exists c n, s = repeat c n.
Proof.
  destruct s as [|c s]; cbn.
  - split; [intros _; exists 0%N, 0; reflexivity|reflexivity].
  - rewrite forallb_forall. split.
    + intros H. exists c, (S (length s)). cbn. f_equal. apply Forall_eqb_repeat'.
      apply Forall_forall. exact H.
    + intros (d & n & E). destruct n; [discriminate|]. injection E as -> ->.
      intros x Hx. apply repeat_spec in Hx. subst. apply N.eqb_refl.
Qed.
Lemma repeat_app' {A} (x : A) a b : repeat x (a + b) = repeat x a ++ repeat x b.
Proof. apply repeat_app. Qed.
Lemma repeat_snoc {A} (x : A) n : repeat x n ++ [x] = repeat x (S n).
Proof. cbn. rewrite repeat_cons. reflexivity. Qed.
Lemma repeat_inj_len {A} (x : A) n y m : repeat x n = repeat y m -> n = m.
Proof. intros H. apply (f_equal (@length A)) in H. now rewrite !repeat_length in H. Qed.
Lemma rev_repeat {A} (x : A) n : rev (repeat x n) = repeat x n.
Proof. induction n; cbn; [reflexivity|]. rewrite IHn, repeat_snoc. reflexivity. Qed.
