(** Proofs about link labels. *)
From Coq Require Import String List NArith ZArith Bool Arith Lia.
From Verif Require Import Str Fence Atx StrFacts Spec FenceProof AtxProof.
Import ListNotations.
Local Open Scope list_scope.

(** ** Empty labels *)
Lemma strip_eqb_iff c s :
  exists a b, s = repeat c a ++ strip (N.eqb c) s ++ repeat c b
    /\ hd_error (strip (N.eqb c) s) <> Some c.
Proof.
  destruct (strip_split (N.eqb c) s) as (a & b & E & Fa & Fb & Ns & _).
  exists (length a), (length b). apply Forall_eqb_repeat' in Fa, Fb. rewrite <- Fa, <- Fb.
  split; [exact E|]. destruct (strip (N.eqb c) s) as [|x r]; cbn in *; [discriminate|].
  apply N.eqb_neq in Ns. congruence.
Qed.

Lemma strip_peel c a u b :
  (forall x, hd_error u = Some x -> x <> c) -> (forall x, hd_error (rev u) = Some x -> x <> c) ->
  strip (N.eqb c) (repeat c a ++ u ++ repeat c b) = u.
Proof.
  intros H1 H2. apply strip_unique; try (apply Forall_repeat; apply N.eqb_refl).
  - destruct u as [|x u]; cbn [nostart]; [exact I|]. apply N.eqb_neq. apply not_eq_sym. apply H1. reflexivity.
  - unfold noend. destruct (rev u) as [|x r]; cbn [nostart]; [exact I|]. apply N.eqb_neq. apply not_eq_sym. apply H2. reflexivity.
Qed.

Lemma in_hd_error {A} (l : list A) x : hd_error l = Some x -> In x l.
Proof. destruct l; cbn; [discriminate|]. intros H. injection H as ->. auto. Qed.
Lemma in_hd_error_rev {A} (l : list A) x : hd_error (rev l) = Some x -> In x l.
Proof. intros H. apply in_hd_error in H. apply in_rev. exact H. Qed.

Lemma strip_blanks_nil t :
  ~ In 10%N t -> ~ In 13%N t -> (strip_blanks t = [] <-> blank_label t).
Proof.
  intros HL HC. unfold strip_blanks. cbn [fold_left]. split.
  - intros H.
    destruct (strip_eqb_iff cSP t) as (a1 & b1 & E1 & _). set (t1 := strip (N.eqb cSP) t) in *.
    destruct (strip_eqb_iff cTAB t1) as (a2 & b2 & E2 & _). set (t2 := strip (N.eqb cTAB) t1) in *.
    destruct (strip_eqb_iff cLF t2) as (a3 & b3 & E3 & _). set (t3 := strip (N.eqb cLF) t2) in *.
    destruct (strip_eqb_iff cVT t3) as (a4 & b4 & E4 & _). set (t4 := strip (N.eqb cVT) t3) in *.
    destruct (strip_eqb_iff cFF t4) as (a5 & b5 & E5 & _). set (t5 := strip (N.eqb cFF) t4) in *.
    destruct (strip_eqb_iff cCR t5) as (a6 & b6 & E6 & _). set (t6 := strip (N.eqb cCR) t5) in *.
    rewrite H in E6. cbn in E6.
    assert (Hin : forall x, In x t5 \/ In x t4 \/ In x t3 \/ In x t2 \/ In x t1 -> In x t).
    { intros x Hx. rewrite E1, !in_app_iff. right; left.
      destruct Hx as [Hx|[Hx|[Hx|[Hx|Hx]]]]; auto;
      rewrite E2, !in_app_iff; right; left; auto;
      rewrite E3, !in_app_iff; right; left; auto;
      rewrite E4, !in_app_iff; right; left; auto;
      rewrite E5, !in_app_iff; right; left; auto. }
    assert (Z6 : a6 = 0 /\ b6 = 0).
    { destruct a6 as [|a6]; [destruct b6 as [|b6]; [auto|]|]; exfalso; apply HC; apply Hin; left; rewrite E6; cbn; auto. }
    assert (Z3 : a3 = 0 /\ b3 = 0).
    { destruct a3 as [|a3]; [destruct b3 as [|b3]; [auto|]|]; exfalso; apply HL; apply Hin; right; right; right; left; rewrite E3; cbn; auto.
      rewrite in_app_iff. right. left. reflexivity. }
    destruct Z6 as (-> & ->). destruct Z3 as (-> & ->). cbn in E3, E6. rewrite app_nil_r in E3.
    rewrite E6 in E5. cbn in E5. rewrite <- repeat_app in E5.
    exists a1, a2, a4, (a5 + b5), b4, b2, b1.
    rewrite E1, E2, E3, E4, E5. unfold cSP, cTAB, cVT, cFF. rewrite <- !app_assoc. reflexivity.
  - intros (a & b & c & d & e & f & g & E). subst t.
    pose (u4 := repeat 12%N d).
    pose (u3 := repeat 11%N c ++ u4 ++ repeat 11%N e).
    pose (u2 := repeat 9%N b ++ u3 ++ repeat 9%N f).
    assert (EE : repeat 32%N a ++ repeat 9%N b ++ repeat 11%N c ++ repeat 12%N d ++ repeat 11%N e ++ repeat 9%N f ++ repeat 32%N g
      = repeat cSP a ++ u2 ++ repeat cSP g)
      by (unfold u2, u3, u4; rewrite <- !app_assoc; reflexivity).
    rewrite EE. clear EE HL HC.
    assert (I4 : forall x, In x u4 -> x = 12%N) by (intros x H; apply repeat_spec in H; exact H).
    assert (I3 : forall x, In x u3 -> x = 12%N \/ x = 11%N).
    { intros x H. unfold u3 in H. rewrite !in_app_iff in H. destruct H as [H|[H|H]]; auto; apply repeat_spec in H; auto. }
    assert (I2 : forall x, In x u2 -> x = 12%N \/ x = 11%N \/ x = 9%N).
    { intros x H. unfold u2 in H. rewrite !in_app_iff in H. destruct H as [H|[H|H]].
      - apply repeat_spec in H; auto. - apply I3 in H. tauto. - apply repeat_spec in H; auto. }
    rewrite strip_peel.
    2:{ intros x H. apply in_hd_error, I2 in H. unfold cSP. intuition congruence. }
    2:{ intros x H. apply in_hd_error_rev, I2 in H. unfold cSP. intuition congruence. }
    unfold u2 at 1. change (repeat 9%N) with (repeat cTAB).
    rewrite strip_peel.
    2:{ intros x H. apply in_hd_error, I3 in H. unfold cTAB. intuition congruence. }
    2:{ intros x H. apply in_hd_error_rev, I3 in H. unfold cTAB. intuition congruence. }
    replace (strip (N.eqb cLF) u3) with u3.
    2:{ symmetry. apply strip_id; [destruct u3 as [|x l] eqn:E; cbn [nostart]; [exact I|]|].
        - apply N.eqb_neq. destruct (I3 x) as [-> | ->]; try (left; reflexivity); discriminate.
        - unfold noend. destruct (rev u3) as [|x l] eqn:E; cbn [nostart]; [exact I|].
          apply N.eqb_neq. destruct (I3 x) as [-> | ->]; try (apply in_rev; rewrite E; left; reflexivity); discriminate. }
    unfold u3 at 1. change (repeat 11%N) with (repeat cVT).
    rewrite strip_peel.
    2:{ intros x H. apply in_hd_error, I4 in H. unfold cVT. intuition congruence. }
    2:{ intros x H. apply in_hd_error_rev, I4 in H. unfold cVT. intuition congruence. }
    unfold u4. rewrite (strip_all (N.eqb cFF)) by (apply Forall_repeat; reflexivity). reflexivity.
Qed.

Lemma last_backslash t : N.eqb (last t 0%N) cBS = true <-> exists r, t = r ++ [92%N].
Proof.
  split.
  - intros H. apply N.eqb_eq in H. destruct t as [|x t]; [discriminate|].
    destruct (exists_last_str (x :: t)) as (r & c & E); [discriminate|]. rewrite E in H. rewrite last_last in H.
    exists r. rewrite E, H. reflexivity.
  - intros (r & ->). rewrite last_last. reflexivity.
Qed.
Lemma protect_spec t t' :
  protected t t' <-> t' = if N.eqb (last t 0%N) cBS then t ++ [cSP] else t.
Proof.
  unfold protected. destruct (N.eqb (last t 0%N) cBS) eqn:E.
  - apply last_backslash in E as (r & E). split.
    + intros [(q & H1 & H2)|(H & _)]; [exact H2|]. exfalso. apply (H r). exact E.
    + intros ->. left. exists r. split; [exact E|reflexivity].
  - split.
    + intros [(q & H1 & H2)|(H & H2)]; [|exact H2]. exfalso.
      assert (G : N.eqb (last t 0%N) cBS = true) by (apply last_backslash; eauto). congruence.
    + intros ->. right. split; [|reflexivity]. intros r Er.
      assert (G : N.eqb (last t 0%N) cBS = true) by (apply last_backslash; eauto). congruence.
Qed.

Lemma protected_blank t t' : protected t t' -> (blank_label t' <-> blank_label t).
Proof.
  intros [(r & E & ->)|(_ & ->)]; [|tauto].
  assert (G : forall u, In 92%N u -> ~ blank_label u).
  { intros u H (a & b & c & d & e & f & g & ->). rewrite !in_app_iff in H.
    repeat destruct H as [H|H]; apply repeat_spec in H; discriminate. }
  split; intros H; exfalso; apply (G _) in H; auto; rewrite E, ?in_app_iff; cbn; auto.
Qed.

(** ** Escaping *)
Definition oddb (acc : str) : bool := Nat.odd (leading cBS acc).

Lemma escape_brackets_spec s : forall acc,
  exists t, escape_brackets acc s = rev acc ++ t /\ escapes (oddb acc) s t.
Proof.
  induction s as [|c s IH]; intros acc; cbn [escape_brackets].
  - exists []. split; [symmetry; apply app_nil_r|constructor].
  - assert (Hcons : forall d, oddb (d :: acc) = if N.eqb d cBS then negb (oddb acc) else false).
    { intros d. unfold oddb. cbn [leading]. destruct (N.eqb d cBS); [|reflexivity].
      rewrite Nat.odd_succ, <- Nat.negb_odd. reflexivity. }
    destruct (N.eqb c cLB || N.eqb c cRB) eqn:Ec.
    + assert (Hb : bracket_char c).
      { unfold bracket_char. apply orb_true_iff in Ec as [Ec|Ec]; apply N.eqb_eq in Ec; auto. }
      assert (Hnb : N.eqb c cBS = false) by (apply N.eqb_neq; destruct Hb as [-> | ->]; discriminate).
      rewrite <- Nat.negb_odd. fold (oddb acc).
      destruct (oddb acc) eqn:Eo; cbn [negb].
      * destruct (IH (c :: acc)) as (t & E & H). exists (c :: t). split.
        -- rewrite E. cbn. rewrite <- app_assoc. reflexivity.
        -- rewrite Hcons, Hnb in H. constructor; assumption.
      * destruct (IH (c :: cBS :: acc)) as (t & E & H). exists (cBS :: c :: t). split.
        -- rewrite E. cbn. rewrite <- !app_assoc. reflexivity.
        -- replace (oddb (c :: cBS :: acc)) with false in H.
           ++ constructor; assumption.
           ++ unfold oddb. cbn [leading]. rewrite Hnb. reflexivity.
    + assert (Hb : ~ bracket_char c).
      { unfold bracket_char. intros [-> | ->]; discriminate. }
      destruct (IH (c :: acc)) as (t & E & H). exists (c :: t). split.
      * rewrite E. cbn. rewrite <- app_assoc. reflexivity.
      * rewrite Hcons in H. destruct (N.eqb c cBS) eqn:Ec2.
        -- apply N.eqb_eq in Ec2. subst c. apply esc_backslash. exact H.
        -- apply N.eqb_neq in Ec2. apply esc_other; assumption.
Qed.

Lemma escapes_functional b s t1 : escapes b s t1 -> forall t2, escapes b s t2 -> t1 = t2.
Proof.
  unfold bracket_char.
  induction 1; intros t2 H2; inversion H2; subst; auto; unfold bracket_char in *;
    try (intuition congruence; fail); try (f_equal; auto; fail).
  - f_equal; f_equal; auto.
Qed.

Lemma escape_spec s : escapes false s (escape_brackets [] s).
Proof. destruct (escape_brackets_spec s []) as (t & E & H). rewrite E. exact H. Qed.

Lemma link_label_spec t :
  ~ In 10%N t -> ~ In 13%N t ->
  forall t', protected t t' ->
  (blank_label t -> link_label t = Err GithubEmptyLinkLabel) /\
  (~ blank_label t -> 999 < length t' -> link_label t = Err GithubOverflowCharsLinkLabel) /\
  (~ blank_label t -> length t' <= 999 -> exists u, link_label t = Ok u /\ escapes false t' u).
Proof.
  intros HL HC t' Ht'. pose proof (protected_blank _ _ Ht') as Hb.
  assert (HL' : ~ In 10%N t').
  { destruct Ht' as [(r & E & ->)|(_ & ->)]; [|exact HL]. rewrite in_app_iff. cbn. intuition congruence. }
  assert (HC' : ~ In 13%N t').
  { destruct Ht' as [(r & E & ->)|(_ & ->)]; [|exact HC]. rewrite in_app_iff. cbn. intuition congruence. }
  apply protect_spec in Ht'.
  assert (G : link_label t = if length (strip_blanks t') =? 0 then Err GithubEmptyLinkLabel
    else if (999 <? Z.of_nat (length t'))%Z then Err GithubOverflowCharsLinkLabel
    else Ok (escape_brackets [] t')) by (rewrite Ht'; reflexivity).
  rewrite G. clear G.
  assert (Hs : (length (strip_blanks t') =? 0) = true <-> blank_label t).
  { rewrite <- Hb, <- strip_blanks_nil by assumption. rewrite Nat.eqb_eq. destruct (strip_blanks t'); cbn; intuition discriminate. }
  split; [|split].
  - intros H. apply Hs in H. rewrite H. reflexivity.
  - intros H1 H2. destruct (length (strip_blanks t') =? 0) eqn:E; [tauto|].
    replace (999 <? Z.of_nat (length t'))%Z with true; [reflexivity|]. symmetry. apply Z.ltb_lt. lia.
  - intros H1 H2. destruct (length (strip_blanks t') =? 0) eqn:E; [tauto|].
    replace (999 <? Z.of_nat (length t'))%Z with false by (symmetry; apply Z.ltb_ge; lia).
    eexists. split; [reflexivity|]. apply escape_spec.
Qed.

(** *** Consequences *)
Lemma odd_backslashes_snoc pre :
  (~ odd_backslashes pre -> odd_backslashes (pre ++ [92%N])) /\ (odd_backslashes pre -> ~ odd_backslashes (pre ++ [92%N])).
Proof.
  assert (D : forall s : str, exists q n, s = q ++ repeat 92%N n /\ forall r, q <> r ++ [92%N]).
  { intros s. destruct (rstrip_split (N.eqb 92) s) as (suf & E & F & Ne).
    exists (rstrip (N.eqb 92) s), (length suf). apply Forall_eqb_repeat' in F. rewrite <- F. split; [exact E|].
    intros r Er. rewrite Er in Ne. apply noend_last in Ne. discriminate. }
  assert (U : forall q n q' n', (forall r : str, q <> r ++ [92%N]) -> (forall r, q' <> r ++ [92%N]) ->
     q ++ repeat 92%N n = q' ++ repeat 92%N n' -> n = n').
  { intros q n q' n' Hq Hq'. revert n'. induction n as [|n IH]; intros n' E.
    - destruct n' as [|n']; [reflexivity|]. exfalso. cbn [repeat] in E. rewrite app_nil_r in E.
      rewrite (repeat_cons n' 92%N) in E. rewrite app_assoc in E. apply (Hq (q' ++ repeat 92%N n')). exact E.
    - destruct n' as [|n'].
      + exfalso. cbn [repeat] in E. rewrite app_nil_r in E.
        rewrite (repeat_cons n 92%N) in E. rewrite app_assoc in E. apply (Hq' (q ++ repeat 92%N n)). symmetry. exact E.
      + f_equal. apply IH. cbn [repeat] in E. rewrite !repeat_cons, !app_assoc in E. apply app_inj_tail in E as (E & _). exact E. }
  destruct (D pre) as (q & n & E & Hq). split.
  - intros H. destruct (Nat.Even_or_Odd n) as [(k & Hk)|(k & Hk)].
    + exists q, k. split; [|exact Hq]. rewrite E, <- app_assoc, repeat_snoc. repeat f_equal. lia.
    + exfalso. apply H. exists q, k. split; [|exact Hq]. rewrite E. repeat f_equal. exact Hk.
  - intros (q1 & k1 & E1 & H1) (q2 & k2 & E2 & H2). rewrite E1, <- app_assoc, repeat_snoc in E2.
    apply U in E2; auto. lia.
Qed.
Lemma odd_backslashes_other pre c : c <> 92%N -> ~ odd_backslashes (pre ++ [c]).
Proof.
  intros Hc (q & n & E & _). replace (2 * n + 1) with (S (2 * n)) in E by lia. cbn [repeat] in E.
  rewrite repeat_cons, app_assoc in E. apply app_inj_tail in E as (_ & E). contradiction.
Qed.

Lemma escapes_brackets_escaped b s t :
  escapes b s t -> forall pre0, (b = true <-> odd_backslashes pre0) ->
  forall pre c post, t = pre ++ c :: post -> bracket_char c -> odd_backslashes (pre0 ++ pre).
Proof.
  induction 1; intros pre0 Hb pre c0 post E Hc.
  - destruct pre; discriminate.
  - destruct pre as [|x [|y pre]].
    + cbn in E. injection E as E1 E2. subst c0. destruct Hc; discriminate.
    + cbn in E. injection E as <- <- _. apply odd_backslashes_snoc. rewrite <- Hb. discriminate.
    + cbn in E. injection E as <- <- E.
      replace (pre0 ++ 92%N :: c :: pre) with ((pre0 ++ [92%N; c]) ++ pre) by (rewrite <- app_assoc; reflexivity).
      eapply IHescapes; [|exact E|exact Hc]. split; [discriminate|]. intros G. exfalso.
      replace (pre0 ++ [92%N; c]) with ((pre0 ++ [92%N]) ++ [c]) in G by (rewrite <- app_assoc; reflexivity).
      apply odd_backslashes_other in G; [exact G|]. destruct H as [-> | ->]; discriminate.
  - destruct pre as [|x pre].
    + rewrite app_nil_r. apply Hb. reflexivity.
    + cbn in E. injection E as <- E. 
      replace (pre0 ++ c :: pre) with ((pre0 ++ [c]) ++ pre) by (rewrite <- app_assoc; reflexivity).
      eapply IHescapes; [|exact E|exact Hc]. split; [discriminate|]. intros G. exfalso.
      apply odd_backslashes_other in G; [exact G|]. destruct H as [-> | ->]; discriminate.
  - destruct pre as [|x pre].
    + cbn in E. injection E as E1 E2. subst c0. destruct Hc; discriminate.
    + cbn in E. injection E as <- E.
      replace (pre0 ++ 92%N :: pre) with ((pre0 ++ [92%N]) ++ pre) by (rewrite <- app_assoc; reflexivity).
      eapply IHescapes; [|exact E|exact Hc].
      destruct (odd_backslashes_snoc pre0) as (S1 & S2). destruct b; cbn.
      * split; [discriminate|]. intros G. exfalso. apply S2; [apply Hb; reflexivity|exact G].
      * split; [intros _|reflexivity]. apply S1. rewrite <- Hb. discriminate.
  - destruct pre as [|x pre].
    + cbn in E. injection E as E1 E2. subst c0. contradiction.
    + cbn in E. injection E as <- E.
      replace (pre0 ++ c :: pre) with ((pre0 ++ [c]) ++ pre) by (rewrite <- app_assoc; reflexivity).
      eapply IHescapes; [|exact E|exact Hc]. split; [discriminate|]. intros G. exfalso.
      apply odd_backslashes_other in G; auto.
Qed.

Lemma escapes_no_final_backslash b s t :
  escapes b s t -> (forall r, s <> r ++ [92%N]) -> forall r, t <> r ++ [92%N].
Proof.
  assert (Hc : forall (x : N) (l : str), (forall r, x :: l <> r ++ [92%N]) -> forall r, l <> r ++ [92%N]).
  { intros x l H r ->. apply (H (x :: r)). reflexivity. }
  induction 1; intros Hs r E.
  - destruct r; discriminate.
  - destruct r as [|x [|y r]]; cbn in E.
    + injection E as E. discriminate.
    + injection E as _ -> _. destruct H; discriminate.
    + injection E as _ _ E. apply (IHescapes (Hc _ _ Hs) r). exact E.
  - destruct r as [|x r]; cbn in E.
    + injection E as -> _. destruct H; discriminate.
    + injection E as _ E. apply (IHescapes (Hc _ _ Hs) r). exact E.
  - destruct r as [|x r]; cbn in E.
    + injection E as ->. inversion H; subst. apply (Hs []). reflexivity.
    + injection E as _ E. apply (IHescapes (Hc _ _ Hs) r). exact E.
  - destruct r as [|x r]; cbn in E.
    + injection E as -> _. contradiction.
    + injection E as _ E. apply (IHescapes (Hc _ _ Hs) r). exact E.
Qed.

Lemma escapes_label_end b s t rest :
  escapes b s t -> (s = [] -> b = false) -> (forall r, s <> r ++ [92%N]) -> label_end b (t ++ 93%N :: rest) = Some rest.
Proof.
  assert (Hc : forall (x : N) (l : str), (forall r, x :: l <> r ++ [92%N]) -> forall r, l <> r ++ [92%N]).
  { intros x l H r ->. apply (H (x :: r)). reflexivity. }
  induction 1; intros Hb Hs.
  - rewrite Hb by reflexivity. reflexivity.
  - cbn. apply IHescapes; [auto|eapply Hc; exact Hs].
  - cbn. apply IHescapes; [auto|eapply Hc; exact Hs].
  - cbn [app label_end]. change (N.eqb 92 92) with true. destruct b; cbn [negb] in *.
    + apply IHescapes; [auto|eapply Hc; exact Hs].
    + apply IHescapes; [|eapply Hc; exact Hs]. intros ->. exfalso. apply (Hs []). reflexivity.
  - cbn [app label_end].
    replace (N.eqb c 92) with false by (symmetry; apply N.eqb_neq; assumption).
    replace (N.eqb c 93) with false by (symmetry; apply N.eqb_neq; intros ->; apply H; right; reflexivity).
    replace (N.eqb c 91) with false by (symmetry; apply N.eqb_neq; intros ->; apply H; left; reflexivity).
    destruct b; apply IHescapes; auto; eapply Hc; exact Hs.
Qed.

Lemma protected_no_final_backslash t t' : protected t t' -> forall r, t' <> r ++ [92%N].
Proof.
  intros [(q & E & ->)|(H & ->)] r; [|apply H]. intros G. apply app_inj_tail in G as (_ & G). discriminate.
Qed.

(** Characters of an escaped text. *)
Lemma escapes_chars b s t : escapes b s t -> forall c, In c t -> In c s \/ c = 92%N.
Proof.
  induction 1; cbn; intros x Hx; try tauto.
  - destruct Hx as [<-|[<-|Hx]]; auto. apply IHescapes in Hx. tauto.
  - destruct Hx as [<-|Hx]; auto. apply IHescapes in Hx. tauto.
  - destruct Hx as [<-|Hx]; auto. apply IHescapes in Hx. tauto.
  - destruct Hx as [<-|Hx]; auto. apply IHescapes in Hx. tauto.
Qed.
