(** The matcher agrees with the declarative meaning of regular expressions. *)
From Coq Require Import List NArith Bool Arith Lia.
From Verif Require Import Str Regex RegexSpec StrFacts.
Import ListNotations.

Lemma M_progress r : forall pv s pv' s', M r pv s pv' s' -> (pv' = pv /\ s' = s) \/ length s' < length s.
Proof.
  induction r as [p| |a IHa b IHb|a IHa b IHb|a IHa|a IHa|w]; cbn [M]; intros pv s pv' s' H.
  - destruct H as (x & -> & _ & ->). right. cbn. lia.
  - tauto.
  - destruct H as (pv1 & s1 & A & B). apply IHa in A. apply IHb in B.
    destruct A as [(-> & ->)|A]; [exact B|]. destruct B as [(-> & ->)|B]; [auto|]. right. lia.
  - destruct H; auto.
  - induction H as [|pv s pv1 s1 pv2 s2 A B IH]; [auto|]. apply IHa in A.
    destruct A as [(-> & ->)|A]; [exact IH|]. destruct IH as [(-> & ->)|IH]; [auto|]. right. lia.
  - tauto.
  - tauto.
Qed.
Lemma M_suffix r : forall pv s pv' s', M r pv s pv' s' -> exists u, s = u ++ s'.
Proof.
  induction r as [p| |a IHa b IHb|a IHa b IHb|a IHa|a IHa|w]; cbn [M]; intros pv s pv' s' H.
  - destruct H as (x & -> & _). exists [x]. reflexivity.
  - destruct H as (_ & ->). exists []. reflexivity.
  - destruct H as (pv1 & s1 & A & B). apply IHa in A as (u & ->). apply IHb in B as (v & ->). exists (u ++ v). apply app_assoc.
  - destruct H as [H|H]; eauto.
  - induction H as [|pv s pv1 s1 pv2 s2 A B IH]; [exists []; reflexivity|]. apply IHa in A as (u & ->). destruct IH as (v & ->).
    exists (u ++ v). apply app_assoc.
  - destruct H as (_ & -> & _). exists []. reflexivity.
  - destruct H as (_ & -> & _). exists []. reflexivity.
Qed.

Definition star_loop (a : re) (k : option N -> str -> option str) :=
  fix loop (n : nat) (prev : option N) (s : str) {struct n} : option str :=
         match (match n with
                | O => None
                | S n' => rmatch a prev s
                            (fun pv s' => if length s' <? length s then loop n' pv s' else None)
                end) with
         | Some v => Some v
         | None => k prev s
         end.
Lemma rmatch_star a pv s k : rmatch (RStar a) pv s k = star_loop a k (length s) pv s.
Proof. reflexivity. Qed.

Lemma rmatch_sound_complete r :
  (forall pv s k v, rmatch r pv s k = Some v -> exists pv' s', M r pv s pv' s' /\ k pv' s' = Some v) /\
  (forall pv s k pv' s', M r pv s pv' s' -> k pv' s' <> None -> rmatch r pv s k <> None).
Proof.
  induction r as [p| |a (Sa & Ca) b (Sb & Cb)|a (Sa & Ca) b (Sb & Cb)|a (Sa & Ca)|a (Sa & Ca)|w].
  - split; cbn.
    + intros pv [|x s] k v H; [discriminate|]. destruct (p x) eqn:E; [|discriminate]. eauto 10.
    + intros pv s k pv' s' (x & -> & E & ->) H. rewrite E. exact H.
  - split; cbn; [eauto|]. intros pv s k pv' s' (-> & ->) H. exact H.
  - split; cbn.
    + intros pv s k v H. apply Sa in H as (pv1 & s1 & A & H). apply Sb in H as (pv2 & s2 & B & H). eauto 10.
    + intros pv s k pv' s' (pv1 & s1 & A & B) H. eapply Ca; [exact A|]. eapply Cb; [exact B|exact H].
  - split; cbn.
    + intros pv s k v H. destruct (rmatch a pv s k) eqn:E.
      * injection H as ->. apply Sa in E as (pv1 & s1 & A & E). eauto 10.
      * apply Sb in H as (pv1 & s1 & B & H). eauto 10.
    + intros pv s k pv' s' [A|B] H.
      * specialize (Ca _ _ _ _ _ A H). destruct (rmatch a pv s k); congruence.
      * destruct (rmatch a pv s k); [congruence|]. eapply Cb; eauto.
  - split.
    + intros pv s k v. rewrite rmatch_star. generalize (length s) as n. intros n. revert pv s.
      induction n as [|n IH]; intros pv s H; cbn [star_loop] in H.
      * exists pv, s. split; [constructor|exact H].
      * destruct (rmatch a pv s _) eqn:E.
        -- injection H as ->. apply Sa in E as (pv1 & s1 & A & E). cbn beta in E. destruct (length s1 <? length s); [|discriminate].
           change (star_loop a k n pv1 s1 = Some v) in E. apply IH in E as (pv2 & s2 & B & E). exists pv2, s2. split; [|exact E]. eapply star_more; eauto.
        -- exists pv, s. split; [constructor|exact H].
    + intros pv s k pv' s' H Hk. rewrite rmatch_star. cbn [M] in H.
      assert (G : forall n, length s <= n -> star_loop a k n pv s <> None); [|apply G; lia].
      induction H as [pv s|pv s pv1 s1 pv2 s2 A B IH]; intros n Hn.
      * destruct n; cbn; [exact Hk|]. destruct (rmatch a pv s _); [discriminate|exact Hk].
      * specialize (IH Hk). destruct (M_progress _ _ _ _ _ A) as [(-> & ->)|Hlt]; [apply IH; exact Hn|].
        destruct n as [|n]; [lia|]. cbn [star_loop].
        assert (G : rmatch a pv s (fun pv0 s' => if length s' <? length s then star_loop a k n pv0 s' else None) <> None).
        { eapply Ca; [exact A|]. cbn beta. replace (length s1 <? length s) with true by (symmetry; apply Nat.ltb_lt; exact Hlt). apply IH. lia. }
        fold (star_loop a k). destruct (rmatch a pv s _); congruence.
  - split; cbn.
    + intros pv s k v H. destruct (rmatch a pv s _) eqn:E; [discriminate|]. exists pv, s. split; [|exact H]. split; [reflexivity|]. split; [reflexivity|].
      intros pv1 s1 A. apply (Ca _ _ (fun _ s' => Some s') _ _ A); [discriminate|exact E].
    + intros pv s k pv' s' (-> & -> & A) H. destruct (rmatch a pv s _) eqn:E; [|exact H].
      apply Sa in E as (pv1 & s1 & B & _). destruct (A _ _ B).
  - split; cbn.
    + intros pv s k v H. destruct (at_boundary w pv s) eqn:E; [|discriminate]. eauto 10.
    + intros pv s k pv' s' (-> & -> & E) H. rewrite E. exact H.
Qed.
Lemma rmatch_sound r pv s k v : rmatch r pv s k = Some v -> exists pv' s', M r pv s pv' s' /\ k pv' s' = Some v.
Proof. apply rmatch_sound_complete. Qed.
Lemma rmatch_complete r pv s k pv' s' : M r pv s pv' s' -> k pv' s' <> None -> rmatch r pv s k <> None.
Proof. apply rmatch_sound_complete. Qed.

Lemma fullmatch_iff r s : fullmatch r s = true <-> exists pv', M r None s pv' [].
Proof.
  unfold fullmatch. destruct (rmatch r None s _) eqn:E.
  - apply rmatch_sound in E as (pv' & s' & A & H). destruct s'; [|discriminate]. split; eauto.
  - split; [discriminate|]. intros (pv' & A). exfalso. refine (rmatch_complete _ _ _ _ _ _ A _ E). discriminate.
Qed.


(** Simple expressions. *)
Lemma M_chr c pv s pv' s' : M (RChr c) pv s pv' s' <-> s = c :: s' /\ pv' = Some c.
Proof.
  cbn. split.
  - intros (x & -> & H & ->). apply N.eqb_eq in H. subst. auto.
  - intros (-> & ->). exists c. rewrite N.eqb_refl. auto.
Qed.
Lemma last_shift {A} (u : list A) : forall x d, last (x :: u) d = last u x.
Proof. induction u as [|y u IH]; intros x d; [reflexivity|]. change (last (y :: u) d = last (y :: u) x). rewrite !IH. reflexivity. Qed.
Lemma star_set p pv s pv' s' : star (M (RSet p)) pv s pv' s' <->
  exists u, s = u ++ s' /\ Forall (fun x => p x = true) u /\ pv' = last (map Some u) pv.
Proof.
  split.
  - induction 1 as [pv s|pv s pv1 s1 pv2 s2 A B IH].
    + exists []. auto.
    + cbn in A. destruct A as (x & -> & Hx & ->). destruct IH as (u & -> & F & ->). exists (x :: u). split; [reflexivity|]. split; [constructor; assumption|].
      cbn [map]. rewrite last_shift. reflexivity.
  - intros (u & -> & F & ->). revert pv. induction F as [|x u Hx F IH]; intros pv; [constructor|].
    eapply star_more; [exists x; split; [reflexivity|]; split; [exact Hx|reflexivity]|].
    cbn [map]. rewrite last_shift. apply IH.
Qed.
