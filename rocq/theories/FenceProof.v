(** Proofs about code fences. *)
From Coq Require Import String List NArith ZArith Bool Arith Lia.
From Verif Require Import Str Fence Atx StrFacts Spec.
Import ListNotations.
Local Open Scope list_scope.

Lemma cm_family_iff p : cm_family p = true <-> commonmark_parser p.
Proof. unfold commonmark_parser. destruct p; cbn; intuition discriminate. Qed.

Lemma rstrip_app_keep p a b : noend p a -> rstrip p (a ++ b) = a ++ rstrip p b.
Proof.
  intros H. destruct (rstrip_split p b) as (suf & E & F & N).
  rewrite E at 1. rewrite app_assoc. apply rstrip_unique; [exact F|].
  destruct (rstrip p b) eqn:R; [rewrite app_nil_r; exact H|].
  apply noend_app_r; [discriminate|exact N].
Qed.

Lemma nostart_repeat p c n rest : p c = false -> 1 <= n -> nostart p (repeat c n ++ rest).
Proof. destruct n; [lia|]. cbn. auto. Qed.
Lemma noend_repeat p c n : p c = false -> noend p (repeat c n).
Proof. intros H. unfold noend. rewrite rev_repeat. destruct n; cbn; auto. Qed.

(** Splitting off the indentation. *)
Lemma indent_split line :
  exists r, line = repeat 32%N (leading 32 line) ++ r /\ hd_error r <> Some 32%N
            /\ lstrip (N.eqb cSP) line = r.
Proof.
  destruct (leading_split 32 line) as (r & H & N). exists r. split; [exact H|]. split; [exact N|].
  rewrite H at 1. apply lstrip_unique.
  - apply Forall_repeat. reflexivity.
  - destruct r as [|x r]; cbn in *; [exact I|]. apply N.eqb_neq. unfold cSP. congruence.
Qed.
Lemma indent_known ind r :
  hd_error r <> Some 32%N ->
  leading 32 (repeat 32%N ind ++ r) = ind /\ lstrip (N.eqb cSP) (repeat 32%N ind ++ r) = r.
Proof.
  intros H. split; [apply leading_unique; exact H|]. apply lstrip_unique.
  - apply Forall_repeat. reflexivity.
  - destruct r as [|x r]; cbn in *; [exact I|]. apply N.eqb_neq. unfold cSP. congruence.
Qed.
Lemma indent_valid line : is_valid_code_fence_indent Github line = (leading 32 line <=? 3).
Proof. reflexivity. Qed.
Global Opaque is_valid_code_fence_indent.

Lemma is_opening_shape p line fence :
  cm_family p = true ->
  is_opening_code_fence p line = Some fence ->
  exists c n, fence = repeat c n /\ opening_fence_line line c n.
Proof.
  intros Hp. unfold is_opening_code_fence. rewrite Hp, indent_valid.
  destruct (indent_split line) as (r & Hl & Hr & Hs). rewrite Hs.
  destruct (leading 32 line <=? 3) eqn:Hind; cbn [negb]; [|discriminate].
  apply Nat.leb_le in Hind.
  destruct (rstrip_split (N.eqb cLF) r) as (suf & E & F & _).
  set (r' := rstrip (N.eqb cLF) r) in *.
  destruct (startswith _ r' || startswith _ r') eqn:Hst; [|discriminate].
  assert (Hc : exists c t, (c = 96 \/ c = 126)%N /\ r' = repeat c 3 ++ t).
  { apply orb_true_iff in Hst as [H|H]; apply startswith_iff in H as (t & H); rewrite H.
    - exists 96%N, t. auto.
    - exists 126%N, t. auto. }
  destruct Hc as (c & t & Hc & Hr'). 
  replace (hd 0%N r') with c by (rewrite Hr'; reflexivity).
  destruct (leading_split c r') as (info & Hi & Hh).
  set (n := leading c r') in *.
  assert (Hn : 3 <= n).
  { subst n. rewrite Hr'. rewrite leading_span. cbn. rewrite N.eqb_refl. lia. }
  replace (skipn n r') with info by (rewrite Hi at 1; symmetry; apply skipn_repeat_app).
  replace (firstn n r') with (repeat c n) by (rewrite Hi at 1; symmetry; apply firstn_repeat_app).
  destruct (cin cTICK info && negb (N.eqb c cTILDE)) eqn:Hbt; [discriminate|].
  intros H. injection H as <-. exists c, n. split; [reflexivity|].
  exists (leading 32 line), (info ++ suf). split.
  { rewrite Hl at 1. f_equal. rewrite E, Hi, app_assoc. reflexivity. }
  split; [exact Hind|]. split; [exact Hn|].
  apply Forall_eqb_repeat' in F.
  destruct Hc as [-> | ->]; [left|right]; split; try reflexivity.
  - cbn in Hbt. rewrite andb_true_r in Hbt. apply cin_not_In in Hbt.
    rewrite in_app_iff. intros [H|H]; [contradiction|]. rewrite F in H. apply repeat_spec in H. discriminate.
  - destruct info as [|x info]; [|exact Hh]. cbn. rewrite F. destruct suf; cbn; discriminate.
Qed.

Lemma is_opening_complete p line c n :
  cm_family p = true -> opening_fence_line line c n ->
  is_opening_code_fence p line = Some (repeat c n).
Proof.
  intros Hp (ind & info & -> & Hind & Hn & Hc).
  assert (Hc' : c = 96%N \/ c = 126%N) by intuition.
  unfold is_opening_code_fence. rewrite Hp, indent_valid.
  assert (Hh : hd_error (repeat c n ++ info) <> Some 32%N).
  { destruct n; [lia|]. cbn. intuition congruence. }
  destruct (indent_known ind _ Hh) as (-> & ->).
  apply Nat.leb_le in Hind. rewrite Hind. cbn [negb].
  rewrite rstrip_app_keep by (apply noend_repeat; destruct Hc'; subst; reflexivity).
  destruct (rstrip_split (N.eqb cLF) info) as (suf & E & F & _).
  set (info' := rstrip (N.eqb cLF) info) in *.
  replace (startswith _ (repeat c n ++ info') || startswith _ (repeat c n ++ info')) with true.
  2:{ symmetry. apply orb_true_iff. destruct n as [|[|[|n]]]; [lia|lia|lia|].
      destruct Hc' as [-> | ->]; [left|right]; reflexivity. }
  replace (hd 0%N (repeat c n ++ info')) with c by (destruct n; [lia|reflexivity]).
  assert (Hi : hd_error info' <> Some c).
  { destruct info' as [|x i]; [discriminate|]. cbn. intros H. injection H as ->.
    destruct Hc as [(-> & H)|(-> & H)].
    - apply H. rewrite E. left. reflexivity.
    - apply H. rewrite E. reflexivity. }
  rewrite leading_unique by exact Hi. rewrite skipn_repeat_app, firstn_repeat_app.
  replace (cin cTICK info' && negb (N.eqb c cTILDE)) with false; [reflexivity|].
  symmetry. destruct Hc as [(-> & H)|(-> & H)]; [|apply andb_false_r].
  cbn. rewrite andb_true_r. apply cin_not_In. intros G. apply H. rewrite E. apply in_app_iff. auto.
Qed.

Lemma is_opening_iff p line fence :
  commonmark_parser p ->
  (is_opening_code_fence p line = Some fence <->
   exists c n, fence = repeat c n /\ opening_fence_line line c n).
Proof.
  intros Hp. apply cm_family_iff in Hp. split; [apply is_opening_shape; exact Hp|].
  intros (c & n & -> & H). apply is_opening_complete; assumption.
Qed.

Lemma is_opening_other p line : ~ commonmark_parser p -> is_opening_code_fence p line = None.
Proof.
  intros H. unfold is_opening_code_fence. destruct (cm_family p) eqn:E; [|reflexivity].
  apply cm_family_iff in E. contradiction.
Qed.

(** ** Closing fences *)
Definition blankb (p : parser) (c : N) : bool :=
  N.eqb c cSP || (negb (gfm p) && N.eqb c cTAB).
Lemma blankb_iff p c : blankb p c = true <-> blank p c.
Proof.
  unfold blankb, blank, cSP, cTAB. rewrite orb_true_iff, andb_true_iff, !N.eqb_eq, negb_true_iff.
  destruct p; cbn; intuition congruence.
Qed.
Lemma blankb_not p c : blankb p c = false <-> ~ blank p c.
Proof. rewrite <- blankb_iff. destruct (blankb p c); intuition congruence. Qed.

Definition close_blank (p : parser) (c : N) : bool :=
  N.eqb c cSP || N.eqb c cLF || (negb (gfm p) && N.eqb c cTAB).
Lemma close_blank_iff p c : close_blank p c = true <-> blank p c \/ c = 10%N.
Proof.
  unfold close_blank, blank, cSP, cTAB, cLF.
  rewrite !orb_true_iff, andb_true_iff, !N.eqb_eq, negb_true_iff.
  destruct p; cbn; intuition congruence.
Qed.

Lemma all_same_repeat c n : all_same (repeat c n) = true.
Proof. apply all_same_iff. exists c, n. reflexivity. Qed.

Lemma is_closing_fence p line c n e :
  cm_family p = true -> (c = 96 \/ c = 126)%N -> 3 <= n ->
  is_closing_code_fence p line (repeat c n) e =
  (leading 32 line <=? 3) &&
  (e || (let l := lstrip (N.eqb cSP) line in
         startswith (repeat c n) l &&
         (let l := rstrip (close_blank p) l in (n <=? length l) && all_same l))).
Proof.
  intros Hp Hc Hn. unfold is_closing_code_fence. rewrite Hp, indent_valid.
  destruct (leading 32 line <=? 3); cbn [negb andb]; [|reflexivity].
  assert (E1 : lstrip (N.eqb cSP) (repeat c n) = repeat c n).
  { apply lstrip_id. destruct n; [lia|]. cbn. destruct Hc; subst; reflexivity. }
  assert (E2 : rstrip (fun x => N.eqb x cSP || N.eqb x cLF) (repeat c n) = repeat c n).
  { apply rstrip_id. apply noend_repeat. destruct Hc; subst; reflexivity. }
  cbv zeta. rewrite E1, E2, all_same_repeat, repeat_length.
  replace (startswith [cTICK] (repeat c n) || startswith [cTILDE] (repeat c n)) with true.
  2:{ destruct n; [lia|]. destruct Hc; subst; reflexivity. }
  cbn [negb]. replace (n <? 3) with false by (symmetry; apply Nat.ltb_ge; exact Hn).
  destruct e; [reflexivity|]. cbn [orb].
  destruct (startswith (repeat c n) (lstrip (N.eqb cSP) line)); cbn [negb andb]; [|reflexivity].
  change (fun c0 : N => N.eqb c0 cSP || N.eqb c0 cLF || negb (gfm p) && N.eqb c0 cTAB)
    with (close_blank p).
  destruct (length (rstrip (close_blank p) (lstrip (N.eqb cSP) line)) <? n) eqn:L.
  - apply Nat.ltb_lt in L. replace (n <=? _) with false; [reflexivity|].
    symmetry. apply Nat.leb_gt. exact L.
  - apply Nat.ltb_ge in L. replace (n <=? _) with true; [reflexivity|].
    symmetry. apply Nat.leb_le. exact L.
Qed.

Lemma is_closing_iff p line c n :
  commonmark_parser p -> (c = 96 \/ c = 126)%N -> 3 <= n ->
  (is_closing_code_fence p line (repeat c n) false = true <-> closing_fence_line p line c n).
Proof.
  intros Hp Hc Hn. apply cm_family_iff in Hp. rewrite is_closing_fence by assumption. cbn [orb].
  cbv zeta. split.
  - intros H. apply andb_true_iff in H as (Hi & H). apply andb_true_iff in H as (Hst & H).
    apply andb_true_iff in H as (Hlen & Hs). apply Nat.leb_le in Hi, Hlen.
    destruct (indent_split line) as (r & Hl & Hr & Hs'). rewrite Hs' in *.
    destruct (rstrip_split (close_blank p) r) as (suf & E & F & _).
    set (r' := rstrip (close_blank p) r) in *.
    apply all_same_iff in Hs as (d & m & Hd).
    exists (leading 32 line), m, suf. rewrite Hd, repeat_length in Hlen.
    apply startswith_iff in Hst as (t & Ht).
    assert (d = c).
    { rewrite E, Hd in Ht. destruct n; [lia|]. destruct m; [lia|]. cbn in Ht. congruence. }
    subst d. repeat split.
    + rewrite Hl at 1. f_equal. rewrite E, Hd. reflexivity.
    + exact Hi.
    + exact Hlen.
    + eapply Forall_impl; [|exact F]. intros a Ha. apply close_blank_iff. exact Ha.
  - intros (ind & m & tail & -> & Hind & Hm & F).
    assert (Hh : hd_error (repeat c m ++ tail) <> Some 32%N).
    { destruct m; [lia|]. cbn. intuition congruence. }
    destruct (indent_known ind _ Hh) as (-> & ->).
    apply Nat.leb_le in Hind. rewrite Hind. cbn [andb].
    assert (F' : Forall (fun x => close_blank p x = true) tail).
    { eapply Forall_impl; [|exact F]. intros a. apply close_blank_iff. }
    assert (Hcb : close_blank p c = false).
    { unfold close_blank, cSP, cLF, cTAB. destruct Hc; subst; cbn; destruct (gfm p); reflexivity. }
    rewrite rstrip_unique; [|exact F'|apply noend_repeat; exact Hcb].
    rewrite repeat_length, all_same_repeat, andb_true_r.
    apply andb_true_iff. split.
    + apply startswith_iff. exists (repeat c (m - n) ++ tail).
      rewrite app_assoc, <- repeat_app. repeat f_equal. lia.
    + apply Nat.leb_le. exact Hm.
Qed.

(** At the end of the document every line with at most three spaces "closes" the block. *)
Lemma is_closing_end p line c n :
  commonmark_parser p -> (c = 96 \/ c = 126)%N -> 3 <= n ->
  (is_closing_code_fence p line (repeat c n) true = true <->
   exists ind r, line = repeat 32%N ind ++ r /\ ind <= 3 /\ hd_error r <> Some 32%N).
Proof.
  intros Hp Hc Hn. apply cm_family_iff in Hp. rewrite is_closing_fence by assumption. cbn [orb].
  rewrite andb_true_r, Nat.leb_le. split.
  - intros H. destruct (indent_split line) as (r & Hl & Hr & _). exists (leading 32 line), r. auto.
  - intros (ind & r & -> & H & Hr). rewrite leading_unique; assumption.
Qed.

Lemma is_closing_other p line f e : ~ commonmark_parser p -> is_closing_code_fence p line f e = false.
Proof.
  intros H. unfold is_closing_code_fence. destruct (cm_family p) eqn:E; [|reflexivity].
  apply cm_family_iff in E. contradiction.
Qed.

(** Every closing line is also an opening line, hence never a heading. *)
Lemma closing_is_opening p line c n :
  (c = 96 \/ c = 126)%N -> 3 <= n -> closing_fence_line p line c n ->
  exists m, opening_fence_line line c m.
Proof.
  intros Hc Hn (ind & m & tail & -> & Hi & Hm & F).
  exists m. exists ind, tail. repeat split; try lia.
  assert (H : forall x, In x tail -> x <> c).
  { rewrite Forall_forall in F. intros x Hx. specialize (F x Hx). unfold blank in F.
    intuition congruence. }
  destruct Hc as [-> | ->]; [left|right]; split; auto.
  - intros G. apply (H _ G). reflexivity.
  - destruct tail; cbn; [discriminate|]. intros G. injection G as ->. apply (H 126%N); cbn; auto.
Qed.
