(** Proofs about newline splitting and ATX headings. *)
From Coq Require Import String List NArith ZArith Bool Arith Lia.
From Verif Require Import Str Fence Atx StrFacts Spec FenceProof.
Import ListNotations.
Local Open Scope list_scope.

(** ** Newline splitting *)

Lemma split_char_cons c s : exists p ps, split_char c s = p :: ps.
Proof.
  induction s as [|x s (p & ps & IH)]; cbn; [eauto|].
  destruct (N.eqb x c); [eauto|]. rewrite IH. eauto.
Qed.
Lemma split_char_join c s : join [c] (split_char c s) = s.
Proof.
  induction s as [|x s IH]; cbn; [reflexivity|].
  destruct (split_char_cons c s) as (p & ps & E). rewrite E in *.
  destruct (N.eqb x c) eqn:Ex.
  - apply N.eqb_eq in Ex as ->. cbn. f_equal. exact IH.
  - cbn. destruct ps; cbn in *; f_equal; exact IH.
Qed.
Lemma split_char_pieces c s : forall p, In p (split_char c s) -> ~ In c p /\ forall x, In x p -> In x s.
Proof.
  induction s as [|x s IH]; cbn; intros p H.
  - destruct H as [<-|[]]. cbn. auto.
  - destruct (split_char_cons c s) as (q & qs & E). rewrite E in *.
    destruct (N.eqb x c) eqn:Ex.
    + destruct H as [<-|H]; [cbn; tauto|]. destruct (IH p H) as (A & B). split; auto.
    + apply N.eqb_neq in Ex. destruct H as [<-|H].
      * destruct (IH q (or_introl eq_refl)) as (A & B). split.
        -- intros [G|G]; [congruence|contradiction].
        -- intros y [->|G]; auto.
      * destruct (IH p (or_intror H)) as (A & B). split; auto.
Qed.
Lemma split_char_none c s : ~ In c s -> split_char c s = [s].
Proof.
  induction s as [|x s IH]; cbn; intros H; [reflexivity|].
  rewrite IH by tauto. destruct (N.eqb x c) eqn:E; [|reflexivity].
  apply N.eqb_eq in E. subst. tauto.
Qed.

Lemma normalized_model s : normalized s (replace_char cCR cLF (replace_crlf s)).
Proof.
  remember (length s) as n eqn:Hn. revert s Hn.
  induction n as [n IH] using (well_founded_induction lt_wf). intros s ->.
  destruct s as [|x s]; [constructor|]. cbn [replace_crlf].
  destruct (N.eqb x cCR) eqn:Ex.
  - apply N.eqb_eq in Ex. unfold cCR in Ex. subst x. destruct s as [|y s].
    + cbn. constructor; [discriminate|constructor].
    + destruct (N.eqb y cLF) eqn:Ey.
      * apply N.eqb_eq in Ey. unfold cLF in Ey. subst y. cbn. constructor.
        apply (IH (length s)); [cbn; lia|reflexivity].
      * apply N.eqb_neq in Ey. constructor; [cbn; intros H; injection H as H; contradiction|].
        apply (IH (length (y :: s))); [cbn; lia|reflexivity].
  - apply N.eqb_neq in Ex. cbn [replace_char map].
    apply N.eqb_neq in Ex as Ex'. rewrite Ex'. constructor; [exact Ex|].
    apply (IH (length s)); [cbn; lia|reflexivity].
Qed.
Lemma normalized_no_cr s t : normalized s t -> ~ In 13%N t.
Proof.
  induction 1; cbn; try tauto; intros [H1|H1]; try discriminate; tauto.
Qed.
Lemma normalized_same s t : normalized s t -> ~ In 13%N s -> t = s.
Proof.
  induction 1; cbn; intros G; try tauto; try (exfalso; apply G; auto; fail).
  f_equal. apply IHnormalized. tauto.
Qed.

Lemma split_newlines_spec s :
  exists t pre suf,
    normalized s t /\ t = repeat 10%N pre ++ join [10%N] (replace_and_split_newlines s) ++ repeat 10%N suf
    /\ hd_error (join [10%N] (replace_and_split_newlines s)) <> Some 10%N
    /\ hd_error (rev (join [10%N] (replace_and_split_newlines s))) <> Some 10%N
    /\ (forall p, In p (replace_and_split_newlines s) -> single_line p)
    /\ replace_and_split_newlines s <> [].
Proof.
  set (t := replace_char cCR cLF (replace_crlf s)).
  destruct (strip_split (N.eqb cLF) t) as (a & b & E & Fa & Fb & Ns & Ne).
  exists t, (length a), (length b).
  assert (Hn : normalized s t) by apply normalized_model.
  unfold replace_and_split_newlines. fold t. rewrite (split_char_join cLF : forall x, join [10%N] (split_char cLF x) = x).
  apply Forall_eqb_repeat' in Fa, Fb.
  split; [exact Hn|]. split; [unfold cLF in *; rewrite <- Fa, <- Fb; exact E|].
  assert (Hh : forall l, nostart (N.eqb cLF) l -> hd_error l <> Some 10%N).
  { intros [|x l]; cbn [nostart hd_error]; [discriminate|]. intros H G. injection G as ->. discriminate. }
  split; [apply Hh; exact Ns|]. split; [apply Hh; exact Ne|]. split.
  - intros p Hp. destruct (split_char_pieces _ _ _ Hp) as (A & B). split; [exact A|].
    intros G. apply B in G. apply (normalized_no_cr _ _ Hn). rewrite E.
    rewrite !in_app_iff. auto.
  - intros G. destruct (split_char_cons cLF (strip (N.eqb cLF) t)) as (q & qs & E'). congruence.
Qed.

Lemma split_newlines_single s k :
  single_line s -> replace_and_split_newlines (s ++ repeat 10%N k) = [s].
Proof.
  intros (H1 & H2). unfold replace_and_split_newlines.
  replace (replace_char cCR cLF (replace_crlf (s ++ repeat 10%N k))) with (s ++ repeat 10%N k).
  2:{ symmetry. apply normalized_same; [apply normalized_model|]. rewrite in_app_iff.
      intros [H|H]; [contradiction|]. apply repeat_spec in H. discriminate. }
  replace (strip (N.eqb cLF) (s ++ repeat 10%N k)) with s; [apply split_char_none; exact H1|].
  symmetry. apply (strip_unique (N.eqb cLF) []); auto.
  - apply Forall_repeat. reflexivity.
  - destruct s as [|x s]; cbn [nostart]; [exact I|]. apply N.eqb_neq. intros <-. apply H1. left. reflexivity.
  - unfold noend. destruct (rev s) as [|x r] eqn:E; cbn [nostart]; [exact I|].
    apply N.eqb_neq. intros <-. apply H1. apply in_rev. rewrite E. left. reflexivity.
Qed.

(** ** The closing sequence *)

(** CommonMark content of a heading as a function. *)
Definition cm_text (p : parser) (rest : str) : str :=
  let b := strip (blankb p) rest in
  let t := rstrip (N.eqb cHASH) b in
  match rev t with
  | [] => []
  | c :: _ => if blankb p c then rstrip (blankb p) t else b
  end.

Lemma blankb_hash p : blankb p cHASH = false.
Proof. destruct p; reflexivity. Qed.

Lemma trimmed_iff p t : trimmed_text p t <-> nostart (blankb p) t /\ noend (blankb p) t.
Proof.
  unfold trimmed_text, noend. split.
  - intros (A & B). split.
    + destruct t as [|c t]; cbn [nostart]; [exact I|]. apply blankb_not. eapply A. reflexivity.
    + destruct (rev t) as [|c r] eqn:E; cbn [nostart]; [exact I|]. apply blankb_not.
      apply (B c (rev r)). apply (f_equal (@rev N)) in E. rewrite rev_involutive in E. cbn in E. exact E.
  - intros (A & B). split.
    + intros c r ->. cbn [nostart] in A. apply blankb_not. exact A.
    + intros c r ->. rewrite rev_app_distr in B. cbn [rev app nostart] in B. apply blankb_not. exact B.
Qed.
Lemma blanks_iff p s : blanks p s <-> Forall (fun c => blankb p c = true) s.
Proof.
  unfold blanks. split; intros H; (eapply Forall_impl; [|exact H]); intros a; apply blankb_iff.
Qed.

Lemma rev_match {A} (t : str) (P Q : N -> A) (d : A) c :
  match rev (t ++ [c]) with [] => d | x :: _ => P x end = P c.
Proof. rewrite rev_app_distr. reflexivity. Qed.

Lemma hash_noblank_rstrip p t b : noend (blankb p) t -> blanks p b -> b <> [] ->
  rstrip (blankb p) (t ++ b) = t.
Proof. intros H1 H2 _. apply rstrip_unique; [apply blanks_iff; exact H2|exact H1]. Qed.

Lemma noend_hash_blank p (t : str) b : blankb p b = true -> noend (N.eqb cHASH) (t ++ [b]).
Proof.
  intros H. apply noend_app. apply N.eqb_neq. intros <-. rewrite blankb_hash in H. discriminate.
Qed.

Lemma exists_last_str (s : str) : s <> [] -> exists r c, s = r ++ [c].
Proof. intros H. destruct (exists_last H) as (r & c & E). eauto. Qed.

Lemma noend_last p (r : str) c : noend p (r ++ [c]) -> p c = false.
Proof. apply noend_app. Qed.

Lemma strip_core p b1 t b3 :
  blanks p b1 -> blanks p b3 -> nostart (blankb p) t -> noend (blankb p) t ->
  strip (blankb p) (b1 ++ t ++ b3) = t.
Proof. intros H1 H3 Hs He. apply strip_unique; auto; apply blanks_iff; assumption. Qed.

Lemma content_functional p rest text : heading_content p rest text -> cm_text p rest = text.
Proof.
  intros H. destruct H as [|b1 text b2 n b3 B1 Hb1 T B2 Hb2 Hn B3|b1 text b2 B1 Hb1 T B2 Hh Hc].
  - reflexivity.
  - apply trimmed_iff in T as (Ts & Te). unfold cm_text.
    assert (Hrep : repeat 35%N n <> []) by (destruct n; [lia|discriminate]).
    destruct text as [|c0 text].
    + cbn [app].
      replace (strip (blankb p) (b1 ++ b2 ++ repeat 35%N n ++ b3)) with (repeat 35%N n).
      2:{ symmetry. rewrite app_assoc. apply strip_core; auto.
          - apply Forall_app. split; assumption.
          - destruct n; [lia|]. apply blankb_hash.
          - apply noend_repeat. apply blankb_hash. }
      rewrite rstrip_all by (apply Forall_repeat; reflexivity). reflexivity.
    + destruct Hb2 as [Hb2|Hb2]; [discriminate|].
      replace (strip (blankb p) (b1 ++ (c0 :: text) ++ b2 ++ repeat 35%N n ++ b3))
        with ((c0 :: text) ++ b2 ++ repeat 35%N n).
      2:{ symmetry.
          replace (b1 ++ (c0 :: text) ++ b2 ++ repeat 35%N n ++ b3)
            with (b1 ++ ((c0 :: text) ++ b2 ++ repeat 35%N n) ++ b3)
            by (rewrite <- !app_assoc; reflexivity).
          apply strip_core; auto.
          do 2 (apply noend_app_r; [destruct b2; cbn; destruct n; (lia || discriminate || (intros G; discriminate))|]).
          apply noend_repeat. apply blankb_hash. }
      destruct (exists_last_str b2 Hb2) as (b2' & bl & ->).
      assert (Hbl : blankb p bl = true).
      { apply blankb_iff. unfold blanks in B2. rewrite Forall_app in B2. destruct B2 as (_ & B2).
        inversion B2; assumption. }
      replace (rstrip (N.eqb cHASH) ((c0 :: text) ++ (b2' ++ [bl]) ++ repeat 35%N n))
        with (((c0 :: text) ++ b2') ++ [bl]).
      2:{ rewrite (app_assoc (c0 :: text)). symmetry. rewrite (app_assoc (c0 :: text)). apply rstrip_unique.
          - apply Forall_repeat. reflexivity.
          - apply (noend_hash_blank p). exact Hbl. }
      rewrite rev_app_distr. cbn [rev app]. rewrite Hbl.
      change ((c0 :: (text ++ b2') ++ [bl])) with (((c0 :: text) ++ b2') ++ [bl]).
      rewrite <- app_assoc. apply rstrip_unique; [apply blanks_iff; exact B2|exact Te].
  - apply trimmed_iff in T as (Ts & Te). unfold cm_text.
    rewrite strip_core by assumption.
    destruct (rstrip_split (N.eqb cHASH) text) as (suf & E & F & Nh).
    set (t := rstrip (N.eqb cHASH) text) in *.
    apply Forall_eqb_repeat' in F.
    destruct (rev t) as [|c r] eqn:Er.
    + apply (f_equal (@rev N)) in Er. rewrite rev_involutive in Er. cbn in Er. rewrite Er in E.
      cbn in E. destruct suf as [|x suf]; [rewrite E; reflexivity|].
      exfalso. apply (Hh (length suf)). rewrite E, F. reflexivity.
    + apply (f_equal (@rev N)) in Er. rewrite rev_involutive in Er. cbn in Er.
      destruct (blankb p c) eqn:Ec; [|reflexivity]. exfalso.
      destruct suf as [|x suf].
      * rewrite app_nil_r in E. rewrite E, Er in Te. apply noend_last in Te. congruence.
      * apply (Hc (rev r) c (length suf)); [apply blankb_iff; exact Ec|].
        rewrite E, F, Er. rewrite <- app_assoc. reflexivity.
Qed.

Lemma content_exists p rest :
  (rest = [] \/ exists b r, rest = b :: r /\ blank p b) -> heading_content p rest (cm_text p rest).
Proof.
  intros [-> | (b & r & -> & Hb)]; [constructor|].
  destruct (strip_split (blankb p) (b :: r)) as (b1 & b3 & E & F1 & F3 & Ns & Ne).
  unfold cm_text. set (body := strip (blankb p) (b :: r)) in *. clearbody body.
  apply blanks_iff in F1, F3.
  assert (Hb1 : b1 <> [] \/ body = []).
  { destruct b1; [|left; discriminate]. right. cbn in E. destruct body as [|x body']; [reflexivity|].
    exfalso. cbn in E. injection E as <- _. cbn [nostart] in Ns. apply blankb_not in Ns. contradiction. }
  destruct (rstrip_split (N.eqb cHASH) body) as (suf & Eb & F & Nh).
  set (t := rstrip (N.eqb cHASH) body) in *.
  apply Forall_eqb_repeat' in F. unfold cHASH in F.
  destruct (rev t) as [|c rr] eqn:Er.
  - apply (f_equal (@rev N)) in Er. rewrite rev_involutive in Er. cbn in Er. rewrite Er in Eb. cbn in Eb.
    destruct suf as [|x suf].
    + rewrite Eb in E. cbn in E. rewrite E. 
      pose proof (content_plain p (b1 ++ b3) [] []) as C. rewrite !app_nil_r in C. apply C.
      * apply Forall_app. split; assumption.
      * rewrite <- E. discriminate.
      * apply trimmed_iff. split; exact I.
      * constructor.
      * discriminate.
      * intros [|? ?]; discriminate.
    + destruct Hb1 as [Hb1|Hb1]; [|congruence].
      rewrite E, Eb, F.
      apply (content_closed p b1 [] [] (length (x :: suf)) b3); auto.
      * apply trimmed_iff. split; exact I.
      * constructor.
      * cbn. lia.
  - apply (f_equal (@rev N)) in Er. rewrite rev_involutive in Er. cbn in Er.
    destruct Hb1 as [Hb1|Hb1].
    2:{ exfalso. rewrite Hb1 in Eb. destruct t; [destruct (rev rr); discriminate|discriminate]. }
    destruct (blankb p c) eqn:Ec.
    + destruct suf as [|x suf].
      { exfalso. rewrite app_nil_r in Eb. rewrite Eb, Er in Ne. apply noend_last in Ne. congruence. }
      destruct (rstrip_split (blankb p) t) as (b2 & Et & F2 & Nt).
      set (text := rstrip (blankb p) t) in *. apply blanks_iff in F2.
      assert (Hb2 : b2 <> []).
      { intros ->. rewrite app_nil_r in Et. rewrite <- Et, Er in Nt. apply noend_last in Nt. congruence. }
      rewrite E, Eb, Et, F. rewrite <- !app_assoc.
      apply content_closed; auto.
      * apply trimmed_iff. split; [|exact Nt].
        destruct text as [|y text']; [exact I|]. rewrite Eb, Et in Ns. exact Ns.
      * cbn. lia.
    + rewrite E. apply content_plain; auto.
      * apply trimmed_iff. split; assumption.
      * intros n G. assert (Gt : t = []) by (unfold t; rewrite G; apply rstrip_all; apply Forall_repeat; reflexivity).
        rewrite Gt in Er. destruct (rev rr); discriminate.
      * intros t' b' n Hb' G. assert (Gt : t = t' ++ [b']).
        { unfold t. rewrite G, app_assoc. apply rstrip_unique; [apply Forall_repeat; reflexivity|].
          apply (noend_hash_blank p). apply blankb_iff. exact Hb'. }
        rewrite Gt in Er. apply app_inj_tail in Er as (_ & ->).
        apply blankb_not in Ec. contradiction.
Qed.

Lemma content_unique p rest t1 t2 : heading_content p rest t1 -> heading_content p rest t2 -> t1 = t2.
Proof. intros H1 H2. apply content_functional in H1, H2. congruence. Qed.

(** ** The loop that cuts the closing sequence *)
Definition is_hash (c : N) : bool := N.eqb cHASH c.

Lemma cut_step f p len s h t i lim rounds hrs :
  Forall (fun c => blankb p c = true) s -> Forall (fun c => is_hash c = true) h ->
  nostart (blankb p) (h ++ t) -> nostart is_hash t -> t <> [] -> s ++ h <> [] ->
  i < lim -> rounds <= 1 ->
  cut_closing (S f) (blankb p) len (s ++ h ++ t) i lim rounds hrs =
  cut_closing f (blankb p) len t (i + length s + length h) lim
    (if 0 <? length h then S rounds else rounds) (i + length s).
Proof.
  intros Fs Fh Nb Nh Ht Hsh Hi Hr. cbn [cut_closing].
  apply Nat.ltb_lt in Hi. rewrite Hi.
  assert (Hsp : span_len (blankb p) (s ++ h ++ t) = length s) by (apply span_unique; assumption).
  assert (Hc : exists c r, s ++ h ++ t = c :: r /\ (blankb p c || N.eqb c cHASH) = true).
  { destruct s as [|c s].
    - destruct h as [|c h]; [contradiction|]. exists c, (h ++ t). split; [reflexivity|].
      inversion Fh; subst. unfold is_hash in *. rewrite N.eqb_sym, H1. apply orb_true_r.
    - exists c, (s ++ h ++ t). split; [reflexivity|]. inversion Fs; subst. rewrite H1. reflexivity. }
  destruct Hc as (c & r & E & Hc). rewrite Hsp. rewrite skipn_app_len.
  replace (span_len (N.eqb cHASH) (h ++ t)) with (length h) by (symmetry; apply span_unique; assumption).
  rewrite skipn_app_len. rewrite E. rewrite Hc.
  replace (1 <? rounds) with false by (symmetry; apply Nat.ltb_ge; exact Hr). cbn [negb orb].
  destruct t as [|x t]; [contradiction|]. reflexivity.
Qed.

Lemma cut_stop f p len c t i lim rounds hrs :
  (blankb p c = false /\ is_hash c = false) \/ 2 <= rounds -> i < lim ->
  cut_closing (S f) (blankb p) len (c :: t) i lim rounds hrs =
  Ok (if (hrs <? i) && (0 <? rounds) then len - hrs else len - i).
Proof.
  intros H Hi. cbn [cut_closing]. apply Nat.ltb_lt in Hi. rewrite Hi.
  replace (negb (blankb p c || N.eqb c cHASH) || (1 <? rounds)) with true; [reflexivity|].
  symmetry. destruct H as [(H1 & H2)|H].
  - unfold is_hash in H2. rewrite N.eqb_sym, H2, H1. reflexivity.
  - apply orb_true_iff. right. apply Nat.ltb_lt. lia.
Qed.

Lemma cut_end f p len rest i lim rounds hrs :
  lim <= i -> cut_closing (S f) (blankb p) len rest i lim rounds hrs = Ok 0.
Proof.
  intros H. cbn [cut_closing]. replace (i <? lim) with false; [reflexivity|].
  symmetry. apply Nat.ltb_ge. exact H.
Qed.

Lemma slice_app (pre x y : str) e :
  e = length pre + length x -> slice (pre ++ x ++ y) (length pre) e = x.
Proof.
  intros ->. unfold slice. rewrite skipn_app_len.
  replace (length pre + length x - length pre) with (length x) by lia. apply firstn_app_len.
Qed.
Lemma slice_zero (s : str) a : slice s a 0 = [].
Proof. unfold slice. reflexivity. Qed.

(** What the code reports: the content, except that a content made of hashes only is lost. *)
Definition reported (t : str) : str := if forallb is_hash t then [] else t.

Lemma forallb_hash_app a c : is_hash c = false -> forall b, forallb is_hash (a ++ c :: b) = false.
Proof.
  intros H b. induction a; cbn; [rewrite H; reflexivity|]. rewrite IHa. apply andb_false_r.
Qed.

Lemma cut_closing_correct p (pre b1 body : str) fuel :
  Forall (fun c => blankb p c = true) b1 -> b1 <> [] -> nostart (blankb p) body ->
  3 <= fuel ->
  exists e, cut_closing fuel (blankb p) (length (pre ++ b1 ++ body)) (rev (pre ++ b1 ++ body)) 0
              (length body) 0 0 = Ok e
            /\ slice (pre ++ b1 ++ body) (length (pre ++ b1)) e = reported (cm_text p (b1 ++ body)).
Proof.
  intros Fb Hb Nb Hf. destruct fuel as [|[|[|f]]]; try lia.
  destruct (exists_last_str b1 Hb) as (b1' & bl & Eb1).
  assert (Hbl : blankb p bl = true).
  { rewrite Eb1 in Fb. rewrite Forall_app in Fb. destruct Fb as (_ & Fb). inversion Fb. assumption. }
  set (z := rev (pre ++ b1)).
  assert (Hz : exists z', z = bl :: z').
  { unfold z. rewrite Eb1, app_assoc, rev_app_distr. cbn. eauto. }
  destruct Hz as (z' & Hz).
  assert (Ez : rev (pre ++ b1 ++ body) = rev body ++ z).
  { rewrite app_assoc, rev_app_distr. reflexivity. }
  rewrite Ez.
  assert (Nzh : nostart is_hash z).
  { rewrite Hz. cbn [nostart]. unfold is_hash. apply N.eqb_neq. intros <-. rewrite blankb_hash in Hbl. discriminate. }
  (* the decomposition of the body *)
  destruct (rstrip_split (blankb p) body) as (s1 & E1 & Fs1 & Ne1).
  set (B1 := rstrip (blankb p) body) in *. clearbody B1.
  assert (Hbody : strip (blankb p) (b1 ++ body) = B1).
  { rewrite E1. apply strip_unique; auto. destruct B1; [exact I|]. rewrite E1 in Nb. exact Nb. }
  unfold cm_text. rewrite Hbody.
  destruct (rstrip_split is_hash B1) as (h1 & E2 & Fh1 & Ne2).
  change (rstrip (N.eqb cHASH) B1) with (rstrip is_hash B1). set (t0 := rstrip is_hash B1) in *. clearbody t0.
  assert (Hrs : rev s1 = [] \/ rev s1 <> []) by (destruct (rev s1); [left; reflexivity|right; discriminate]).
  assert (Elen : length (pre ++ b1 ++ body) = length (pre ++ b1) + length body).
  { rewrite !app_length. lia. }
  rewrite Elen. set (n0 := length (pre ++ b1)).
  subst body. subst B1.
  assert (Erev : rev ((t0 ++ h1) ++ s1) = rev s1 ++ rev h1 ++ rev t0).
  { rewrite !rev_app_distr. reflexivity. }
  assert (Frs1 : Forall (fun c => blankb p c = true) (rev s1)) by (apply Forall_rev; exact Fs1).
  assert (Frh1 : Forall (fun c => is_hash c = true) (rev h1)) by (apply Forall_rev; exact Fh1).
  destruct t0 as [|x0 t0'] eqn:Et0.
  { (* all hashes or nothing *)
    cbn [app rev] in *. rewrite app_nil_r in Erev.
    destruct h1 as [|y h1'] eqn:Eh1.
    - (* blank body: it must be empty *)
      destruct s1 as [|y s1'].
      + cbn. eexists. split; [reflexivity|]. apply slice_zero.
      + exfalso. cbn in Nb. inversion Fs1. congruence.
    - rewrite <- Eh1 in *. rewrite Erev.
      rewrite <- app_assoc.
      rewrite cut_step; auto.
      + rewrite cut_end.
        * eexists. split; [reflexivity|]. rewrite slice_zero. reflexivity.
        * rewrite !rev_length, !app_length. lia.
      + (* nostart blank (rev h1 ++ z) *)
        destruct (rev h1) as [|w r] eqn:Er.
        * apply (f_equal (@rev N)) in Er. rewrite rev_involutive in Er. rewrite Eh1 in Er. discriminate.
        * cbn [nostart app]. inversion Frh1; subst. unfold is_hash in H1. apply N.eqb_eq in H1. subst w. apply blankb_hash.
      + rewrite Hz. discriminate.
      + rewrite Eh1. intros G. apply app_eq_nil in G as (_ & G). cbn in G. destruct (rev h1'); discriminate.
      + rewrite Eh1. cbn. rewrite !app_length. cbn. lia. }
  rewrite <- Et0 in *.
  assert (Ht0 : t0 <> []) by (rewrite Et0; discriminate). clear Et0 x0 t0'.
  destruct (exists_last_str t0 Ht0) as (t0' & c & Et0).
  assert (Hch : is_hash c = false) by (rewrite Et0 in Ne2; apply noend_last in Ne2; exact Ne2).
  assert (Hrt0 : rev t0 = c :: rev t0') by (rewrite Et0, rev_app_distr; reflexivity).
  rewrite Hrt0.
  destruct (blankb p c) eqn:Hcb.
  - (* a blank before the hashes: a closing sequence *)
    assert (Hh1 : h1 <> []).
    { intros ->. rewrite app_nil_r in Ne1. rewrite Et0 in Ne1. apply noend_last in Ne1. congruence. }
    destruct (rstrip_split (blankb p) t0) as (s2 & E3 & Fs2 & Ne3).
    set (T := rstrip (blankb p) t0) in *. clearbody T.
    assert (Hs2 : s2 <> []).
    { intros ->. rewrite app_nil_r in E3. rewrite <- E3, Et0 in Ne3. apply noend_last in Ne3. congruence. }
    assert (HT : T <> []).
    { intros ->. cbn in E3. rewrite E3 in Nb. destruct s2; [contradiction|]. cbn in Nb. inversion Fs2. congruence. }
    destruct (rstrip_split is_hash T) as (h2 & E4 & Fh2 & Ne4).
    set (t1 := rstrip is_hash T) in *. clearbody t1.
    assert (Erev2 : rev t0 = rev s2 ++ rev h2 ++ rev t1).
    { rewrite E3, E4, !rev_app_distr. reflexivity. }
    rewrite Erev. rewrite <- !app_assoc. rewrite cut_step; auto.
    + rewrite Erev2. rewrite <- !app_assoc.
      assert (Frh2 : Forall (fun c => is_hash c = true) (rev h2)) by (apply Forall_rev; exact Fh2).
      assert (Hh1l : 1 <= length h1) by (destruct h1; [contradiction|cbn; lia]).
      replace (0 <? length (rev h1)) with true by (symmetry; apply Nat.ltb_lt; rewrite rev_length; lia).
      rewrite cut_step; auto.
      * rewrite !rev_length.
        destruct t1 as [|y t1'] eqn:Et1.
        -- (* two groups of hashes *)
           rewrite cut_end.
           ++ eexists. split; [reflexivity|]. rewrite slice_zero. cbn in E4. subst T.
              unfold reported. replace (forallb is_hash h2) with true; [reflexivity|].
              symmetry. apply forallb_forall. apply Forall_forall. exact Fh2.
           ++ rewrite E3, E4. rewrite !app_length. cbn. lia.
        -- rewrite <- Et1 in *. assert (Ht1 : t1 <> []) by (rewrite Et1; discriminate). clear Et1 y t1'.
           destruct (exists_last_str t1 Ht1) as (t1' & d & Et1).
           assert (Hrt1 : rev t1 = d :: rev t1') by (rewrite Et1, rev_app_distr; reflexivity).
           assert (Hdh : is_hash d = false) by (rewrite Et1 in Ne4; apply noend_last in Ne4; exact Ne4).
           assert (Hlen : length t1 + length h2 + length s2 = length t0).
           { rewrite E3, E4, !app_length. lia. }
           rewrite Hrt1. cbn [app]. rewrite cut_stop.
           ++ eexists. split; [reflexivity|].
              assert (Hfin : forall e, e = n0 + length T ->
                slice (pre ++ b1 ++ t0 ++ h1 ++ s1) n0 e = reported T).
              { intros e He. replace (reported T) with T.
                - rewrite E3. replace (pre ++ b1 ++ (T ++ s2) ++ h1 ++ s1)
                    with ((pre ++ b1) ++ T ++ (s2 ++ h1 ++ s1)) by (rewrite <- !app_assoc; reflexivity).
                  apply slice_app. exact He.
                - unfold reported. rewrite E4, Et1. rewrite <- app_assoc. cbn [app].
                  rewrite forallb_hash_app by exact Hdh. reflexivity. }
              apply Hfin.
              assert (HlT : length T = length t1 + length h2) by (rewrite E4, app_length; reflexivity).
              rewrite !app_length.
              replace (0 <? (if 0 <? length h2 then 2 else 1)) with true by (destruct (0 <? length h2); reflexivity).
              rewrite andb_true_r.
              match goal with |- context [?a <? ?b] => destruct (Nat.ltb_spec a b) end; lia.
           ++ destruct h2 as [|w h2'].
              ** left. split; [|exact Hdh]. rewrite app_nil_r in E4. rewrite E4, Et1 in Ne3. apply noend_last in Ne3. exact Ne3.
              ** right. cbn. lia.
           ++ rewrite !app_length. assert (1 <= length t1) by (destruct t1; [contradiction|cbn; lia]). lia.
      * apply Forall_rev. exact Fs2.
      * (* nostart blank (rev h2 ++ rev t1 ++ z) *)
        assert (G : rev T = rev h2 ++ rev t1) by (rewrite E4, rev_app_distr; reflexivity).
        rewrite app_assoc, <- G. apply nostart_app_l; [|exact Ne3].
        intros G'. apply (f_equal (@rev N)) in G'. rewrite rev_involutive in G'. contradiction.
      * destruct t1 as [|y t1']; [cbn; exact Nzh|]. apply nostart_app_l; [|exact Ne4].
        intros G'. apply (f_equal (@rev N)) in G'. rewrite rev_involutive in G'. discriminate.
      * rewrite Hz. destruct (rev t1); discriminate.
      * intros G. apply app_eq_nil in G as (G & _). apply (f_equal (@rev N)) in G. rewrite rev_involutive in G. contradiction.
      * rewrite !rev_length, !app_length. rewrite Et0, !app_length. cbn. lia.
    + destruct h1 as [|y h1'] eqn:Eh1; [contradiction|].
      destruct (rev (y :: h1')) as [|w r] eqn:Er.
      { apply (f_equal (@rev N)) in Er. rewrite rev_involutive in Er. discriminate. }
      cbn [nostart app]. inversion Frh1; subst. unfold is_hash in H1. apply N.eqb_eq in H1. subst w. apply blankb_hash.
    + rewrite Hrt0. exact Hch.
    + rewrite Hrt0. discriminate.
    + destruct h1 as [|y h1']; [contradiction|]. cbn. intros G. destruct (rev s1); [|discriminate].
      cbn in G. destruct (rev h1'); discriminate.
    + rewrite !app_length, Et0, app_length. cbn. lia.
  - (* no closing sequence *)
    assert (Hfin : forall e, e = n0 + length (t0 ++ h1) ->
              slice (pre ++ b1 ++ t0 ++ h1 ++ s1) n0 e = reported (t0 ++ h1)).
    { intros e He. replace (reported (t0 ++ h1)) with (t0 ++ h1).
      - rewrite (app_assoc pre b1), (app_assoc t0 h1). apply slice_app. exact He.
      - unfold reported. rewrite Et0. rewrite <- app_assoc. cbn [app].
        rewrite forallb_hash_app by exact Hch. reflexivity. }
    destruct (s1 ++ h1) as [|y l] eqn:Esh.
    + apply app_eq_nil in Esh as (-> & ->). rewrite !app_nil_r in *. cbn [rev app] in *.
      rewrite Hrt0. cbn [app]. rewrite cut_stop; auto.
      * eexists. split; [reflexivity|]. rewrite Hfin; [reflexivity|]. cbn. lia.
      * rewrite Et0, app_length. cbn. lia.
    + assert (Hsh : rev s1 ++ rev h1 <> []).
      { intros G. apply app_eq_nil in G as (G1 & G2).
        apply (f_equal (@rev N)) in G1, G2. rewrite rev_involutive in G1, G2. cbn in G1, G2. subst. discriminate. }
      rewrite Erev. rewrite <- !app_assoc. rewrite cut_step; auto.
      * rewrite Hrt0. cbn [app]. rewrite cut_stop; auto.
        -- eexists. split; [reflexivity|]. apply Hfin. rewrite !rev_length, !app_length.
           destruct h1 as [|w h1'].
           ++ replace (0 + length s1 <? 0 + length s1 + length []) with false by (symmetry; apply Nat.ltb_ge; cbn; lia).
              cbn [andb length]. lia.
           ++ replace (0 + length s1 <? 0 + length s1 + length (w :: h1')) with true by (symmetry; apply Nat.ltb_lt; cbn; lia).
              cbn [andb length Nat.ltb Nat.leb]. lia.
        -- rewrite !rev_length, !app_length, Et0, app_length. cbn. lia.
      * assert (G : rev (t0 ++ h1) = rev h1 ++ rev t0) by apply rev_app_distr.
        rewrite app_assoc, <- G. apply nostart_app_l; [|exact Ne1].
        intros G'. apply (f_equal (@rev N)) in G'. rewrite rev_involutive in G'. cbn in G'.
        apply app_eq_nil in G' as (G' & _). contradiction.
      * rewrite Hrt0. exact Hch.
      * rewrite Hrt0. discriminate.
      * rewrite !app_length, Et0, app_length. cbn. lia.
Qed.

(** ** One heading line *)
Lemma atx_line_shape p line level rest :
  atx_line p line level rest ->
  exists ind, leading cSP line = ind /\ ind <= 3 /\ 1 <= level <= 6
    /\ leading cHASH (skipn ind line) = level /\ skipn level (skipn ind line) = rest
    /\ line = repeat cSP ind ++ repeat cHASH level ++ rest
    /\ (rest = [] \/ exists b r, rest = b :: r /\ blankb p b = true).
Proof.
  intros (ind & -> & Hi & Hl & Hr). exists ind.
  assert (Hh : hd_error (repeat 35%N level ++ rest) <> Some 32%N).
  { destruct level; [lia|]. cbn. discriminate. }
  assert (Hh2 : hd_error rest <> Some 35%N).
  { destruct Hr as [-> | (b & r & -> & Hb)]; [discriminate|]. cbn. intros H. injection H as ->.
    unfold blank in Hb. destruct Hb as [Hb|(Hb & _)]; discriminate. }
  unfold cSP, cHASH. rewrite leading_unique by exact Hh. rewrite skipn_repeat_app.
  rewrite leading_unique by exact Hh2. rewrite skipn_repeat_app.
  repeat split; try lia; auto.
  destruct Hr as [-> | (b & r & -> & Hb)]; [left; reflexivity|]. right. exists b, r.
  split; [reflexivity|]. apply blankb_iff. exact Hb.
Qed.

Definition sees (keep : Z) (vis : bool) (level : nat) : bool :=
  if (Z.of_nat level >? keep)%Z then false else vis.

Lemma atx_cm_heading p keep no_links vis line level rest :
  atx_line p line level rest ->
  atx_cm p keep no_links vis line =
  bind (if no_links then Ok (reported (cm_text p rest)) else link_label (reported (cm_text p rest)))
    (fun t => Ok (Some (mkHeading level t (sees keep vis level)), sees keep vis level)).
Proof.
  intros H. apply atx_line_shape in H as (ind & H1 & H2 & H3 & H4 & H5 & H6 & H7).
  unfold atx_cm.
  destruct line as [|c0 line'] eqn:El.
  { exfalso. destruct ind; cbn in H6; [destruct level; [lia|]|]; discriminate. }
  rewrite <- El in *. 
  replace (N.eqb c0 cBS) with false.
  2:{ symmetry. apply N.eqb_neq. intros ->. rewrite El in H6.
      destruct ind; cbn in H6; [destruct level; [lia|]|]; discriminate. }
  rewrite H1. replace (3 <? ind) with false by (symmetry; apply Nat.ltb_ge; lia).
  cbv zeta. rewrite H4, H5.
  replace ((6 <? level) || (level =? 0)) with false.
  2:{ symmetry. apply orb_false_iff. split; [apply Nat.ltb_ge; lia|apply Nat.eqb_neq; lia]. }
  fold (sees keep vis level).
  change (fun c => N.eqb c cSP || negb (gfm p) && N.eqb c cTAB) with (blankb p).
  destruct H7 as [-> | (b & r & Er & Hb)].
  - cbn. reflexivity.
  - rewrite Er. cbn [skipn]. 
    change (N.eqb b cSP || negb (gfm p) && N.eqb b cTAB) with (blankb p b). rewrite Hb.
    destruct (span_split (blankb p) r) as (b1' & body & E1 & E2 & E3 & E4 & _ & _).
    rewrite <- E2.
    assert (Eline : line = (repeat cSP ind ++ repeat cHASH level) ++ (b :: b1') ++ body).
    { rewrite H6, Er, E1. rewrite <- !app_assoc. reflexivity. }
    assert (Elen : ind + level + 1 + length b1' = length ((repeat cSP ind ++ repeat cHASH level) ++ b :: b1')).
    { rewrite !app_length, !repeat_length. cbn. lia. }
    rewrite Elen.
    replace (length line - length ((repeat cSP ind ++ repeat cHASH level) ++ b :: b1')) with (length body).
    2:{ rewrite Eline. rewrite !app_length. lia. }
    rewrite Eline.
    destruct (cut_closing_correct p (repeat cSP ind ++ repeat cHASH level) (b :: b1') body
                (S (length ((repeat cSP ind ++ repeat cHASH level) ++ (b :: b1') ++ body)))) as (e & He1 & He2).
    + constructor; assumption.
    + discriminate.
    + exact E4.
    + rewrite !app_length, !repeat_length. cbn. lia.
    + rewrite He1. cbn [bind]. rewrite He2.
      replace ((b :: b1') ++ body) with (b :: r) by (rewrite E1; reflexivity).
      destruct no_links; reflexivity.
Qed.

Lemma atx_cm_none p keep no_links vis line :
  (~ exists level rest, atx_line p line level rest) ->
  exists vis', atx_cm p keep no_links vis line = Ok (None, vis').
Proof.
  intros H. unfold atx_cm. destruct line as [|c0 line'] eqn:El; [eauto|]. rewrite <- El in *.
  destruct (N.eqb c0 cBS); [eauto|].
  destruct (leading_split cSP line) as (after & E1 & N1).
  set (ind := leading cSP line) in *.
  replace (skipn ind line) with after by (rewrite E1 at 1; symmetry; apply skipn_repeat_app).
  destruct (3 <? ind) eqn:E3; [eauto|]. apply Nat.ltb_ge in E3. cbv zeta.
  destruct (leading_split cHASH after) as (rest & E2 & N2).
  set (level := leading cHASH after) in *.
  replace (skipn level after) with rest by (rewrite E2 at 1; symmetry; apply skipn_repeat_app).
  destruct ((6 <? level) || (level =? 0)) eqn:E4; [eauto|].
  apply orb_false_iff in E4 as (E4 & E5). apply Nat.ltb_ge in E4. apply Nat.eqb_neq in E5.
  assert (Hline : line = repeat 32%N ind ++ repeat 35%N level ++ rest) by (rewrite E1 at 1; rewrite E2 at 1; reflexivity).
  destruct rest as [|c r].
  - exfalso. apply H. exists level, []. exists ind. repeat split; auto; lia.
  - change (N.eqb c cSP || negb (gfm p) && N.eqb c cTAB) with (blankb p c).
    destruct (blankb p c) eqn:Ec; [|eauto]. exfalso. apply H. exists level, (c :: r). exists ind.
    repeat split; auto; try lia. right. exists c, r. split; [reflexivity|]. apply blankb_iff. exact Ec.
Qed.

Lemma atx_line_dec p line : (exists level rest, atx_line p line level rest) \/ ~ (exists level rest, atx_line p line level rest).
Proof.
  destruct (leading_split cSP line) as (after & E1 & N1).
  set (ind := leading cSP line) in *.
  destruct (leading_split cHASH after) as (rest & E2 & N2).
  set (level := leading cHASH after) in *.
  assert (Hline : line = repeat 32%N ind ++ repeat 35%N level ++ rest) by (rewrite E1 at 1; rewrite E2 at 1; reflexivity).
  assert (Hno : forall l r, atx_line p line l r -> l = level /\ r = rest /\ ind <= 3 /\ 1 <= level <= 6
                /\ (rest = [] \/ exists b r, rest = b :: r /\ blankb p b = true)).
  { intros l r H. apply atx_line_shape in H as (i & H1 & H2 & H3 & H4 & H5 & H6 & H7).
    fold ind in H1. subst i.
    replace (skipn ind line) with after in * by (rewrite E1 at 1; symmetry; apply skipn_repeat_app).
    fold level in H4. subst l. rewrite E2 in H5 at 1.
    replace (skipn level (repeat cHASH level ++ rest)) with rest in H5 by (symmetry; apply skipn_repeat_app).
    subst r. auto. }
  destruct (le_dec ind 3) as [Hi|Hi]; [|right; intros (l & r & H); apply Hno in H; lia].
  destruct (le_dec 1 level) as [Hl|Hl]; [|right; intros (l & r & H); apply Hno in H; lia].
  destruct (le_dec level 6) as [Hl6|Hl6]; [|right; intros (l & r & H); apply Hno in H; lia].
  destruct rest as [|c r].
  - left. exists level, []. exists ind. repeat split; auto.
  - destruct (blankb p c) eqn:Ec.
    + left. exists level, (c :: r). exists ind. repeat split; auto. right. exists c, r.
      split; [reflexivity|]. apply blankb_iff. exact Ec.
    + right. intros (l & q & H). apply Hno in H as (_ & _ & _ & _ & [H|(b & r' & H & G)]); [discriminate|].
      injection H as -> ->. congruence.
Qed.

(** Lines as they are read from a file: with or without the final newline. *)
Lemma get_atx_single p keep no_links s k :
  commonmark_parser p -> (1 <= keep)%Z -> single_line s ->
  get_atx_heading p keep no_links (s ++ repeat 10%N k) =
  bind (atx_cm p keep no_links true s) (fun r => Ok [fst r]).
Proof.
  intros Hp Hk Hs. apply cm_family_iff in Hp. unfold get_atx_heading.
  replace (keep <? 1)%Z with false by (symmetry; apply Z.ltb_ge; lia).
  pose proof (split_newlines_single s k Hs) as E.
  destruct (s ++ repeat 10%N k) as [|x l] eqn:El.
  - destruct s; [|discriminate]. reflexivity.
  - rewrite E. cbn [atx_lines]. rewrite Hp.
    destruct (atx_cm p keep no_links true s) as [[h v]|e]; reflexivity.
Qed.

(** Text reported for a given content. *)
Lemma reported_nonhash t : (exists c, In c t /\ c <> 35%N) -> reported t = t.
Proof.
  intros (c & H & Hc). unfold reported. replace (forallb is_hash t) with false; [reflexivity|].
  symmetry. apply in_split in H as (a & b & ->). apply forallb_hash_app.
  unfold is_hash, cHASH. apply N.eqb_neq. congruence.
Qed.
Lemma reported_hash n : reported (repeat 35%N n) = [].
Proof.
  unfold reported. replace (forallb is_hash (repeat 35%N n)) with true; [reflexivity|].
  symmetry. apply forallb_forall. intros x H. apply repeat_spec in H. subst. reflexivity.
Qed.
Lemma reported_cases t : (reported t = t) \/ (t = repeat 35%N (length t) /\ reported t = []).
Proof.
  unfold reported. destruct (forallb is_hash t) eqn:E; [|left; reflexivity]. right.
  split; [|reflexivity]. rewrite forallb_forall in E. apply Forall_eqb_repeat'. apply Forall_forall. exact E.
Qed.
