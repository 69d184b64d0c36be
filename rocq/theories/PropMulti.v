(** Properties of the functions that work on several files and of the command: C22, C38, C40. *)
From Coq Require Import String List NArith ZArith Bool Arith Lia.
From Verif Require Import Str StrFacts Spec Atx Anchor Toc Write Cli CliSpec AsciiEnv WriteSpec.
Import ListNotations.
Local Open Scope list_scope.

Definition stdin_name : str := lit "-".
Lemma is_stdin_iff n : is_stdin n = true <-> n = stdin_name.
Proof. unfold is_stdin. rewrite seqb_eq. reflexivity. Qed.

(** ** Files *)
Lemma fs_get_same f n d : fs_get (fs_set f n d) n = Some d.
Proof.
  induction f as [|(m, e) f IH]; cbn.
  - replace (seqb n n) with true by (symmetry; apply seqb_eq; reflexivity). reflexivity.
  - destruct (seqb m n) eqn:Em; cbn; rewrite Em; [reflexivity|exact IH].
Qed.
Lemma fs_get_other f n m d : n <> m -> fs_get (fs_set f n d) m = fs_get f m.
Proof.
  intros H. induction f as [|(k, e) f IH]; cbn.
  - destruct (seqb n m) eqn:En; [apply seqb_eq in En; congruence|reflexivity].
  - destruct (seqb k n) eqn:Ek; cbn.
    + apply seqb_eq in Ek. subst k. destruct (seqb n m) eqn:En; [apply seqb_eq in En; congruence|reflexivity].
    + destruct (seqb k m); [reflexivity|exact IH].
Qed.

(** ** C22 *)
(** The table of one file alone. *)
Definition alone (E : env) (o : opts) (w : world) (n t : str) : Prop :=
  exists w', build_multiple_tocs E o w [n] = Ok ([t], w').
Definition alone_fails (E : env) (o : opts) (w : world) (n : str) (e : exn) : Prop :=
  build_multiple_tocs E o w [n] = Err e.

Lemma alone_iff E o w n t : alone E o w n t <-> exists w', read_toc E o w n = Ok (t, w').
Proof.
  unfold alone, build_multiple_tocs. cbn [effective_names read_tocs]. split.
  - intros (w' & H). destruct (read_toc E o w n) as [(t1 & w1)|]; cbn in H; [|discriminate]. injection H as -> ->. eauto.
  - intros (w' & H). rewrite H. cbn. eauto.
Qed.
Lemma alone_fails_iff E o w n e : alone_fails E o w n e <-> read_toc E o w n = Err e.
Proof.
  unfold alone_fails, build_multiple_tocs. cbn [effective_names read_tocs]. destruct (read_toc E o w n) as [(t1 & w1)|]; cbn; split; congruence.
Qed.
(** Reading never changes files; a file does not depend on standard input. *)
Lemma read_toc_fs E o w n t w' : read_toc E o w n = Ok (t, w') -> w_fs w' = w_fs w /\ (is_stdin n = false -> w' = w) /\ (is_stdin n = true -> exists d, w_stdin w = Fresh d /\ w_stdin w' <> Fresh d /\ forall d', w_stdin w' <> Fresh d').
Proof.
  unfold read_toc. destruct (_ <? 0)%Z; [discriminate|]. destruct (is_stdin n).
  - destruct (w_stdin w) as [d| |].
    + destruct (build_toc E o n d); cbn; [|discriminate]. intros H. injection H as <- <-. cbn. split; [reflexivity|]. split; [discriminate|]. intros _. exists d. split; [reflexivity|]. destruct (d_bad d); split; discriminate.
    + destruct (fix_marker o); discriminate.
    + destruct (fix_marker o); discriminate.
  - destruct (fs_get (w_fs w) n); [|discriminate]. destruct (build_toc E o n d); cbn; [|discriminate]. intros H. injection H as <- <-. split; [reflexivity|]. split; [reflexivity|discriminate].
Qed.
Lemma read_toc_file E o w w' n : is_stdin n = false -> w_fs w' = w_fs w ->
  match read_toc E o w n, read_toc E o w' n with
  | Ok (t, w1), Ok (t', w1') => t = t' /\ w1 = w /\ w1' = w'
  | Err e, Err e' => e = e'
  | _, _ => False
  end.
Proof.
  intros Hn Hf. unfold read_toc. rewrite Hn, Hf. destruct (_ <? 0)%Z; [reflexivity|]. destruct (fs_get (w_fs w) n); [|reflexivity]. destruct (build_toc E o n d); cbn; auto.
Qed.
Lemma read_toc_used E o w n : is_stdin n = true -> (forall d, w_stdin w <> Fresh d) -> exists e, read_toc E o w n = Err e.
Proof.
  intros Hn Hd. unfold read_toc. destruct (_ <? 0)%Z; [eauto|]. rewrite Hn. destruct (w_stdin w) as [d| |]; [destruct (Hd d eq_refl)| |]; destruct (fix_marker o); cbn; eauto.
Qed.

(** At most one of the names is '-'. *)
Definition stdin_once (names : list str) : Prop := forall a b, names = a ++ stdin_name :: b -> ~ In stdin_name b.

Lemma read_tocs_spec E o w0 : forall names w, w_fs w = w_fs w0 ->
  (w = w0 \/ (forall d, w_stdin w <> Fresh d)) ->
  match read_tocs E o w names with
  | Ok (ts, w') => w_fs w' = w_fs w0 /\ Forall2 (alone E o w0) names ts /\ stdin_once names /\ ((forall d, w_stdin w <> Fresh d) -> ~ In stdin_name names)
  | Err e => exists pre n post, names = pre ++ n :: post /\ (exists ts, Forall2 (alone E o w0) pre ts) /\
      (alone_fails E o w0 n e \/ (n = stdin_name /\ (In stdin_name pre \/ forall d, w_stdin w <> Fresh d)))
  end.
Proof.
  induction names as [|n names IH]; intros w Hf Hw; cbn [read_tocs].
  - repeat split; auto. intros a b H. destruct a; discriminate.
  - destruct (is_stdin n) eqn:Hn.
    + pose proof (proj1 (is_stdin_iff n) Hn) as En. destruct Hw as [->|Hw].
      * destruct (read_toc E o w0 n) as [(t & w1)|e] eqn:R; cbn [bind].
        -- destruct (read_toc_fs _ _ _ _ _ _ R) as (F1 & _ & F3). destruct (F3 Hn) as (d & Hd & _ & Hnd).
           specialize (IH w1 F1 (or_intror Hnd)). destruct (read_tocs E o w1 names) as [(ts & w2)|e]; cbn [bind].
           ++ destruct IH as (A & B & C & D). split; [exact A|]. split; [constructor; [apply alone_iff; eauto|exact B]|]. split.
              ** intros [|x a] b Eq.
                 --- injection Eq as _ ->. exact (D Hnd).
                 --- injection Eq as -> ->. exact (C a b eq_refl).
              ** intros X. exfalso. exact (X d Hd).
           ++ destruct IH as (pre & m & post & -> & (ts & B) & C). exists (n :: pre), m, post. split; [reflexivity|]. split; [exists (t :: ts); constructor; [apply alone_iff; eauto|exact B]|].
              destruct C as [C|(-> & C)]; [left; exact C|right]. split; [reflexivity|]. left. left. exact En.
        -- exists [], n, names. split; [reflexivity|]. split; [exists []; constructor|]. left. apply alone_fails_iff. exact R.
      * destruct (read_toc_used E o w n Hn Hw) as (e & R). rewrite R. cbn [bind]. exists [], n, names. split; [reflexivity|]. split; [exists []; constructor|]. right. auto.
    + pose proof (read_toc_file E o w w0 n Hn (eq_sym Hf)) as R.
      assert (Hn' : n <> stdin_name) by (intros X; apply is_stdin_iff in X; congruence).
      destruct (read_toc E o w n) as [(t & w1)|e] eqn:R1, (read_toc E o w0 n) as [(t' & w1')|e'] eqn:R2; try contradiction; cbn [bind].
      * destruct R as (<- & -> & ->). specialize (IH w Hf Hw). destruct (read_tocs E o w names) as [(ts & w2)|e]; cbn [bind].
        -- destruct IH as (A & B & C & D). split; [exact A|]. split; [constructor; [apply alone_iff; eauto|exact B]|]. split.
           ++ intros [|x a] b Eq; [injection Eq as -> _; congruence|]. injection Eq as -> ->. exact (C a b eq_refl).
           ++ intros X [Y|Y]; [congruence|]. exact (D X Y).
        -- destruct IH as (pre & m & post & -> & (ts & B) & C). exists (n :: pre), m, post. split; [reflexivity|]. split; [exists (t :: ts); constructor; [apply alone_iff; eauto|exact B]|].
           destruct C as [C|(-> & [C|C])]; [left; exact C|right; split; [reflexivity|left; right; exact C]|right; split; [reflexivity|right; exact C]].
      * subst e'. exists [], n, names. split; [reflexivity|]. split; [exists []; constructor|]. left. apply alone_fails_iff. exact R2.
Qed.
Theorem C22_empty_is_stdin : forall E o w, build_multiple_tocs E o w [] = build_multiple_tocs E o w [stdin_name].
Proof. reflexivity. Qed.
Print Assumptions C22_empty_is_stdin.
Theorem C22_each_as_alone : forall E o w names ts w', names <> [] ->
  build_multiple_tocs E o w names = Ok (ts, w') ->
  w_fs w' = w_fs w /\ Forall2 (alone E o w) names ts /\ stdin_once names.
Proof.
  intros E o w names ts w' Hne H. unfold build_multiple_tocs, effective_names in H. destruct names as [|n ns]; [congruence|].
  pose proof (read_tocs_spec E o w (n :: ns) w eq_refl (or_introl eq_refl)) as S. rewrite H in S. destruct S as (A & B & C & _). auto.
Qed.
Print Assumptions C22_each_as_alone.
Theorem C22_succeeds : forall E o w names ts,
  names <> [] -> Forall2 (alone E o w) names ts -> stdin_once names ->
  exists w', build_multiple_tocs E o w names = Ok (ts, w').
Proof.
  intros E o w names ts Hne H Hs. unfold build_multiple_tocs, effective_names. destruct names as [|n ns]; [congruence|]. clear Hne.
  pose proof (read_tocs_spec E o w (n :: ns) w eq_refl (or_introl eq_refl)) as S. destruct (read_tocs E o w (n :: ns)) as [(ts' & w')|e].
  - destruct S as (_ & B & _). exists w'. f_equal. f_equal. clear -H B. revert ts H. induction B as [|x y l l' A B IH]; intros ts H; inversion H as [|? ? ? ? P Q]; subst; [reflexivity|].
    f_equal; [|apply IH; exact Q]. apply alone_iff in A as (u & A). apply alone_iff in P as (v & P). congruence.
  - exfalso. destruct S as (pre & m & post & Eq & _ & [F|(-> & F)]).
    + assert (G : exists t, alone E o w m t).
      { assert (Hin : In m (n :: ns)) by (rewrite Eq; apply in_or_app; right; left; reflexivity). clear -H Hin. induction H as [|x y l l' A B IH]; [destruct Hin|]. destruct Hin as [<-|Hin]; [eauto|auto]. }
      destruct G as (t & G). apply alone_iff in G as (u & G). apply alone_fails_iff in F. congruence.
    + destruct F as [F|F].
      * apply in_split in F as (a & b & ->). apply (Hs a (b ++ stdin_name :: post)); [rewrite Eq, <- app_assoc; reflexivity|]. apply in_or_app. right. left. reflexivity.
      * assert (G : exists t, alone E o w stdin_name t).
        { assert (Hin : In stdin_name (n :: ns)) by (rewrite Eq; apply in_or_app; right; left; reflexivity). clear -H Hin. induction H as [|x y l l' A B IH]; [destruct Hin|]. destruct Hin as [<-|Hin]; [eauto|auto]. }
        destruct G as (t & G). apply alone_iff in G as (u & G). destruct (read_toc_used E o w stdin_name eq_refl F) as (e' & G'). congruence.
Qed.
Print Assumptions C22_succeeds.
(** A failure is that of the first file that fails alone, or of a second '-'. *)
Theorem C22_first_failure : forall E o w names e, names <> [] ->
  build_multiple_tocs E o w names = Err e ->
  exists pre n post, names = pre ++ n :: post /\ (exists ts, Forall2 (alone E o w) pre ts) /\
    (alone_fails E o w n e \/ (n = stdin_name /\ In stdin_name pre)).
Proof.
  intros E o w names e Hne H. unfold build_multiple_tocs, effective_names in H. destruct names as [|n ns]; [congruence|]. clear Hne.
  pose proof (read_tocs_spec E o w (n :: ns) w eq_refl (or_introl eq_refl)) as S. rewrite H in S.
  destruct S as (pre & m & post & Eq & (ts & B) & C). exists pre, m, post. split; [exact Eq|]. split; [eauto|].
  destruct C as [C|(-> & [C|C])]; [left; exact C|right; auto|].
  destruct (in_dec (list_eq_dec N.eq_dec) stdin_name pre) as [Hi|Hi]; [right; auto|]. left. apply alone_fails_iff.
  (* pre has no '-', so the world is the first one *)
  revert H. rewrite Eq. clear Eq n ns. revert ts B Hi. induction pre as [|x pre IH]; intros ts B Hi; cbn [app read_tocs].
  - destruct (read_toc_used E o w stdin_name eq_refl C) as (e' & G). rewrite G. cbn. congruence.
  - inversion B as [|? ? ? ? P Q]; subst. apply alone_iff in P as (u & P). rewrite P. cbn [bind].
    destruct (read_toc_fs _ _ _ _ _ _ P) as (_ & X & _).
    assert (Hx : is_stdin x = false) by (destruct (is_stdin x) eqn:Ex; [apply is_stdin_iff in Ex; exfalso; apply Hi; left; exact Ex|reflexivity]).
    rewrite (X Hx). intros H. apply (IH _ Q); [intros Y; apply Hi; right; exact Y|].
    destruct (read_tocs E o w (pre ++ stdin_name :: post)) as [(? & ?)|]; cbn in H; congruence.
Qed.
Print Assumptions C22_first_failure.
Definition o_std : opts := mkOpts false false false false 3 Github (Some (lit "-")) 0 false [cLF].
Definition fs1 : fs := [(lit "a.md", mkDoc [ln "# Same"; ln "# Same"] false); (lit "b.md", mkDoc [ln "# Same"; ln "<!--TOC-->"] false)].
Example C22_ex : exists w', build_multiple_tocs ascii_env o_std (mkWorld fs1 (Fresh (mkDoc [ln "# Std"] false))) [lit "a.md"; lit "-"; lit "b.md"]
  = Ok ([ln "- [Same](#same)" ++ ln "- [Same](#same-1)"; ln "- [Std](#std)"; ln "- [Same](#same)"], w')
  /\ build_multiple_tocs ascii_env o_std (mkWorld fs1 (Fresh (mkDoc [ln "# Std"] false))) [lit "-"; lit "-"] = Err ValueError
  /\ build_multiple_tocs ascii_env o_std (mkWorld fs1 Closed) [lit "a.md"; lit "none"] = Err FileNotFoundError.
Proof. eexists. repeat split; vm_compute; reflexivity. Qed.

(** ** C38 *)
(** Writing [t] on the file [n] of [f] gives the contents [d'] and the verdict [v]. *)
Definition writes (E : env) (nl : str) (f : fs) (marker n t : str) (d' : doc) (v : bool) : Prop :=
  n <> stdin_name /\ exists d, fs_get f n = Some d /\ write_toc E nl t marker d = Ok (d', v).
(** It raises [e]. *)
Definition write_fails (E : env) (nl : str) (f : fs) (marker n t : str) (e : exn) : Prop :=
  (n = stdin_name /\ e = StdinIsNotAFileToBeWritten)
  \/ (n <> stdin_name /\ fs_get f n = None /\ e = FileNotFoundError)
  \/ (n <> stdin_name /\ exists d, fs_get f n = Some d /\ write_toc E nl t marker d = Err e).

Lemma write_one_spec E nl f n t marker : match write_one E nl f n t marker with
  | (Ok v, f') => exists d', writes E nl f marker n t d' v /\ f' = fs_set f n d'
  | (Err e, f') => write_fails E nl f marker n t e /\ f' = f
  end.
Proof.
  unfold write_one, writes, write_fails. destruct (is_stdin n) eqn:Hn.
  - apply is_stdin_iff in Hn. auto.
  - assert (Hn' : n <> stdin_name) by (intros X; apply is_stdin_iff in X; congruence).
    destruct (fs_get f n) as [d|] eqn:G; [|auto 10].
    destruct (write_toc E nl t marker d) as [(d' & v)|e] eqn:W; [eauto 10|]. split; [|reflexivity]. right. right. eauto.
Qed.
Lemma writes_ext E nl f f' marker n t d v : fs_get f' n = fs_get f n -> writes E nl f' marker n t d v -> writes E nl f marker n t d v.
Proof. unfold writes. intros ->. auto. Qed.
Lemma fails_ext E nl f f' marker n t e : fs_get f' n = fs_get f n -> write_fails E nl f' marker n t e -> write_fails E nl f marker n t e.
Proof. unfold write_fails. intros ->. auto. Qed.

Lemma write_loop_spec E nl marker : forall l f acc, NoDup (map fst l) ->
  match write_loop E nl f l marker acc with
  | (Ok b, f') =>
      (forall n t, In (n, t) l -> exists d' v, writes E nl f marker n t d' v /\ fs_get f' n = Some d' /\ (b = true -> v = true))
      /\ (acc = true -> b = false -> exists n t d', In (n, t) l /\ writes E nl f marker n t d' false)
      /\ (b = true -> acc = true)
      /\ (forall n, ~ In n (map fst l) -> fs_get f' n = fs_get f n)
  | (Err e, f') => exists pre n t post, l = pre ++ (n, t) :: post
      /\ (forall m s, In (m, s) pre -> exists d' v, writes E nl f marker m s d' v /\ fs_get f' m = Some d')
      /\ write_fails E nl f marker n t e
      /\ (forall m, ~ In m (map fst pre) -> fs_get f' m = fs_get f m)
  end.
Proof.
  induction l as [|(n & t) l IH]; intros f acc Hd; cbn [write_loop].
  - repeat split; auto; [intros ? ? []|congruence].
  - cbn [map fst] in Hd. inversion Hd as [|? ? Hni Hd']; subst. pose proof (write_one_spec E nl f n t marker) as W.
    destruct (write_one E nl f n t marker) as [[v|e] f1].
    + destruct W as (d' & W & ->). specialize (IH (fs_set f n d') (acc && v) Hd').
      assert (Hkeep : forall m s, In (m, s) l -> fs_get (fs_set f n d') m = fs_get f m).
      { intros m s Hin. apply fs_get_other. intros ->. apply Hni. apply in_map_iff. exists (m, s). auto. }
      destruct (write_loop E nl (fs_set f n d') l marker (acc && v)) as [[b|e] f2].
      * destruct IH as (A & B & C & D). split; [|split; [|split]].
        -- intros m s [Eq|Hin].
           ++ injection Eq as <- <-. exists d', v. split; [exact W|]. split.
              ** rewrite (D n Hni). apply fs_get_same.
              ** intros Hb. specialize (C Hb). apply andb_true_iff in C. apply C.
           ++ destruct (A m s Hin) as (d2 & v2 & A1 & A2 & A3). exists d2, v2. split; [|auto]. apply (writes_ext E nl f (fs_set f n d')); [apply (Hkeep m s Hin)|exact A1].
        -- intros -> Hb. destruct v.
           ++ destruct (B eq_refl Hb) as (m & s & d2 & Hin & B1). exists m, s, d2. split; [right; exact Hin|]. apply (writes_ext E nl f (fs_set f n d')); [apply (Hkeep m s Hin)|exact B1].
           ++ exists n, t, d'. split; [left; reflexivity|exact W].
        -- intros Hb. specialize (C Hb). apply andb_true_iff in C. apply C.
        -- intros m Hm. cbn [map fst In] in Hm. rewrite (D m); [|tauto]. apply fs_get_other. tauto.
      * destruct IH as (pre & m & s & post & -> & A & B & C). exists ((n, t) :: pre), m, s, post. split; [reflexivity|]. split; [|split].
        -- intros m' s' [Eq|Hin].
           ++ injection Eq as <- <-. exists d', v. split; [exact W|]. rewrite C; [apply fs_get_same|]. intros X. apply Hni. rewrite map_app. apply in_or_app. left. exact X.
           ++ destruct (A m' s' Hin) as (d2 & v2 & A1 & A2). exists d2, v2. split; [|exact A2]. apply (writes_ext E nl f (fs_set f n d')); [|exact A1]. apply (Hkeep m' s'). apply in_or_app. left. exact Hin.
        -- apply (fails_ext E nl f (fs_set f n d')); [|exact B]. apply (Hkeep m s). apply in_or_app. right. left. reflexivity.
        -- intros m' Hm'. cbn [map fst In] in Hm'. rewrite (C m'); [|tauto]. apply fs_get_other. tauto.
    + destruct W as (W & ->). exists [], n, t, l. split; [reflexivity|]. split; [intros ? ? []|]. split; [exact W|reflexivity].
Qed.
Lemma map_fst_combine {A B} (a : list A) (b : list B) : length a = length b -> map fst (combine a b) = a.
Proof. revert b. induction a as [|x a IH]; intros [|y b] H; try discriminate; [reflexivity|]. cbn. f_equal. apply IH. cbn in H. lia. Qed.

Theorem C38_length_mismatch : forall E nl f names tocs marker, length names <> length tocs ->
  write_strings E nl f names tocs marker = (Err ValueError, f).
Proof. intros E nl f names tocs marker H. unfold write_strings. apply Nat.eqb_neq in H. rewrite H. reflexivity. Qed.
Print Assumptions C38_length_mismatch.
Theorem C38_batch_success : forall E nl f names tocs marker b f',
  NoDup names -> write_strings E nl f names tocs marker = (Ok b, f') ->
  length names = length tocs
  /\ (forall n t, In (n, t) (combine names tocs) -> exists d' v, writes E nl f marker n t d' v /\ fs_get f' n = Some d')
  /\ (forall n, ~ In n names -> fs_get f' n = fs_get f n)
  /\ (b = true <-> forall n t d' v, In (n, t) (combine names tocs) -> writes E nl f marker n t d' v -> v = true).
Proof.
  intros E nl f names tocs marker b f' Hd H. unfold write_strings in H. destruct (Nat.eqb_spec (length names) (length tocs)) as [Hl|Hl]; [|discriminate].
  pose proof (write_loop_spec E nl marker (combine names tocs) f true) as S. rewrite map_fst_combine in S by exact Hl. specialize (S Hd). rewrite H in S.
  destruct S as (A & B & _ & D). split; [exact Hl|]. split; [|split; [exact D|]].
  - intros n t Hin. destruct (A n t Hin) as (d' & v & A1 & A2 & _). eauto.
  - split.
    + intros Hb n t d' v Hin (_ & d & W1 & W2). destruct (A n t Hin) as (d2 & v2 & (_ & d3 & W3 & W4) & _ & A3). rewrite W1 in W3. injection W3 as <-. rewrite W2 in W4. injection W4 as _ ->. auto.
    + intros Hall. destruct b; [reflexivity|]. destruct (B eq_refl eq_refl) as (n & t & d' & Hin & W). exact (Hall n t d' false Hin W).
Qed.
Print Assumptions C38_batch_success.
Theorem C38_batch_failure : forall E nl f names tocs marker e f',
  NoDup names -> length names = length tocs -> write_strings E nl f names tocs marker = (Err e, f') ->
  exists pre n t post, combine names tocs = pre ++ (n, t) :: post
    /\ (forall m s, In (m, s) pre -> exists d' v, writes E nl f marker m s d' v /\ fs_get f' m = Some d')
    /\ write_fails E nl f marker n t e
    /\ (forall m, ~ In m (map fst pre) -> fs_get f' m = fs_get f m).
Proof.
  intros E nl f names tocs marker e f' Hd Hl H. unfold write_strings in H. apply Nat.eqb_eq in Hl as Hb. rewrite Hb in H.
  pose proof (write_loop_spec E nl marker (combine names tocs) f true) as S. rewrite map_fst_combine in S by exact Hl. specialize (S Hd). rewrite H in S. exact S.
Qed.
Print Assumptions C38_batch_failure.
Example C38_ex :
  let f := [(lit "a", mkDoc [ln "<!--TOC-->"] false); (lit "b", mkDoc [ln "x"] false); (lit "c", mkDoc [ln "<!--TOC-->"] false)] in
  write_strings ascii_env [10%N] f [lit "a"; lit "c"] [ln "- A"; ln "- C"] (lit "<!--TOC-->")
  = (Ok false, [(lit "a", mkDoc [ln "<!--TOC-->"; ln ""; ln "- A"; ln ""; ln "<!--TOC-->"] false); (lit "b", mkDoc [ln "x"] false); (lit "c", mkDoc [ln "<!--TOC-->"; ln ""; ln "- C"; ln ""; ln "<!--TOC-->"] false)])
  /\ write_strings ascii_env [10%N] f [lit "a"; lit "-"; lit "c"] [ln "- A"; ln "- B"; ln "- C"] (lit "<!--TOC-->")
  = (Err StdinIsNotAFileToBeWritten, [(lit "a", mkDoc [ln "<!--TOC-->"; ln ""; ln "- A"; ln ""; ln "<!--TOC-->"] false); (lit "b", mkDoc [ln "x"] false); (lit "c", mkDoc [ln "<!--TOC-->"] false)])
  /\ write_strings ascii_env [10%N] f [lit "a"] [] (lit "<!--TOC-->") = (Err ValueError, f).
Proof. repeat split; vm_compute; reflexivity. Qed.

(** ** C40 *)
Lemma selects_model a o : selects a o -> o = args_opts a.
Proof.
  intros (H1 & H2 & H3 & H4 & H5 & H6 & H7 & H8 & H9 & H10 & H11). unfold args_opts. destruct o as [o1 o2 o3 o4 o5 o6 o7 o8 o9 o10]. cbn in *.
  assert (o10 = cli_newline (a_newline a)) as -> by (destruct H11; reflexivity).
  destruct (a_ordered_marker a) as [m|].
  - rewrite (H2 m eq_refl). replace o1 with true by (symmetry; apply H1; discriminate). subst. reflexivity.
  - rewrite (H3 eq_refl). replace o1 with false by (destruct o1; [exfalso; apply H1; reflexivity|reflexivity]). subst. reflexivity.
Qed.
Lemma inputs_model a : inputs a = effective_names (a_names a).
Proof. unfold inputs. destruct (a_names a); reflexivity. Qed.
Ltac cli := repeat match goal with H : selects _ _ |- _ => apply selects_model in H; subst end; rewrite ?inputs_model in *.
Theorem C40_status_one_iff_exception : forall E a w, exit_status (f_result (cli_write_toc E a w)) = 1%Z <-> exists e, f_result (cli_write_toc E a w) = Err e.
Proof. intros E a w. destruct (f_result _) as [[|]|e]; cbn; split; try discriminate; try (intros (? & H); discriminate); eauto. Qed.
Print Assumptions C40_status_one_iff_exception.
Theorem C40_failed_build_touches_nothing : forall E a o w e,
  selects a o -> build_multiple_tocs E o w (a_names a) = Err e ->
  cli_write_toc E a w = mkEffect [] (w_fs w) (Err e).
Proof. intros E a o w e Hsel H. cli. unfold cli_write_toc. rewrite H. reflexivity. Qed.
Print Assumptions C40_failed_build_touches_nothing.
Theorem C40_printing_touches_nothing : forall E a w, a_in_place a = false -> f_fs (cli_write_toc E a w) = w_fs w.
Proof.
  intros E a w H. unfold cli_write_toc. destruct (build_multiple_tocs _ _ _ _) as [(tocs & w')|]; [|reflexivity]. rewrite H. destruct (print_loop _ _ _ _ _). reflexivity.
Qed.
Print Assumptions C40_printing_touches_nothing.
(** Without a diff nothing can fail after the tables are built, and all of them are printed. *)
Lemma print_no_diff E a f : a_diff a = false -> forall l acc, print_loop E a f l acc = (concat (map snd l), Ok acc).
Proof.
  intros H. induction l as [|(n & t) l IH]; intros acc; [reflexivity|]. cbn [print_loop]. rewrite H, IH. reflexivity.
Qed.
Lemma map_snd_combine {A B} (a : list A) (b : list B) : length a = length b -> map snd (combine a b) = b.
Proof. revert b. induction a as [|x a IH]; intros [|y b] H; try discriminate; [reflexivity|]. cbn. f_equal. apply IH. cbn in H. lia. Qed.
Lemma built_length E o w names tocs w' : build_multiple_tocs E o w names = Ok (tocs, w') -> length (effective_names names) = length tocs.
Proof.
  unfold build_multiple_tocs. generalize (effective_names names). clear names. intros names. revert w tocs w'. induction names as [|n ns IH]; intros w tocs w' H; cbn [read_tocs] in H.
  - injection H as <- _. reflexivity.
  - destruct (read_toc E o w n) as [(t & w1)|]; cbn [bind] in H; [|discriminate]. destruct (read_tocs E o w1 ns) as [(ts & w2)|] eqn:R; cbn [bind] in H; [|discriminate].
    injection H as <- _. cbn [length]. f_equal. eapply IH. exact R.
Qed.
Theorem C40_prints_the_tables : forall E a o w tocs w',
  selects a o -> a_in_place a = false -> a_diff a = false -> build_multiple_tocs E o w (a_names a) = Ok (tocs, w') ->
  cli_write_toc E a w = mkEffect (concat tocs) (w_fs w) (Ok false).
Proof.
  intros E a o w tocs w' Hsel H1 H2 H3. cli. unfold cli_write_toc. rewrite H3, H1, (print_no_diff _ _ _ H2), H2. cbn [bind negb andb].
  rewrite map_snd_combine by (eapply built_length; exact H3). reflexivity.
Qed.
Print Assumptions C40_prints_the_tables.
(** The table [t] built for [n] differs from the one in the file, as tocs_equal tells. *)
Definition differs (E : env) (a : cli_args) (w : world) (tocs : list str) : Prop :=
  exists n t d, In (n, t) (combine (inputs a) tocs) /\ fs_get (w_fs w) n = Some d
    /\ tocs_equal E t (a_toc_marker a) d = Ok false.
Lemma print_loop_spec E a f : a_diff a = true -> forall l acc out r, print_loop E a f l acc = (out, Ok r) ->
  (r = false <-> acc = false \/ exists n t d, In (n, t) l /\ fs_get f n = Some d /\ tocs_equal E t (a_toc_marker a) d = Ok false).
Proof.
  intros Hd. induction l as [|(n & t) l IH]; intros acc out r H; cbn [print_loop] in H.
  - injection H as _ <-. split; [auto|]. intros [H|(? & ? & ? & [] & _)]; exact H.
  - rewrite Hd in H. destruct (fs_get f n) as [d|] eqn:G; [|discriminate]. destruct (tocs_equal E t (a_toc_marker a) d) as [b|] eqn:T; [|discriminate].
    destruct (print_loop E a f l (acc && b)) as (out' & r') eqn:P. injection H as <- ->. rewrite (IH _ _ _ P). split.
    + intros [X|(m & s & d' & Hin & Y)]; [|right; exists m, s, d'; split; [right; exact Hin|exact Y]].
      apply andb_false_iff in X as [X| ->]; [left; exact X|]. right. exists n, t, d. split; [left; reflexivity|auto].
    + intros [-> |(m & s & d' & [Eq|Hin] & Y)]; [left; reflexivity| |right; exists m, s, d'; auto].
      injection Eq as <- <-. destruct Y as (Y1 & Y2). left. assert (b = false) by congruence. subst b. apply andb_false_r.
Qed.
Lemma write_verdict E nl t marker d d' v : write_toc E nl t marker d = Ok (d', v) -> tocs_equal E t marker d = Ok v.
Proof.
  unfold write_toc, write_toc_steps, tocs_equal. destruct (get_existing_toc E marker d) as [x|]; cbn [bind]; [|discriminate].
  destruct (remove_line_intervals (d_lines d) (x_delete x)) as [l1|]; cbn [bind]; [|discriminate].
  destruct (if negb (x_two x) && _ then _ else _) as [(s2 & l2)|]; cbn [bind]; [|discriminate].
  destruct (1 <=? x_len x).
  - destruct (fpy_insert _ _ _); cbn [bind]; [|discriminate]. intros H. injection H as _ <-. reflexivity.
  - cbn [bind]. intros H. injection H as _ <-. reflexivity.
Qed.
(** The status is 128 exactly when a diff was asked for, nothing raised and some table differs from
    the one found in the original file.  (In place, a file must not be named twice.) *)
Theorem C40_status_128_iff_differs : forall E a o w tocs w',
  selects a o -> build_multiple_tocs E o w (a_names a) = Ok (tocs, w') ->
  (a_in_place a = true -> NoDup (inputs a)) ->
  (exit_status (f_result (cli_write_toc E a w)) = 128%Z <->
   (forall e, f_result (cli_write_toc E a w) <> Err e) /\ a_diff a = true /\ differs E a w tocs).
Proof.
  intros E a o w tocs w' Hsel Hb Hnd. cli. unfold cli_write_toc, differs. rewrite inputs_model, Hb. set (nl := cli_newline (a_newline a)). destruct (a_in_place a).
  - specialize (Hnd eq_refl). destruct (write_strings E _ (w_fs w) _ tocs _) as [[b|e] f'] eqn:W; cbn [f_result bind].
    + destruct (C38_batch_success _ _ _ _ _ _ _ _ Hnd W) as (_ & A & _ & B). destruct (a_diff a).
      * split.
        -- intros H. split; [discriminate|]. split; [reflexivity|]. destruct b; [discriminate|].
           unfold write_strings in W. destruct (_ =? _) eqn:Hl; [|discriminate]. apply Nat.eqb_eq in Hl.
           pose proof (write_loop_spec E nl (a_toc_marker a) (combine (effective_names (a_names a)) tocs) (w_fs w) true) as S.
           rewrite map_fst_combine in S by exact Hl. specialize (S Hnd). rewrite W in S. destruct S as (_ & S & _).
           destruct (S eq_refl eq_refl) as (n & t & d' & Hin & _ & d & G1 & G2). exists n, t, d. split; [exact Hin|]. split; [exact G1|]. exact (write_verdict _ _ _ _ _ _ _ G2).
        -- intros (_ & _ & n & t & d & Hin & G1 & G2). destruct b; [|reflexivity]. exfalso.
           destruct (A n t Hin) as (d' & v & Wr & _). pose proof (proj1 B eq_refl n t d' v Hin Wr) as ->.
           destruct Wr as (_ & d2 & W1 & W2). rewrite G1 in W1. injection W1 as <-. apply write_verdict in W2. congruence.
      * split; [rewrite andb_false_r; discriminate|]. intros (_ & X & _). discriminate.
    + split; [discriminate|]. intros (X & _). exfalso. exact (X e eq_refl).
  - destruct (print_loop E a (w_fs w) (combine (effective_names (a_names a)) tocs) true) as (out & [b|e]) eqn:P; cbn [f_result bind].
    + destruct (a_diff a) eqn:Hd.
      * pose proof (print_loop_spec E a (w_fs w) Hd _ _ _ _ P) as S. split.
        -- intros H. split; [discriminate|]. split; [reflexivity|]. destruct b; [discriminate|]. destruct (proj1 S eq_refl) as [X|X]; [discriminate|exact X].
        -- intros (_ & _ & X). rewrite (proj2 S (or_intror X)). reflexivity.
      * split; [rewrite andb_false_r; discriminate|]. intros (_ & X & _). discriminate.
    + split; [discriminate|]. intros (X & _). exfalso. exact (X e eq_refl).
Qed.
Print Assumptions C40_status_128_iff_differs.
Theorem C40_status_values : forall r, In (exit_status r) [0; 1; 128]%Z.
Proof. intros [[|]|e]; cbn; auto. Qed.
Print Assumptions C40_status_values.
(** '-' cannot be written in place: the run fails, after the files before it have been written. *)
Theorem C40_in_place_stdin_raises : forall E a o w tocs w',
  selects a o -> build_multiple_tocs E o w (a_names a) = Ok (tocs, w') -> a_in_place a = true ->
  In stdin_name (inputs a) -> NoDup (inputs a) ->
  exists e, f_result (cli_write_toc E a w) = Err e.
Proof.
  intros E a o w tocs w' Hsel Hb Hi Hin Hnd. cli. unfold cli_write_toc. rewrite Hb, Hi. destruct (write_strings E _ (w_fs w) _ tocs _) as [[b|e] f'] eqn:W; cbn [f_result bind]; [|eauto].
  exfalso. destruct (C38_batch_success _ _ _ _ _ _ _ _ Hnd W) as (Hl & A & _).
  rewrite <- (map_fst_combine _ _ Hl) in Hin. apply in_map_iff in Hin as ((n & t) & Hn & Hin). cbn in Hn. destruct (A n t Hin) as (d' & v & (X & _) & _). exact (X Hn).
Qed.
Print Assumptions C40_in_place_stdin_raises.
(** In place, every file gets its table, with the selected line end, and no other file changes. *)
Theorem C40_in_place_writes : forall E a o w tocs w' r,
  selects a o -> build_multiple_tocs E o w (a_names a) = Ok (tocs, w') -> a_in_place a = true -> NoDup (inputs a) ->
  f_result (cli_write_toc E a w) = Ok r ->
  (forall n t, In (n, t) (combine (inputs a) tocs) -> exists d d' v,
     fs_get (w_fs w) n = Some d /\ write_toc E (o_newline o) t (a_toc_marker a) d = Ok (d', v) /\ fs_get (f_fs (cli_write_toc E a w)) n = Some d')
  /\ (forall n, ~ In n (inputs a) -> fs_get (f_fs (cli_write_toc E a w)) n = fs_get (w_fs w) n)
  /\ length tocs = length (inputs a) /\ f_out (cli_write_toc E a w) = [].
Proof.
  intros E a o w tocs w' r Hsel Hb Hi Hnd. cli. unfold cli_write_toc. rewrite Hb, Hi. destruct (write_strings E _ (w_fs w) _ tocs _) as [[b|e] f'] eqn:W; cbn [f_result f_fs f_out bind]; [|discriminate]. intros _.
  destruct (C38_batch_success _ _ _ _ _ _ _ _ Hnd W) as (Hl & A & B & _). split; [|split; [exact B|auto]].
  intros n t Hin. destruct (A n t Hin) as (d' & v & (_ & d & G1 & G2) & G3). exists d, d', v. auto.
Qed.
Print Assumptions C40_in_place_writes.
(** Every choice of arguments selects options. *)
Theorem C40_options_selected : forall a, In (a_newline a) [lit "\n"; lit "\r"; lit "\r\n"; [10%N]] -> exists o, selects a o.
Proof.
  intros a H. exists (args_opts a). unfold selects, args_opts. cbn. split; [|split; [|split]].
  - destruct (a_ordered_marker a); split; intros; discriminate || congruence.
  - intros m ->. reflexivity.
  - intros ->. reflexivity.
  - repeat (split; [reflexivity|]). destruct H as [<-|[<-|[<-|[<-|[]]]]]; constructor.
Qed.
Print Assumptions C40_options_selected.
Definition args1 (names : list str) (in_place diff : bool) : cli_args :=
  mkArgs names None (lit "-") false false false 3 Github 0 false in_place diff (lit "<!--TOC-->") [10%N].
Example C40_ex :
  let w := mkWorld fs1 (Fresh (mkDoc [ln "# Std"] false)) in
  exit_status (f_result (cli_write_toc ascii_env (args1 [lit "b.md"] true true) w)) = 128%Z
  /\ exit_status (f_result (cli_write_toc ascii_env (args1 [lit "b.md"] true false) w)) = 0%Z
  /\ f_out (cli_write_toc ascii_env (args1 [lit "b.md"; lit "-"] false false) w) = ln "- [Same](#same)" ++ ln "- [Std](#std)"
  /\ cli_write_toc ascii_env (args1 [lit "b.md"; lit "none"] true true) w = mkEffect [] fs1 (Err FileNotFoundError)
  /\ exit_status (f_result (cli_write_toc ascii_env (args1 [lit "-"] false true) w)) = 1%Z.
Proof. repeat split; vm_compute; reflexivity. Qed.
