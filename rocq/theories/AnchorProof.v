(** Proofs about anchors. *)
From Coq Require Import String List NArith ZArith Bool Arith Lia.
From Coq Require Hexadecimal HexadecimalN.
From Verif Require Import Str Fence Atx HtmlRe Inlines Anchor Spec EnvSpec AnchorSpec StrFacts FenceProof DecFacts.
Import ListNotations.
Local Open Scope list_scope.

(** ** The duplicate counter *)
Lemma dup_get_set d k v k' : dup_get (dup_set d k v) k' = if seqb k k' then v else dup_get d k'.
Proof.
  induction d as [|(k0 & w) d IH]; cbn [dup_set dup_get].
  - destruct (seqb k k'); reflexivity.
  - destruct (seqb k0 k) eqn:E.
    + cbn [dup_get]. apply seqb_eq in E as ->. destruct (seqb k k'); reflexivity.
    + cbn [dup_get]. rewrite IH. destruct (seqb k0 k') eqn:E1; [|reflexivity].
      apply seqb_eq in E1 as ->. destruct (seqb k k') eqn:E2; [|reflexivity].
      apply seqb_eq in E2 as ->. rewrite seqb_refl in E. discriminate.
Qed.

Lemma occurrences_app s a b : occurrences s (a ++ b) = occurrences s a + occurrences s b.
Proof. induction a; cbn; [reflexivity|]. rewrite IHa. lia. Qed.
Lemma occurrences_zero s l : occurrences s l = 0 <-> ~ In s l.
Proof.
  induction l as [|x l IH]; cbn; [tauto|]. destruct (list_eq_dec N.eq_dec x s); split; intros H.
  - discriminate.
  - exfalso. tauto.
  - apply IH in H. tauto.
  - apply IH. tauto.
Qed.

(** The counter after the slugs [l] have been seen. *)
Definition counts (E : env) (l : list str) (d : dupcount) : Prop :=
  forall s, (forall t, In t l -> e_sha1 E t = e_sha1 E s -> t = s) ->
            dup_get d (e_sha1 E s) = Z.of_nat (occurrences s l).

Lemma counts_nil E : counts E [] [].
Proof. intros s _. reflexivity. Qed.

Lemma counts_step E l d s a d' :
  counts E l d -> number_anchor E d s = (a, d') -> counts E (l ++ [s]) d'.
Proof.
  intros H E0. unfold number_anchor in E0. injection E0 as _ <-.
  intros u Hu. rewrite dup_get_set, occurrences_app. cbn [occurrences].
  destruct (seqb (e_sha1 E s) (e_sha1 E u)) eqn:Es.
  - apply seqb_eq in Es. assert (s = u) by (apply Hu; [apply in_or_app; right; left; reflexivity|exact Es]). subst u.
    destruct (list_eq_dec N.eq_dec s s); [|congruence].
    rewrite H; [lia|]. intros t Ht. apply Hu. apply in_or_app. auto.
  - rewrite H; [|intros t Ht; apply Hu; apply in_or_app; auto].
    destruct (list_eq_dec N.eq_dec s u) as [->|]; [rewrite seqb_refl in Es; discriminate|]. lia.
Qed.

Lemma number_anchor_value E l d s a d' :
  counts E l d -> (forall t, In t l -> e_sha1 E t = e_sha1 E s -> t = s) ->
  number_anchor E d s = (a, d') -> a = label_number s (occurrences s l).
Proof.
  intros H Hs E0. unfold number_anchor in E0. injection E0 as <- _. rewrite (H s Hs).
  unfold label_number. destruct (occurrences s l) as [|k] eqn:Ek; [reflexivity|].
  replace (0 <? Z.of_nat (S k))%Z with true by (symmetry; apply Z.ltb_lt; lia).
  rewrite dec_nat. reflexivity.
Qed.

Lemma label_number_numbered s k : numbered s k (label_number s k).
Proof.
  unfold numbered, label_number. destruct k as [|k]; [left; auto|right]. split; [lia|].
  exists (decN (N.of_nat (S k))). split; [apply decN_decimal|reflexivity].
Qed.
Lemma numbered_unique s k a b : numbered s k a -> numbered s k b -> a = b.
Proof.
  intros [(H1 & ->)|(H1 & n1 & D1 & ->)] [(H2 & ->)|(H2 & n2 & D2 & ->)]; try lia; auto.
  rewrite (decimal_unique _ _ _ D1 D2). reflexivity.
Qed.

(** ** Calls *)
Lemma build_anchor_cm E p d text a d' :
  cm_family p = true -> build_anchor_link E p d text = Ok (a, d') ->
  exists s, a = Some (fst (number_anchor E d s)) /\ d' = snd (number_anchor E d s) /\ base_slug E p text s
            /\ slug E p text = Ok s.
Proof.
  intros Hp H. unfold base_slug. unfold build_anchor_link in *. rewrite Hp in *.
  destruct (1 <? length (replace_and_split_newlines text)); [discriminate|].
  destruct (slug E p text) as [s|e]; cbn [bind] in *; [|discriminate].
  destruct (number_anchor E d s) as (x & y) eqn:En. injection H as <- <-.
  exists s. rewrite En. repeat split; auto.
  unfold number_anchor. cbn. eexists. reflexivity.
Qed.

Lemma base_slug_slug E p text s : cm_family p = true -> base_slug E p text s -> slug E p text = Ok s.
Proof.
  intros Hp (d & H). unfold build_anchor_link in H. rewrite Hp in H.
  destruct (1 <? _); [discriminate|]. destruct (slug E p text) as [t|e]; cbn in H; [|discriminate].
  injection H as -> _. reflexivity.
Qed.
Lemma base_slug_unique E p text s t : base_slug E p text s -> base_slug E p text t -> s = t.
Proof. intros (d & H) (d' & H'). congruence. Qed.

Lemma calls_spec E p texts : forall l d anchors d',
  cm_family p = true -> counts E l d ->
  anchor_calls E p d texts = Ok (anchors, d') ->
  exists slugs, Forall2 (base_slug E p) texts slugs /\ length anchors = length texts /\
    counts E (l ++ slugs) d' /\
    (no_collision E (l ++ slugs) ->
     forall i s, nth_error slugs i = Some s ->
       nth_error anchors i = Some (Some (label_number s (occurrences s (l ++ firstn i slugs))))).
Proof.
  induction texts as [|t texts IH]; intros l d anchors d' Hp Hc H; cbn [anchor_calls] in H.
  - injection H as <- <-. exists []. rewrite app_nil_r. repeat split; auto. intros _ i s G. destruct i; discriminate.
  - destruct (build_anchor_link E p d t) as [(a & d1)|e] eqn:Eb; [|discriminate].
    apply build_anchor_cm in Eb as (s & -> & -> & Hs & _); [|exact Hp].
    destruct (number_anchor E d s) as (x & y) eqn:En. cbn [fst snd] in *.
    destruct (anchor_calls E p y texts) as [(al & d2)|e] eqn:Ec; [|discriminate]. injection H as <- <-.
    pose proof (counts_step E l d s x y Hc En) as Hc'.
    apply (IH (l ++ [s])) in Ec as (slugs & F & Hlen & Hc2 & Hv); [|exact Hp|exact Hc'].
    exists (s :: slugs). rewrite <- app_assoc in Hc2. repeat split; auto.
    + cbn. rewrite Hlen. reflexivity.
    + intros Hnc [|i] u Hu; cbn in Hu.
      * injection Hu as <-. cbn. do 2 f_equal. rewrite app_nil_r.
        eapply number_anchor_value; eauto. intros t' Ht' Eq. apply Hnc; auto; apply in_or_app; cbn; auto.
      * cbn [nth_error firstn]. rewrite <- app_assoc in Hv. rewrite (Hv Hnc i u Hu).
        rewrite <- app_assoc. reflexivity.
Qed.

(** ** Distinctness *)
Lemma numbered_dash_free (num : str) n : decimal n num -> ~ In 45%N num.
Proof.
  intros (F & _) H. rewrite Forall_forall in F. apply F in H. unfold decimal_digit in H. lia.
Qed.
Lemma dash_split (s t a b : str) :
  ~ In 45%N a -> ~ In 45%N b -> s ++ [45%N] ++ a = t ++ [45%N] ++ b -> s = t /\ a = b.
Proof.
  revert t. induction s as [|x s IH]; intros [|y t] Ha Hb E; cbn in *.
  - injection E as ->. auto.
  - injection E as E1 E2. subst. exfalso. apply Ha. apply in_or_app. right. left. reflexivity.
  - injection E as E1 E2. subst. exfalso. apply Hb. apply in_or_app. right. left. reflexivity.
  - injection E as -> E. destruct (IH t Ha Hb E) as (-> & ->). auto.
Qed.
Lemma decimal_nonzero_head n num : (0 < n)%N -> decimal n num -> decimal n num /\ num <> [48%N].
Proof. intros H D. split; [exact D|]. intros ->. destruct D as (_ & V & _). cbn in V. lia. Qed.

Lemma numbered_inj s k a t j :
  numbered s k a -> numbered t j a ->
  (forall n num, (0 < n)%N -> decimal n num -> s <> t ++ [45%N] ++ num) ->
  (forall n num, (0 < n)%N -> decimal n num -> t <> s ++ [45%N] ++ num) ->
  s = t /\ k = j.
Proof.
  intros [(H1 & E1)|(H1 & n1 & D1 & E1)] [(H2 & E2)|(H2 & n2 & D2 & E2)] M1 M2; subst.
  - auto.
  - exfalso. eapply M1; [|exact D2|reflexivity]. lia.
  - exfalso. eapply M2; [|exact D1|reflexivity]. lia.
  - apply dash_split in E2 as (-> & ->); eauto using numbered_dash_free.
    split; [reflexivity|]. destruct D1 as (_ & V1 & _), D2 as (_ & V2 & _). lia.
Qed.

(** ** Alphabet *)
Lemma slug_chars E p text s :
  cm_family p = true -> slug E p text = Ok s -> Forall (fun c => e_word E c = true \/ c = 45%N) s.
Proof.
  intros Hp H. unfold slug in H.
  destruct (remove_emphasis E p _) as [t|e]; cbn [bind] in H; [|discriminate].
  unfold anchor_link_punctuation_filter in H. rewrite Hp in H. cbn [bind] in H.
  assert (F : Forall (fun c => e_word E c = true \/ c = 45%N) (replace_char cSP cDASH (filter (anchor_char E) t))).
  { unfold replace_char. apply Forall_forall. intros x Hx. apply in_map_iff in Hx as (y & <- & Hy).
    apply filter_In in Hy as (_ & Hy). unfold anchor_char in Hy. rewrite !orb_true_iff, !N.eqb_eq in Hy.
    destruct (N.eqb y cSP) eqn:Ey; [right; reflexivity|].
    destruct Hy as [[Hy|Hy]|Hy]; auto. subst y. discriminate. }
  assert (G : forall u, Forall (fun c => e_word E c = true \/ c = 45%N) u ->
                        Forall (fun c => e_word E c = true \/ c = 45%N) (squeeze_dashes u)).
  { induction u as [|c u IHu]; intros Fu; cbn [squeeze_dashes]; [constructor|]. inversion Fu; subst.
    destruct (N.eqb c cDASH); [|constructor; auto].
    destruct u as [|y u']; [constructor; auto|]. destruct (N.eqb y cDASH); [apply IHu; assumption|constructor; auto]. }
  injection H as <-. destruct p; auto.
Qed.

Lemma numbered_chars E s k a :
  word_ascii E -> Forall (fun c => e_word E c = true \/ c = 45%N) s -> numbered s k a ->
  Forall (fun c => e_word E c = true \/ c = 45%N) a.
Proof.
  intros Hw F [(_ & ->)|(_ & num & (D & _) & ->)]; [exact F|].
  apply Forall_app. split; [exact F|]. constructor; [right; reflexivity|].
  eapply Forall_impl; [|exact D]. intros c Hc. left. unfold decimal_digit in Hc. apply Hw; [lia|].
  right. left. exact Hc.
Qed.
Lemma label_number_chars E s k :
  word_ascii E -> Forall (fun c => e_word E c = true \/ c = 45%N) s ->
  Forall (fun c => e_word E c = true \/ c = 45%N) (label_number s k).
Proof. intros. eapply numbered_chars; eauto using label_number_numbered. Qed.

(** ** Hyphens of gitlab *)
Lemma squeeze_no_double s : forall pre post, squeeze_dashes s <> pre ++ [45%N; 45%N] ++ post.
Proof.
  assert (Hhd : forall x u, squeeze_dashes u = 45%N :: x -> exists u', u = 45%N :: u').
  { intros x u. destruct u as [|c u']; cbn [squeeze_dashes]; [discriminate|].
    destruct (N.eqb c cDASH) eqn:Ec.
    - apply N.eqb_eq in Ec as ->. unfold cDASH. eauto.
    - intros G. injection G as -> _. discriminate. }
  induction s as [|c s IH]; intros pre post; cbn [squeeze_dashes].
  - destruct pre; discriminate.
  - destruct (N.eqb c cDASH) eqn:Ec.
    + destruct s as [|d s'].
      * destruct pre as [|x [|y pre]]; discriminate.
      * destruct (N.eqb d cDASH) eqn:Ed; [apply IH|].
        destruct pre as [|x pre]; cbn [app].
        -- intros G. injection G as E1 E2. rewrite Ed in E2. injection E2 as E3 _. subst d. discriminate.
        -- intros G. injection G as E1 E2. apply (IH pre post). exact E2.
    + destruct pre as [|x pre]; cbn [app].
      * intros G. injection G as E1 E2. subst c. discriminate.
      * intros G. injection G as E1 E2. eapply IH. exact E2.
Qed.

(** ** redcarpet *)
Definition low (w : str) : str := map ascii_tolower w.
Definition rc_plain (c : N) : Prop := c <> 60%N /\ c <> 38%N.

Lemma rc_loop_filter s : forall i st,
  rc_loop s i st = rc_loop (filter (fun c => negb (N.eqb c 60 || N.eqb c 38)) s) i st.
Proof.
  induction s as [|c s IH]; intros i st; [reflexivity|]. cbn [rc_loop filter].
  destruct (N.eqb c 60 || N.eqb c 38) eqn:E; cbn [negb].
  - apply IH.
  - cbn [rc_loop]. rewrite E. rewrite !IH. reflexivity.
Qed.
Lemma keeps_dec c : rc_plain c ->
  (negb (N.leb c 127) || rc_stripped c = false <-> redcarpet_keeps c).
Proof.
  intros (H1 & H2). unfold redcarpet_keeps, rc_stripped. rewrite orb_false_iff, negb_false_iff, N.leb_le.
  split.
  - intros (A & B). split; [exact A|]. apply cin_not_In in B. intros G. apply B.
    change (lit " -&+$,/:;=?@""#{}|^~[]`\*()%.!'<") with (lit " -&+$,/:;=?@""#{}|^~[]`\*()%.!'" ++ [60%N]) in G.
    apply in_app_or in G as [G|G]; [exact G|]. destruct G as [G|[]]. congruence.
  - intros (A & B). split; [exact A|]. apply cin_not_In. intros G. apply B.
    change (lit " -&+$,/:;=?@""#{}|^~[]`\*()%.!'<") with (lit " -&+$,/:;=?@""#{}|^~[]`\*()%.!'" ++ [60%N]).
    apply in_or_app. left. exact G.
Qed.
Lemma rc_not_kept c : rc_plain c -> ~ redcarpet_keeps c -> negb (N.leb c 127) || rc_stripped c = true.
Proof. intros H G. rewrite <- keeps_dec in G by exact H. destruct (_ || _); congruence. Qed.
Lemma rc_plain_test c : rc_plain c -> N.eqb c 60 || N.eqb c 38 = false.
Proof. intros (A & B). apply orb_false_iff. split; apply N.eqb_neq; assumption. Qed.

Lemma rc_gap g s : Forall rc_plain g -> Forall (fun c => ~ redcarpet_keeps c) g ->
  rc_loop (g ++ s) false true = rc_loop s false true /\ rc_loop (g ++ s) true true = rc_loop s true true
  /\ (g <> [] -> rc_loop (g ++ s) false false = rc_loop s false true
      /\ rc_loop (g ++ s) true false = (let '(t, i, st) := rc_loop s true true in (45%N :: t, i, st))).
Proof.
  induction g as [|c g IH]; intros Fp Fk; [repeat split; congruence|]. inversion Fp; inversion Fk; subst.
  destruct (IH H2 H6) as (A & B & C). cbn [rc_loop app].
  rewrite rc_plain_test, rc_not_kept by assumption. cbn [negb andb].
  rewrite A, B.
  destruct (rc_loop s true true) as ((t1 & i1) & st1). destruct (rc_loop s false true) as ((t2 & i2) & st2).
  repeat split.
Qed.
Lemma rc_word w s : w <> [] -> Forall rc_plain w -> Forall redcarpet_keeps w -> forall i st,
  rc_loop (w ++ s) i st = (let '(t, i, st) := rc_loop s true false in (low w ++ t, i, st)).
Proof.
  induction w as [|c w IH]; intros Hw Fp Fk i st; [congruence|]. inversion Fp; inversion Fk; subst.
  cbn [rc_loop app]. rewrite rc_plain_test by assumption.
  replace (negb (N.leb c 127) || rc_stripped c) with false by (symmetry; apply keeps_dec; assumption).
  destruct w as [|d w].
  - cbn [app]. destruct (rc_loop s true false) as ((? & ?) & ?). reflexivity.
  - rewrite IH by (auto; discriminate). destruct (rc_loop s true false) as ((? & ?) & ?). reflexivity.
Qed.

Definition joined (ws : list str) : str := join [45%N] (map low ws).
Definition J (ws : list str) (st : bool) : str := joined ws ++ if st then [45%N] else [].

Lemma rc_runs s ws : runs redcarpet_keeps s ws -> Forall rc_plain s ->
  (ws = [] -> rc_loop s true true = ([], true, true) /\ forall st, rc_loop s false st = ([], false, st || (0 <? length s))) /\
  (ws <> [] -> exists st', rc_loop s true true = (J ws st', true, st')
                        /\ rc_loop s false true = (J ws st', true, st') /\ rc_loop s false false = (J ws st', true, st')).
Proof.
  induction 1 as [g Fg|g w s ws Fg Hw Fw Hs H IH]; intros Fp.
  - split; [|congruence]. intros _. destruct (rc_gap g [] Fp Fg) as (A & B & C). rewrite app_nil_r in *. cbn in A, B.
    split; [exact B|]. intros st. destruct st; [rewrite A; reflexivity|].
    destruct g as [|c g]; [reflexivity|]. destruct C as (C & _); [discriminate|]. rewrite C. reflexivity.
  - split; [discriminate|]. intros _.
    apply Forall_app in Fp as (Fp1 & Fp2). apply Forall_app in Fp2 as (Fp2 & Fp3).
    specialize (IH Fp3).
    assert (T : exists t st', rc_loop s true false = (t, true, st') /\ low w ++ t = J (w :: ws) st').
    { destruct s as [|c s'].
      - assert (ws = []) as ->. { inversion H; subst; auto. destruct g0; [|discriminate]. destruct w0; [congruence|discriminate]. }
        exists [], false. split; [reflexivity|]. unfold J, joined. cbn. rewrite !app_nil_r. reflexivity.
      - specialize (Hs c s' eq_refl). inversion Fp3; subst.
        destruct (rc_gap [c] s') as (A & B & C); [constructor; auto|constructor; auto|].
        destruct C as (_ & C); [discriminate|]. cbn [app] in *. rewrite B in IH. rewrite C.
        destruct ws as [|w2 ws].
        + destruct IH as (IH & _). destruct (IH eq_refl) as (-> & _). exists [45%N], true. split; [reflexivity|].
          unfold J, joined. cbn. reflexivity.
        + destruct IH as (_ & IH). destruct IH as (st' & -> & _); [discriminate|].
          exists (45%N :: J (w2 :: ws) st'), st'. split; [reflexivity|]. unfold J, joined. cbn [map join].
          rewrite <- !app_assoc. reflexivity. }
    destruct T as (t & st' & E & Et). exists st'.
    destruct (rc_gap g (w ++ s) Fp1 Fg) as (A & B & C). rewrite A, B, !(rc_word w s Hw Fp2 Fw), E, Et.
    repeat split. destruct g as [|c g].
    + cbn [app]. rewrite (rc_word w s Hw Fp2 Fw), E, Et. reflexivity.
    + destruct C as (C & _); [discriminate|]. rewrite C, (rc_word w s Hw Fp2 Fw), E, Et. reflexivity.
Qed.

Lemma runs_exist K (Kd : forall c, K c \/ ~ K c) s : exists ws, runs K s ws.
Proof.
  assert (G : forall n (s : str), length s <= n -> exists ws, runs K s ws).
  2:{ apply (G (length s)). lia. }
  assert (Sp : forall (P : N -> Prop), (forall c, P c \/ ~ P c) -> forall s : str, exists a b, s = a ++ b /\ Forall P a /\ (forall c r, b = c :: r -> ~ P c)).
  { intros P Pd. induction s0 as [|c s0 (a & b & E & F & H)].
    - exists [], []. repeat split; [constructor|discriminate].
    - destruct (Pd c) as [Pc|Pc].
      + exists (c :: a), b. subst. repeat split; auto.
      + exists [], (c :: s0). repeat split; [constructor|]. intros c' r Eq. injection Eq as <- <-. exact Pc. }
  induction n as [|n IH]; intros u Hu.
  - destruct u; [|cbn in Hu; lia]. exists []. constructor. constructor.
  - destruct (Sp (fun c => ~ K c)) with (s := u) as (g & r & -> & Fg & Hr).
    { intros c. destruct (Kd c); [right; tauto|left; tauto]. }
    destruct r as [|c r].
    + exists []. rewrite app_nil_r. constructor. exact Fg.
    + destruct (Sp K Kd (c :: r)) as (w & s' & E & Fw & Hs').
      assert (Hw : w <> []).
      { intros ->. cbn in E. subst s'. apply (Hs' c r eq_refl).
        destruct (Kd c) as [A|A]; [exact A|]. exfalso. apply (Hr c r eq_refl). exact A. }
      assert (Hl : length s' <= n).
      { apply (f_equal (@length N)) in E. rewrite app_length in E. rewrite app_length, E in Hu.
        destruct w; [congruence|]. cbn in Hu. lia. }
      destruct (IH s' Hl) as (ws & R). exists (w :: ws). rewrite E. constructor; auto.
Qed.
Lemma keeps_decidable c : redcarpet_keeps c \/ ~ redcarpet_keeps c.
Proof.
  unfold redcarpet_keeps. destruct (N.le_gt_cases c 127).
  - destruct (in_dec N.eq_dec c (lit " -&+$,/:;=?@""#{}|^~[]`\*()%.!'<")); tauto.
  - right. intros (A & _). lia.
Qed.

Lemma rc_anchor_runs s ws :
  runs redcarpet_keeps (filter (fun c => negb (N.eqb c 60 || N.eqb c 38)) s) ws ->
  (ws <> [] -> rc_anchor s = joined ws) /\
  (ws = [] -> s <> [] -> rc_anchor s = lit "part-" ++ hexN (rc_hash s)) /\
  (s = [] -> rc_anchor s = []).
Proof.
  intros R. set (f := filter _ s) in *.
  assert (Fp : Forall rc_plain f).
  { apply Forall_forall. intros x Hx. apply filter_In in Hx as (_ & Hx). apply negb_true_iff, orb_false_iff in Hx as (A & B).
    apply N.eqb_neq in A, B. split; assumption. }
  destruct (rc_runs f ws R Fp) as (A & B). unfold rc_anchor. rewrite rc_loop_filter. fold f.
  split; [|split].
  - intros H. destruct (B H) as (st' & _ & _ & ->). cbn [negb andb]. unfold J.
    destruct st'; cbn [andb]; [apply removelast_last|apply app_nil_r].
  - intros H Hs. destruct (A H) as (_ & E). rewrite E. cbn [negb andb].
    destruct s; [congruence|]. reflexivity.
  - intros ->. reflexivity.
Qed.

Lemma rc_hash_djb2 s h : fold_left (fun h c => (h * 32 + h + c)%N) s h = djb2 h s.
Proof.
  revert h. induction s as [|c s IH]; intros h; [reflexivity|].
  cbn [fold_left djb2]. rewrite IH. f_equal. lia.
Qed.

Lemma hexuint_digits u : Forall lower_hex (hexuint_str u).
Proof. induction u; cbn; constructor; auto; unfold lower_hex, is_digit; lia. Qed.
Lemma hex_acc_value u acc : hex_value (Npos acc) (hexuint_str u) = Npos (Pos.of_hex_uint_acc u acc).
Proof.
  revert acc. induction u; intros acc; cbn -[N.mul N.add N.sub Pos.mul Pos.add hex_digit_value]; auto; rewrite <- IHu; f_equal;
    match goal with |- context[hex_digit_value ?a] => let v := eval vm_compute in (hex_digit_value a) in change (hex_digit_value a) with v end; lia.
Qed.
Lemma hex_uint_value u : hex_value 0 (hexuint_str u) = N.of_hex_uint u.
Proof.
  induction u; cbn -[N.mul N.add N.sub Pos.mul Pos.add]; auto; rewrite <- hex_acc_value; f_equal.
Qed.
Lemma hexN_value n : hex_value 0 (hexN n) = n.
Proof. unfold hexN. rewrite hex_uint_value. apply HexadecimalN.Unsigned.of_to. Qed.

Lemma low_lowered w : Forall2 ascii_lowered w (low w).
Proof.
  induction w; cbn; constructor; auto. unfold ascii_lowered, ascii_tolower, ascii_upper, in_range.
  destruct (N.leb 65 a && N.leb a 90)%bool eqn:E.
  - apply andb_true_iff in E as (A & B). apply N.leb_le in A, B. left. auto.
  - right. split; [|reflexivity]. intros (A & B). apply N.leb_le in A, B. rewrite A, B in E. discriminate.
Qed.
