(** C58: emphasis is paired as CommonMark prescribes. *)
From Coq Require Import String List NArith ZArith Bool Arith Lia.
From Verif Require Import Str StrFacts Spec EnvSpec AsciiEnv Regex HtmlRe Fence Atx Entity Inlines HelperSpec EmphSpec DelimSpec InlineProof InlineRun InlineEmph InlinePair InlineRead PropEmphasis.
Import ListNotations.
Local Open Scope list_scope.

(** ** Every text has a reading, and every reading one pairing *)
Lemma pairing_total : forall n past next, fold_right (fun r k => r_left r + k) 0 (past ++ next) + length next <= n -> Forall sound past -> Forall sound next -> exists out, paired past next out.
Proof.
  induction n as [|n IH]; intros past next Hn Sp Sn.
  - destruct next; [|cbn in Hn; lia]. exists (rev past). constructor.
  - destruct next as [|c next]; [exists (rev past); constructor|]. inversion Sn as [|? ? Sc Sn']; subst.
    assert (D : (exists mid o below, past = mid ++ o :: below /\ fits o c /\ forall x, In x mid -> ~ fits x c) \/ forall x, In x past -> ~ fits x c).
    { clear -past. induction past as [|x past IHp]; [right; intros x []|]. destruct (fits_dec x c) as [F|F].
      - left. exists [], x, past. split; [reflexivity|]. split; [exact F|intros y []].
      - destruct IHp as [(mid & o & below & -> & Fo & Fm)|Fn].
        + left. exists (x :: mid), o, below. split; [reflexivity|]. split; [exact Fo|]. intros y [<-|Hy]; auto.
        + right. intros y [<-|Hy]; auto. }
    assert (Sum : forall a b, fold_right (fun r k => r_left r + k) 0 (a ++ b) = fold_right (fun r k => r_left r + k) 0 a + fold_right (fun r k => r_left r + k) 0 b).
    { induction a as [|r a IHa]; intros b; [reflexivity|]. cbn [app fold_right]. rewrite IHa. lia. }
    destruct D as [(mid & o & below & -> & Fo & Fm)|Fn].
    + apply Forall_app in Sp as (Sm & Sp). inversion Sp as [|? ? So Sb]; subst. pose proof Fo as (_ & _ & _ & L1 & L2 & _). destruct (strength_le o c L1 L2) as (U1 & U2 & U3). set (u := strength o c) in *.
      assert (Es : fold_right (fun r k => r_left r + k) 0 (map shut mid) = fold_right (fun r k => r_left r + k) 0 mid).
      { clear. induction mid as [|r mid IHm]; [reflexivity|]. cbn [map fold_right]. rewrite IHm. reflexivity. }
      assert (Lo : r_left (open_with u o) = r_left o - u) by (unfold r_left; cbn; lia). assert (Lc : r_left (close_with u c) = r_left c - u) by (unfold r_left; cbn; lia).
      destruct (IH (map shut mid ++ open_with u o :: below) (close_with u c :: next)) as (out & P).
      * rewrite !Sum in *. cbn [fold_right length] in *. rewrite Es, Lo, Lc in *. lia.
      * apply Forall_app. split; [|constructor; [apply open_sound; assumption|assumption]]. rewrite Forall_forall in *. intros x Hx. apply in_map_iff in Hx as (y & <- & Hy). apply (Sm y Hy).
      * constructor; [apply close_sound; assumption|assumption].
      * exists out. apply paired_pair; assumption.
    + destruct (IH (c :: past) next) as (out & P).
      * rewrite Sum in *. cbn [fold_right length app] in *. rewrite ?Sum. lia.
      * constructor; assumption.
      * assumption.
      * exists out. apply paired_pass; assumption.
Qed.
Lemma reads_sound E a ps rs : reads E a ps rs -> Forall sound rs.
Proof. intros H. eapply Forall_impl; [|apply (reads_runs E a ps rs H)]. intros r (_ & A & B). unfold sound. lia. Qed.
Theorem C58_one_pairing : forall E a ps rs, reads E a ps rs -> exists out, paired [] rs out /\ forall out', paired [] rs out' -> out' = out.
Proof.
  intros E a ps rs H. destruct (pairing_total _ [] rs (Nat.le_refl _)) as (out & P); [constructor|eapply reads_sound; exact H|]. exists out. split; [exact P|].
  intros out' P'. symmetry. apply (paired_unique _ _ _ P). exact P'.
Qed.
Print Assumptions C58_one_pairing.
Theorem C58_every_text_reads : forall E s, Forall (fun c => inert c \/ delimiter c) s ->
  (forall a c n b, s = a ++ repeat c (S n) ++ b -> delimiter c -> hd 10%N b <> c -> unmistaken E c a (hd 10%N b)) ->
  exists ps rs, spell ps = s /\ reads E [] ps rs.
Proof.
  intros E s Hs Ht.
  assert (G : forall n b a, length b <= n -> Forall (fun c => inert c \/ delimiter c) b ->
    (forall a' c n b', a ++ b = a' ++ repeat c (S n) ++ b' -> delimiter c -> hd 10%N b' <> c -> unmistaken E c a' (hd 10%N b')) ->
    exists ps rs, spell ps = b /\ reads E a ps rs /\ (match b with c :: _ => delimiter c | [] => True end -> not_words ps)).
  { clear s Hs Ht. induction n as [|n IH]; intros b a Hn Hb Hnt.
    - destruct b; [|cbn in Hn; lia]. exists [], []. split; [reflexivity|]. split; [constructor|intros _; exact I].
    - destruct b as [|c b]; [exists [], []; split; [reflexivity|]; split; [constructor|intros _; exact I]|]. cbn [length] in Hn. inversion Hb as [|? ? Hc Hb']; subst. destruct (delimiter_dec c) as [Dc|Dc].
      + destruct (prefix_split (N.eqb c) b) as (u & v & -> & Hu & Hv). apply Forall_eqb_repeat' in Hu. rewrite Hu in *. set (k := length u) in *. clearbody k. clear Hu u.
        rewrite app_length, repeat_length in Hn. apply Forall_app in Hb' as (_ & Hbv).
        destruct (IH v (a ++ repeat c (S k))) as (ps & rs & Ev & Hr & _); [lia|exact Hbv|rewrite <- app_assoc; exact Hnt|].
        assert (Hhv : hd 10%N (spell ps) <> c).
        { rewrite Ev. destruct v as [|y v]; cbn; [destruct Dc as [->| ->]; discriminate|]. specialize (Hv y v eq_refl). apply N.eqb_neq in Hv. congruence. }
        exists (Marks c (S k) :: ps), (mkRun (length a) c (S k) (opens E c (last a 10%N) (hd 10%N (spell ps))) (closes E c (last a 10%N) (hd 10%N (spell ps))) 0 0 :: rs).
        split; [rewrite spell_cons, Ev; reflexivity|]. split; [|intros _; exact I].
        apply reads_marks; [exact Dc|lia|exact Hhv| |apply opens_iff|apply closes_iff|exact Hr].
        apply (Hnt a c k); [rewrite Ev; reflexivity|exact Dc|exact Hhv].
      + destruct (prefix_split (fun x => if delimiter_dec x then false else true) (c :: b)) as (u & v & Ev & Hu & Hv).
        assert (Hu1 : u <> []). { intros ->. cbn in Ev. specialize (Hv c b (eq_sym Ev)). cbn in Hv. destruct (delimiter_dec c); [contradiction|discriminate]. }
        rewrite Ev in *. assert (Hui : Forall inert u).
        { apply Forall_app in Hb as (Hb & _). rewrite Forall_forall in *. intros x Hx. specialize (Hu x Hx). destruct (Hb x Hx) as [|Dx]; [assumption|]. cbn in Hu. destruct (delimiter_dec x); [discriminate|contradiction]. }
        assert (Hvd : match v with x :: _ => delimiter x | [] => True end). { destruct v as [|x v']; [exact I|]. specialize (Hv x v' eq_refl). cbn in Hv. destruct (delimiter_dec x); [assumption|discriminate]. }
        destruct (IH v (a ++ u)) as (ps & rs & Es & Hr & Hnw); [|apply Forall_app in Hb; apply Hb|rewrite <- app_assoc; exact Hnt|].
        { apply (f_equal (@length N)) in Ev. rewrite app_length in Ev. destruct u; [congruence|]. cbn [length] in *. unfold str in *. lia. }
        exists (Words u :: ps), rs. split; [rewrite spell_cons, Es; reflexivity|]. split.
        * apply reads_words; [exact Hu1|exact Hui|apply Hnw; exact Hvd|exact Hr].
        * intros K. exfalso. destruct u as [|x u]; [congruence|]. cbn in K. inversion Hui as [|? ? Hx _]; subst. first [exact (Dc K)|exact (inert_not_delim x Hx K)]. }
  destruct (G (length s) s [] (Nat.le_refl _) Hs Ht) as (ps & rs & A & B & _). exists ps, rs. split; assumption.
Qed.
Print Assumptions C58_every_text_reads.

(** ** What the program does with a reading *)
Theorem C58_pairing_exact : forall E p ps rs out, p <> OtherParser -> zs_ascii E -> ~ In 0%N (spell ps) ->
  reads E [] ps rs -> underscores_agree rs -> paired [] rs out ->
  remove_emphasis E p (spell ps) = Ok (respell leaves ps out).
Proof.
  intros E p ps rs out Hp Hz H0 Hr Hw Hpd. destruct (emphasis_pairs E ps rs Hz Hr) as (out' & ign & P & I1 & I2).
  - apply kind_agreeing. exact Hw.
  - rewrite (paired_unique _ _ _ Hpd _ P). rewrite <- I2. unfold remove_emphasis. rewrite (delete_nul (spell ps)) by exact H0.
    rewrite I1. destruct p; try reflexivity. contradiction.
Qed.
Print Assumptions C58_pairing_exact.
Lemma leaves_left r : sound r -> r_closed r = 0 \/ r_opened r = 0 -> leaves r = r_left r.
Proof.
  unfold sound, leaves, r_left. intros S H. destruct r as [s c n o cl a b]. cbn [r_closed r_opened r_size] in *.
  assert (G : forall lo hi m j, lo <= hi -> length (filter (fun k => negb ((lo <=? k) && (k <? hi))) (seq j m)) = (Nat.min lo (j + m) - j) + (j + m - Nat.max hi j)).
  { induction m as [|m IH]; intros j Hle; [cbn; lia|]. cbn [seq filter]. destruct (Nat.leb_spec lo j), (Nat.ltb_spec j hi); cbn [andb negb length]; rewrite IH by exact Hle; lia. }
  destruct H as [-> | ->].
  - rewrite (filter_ext_in _ (fun k => negb ((n - 0 - b <=? k) && (k <? n - 0)))); [rewrite G by lia; lia|]. intros k _. cbn. reflexivity.
  - rewrite (filter_ext_in _ (fun k => negb ((0 <=? k) && (k <? a)))); [rewrite G by lia; lia|]. intros k Hk. apply in_seq in Hk. 
    destruct (Nat.ltb_spec k a), (Nat.leb_spec (n - a - 0) k), (Nat.ltb_spec k (n - a)); cbn [orb andb negb Nat.leb]; try reflexivity; exfalso; lia.
Qed.
(** No run is used both to close and to open: the program gives what CommonMark prescribes. *)
Theorem C58_pairs_as_commonmark : forall E p ps rs out, p <> OtherParser -> zs_ascii E -> ~ In 0%N (spell ps) ->
  reads E [] ps rs -> underscores_agree rs -> paired [] rs out ->
  (forall r, In r out -> r_closed r = 0 \/ r_opened r = 0) ->
  remove_emphasis E p (spell ps) = Ok (respell r_left ps out).
Proof.
  intros E p ps rs out Hp Hz H0 Hr Hw Hpd Hu. rewrite (C58_pairing_exact E p ps rs out Hp Hz H0 Hr Hw Hpd). f_equal.
  assert (S : Forall sound out) by (apply (paired_sound _ _ _ Hpd); [constructor|eapply reads_sound; exact Hr]). clear -S Hu.
  revert out S Hu. induction ps as [|q ps IH]; intros out S Hu; [reflexivity|]. destruct q; cbn [respell]; try (rewrite IH by assumption; reflexivity).
  destruct out as [|r out]; [reflexivity|]. inversion S; subst. rewrite IH; [|assumption|intros x Hx; apply Hu; right; exact Hx]. rewrite leaves_left; [reflexivity|assumption|apply Hu; left; reflexivity].
Qed.
Print Assumptions C58_pairs_as_commonmark.

(** ** Cases *)
Lemma inert_b w : forallb (fun c => negb (existsb (N.eqb c) (lit "`\&<[]*_" ++ [0; 10; 13; 256]%N))) w = true -> Forall inert w.
Proof.
  intros H. apply Forall_forall. intros c Hc. rewrite forallb_forall in H. specialize (H c Hc). apply negb_true_iff in H. rewrite existsb_app in H. apply orb_false_iff in H as (H1 & H2).
  assert (N1 : ~ In c (lit "`\&<[]*_")).
  { intros X. assert (Y : existsb (N.eqb c) (lit "`\&<[]*_") = true) by (apply existsb_exists; exists c; split; [exact X|apply N.eqb_refl]). congruence. }
  assert (N2 : ~ In c [0; 10; 13; 256]%N).
  { intros X. assert (Y : existsb (N.eqb c) [0; 10; 13; 256]%N = true) by (apply existsb_exists; exists c; split; [exact X|apply N.eqb_refl]). congruence. }
  split; [exact N1|]. cbn in N2. repeat split; intros ->; apply N2; tauto.
Qed.
Local Ltac flag := first [rewrite <- opens_iff | rewrite <- closes_iff]; vm_compute; tauto.
Local Ltac read :=
  match goal with
  | |- reads _ _ [] _ => apply reads_end
  | |- reads _ _ (Words _ :: _) _ => apply reads_words; [discriminate|apply inert_b; vm_compute; reflexivity|exact I|read]
  | |- reads _ _ (Escape _ :: _) _ => apply reads_escape; [lia|read]
  | |- reads _ _ (Marks _ _ :: _) _ => refine (reads_marks _ _ _ _ _ _ _ _ _ _ _ _ _ _ _);
       [unfold delimiter; auto|lia|vm_compute; discriminate|apply not_tail_unmistaken; vm_compute; intros (? & ?); congruence|flag|flag|read]
  end.
Local Ltac no_fit := let x := fresh in let H := fresh in intros x H; cbn [In] in H;
  repeat match type of H with _ \/ _ => destruct H as [H|H] | False => destruct H end; try (subst x; rewrite <- fitsb_iff; vm_compute; discriminate).
Local Ltac pass := apply paired_pass; [no_fit|].
Local Ltac pair m o b := apply (paired_pair m o b); [apply fitsb_iff; vm_compute; reflexivity|no_fit|]; cbv [map app shut open_with close_with strength r_left r_size r_closed r_opened Nat.sub Nat.leb andb Nat.add r_start r_char r_opens r_closes].
(** The multiple-of-three rule, an escape, crossing and unmatched runs. *)
Example C58_ex :
  let text := lit "*foo**bar* \** x_y" in
  let ps := [Marks 42 1; Words (lit "foo"); Marks 42 2; Words (lit "bar"); Marks 42 1; Words (lit " "); Escape 42; Marks 42 1; Words (lit " x"); Marks 95 1; Words (lit "y")] in
  let rs := [mkRun 0 42 1 true false 0 0; mkRun 4 42 2 true true 0 0; mkRun 9 42 1 false true 0 0; mkRun 13 42 1 false true 0 0; mkRun 16 95 1 false false 0 0] in
  let out := [mkRun 0 42 1 true false 0 1; mkRun 4 42 2 false false 0 0; mkRun 9 42 1 false true 1 0; mkRun 13 42 1 false true 0 0; mkRun 16 95 1 false false 0 0] in
  spell ps = text /\ reads ascii_env [] ps rs /\ underscores_agree rs /\ paired [] rs out /\ (forall r, In r out -> r_closed r = 0 \/ r_opened r = 0) /\
  respell r_left ps out = lit "foo**bar \** x_y" /\ remove_emphasis ascii_env Github text = Ok (lit "foo**bar \** x_y").
Proof.
  cbv zeta. split; [vm_compute; reflexivity|]. split; [read|]. split; [intros o c Ho Hc A B C D; cbn in Ho, Hc; intuition (subst o; subst c; cbn in *; congruence)|].
  split.
  - pass. pass. pair [mkRun 4 42 2 true true 0 0] (mkRun 0 42 1 true false 0 0) (@nil run). pass. pass. pass. apply paired_end.
  - split; [intros r Hr; cbn in Hr; intuition (subst r; cbn; auto)|]. split; vm_compute; reflexivity.
Qed.
(** An underscore that can both open and close, and a degree sign (176) before a run. *)
Example C58_both_ways_ex :
  let ps := [Words (lit "("); Marks 95 1; Words (lit "a."); Marks 95 1; Words (lit ".b"); Marks 95 1; Words (lit ") 20" ++ [176%N]); Marks 42 1; Words (lit "C"); Marks 42 1] in
  let rs := [mkRun 1 95 1 true false 0 0; mkRun 4 95 1 true true 0 0; mkRun 7 95 1 false true 0 0; mkRun 13 42 1 true true 0 0; mkRun 15 42 1 false true 0 0] in
  let out := [mkRun 1 95 1 true false 0 1; mkRun 4 95 1 true true 1 0; mkRun 7 95 1 false true 0 0; mkRun 13 42 1 true true 0 1; mkRun 15 42 1 false true 1 0] in
  reads ascii_env [] ps rs /\ underscores_agree rs /\ paired [] rs out /\ (forall r, In r out -> r_closed r = 0 \/ r_opened r = 0) /\
  ~ In 0%N (spell ps) /\ remove_emphasis ascii_env Github (spell ps) = Ok (lit "(a..b_) 20" ++ [176%N] ++ lit "C").
Proof.
  cbv zeta. split.
  { repeat first [apply reads_words; [discriminate|apply inert_b; vm_compute; reflexivity|exact I|]
      |refine (reads_marks _ _ _ _ _ _ _ _ _ _ _ _ _ _ _); [unfold delimiter; auto|lia|vm_compute; discriminate
        |first [apply not_tail_unmistaken; vm_compute; intros (? & ?); congruence|apply unmistaken_flags; split; vm_compute; reflexivity]|flag|flag|]
      |apply reads_end]. }
  split; [intros o c Ho Hc A B C D; cbn in Ho, Hc; intuition (subst o; subst c; cbn in *; congruence)|].
  split.
  - pass. pair (@nil run) (mkRun 1 95 1 true false 0 0) (@nil run). pass. pass. pass.
    pair (@nil run) (mkRun 13 42 1 true true 0 0) [mkRun 7 95 1 false true 0 0; mkRun 4 95 1 true true 1 0; mkRun 1 95 1 true false 0 1]. pass. apply paired_end.
  - split; [intros r Hr; cbn in Hr; intuition (subst r; cbn; auto)|]. split; [vm_compute; intuition discriminate|vm_compute; reflexivity].
Qed.
(** Underscores that can both open and close: the program remembers one place for all of them, below which it does
    not look for an opening run, although one of another length may be there. *)
Theorem C58_underscores_refuted : exists ps rs out,
  spell ps = lit "__a._.b__" /\ reads ascii_env [] ps rs /\ paired [] rs out /\ (forall r, In r out -> r_closed r = 0 \/ r_opened r = 0) /\
  respell r_left ps out = lit "a._.b" /\ remove_emphasis ascii_env Github (spell ps) = Ok (lit "__a._.b__").
Proof.
  exists [Marks 95 2; Words (lit "a."); Marks 95 1; Words (lit ".b"); Marks 95 2],
    [mkRun 0 95 2 true false 0 0; mkRun 4 95 1 true true 0 0; mkRun 7 95 2 false true 0 0],
    [mkRun 0 95 2 true false 0 2; mkRun 4 95 1 false false 0 0; mkRun 7 95 2 false true 2 0].
  split; [vm_compute; reflexivity|]. split; [read|]. split.
  - pass. pass. pair [mkRun 4 95 1 true true 0 0] (mkRun 0 95 2 true false 0 0) (@nil run). pass. apply paired_end.
  - split; [intros r Hr; cbn in Hr; intuition (subst r; cbn; auto)|]. split; vm_compute; reflexivity.
Qed.
Print Assumptions C58_underscores_refuted.
(** Looking backwards from a run the program takes U+0080 to U+00BF for parts of another character and passes over
    them: after a letter and a no-break space (160) an underscore does not open emphasis, although it may. *)
Theorem C58_no_break_space_refuted :
  space_char ascii_env 160 /\ may_open ascii_env 95 160 98 /\ may_close ascii_env 95 98 10 /\
  remove_emphasis ascii_env Github (97%N :: 160%N :: lit "_b_") = Ok (97%N :: 160%N :: lit "_b_") /\
  remove_emphasis ascii_env Github (97%N :: 32%N :: lit "_b_") = Ok (97%N :: 32%N :: lit "b").
Proof.
  assert (L : ~ space_char ascii_env 98 /\ ~ punct_char ascii_env 98).
  { split; [intros [X|X]; [discriminate|cbn in X; intuition discriminate]|intros [X|X]; [discriminate|lia]]. }
  assert (S : space_char ascii_env 160) by (left; reflexivity). assert (N : space_char ascii_env 10) by (right; cbn; auto).
  split; [exact S|]. split; [split; [split; [apply L|left; apply L]|intros _; left; intros (X & _); exact (X S)]|].
  split; [split; [split; [apply L|left; apply L]|intros _; left; intros (X & _); exact (X N)]|]. split; vm_compute; reflexivity.
Qed.
Print Assumptions C58_no_break_space_refuted.
