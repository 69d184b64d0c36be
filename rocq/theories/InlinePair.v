(** The emphasis loop pairs runs as CommonMark does. *)
From Coq Require Import String List NArith ZArith Bool Arith Lia.
From Verif Require Import Str StrFacts Spec EnvSpec Regex HtmlRe Fence Atx Entity Inlines HelperSpec EntityProof EmphSpec DelimSpec InlineProof InlineRun InlineEmph.
Import ListNotations.
Local Open Scope list_scope.

(** ** The pairing is a function *)
Definition fitsb (o c : run) : bool :=
  r_opens o && r_closes c && N.eqb (r_char o) (r_char c) && (0 <? r_left o) && (0 <? r_left c) &&
  (negb (r_closes o || r_opens c) || negb ((r_size o + r_size c) mod 3 =? 0) || ((r_size o mod 3 =? 0) && (r_size c mod 3 =? 0))).
Lemma fitsb_iff o c : fitsb o c = true <-> fits o c.
Proof.
  unfold fitsb, fits. rewrite !andb_true_iff, !orb_true_iff, !andb_true_iff, !negb_true_iff, !Nat.ltb_lt, N.eqb_eq, !Nat.eqb_eq, orb_false_iff, Nat.eqb_neq.
  destruct (r_closes o), (r_opens c); split; intros H; repeat (match goal with H : _ /\ _ |- _ => destruct H end); repeat (split; [assumption|]);
    repeat split; try assumption; try tauto; try (intros; tauto); intuition (try congruence).
  all: destruct (Nat.eq_dec ((r_size o + r_size c) mod 3) 0); intuition congruence.
Qed.
Lemma fits_dec o c : {fits o c} + {~ fits o c}.
Proof. destruct (fitsb o c) eqn:F; [left; apply fitsb_iff; exact F|right; intros H; apply fitsb_iff in H; congruence]. Qed.
Lemma first_unique (P : run -> Prop) a x b a' x' b' : a ++ x :: b = a' ++ x' :: b' -> P x -> P x' -> (forall y, In y a -> ~ P y) -> (forall y, In y a' -> ~ P y) ->
  a = a' /\ x = x' /\ b = b'.
Proof.
  revert a'. induction a as [|y a IH]; intros [|y' a'] H Px Px' Ha Ha'; cbn in H; injection H as H1 H2; subst.
  - auto.
  - exfalso. apply (Ha' y'); [left; reflexivity|exact Px].
  - exfalso. apply (Ha x'); [left; reflexivity|exact Px'].
  - destruct (IH a' H2 Px Px') as (-> & -> & ->); [intros z Hz; apply Ha; right; exact Hz|intros z Hz; apply Ha'; right; exact Hz|]. auto.
Qed.
Lemma paired_unique past next out : paired past next out -> forall out', paired past next out' -> out = out'.
Proof.
  induction 1 as [past|past c next out Hno H IH|mid o below c next out Hf Hno H IH]; intros out' H'.
  - inversion H'; reflexivity.
  - inversion H' as [|? ? ? ? Hno' H2|mid o below ? ? ? Hf' Hno' H2]; subst; [apply IH; exact H2|]. exfalso. apply (Hno o); [apply in_elt|exact Hf'].
  - inversion H' as [|? ? ? ? Hno' H2|mid' o' below' ? ? ? Hf' Hno' H2]; subst.
    + exfalso. apply (Hno' o); [apply in_elt|exact Hf].
    + destruct (first_unique (fun x => fits x c) mid' o' below' mid o below) as (-> & -> & ->); auto.
Qed.

(** ** Shapes and bounds do not change *)
Definition shape (r : run) : nat * N * nat := (r_start r, r_char r, r_size r).
Lemma paired_shape past next out : paired past next out -> map shape out = map shape (rev past ++ next).
Proof.
  induction 1 as [past|past c next out Hno H IH|mid o below c next out Hf Hno H IH].
  - rewrite app_nil_r. reflexivity.
  - rewrite IH. cbn [rev]. rewrite <- app_assoc. reflexivity.
  - rewrite IH, !map_app, !map_rev, !map_app, map_map. reflexivity.
Qed.
Definition sound (r : run) : Prop := r_closed r + r_opened r <= r_size r.
Lemma strength_le o c : 0 < r_left o -> 0 < r_left c -> 1 <= strength o c /\ strength o c <= r_left o /\ strength o c <= r_left c.
Proof. intros A B. unfold strength. destruct (Nat.leb_spec 2 (r_left o)), (Nat.leb_spec 2 (r_left c)); cbn [andb]; lia. Qed.
Lemma open_sound u r : sound r -> u <= r_left r -> sound (open_with u r).
Proof. unfold sound, r_left. destruct r. cbn. lia. Qed.
Lemma close_sound u r : sound r -> u <= r_left r -> sound (close_with u r).
Proof. unfold sound, r_left. destruct r. cbn. lia. Qed.
Lemma paired_sound past next out : paired past next out -> Forall sound past -> Forall sound next -> Forall sound out.
Proof.
  induction 1 as [past|past c next out Hno H IH|mid o below c next out Hf Hno H IH]; intros Hp Hn.
  - rewrite Forall_forall in *. intros x Hx. apply Hp. apply in_rev. exact Hx.
  - inversion Hn; subst. apply IH; [constructor; assumption|assumption].
  - inversion Hn; subst. apply Forall_app in Hp as (Hm & Ho). inversion Ho; subst. destruct Hf as (_ & _ & _ & L1 & L2 & _). destruct (strength_le o c L1 L2) as (_ & S1 & S2).
    apply IH.
    + apply Forall_app. split; [|constructor; [apply open_sound; assumption|assumption]]. rewrite Forall_forall in *. intros x Hx. apply in_map_iff in Hx as (y & <- & Hy). apply (Hm y Hy).
    + constructor; [apply close_sound; assumption|assumption].
Qed.

(** ** Delimiters of the program and runs *)
Definition same (d : delim) (r : run) : Prop :=
  d_start d = r_start r /\ d_end d = r_start r + r_size r /\ d_char d = r_char r /\ d_len d = r_size r /\ d_open d = r_opens r /\ d_close d = r_closes r /\
  d_num d = r_left r /\ d_off d = r_closed r + r_opened r /\ r_closed r + r_opened r < r_size r.
Inductive sim (dead : run -> Prop) : list delim -> list run -> Prop :=
| sim_nil : sim dead [] []
| sim_live d r ds rs : same d r -> sim dead ds rs -> sim dead (d :: ds) (r :: rs)
| sim_dead r ds rs : dead r -> sim dead ds rs -> sim dead ds (r :: rs).
Definition spent (r : run) : Prop := r_opens r = false \/ r_left r = 0.
Definition mute (r : run) : Prop := (r_opens r = false /\ r_closes r = false) \/ r_left r = 0.
Lemma mute_spent r : mute r -> spent r.
Proof. intros [(H & _)|H]; [left|right]; exact H. Qed.
Lemma mute_no_fit o r : mute r -> ~ fits o r.
Proof. intros [(_ & H)|H] (_ & A & _ & _ & B & _); [congruence|lia]. Qed.
Lemma spent_no_fit o r : spent o -> ~ fits o r.
Proof. intros [H|H] (A & _ & _ & B & _); [congruence|lia]. Qed.
Lemma sim_deads dead ds l rs : Forall dead l -> sim dead ds rs -> sim dead ds (l ++ rs).
Proof. induction 1 as [|r l H Hl IH]; intros S; [exact S|]. cbn. apply sim_dead; [exact H|]. apply IH. exact S. Qed.
Lemma sim_head dead d ds rs : sim dead (d :: ds) rs -> exists l r rs', rs = l ++ r :: rs' /\ Forall dead l /\ same d r /\ sim dead ds rs'.
Proof.
  intros H. remember (d :: ds) as l0 eqn:E0. revert d ds E0. induction H as [|d r ds rs Hs H IH|r ds0 rs Hd H IH]; intros d0 ds1 E0; [discriminate| |].
  - injection E0 as -> ->. exists [], r, rs. split; [reflexivity|]. split; [constructor|]. split; assumption.
  - destruct (IH d0 ds1 E0) as (l & r' & rs' & -> & Hl & Hs & Hr). exists (r :: l), r', rs'. split; [reflexivity|]. split; [constructor; assumption|]. split; assumption.
Qed.
Lemma sim_empty dead rs : sim dead [] rs -> Forall dead rs.
Proof. intros H. remember [] as l eqn:El. induction H; [constructor|discriminate|constructor; auto]. Qed.
Lemma sim_split dead mid o below rs : sim dead (mid ++ o :: below) rs -> exists mid' o' below', rs = mid' ++ o' :: below' /\ sim dead mid mid' /\ same o o' /\ sim dead below below'.
Proof.
  revert rs. induction mid as [|m mid IH]; intros rs H; cbn [app] in H; apply sim_head in H as (l & r & rs' & -> & Hl & Hs & Hr).
  - exists l, r, rs'. split; [reflexivity|]. split; [|split; assumption]. rewrite <- (app_nil_r l). apply sim_deads; [exact Hl|constructor].
  - destruct (IH rs' Hr) as (mid' & o' & below' & -> & Hm & Ho & Hb). exists (l ++ r :: mid'), o', below'. split; [rewrite <- app_assoc; reflexivity|].
    split; [|split; assumption]. apply sim_deads; [exact Hl|]. apply sim_live; assumption.
Qed.
Lemma sim_in dead ds rs r : sim dead ds rs -> In r rs -> dead r \/ exists d, In d ds /\ same d r.
Proof.
  induction 1 as [|d r0 ds rs Hs H IH|r0 ds rs Hd H IH]; intros Hi; [destruct Hi| |]; destruct Hi as [<-|Hi].
  - right. exists d. split; [left; reflexivity|exact Hs].
  - destruct (IH Hi) as [D|(d' & A & B)]; [left; exact D|right; exists d'; split; [right; exact A|exact B]].
  - left. exact Hd.
  - destruct (IH Hi) as [D|(d' & A & B)]; [left; exact D|right; exists d'; auto].
Qed.
Lemma match_fits d e o c : same d o -> same e c -> d_close e = true -> (can_match d e = true <-> fits o c).
Proof.
  intros (A1 & A2 & A3 & A4 & A5 & A6 & A7 & A8 & A9) (B1 & B2 & B3 & B4 & B5 & B6 & B7 & B8 & B9) Hc. unfold can_match, fits. rewrite A3, A4, A5, A6, B3, B4, B5.
  rewrite B6 in Hc. rewrite !andb_true_iff, !orb_true_iff, !negb_true_iff, N.eqb_eq, Nat.eqb_eq, Nat.eqb_neq, orb_false_iff. unfold r_left.
  assert (L1 : 0 < r_size o - r_closed o - r_opened o) by lia. assert (L2 : 0 < r_size c - r_closed c - r_opened c) by lia.
  assert (M : (r_size o + r_size c) mod 3 = 0 -> r_size c mod 3 = 0 -> r_size o mod 3 = 0).
  { intros S Z. rewrite Nat.add_mod, Z, Nat.add_0_r, Nat.mod_mod in S by discriminate. exact S. }
  assert (D : (r_size o + r_size c) mod 3 = 0 \/ (r_size o + r_size c) mod 3 <> 0) by (destruct (Nat.eq_dec ((r_size o + r_size c) mod 3) 0); auto).
  assert (D2 : r_size c mod 3 = 0 \/ r_size c mod 3 <> 0) by (destruct (Nat.eq_dec (r_size c mod 3) 0); auto).
  split.
  - intros ((Ho & Hch) & Hm). repeat (split; [assumption|]). intros K S. destruct Hm as [[(Q1 & Q2)|Hm]|Hm]; [destruct K; congruence|auto|contradiction].
  - intros (Ho & _ & Hch & _ & _ & Hm). split; [split; assumption|]. destruct D as [D|D]; [|right; exact D]. left. destruct D2 as [D2|D2]; [right; exact D2|].
    left. destruct (r_opens c), (r_closes o); auto; destruct (Hm ltac:(auto) D); contradiction.
Qed.

(** ** The positions removed *)
Definition gone (i : nat) (r : run) : bool :=
  (r_start r <=? i) && ((i <? r_start r + r_closed r) ||
    ((r_start r + (r_size r - r_closed r - r_opened r) <=? i) && (i <? r_start r + (r_size r - r_closed r)))).
Lemma gone_shut i r : gone i (shut r) = gone i r.
Proof. reflexivity. Qed.
Definition inr (i : nat) (r : nat * nat) : bool := (fst r <=? i) && (i <? snd r).
Lemma gone_open i u d r : same d r -> u <= r_left r -> gone i (open_with u r) = gone i r || inr i (opener_range u d).
Proof.
  intros (A1 & A2 & A3 & A4 & A5 & A6 & A7 & A8 & A9) Hu. unfold gone, inr, opener_range, r_left in *. rewrite A2, A8. destruct r as [s ch n o c cl op]. cbn [r_start r_char r_size r_opens r_closes r_closed r_opened open_with close_with fst snd] in *.
  destruct (Nat.leb_spec s i), (Nat.ltb_spec i (s + cl)), (Nat.leb_spec (s + (n - cl - (op + u))) i), (Nat.leb_spec (s + (n - cl - op)) i), (Nat.ltb_spec i (s + (n - cl))),
    (Nat.leb_spec (s + n - u - (cl + op)) i), (Nat.ltb_spec i (s + n - (cl + op))); cbn [andb orb]; try reflexivity; exfalso; lia.
Qed.
Lemma gone_close i u d r : same d r -> u <= r_left r -> r_opened r = 0 -> gone i (close_with u r) = gone i r || inr i (closer_range u d).
Proof.
  intros (A1 & A2 & A3 & A4 & A5 & A6 & A7 & A8 & A9) Hu Hz. unfold gone, inr, closer_range, r_left in *. rewrite A1, A8. destruct r as [s ch n o c cl op]. cbn [r_start r_char r_size r_opens r_closes r_closed r_opened open_with close_with fst snd] in *. subst op.
  destruct (Nat.leb_spec s i), (Nat.ltb_spec i (s + (cl + u))), (Nat.ltb_spec i (s + cl)), (Nat.leb_spec (s + (n - (cl + u) - 0)) i), (Nat.ltb_spec i (s + (n - (cl + u)))), (Nat.leb_spec (s + (n - cl - 0)) i), (Nat.ltb_spec i (s + (n - cl))),
    (Nat.leb_spec (s + (cl + 0)) i), (Nat.ltb_spec i (s + u + (cl + 0))); cbn [andb orb]; try reflexivity; exfalso; lia.
Qed.

(** ** Remembered bottoms do not hide an opener *)
Section Bottoms.
(** What underscore runs there are: size, may open, may close. *)
Context (K : nat -> bool -> bool -> Prop).
Definition one_way (d : delim) : Prop := d_char d = 95%N -> K (d_len d) (d_open d) (d_close d).
Definition agreeing : Prop := forall n o c n' o' c', K n o c -> K n' o' c' -> o = true -> c' = true -> c || o' = true -> (n + n') mod 3 = 0 -> n' mod 3 = 0.
Context (HK : agreeing).
Definition closes_as (i : nat) (c : delim) : Prop := bottom_index c = Ok i /\ d_close c = true /\ delimiter (d_char c) /\ one_way c.
Lemma ok_inj {A} (a b : A) : Ok a = Ok b -> a = b.
Proof. congruence. Qed.
Lemma star_index c : d_char c = 42%N -> bottom_index c = Ok (3 + (if d_open c then 3 else 0) + d_len c mod 3).
Proof. intros H. unfold bottom_index. rewrite H. reflexivity. Qed.
Lemma under_index c : d_char c = 95%N -> bottom_index c = Ok 2.
Proof. intros H. unfold bottom_index. rewrite H. reflexivity. Qed.
Lemma same_class i o c c' : closes_as i c -> closes_as i c' -> one_way o -> can_match o c = can_match o c'.
Proof.
  intros (B & C & D & W) (B' & C' & D' & W') Wo. 
  destruct D as [D|D], D' as [D'|D']; rewrite ?(star_index c D), ?(under_index c D) in B; rewrite ?(star_index c' D'), ?(under_index c' D') in B'; apply ok_inj in B; apply ok_inj in B'; unfold can_match; rewrite D, D'.
  - assert (A : 3 + (if d_open c then 3 else 0) + d_len c mod 3 = 3 + (if d_open c' then 3 else 0) + d_len c' mod 3) by lia.
    pose proof (Nat.mod_upper_bound (d_len c) 3 ltac:(discriminate)). pose proof (Nat.mod_upper_bound (d_len c') 3 ltac:(discriminate)).
    assert (Ho : d_open c = d_open c') by (destruct (d_open c), (d_open c'); try reflexivity; lia). rewrite Ho in *.
    assert (M : d_len c mod 3 = d_len c' mod 3) by lia. rewrite M. rewrite (Nat.add_mod (d_len o) (d_len c)), (Nat.add_mod (d_len o) (d_len c')), M by discriminate. reflexivity.
  - exfalso. assert (2 = 3 + (if d_open c then 3 else 0) + d_len c mod 3) by lia. lia.
  - exfalso. assert (2 = 3 + (if d_open c' then 3 else 0) + d_len c' mod 3) by lia. lia.
  - unfold one_way in *. destruct (N.eqb_spec (d_char o) 95) as [Co|Co]; [|rewrite !andb_false_r; reflexivity].
    specialize (W D). specialize (W' D'). specialize (Wo Co). destruct (d_open o) eqn:Oo; [|reflexivity]. cbn [andb].
    assert (T : forall e, d_close e = true -> K (d_len e) (d_open e) (d_close e) ->
      negb (d_open e || d_close o) || (d_len e mod 3 =? 0) || negb ((d_len o + d_len e) mod 3 =? 0) = true).
    { intros e Ce We. destruct (Nat.eqb_spec (d_len e mod 3) 0) as [|Z]; [rewrite orb_true_r; reflexivity|]. destruct (Nat.eqb_spec ((d_len o + d_len e) mod 3) 0) as [Y|]; [|rewrite orb_true_r; reflexivity].
      destruct (d_open e || d_close o) eqn:Bx; [|reflexivity]. exfalso. apply Z. apply (HK (d_len o) (d_open o) (d_close o) (d_len e) (d_open e) (d_close e)); rewrite ?Oo; auto. rewrite orb_comm. exact Bx. }
    rewrite (T c C W), (T c' C' W'). reflexivity.
Qed.
Fixpoint desc (l : list delim) : Prop := match l with [] => True | d :: l' => Forall (fun x => d_start x < d_start d) l' /\ desc l' end.
Fixpoint asc (l : list delim) : Prop := match l with [] => True | d :: l' => Forall (fun x => d_start d < d_start x) l' /\ asc l' end.
Lemma desc_app a b : desc (a ++ b) -> desc b.
Proof. induction a as [|x a IH]; cbn; [auto|]. intros (_ & H). auto. Qed.
Definition hidden (bottoms : nat -> option nat) (before : list delim) : Prop :=
  forall i b o c, bottoms i = Some b -> In o before -> d_start o <= b -> closes_as i c -> can_match o c = false.
(** What find_opener returns is the nearest match. *)
Lemma find_none before bottoms i c : hidden bottoms before -> desc before -> closes_as i c -> find_opener before (bottoms i) c = None -> forall o, In o before -> can_match o c = false.
Proof.
  intros Hh Hd Hc. assert (G : forall l, (forall o, In o l -> In o before) -> desc l -> find_opener l (bottoms i) c = None -> forall o, In o l -> can_match o c = false).
  { induction l as [|x l IH]; intros Hin Dd H o Ho; [destruct Ho|]. destruct Dd as (Dx & Dl). cbn [find_opener] in H. destruct (oid_eqb (Some (d_start x)) (bottoms i)) eqn:Q.
    - destruct (bottoms i) as [b|] eqn:Bi; [|discriminate]. cbn in Q. apply Nat.eqb_eq in Q. apply (Hh i b o c Bi (Hin o Ho)); [|exact Hc].
      destruct Ho as [<-|Ho]; [lia|]. rewrite Forall_forall in Dx. specialize (Dx o Ho). lia.
    - destruct (can_match x c) eqn:M; [discriminate|]. destruct Ho as [<-|Ho]; [exact M|]. apply IH; auto. intros y Hy. apply Hin. right. exact Hy. }
  intros H. apply G; auto.
Qed.
Lemma find_some before b c o below : find_opener before b c = Some (o, below) -> exists mid, before = mid ++ o :: below /\ can_match o c = true /\ forall x, In x mid -> can_match x c = false.
Proof.
  induction before as [|x l IH]; cbn [find_opener]; [discriminate|]. destruct (oid_eqb _ _); [discriminate|]. destruct (can_match x c) eqn:M.
  - intros H. injection H as <- <-. exists []. repeat split; [exact M|intros y []].
  - intros H. destruct (IH H) as (mid & -> & Hm & Hn). exists (x :: mid). repeat split; [exact Hm|]. intros y [<-|Hy]; auto.
Qed.

(** ** The loop and the pairing *)
Lemma pass_mute l : forall past next out, Forall mute l -> paired (rev l ++ past) next out -> paired past (l ++ next) out.
Proof.
  induction l as [|r l IH]; intros past next out Hl H; [exact H|]. inversion Hl; subst. cbn [app]. apply paired_pass.
  - intros o _. apply mute_no_fit. assumption.
  - apply IH; [assumption|]. cbn [rev] in H. rewrite <- app_assoc in H. exact H.
Qed.
Lemma existsb_rev {A} (f : A -> bool) l : existsb f (rev l) = existsb f l.
Proof. induction l as [|x l IH]; [reflexivity|]. cbn. rewrite existsb_app, IH. cbn. rewrite orb_false_r. apply orb_comm. Qed.
Lemma existsb_map_shut i l : existsb (gone i) (map shut l) = existsb (gone i) l.
Proof. induction l as [|x l IH]; [reflexivity|]. cbn [map existsb]. rewrite IH, gone_shut. reflexivity. Qed.
Definition Inv (base : nat -> bool) (before after : list delim) (bottoms : nat -> option nat) (ign : list (nat * nat)) (past next : list run) : Prop :=
  sim spent before past /\ sim mute after next /\ Forall one_way before /\ Forall (fun d => one_way d /\ delimiter (d_char d)) after /\
  desc before /\ asc after /\ Forall (fun x => Forall (fun y => d_start y < d_start x) before) after /\ hidden bottoms before /\
  Forall (fun r => r_opened r = 0) next /\ (forall i b, bottoms i = Some b -> Forall (fun x => b < d_start x) after) /\ forall i, covered ign i = base i || existsb (gone i) (past ++ next).
Lemma shrink_same_open u d r : same d r -> u < r_left r -> same (shrink u d) (open_with u r).
Proof. unfold same, r_left. destruct r, d. cbn. intros H Hu. intuition lia. Qed.
Lemma shrink_same_close u d r : same d r -> u < r_left r -> same (shrink u d) (close_with u r).
Proof. unfold same, r_left. destruct r, d. cbn. intros H Hu. intuition lia. Qed.
Lemma pair_sim base : forall fuel before after bottoms ign stack ign' past next, pe_loop fuel before after bottoms ign = Ok (stack, ign') ->
  Inv base before after bottoms ign past next -> exists out, paired past next out /\ forall i, covered ign' i = base i || existsb (gone i) out.
Proof.
  induction fuel as [|fuel IH]; intros before after bottoms ign stack ign' past next H (Sp & Sn & Wp & Wn & Dp & An & Cr & Hh & Op & Lo & Cov); [discriminate|].
  cbn [pe_loop] in H. destruct after as [|c rest].
  { injection H as <- <-. exists (rev (rev next ++ past)). split.
    - rewrite <- (app_nil_r next) at 1. apply pass_mute; [apply sim_empty; exact Sn|]. apply paired_end.
    - intros i. rewrite Cov, existsb_rev, !existsb_app, existsb_rev. f_equal. apply orb_comm. }
  apply sim_head in Sn as (l & r & next' & -> & Hl & Sr & Sn). inversion Wn as [|? ? (Wc & Dc) Wn']; subst. destruct An as (Ac & An'). inversion Cr as [|? ? Cc Cr']; subst.
  apply Forall_app in Op as (Op1 & Op2). inversion Op2 as [|? ? Or Op3]; subst.
  assert (Sp' : sim spent before (rev l ++ past)).
  { apply sim_deads; [|exact Sp]. rewrite Forall_forall in *. intros x Hx. apply mute_spent. apply Hl. apply in_rev. exact Hx. }
  assert (Cov' : forall i, covered ign i = base i || existsb (gone i) ((rev l ++ past) ++ r :: next')).
  { intros i. rewrite Cov, !existsb_app, existsb_rev. cbn [existsb]. f_equal. destruct (existsb _ past), (existsb _ l), (gone i r), (existsb _ next'); reflexivity. }
  assert (Go : exists out, paired (rev l ++ past) (r :: next') out /\ forall i, covered ign' i = base i || existsb (gone i) out);
    [|destruct Go as (out & P & C); exists out; split; [apply pass_mute; assumption|exact C]].
  set (pst := rev l ++ past) in *. clearbody pst. clear Sp Cov past l Hl Op1 Op2 Wn Cr.
  assert (Lo' : forall i b, bottoms i = Some b -> b < d_start c /\ Forall (fun x => b < d_start x) rest).
  { intros i b Hb. specialize (Lo i b Hb). inversion Lo; subst. auto. }
  assert (Push : forall bottoms', hidden bottoms' (c :: before) -> (forall i b, bottoms' i = Some b -> b < d_start c) -> Inv base (c :: before) rest bottoms' ign (r :: pst) next').
  { intros bt' Hh' Hlo. split; [apply sim_live; assumption|]. split; [exact Sn|]. split; [constructor; assumption|]. split; [exact Wn'|]. split; [split; assumption|]. split; [exact An'|].
    split; [|split; [exact Hh'|split; [exact Op3|split]]].
    - rewrite Forall_forall in *. intros x Hx. constructor; [apply Ac; exact Hx|apply Cr'; exact Hx].
    - intros i b Hb. specialize (Hlo i b Hb). rewrite Forall_forall in *. intros x Hx. specialize (Ac x Hx). lia.
    - intros i. rewrite Cov', !existsb_app. cbn [existsb app]. rewrite ?existsb_app. f_equal. destruct (existsb _ pst), (gone i r), (existsb _ next'); reflexivity. }
  assert (Far : forall y, In y before -> d_start y < d_start c) by (rewrite Forall_forall in Cc; exact Cc).
  destruct (d_close c) eqn:Cl.
  - destruct (bottom_index c) as [idx|] eqn:Bi; cbn [bind] in H; [|discriminate]. assert (Ca : closes_as idx c) by (repeat split; assumption).
    destruct (find_opener before (bottoms idx) c) as [(o & below)|] eqn:F; cbn zeta in H.
    + apply find_some in F as (mid & -> & Mo & Mm). apply sim_split in Sp' as (mid' & o' & below' & -> & Sm & So & Sb).
      assert (Fit : fits o' r) by (apply (match_fits o c); assumption). pose proof Fit as (_ & _ & _ & L1 & L2 & _). destruct (strength_le o' r L1 L2) as (U1 & U2 & U3).
      assert (Eu : use_delims o c = strength o' r).
      { unfold use_delims, strength. destruct So as (_ & _ & _ & _ & _ & _ & -> & _). destruct Sr as (_ & _ & _ & _ & _ & _ & -> & _). rewrite andb_comm. reflexivity. }
      rewrite Eu in H. set (u := strength o' r) in *.
      assert (No : forall x, In x mid' -> ~ fits x r).
      { intros x Hx. destruct (sim_in _ _ _ _ Sm Hx) as [D|(d & Hd & Sd)]; [apply spent_no_fit; exact D|]. intros Fx. apply (match_fits d c) in Fx; [|assumption..]. rewrite (Mm d Hd) in Fx. discriminate. }
      apply Forall_app in Wp as (_ & Wp). inversion Wp as [|? ? Wo Wb]; subst. pose proof (desc_app _ _ Dp) as (Do & Db).
      assert (Sh : Forall spent (map shut mid')).
      { apply Forall_forall. intros x Hx. apply in_map_iff in Hx as (y & <- & _). left. reflexivity. }
      assert (Crb : Forall (fun x => Forall (fun y => d_start y < d_start x) (o :: below)) rest).
      { rewrite Forall_forall in *. intros x Hx. specialize (Cr' x Hx). apply Forall_app in Cr'. apply Cr'. }
      destruct (IH _ _ _ _ _ _ (map shut mid' ++ open_with u o' :: below') (close_with u r :: next') H) as (out & P & C). all: clear H; swap 1 2.
      * exists out. split; [|exact C]. apply paired_pair; assumption.
      * assert (No' : forall q, d_num (shrink u q) = d_num q - u) by reflexivity.
        assert (Nn : d_num o = r_left o' /\ d_num c = r_left r) by (split; [apply So|apply Sr]). destruct Nn as (Nno & Nnc).
        split; [|split; [|split; [|split; [|split; [|split; [|split; [|split; [|split; [|split]]]]]]]]].
        -- apply sim_deads; [exact Sh|]. rewrite No'. destruct (Nat.eqb_spec (d_num o - u) 0) as [Z|Z].
           ++ apply sim_dead; [|exact Sb]. right. unfold r_left in *. cbn. lia.
           ++ apply sim_live; [apply shrink_same_open; [exact So|lia]|exact Sb].
        -- rewrite No'. destruct (Nat.eqb_spec (d_num c - u) 0) as [Z|Z].
           ++ apply sim_dead; [|exact Sn]. right. unfold r_left in *. cbn. lia.
           ++ apply sim_live; [apply shrink_same_close; [exact Sr|lia]|exact Sn].
        -- destruct (_ =? 0); [exact Wb|constructor; [exact Wo|exact Wb]].
        -- destruct (_ =? 0); [exact Wn'|constructor; [split; [exact Wc|exact Dc]|exact Wn']].
        -- destruct (_ =? 0); [exact Db|split; [exact Do|exact Db]].
        -- destruct (d_num (shrink u c) =? 0); [exact An'|split; [exact Ac|exact An']].
        -- assert (X : Forall (fun x => Forall (fun y => d_start y < d_start x) (if d_num (shrink u o) =? 0 then below else shrink u o :: below)) rest).
           { eapply Forall_impl; [|exact Crb]. intros x Hx. inversion Hx; subst. destruct (_ =? 0); [assumption|constructor; assumption]. }
           destruct (d_num (shrink u c) =? 0); [exact X|]. constructor; [|exact X].
           assert (Y : Forall (fun y => d_start y < d_start c) (o :: below)) by (apply Forall_app in Cc; apply Cc). inversion Y; subst.
           destruct (_ =? 0); [assumption|constructor; assumption].
        -- intros i b x cc Hb Hx Hs Hcc. destruct (d_num (shrink u o) =? 0); [|destruct Hx as [<-|Hx]].
           ++ apply (Hh i b x cc Hb); [apply in_or_app; right; right; exact Hx|exact Hs|exact Hcc].
           ++ apply (Hh i b o cc Hb); [apply in_or_app; right; left; reflexivity|exact Hs|exact Hcc].
           ++ apply (Hh i b x cc Hb); [apply in_or_app; right; right; exact Hx|exact Hs|exact Hcc].
        -- constructor; [exact Or|exact Op3].
        -- intros i b Hb. destruct (Lo' i b Hb). destruct (d_num (shrink u c) =? 0); [assumption|constructor; assumption].
        -- intros i. rewrite covered_app, Cov'. unfold covered. rewrite !existsb_app. cbn [existsb]. rewrite ?existsb_app. cbn [existsb].
           rewrite existsb_map_shut, (gone_open i u o o' So U2), (gone_close i u c r Sr U3 Or). unfold inr. destruct (base i); cbn [orb]; [reflexivity|].
           repeat match goal with |- context [existsb ?f ?l] => destruct (existsb f l) end. all: repeat match goal with |- context [gone ?a ?b] => destruct (gone a b) end; cbn [orb]; rewrite ?orb_true_r, ?orb_false_r; reflexivity.
    + assert (No : forall x, In x pst -> ~ fits x r).
      { intros x Hx. destruct (sim_in _ _ _ _ Sp' Hx) as [D|(d & Hd & Sd)]; [apply spent_no_fit; exact D|]. intros Fx. apply (match_fits d c) in Fx; [|assumption..].
        rewrite (find_none before bottoms idx c Hh Dp Ca F d Hd) in Fx. discriminate. }
      assert (Hh' : hidden (upd bottoms idx (option_map d_start (hd_error before))) before).
      { intros i b x cc Hb Hx Hs Hcc. unfold upd in Hb. destruct (Nat.eqb_spec i idx) as [->|_]; [|apply (Hh i b x cc); assumption].
        rewrite (same_class idx x cc c Hcc Ca); [|rewrite Forall_forall in Wp; apply Wp; exact Hx]. apply (find_none before bottoms idx c Hh Dp Ca F x Hx). }
      assert (Lo2 : forall i b, upd bottoms idx (option_map d_start (hd_error before)) i = Some b -> b < d_start c).
      { intros i b Hb. unfold upd in Hb. destruct (Nat.eqb_spec i idx) as [->|_]; [|apply (Lo' i b Hb)]. destruct before as [|y before]; [discriminate|]. cbn in Hb. injection Hb as <-. apply Far. left. reflexivity. }
      destruct (d_open c) eqn:Oc.
      * destruct (IH _ _ _ _ _ _ (r :: pst) (next') H) as (out & P & C). all: clear H; swap 1 2.
        -- exists out. split; [apply paired_pass; assumption|exact C].
        -- apply Push; [|exact Lo2]. intros i b x cc Hb [<-|Hx] Hs Hcc; [|apply (Hh' i b x cc); assumption]. specialize (Lo2 i b Hb). lia.
      * destruct (IH _ _ _ _ _ _ (r :: pst) (next') H) as (out & P & C). all: clear H; swap 1 2.
        -- exists out. split; [apply paired_pass; assumption|exact C].
        -- split; [apply sim_dead; [left; destruct Sr as (_ & _ & _ & _ & Q & _); congruence|exact Sp']|]. split; [exact Sn|]. split; [exact Wp|]. split; [exact Wn'|]. split; [exact Dp|]. split; [exact An'|].
           split; [exact Cr'|]. split; [exact Hh'|]. split; [exact Op3|]. split.
           ++ intros i b Hb. specialize (Lo2 i b Hb). rewrite Forall_forall in *. intros x Hx. specialize (Ac x Hx). lia.
           ++ intros i. rewrite Cov', !existsb_app. cbn [existsb app]. rewrite ?existsb_app. f_equal. destruct (existsb _ pst), (gone i r), (existsb _ next'); reflexivity.
  - destruct (IH _ _ _ _ _ _ (r :: pst) (next') H) as (out & P & C). all: clear H; swap 1 2.
    + exists out. split; [|exact C]. apply paired_pass; [|exact P]. intros o _ (_ & Kf & _). destruct Sr as (_ & _ & _ & _ & _ & Q & _). congruence.
    + apply Push; [|intros i b Hb; apply (Lo' i b Hb)]. intros i b x cc Hb [<-|Hx] Hs Hcc; [|apply (Hh i b x cc); assumption]. destruct (Lo' i b Hb). lia.
Qed.
End Bottoms.
