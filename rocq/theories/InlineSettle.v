(** The emphasis loop on the label of a link. *)
From Coq Require Import String List NArith ZArith Bool Arith Lia.
From Verif Require Import Str StrFacts Spec EnvSpec Regex HtmlRe Fence Atx Entity Inlines HelperSpec EntityProof EmphSpec DelimSpec LinkSpec InlineProof InlineRun InlineEmph InlinePair.
Import ListNotations.
Local Open Scope list_scope.

Lemma settled_mutes l : forall past next, Forall mute l -> settled past (l ++ next) -> settled (rev l ++ past) next.
Proof.
  induction l as [|r l IH]; intros past next Hl H; [exact H|]. inversion Hl as [|? ? Hr Hl']; subst. cbn [app rev] in *. rewrite <- app_assoc. cbn [app]. apply IH; [exact Hl'|].
  inversion H as [|past0 c next0 _ H2|mid o below c next0 Hf _ _]; subst; [exact H2|]. exfalso. exact (mute_no_fit o r Hr Hf).
Qed.
Definition above (bot : option nat) (d : delim) : Prop := match bot with Some b => b < d_start d | None => True end.
Lemma above_not bot d : above bot d -> oid_eqb (Some (d_start d)) bot = false.
Proof. destruct bot as [b|]; [|reflexivity]. cbn. intros H. apply Nat.eqb_neq. lia. Qed.
Lemma find_live old bot c : bot = option_map d_start (hd_error old) -> forall live, Forall (above bot) live ->
  match find_opener (live ++ old) bot c with
  | Some (o, rest) => exists mid below, live = mid ++ o :: below /\ rest = below ++ old /\ can_match o c = true /\ forall x, In x mid -> can_match x c = false
  | None => forall x, In x live -> can_match x c = false
  end.
Proof.
  intros Hb. induction live as [|x live IH]; intros Ha.
  - cbn [app]. destruct old as [|y old]; cbn [find_opener]; [intros x []|]. subst bot. cbn [hd_error option_map oid_eqb]. rewrite Nat.eqb_refl. intros x [].
  - inversion Ha; subst x0 l. cbn [app find_opener]. rewrite above_not by assumption. destruct (can_match x c) eqn:M.
    + exists [], live. repeat split; [exact M|intros y []].
    + specialize (IH ltac:(assumption)). destruct (find_opener (live ++ old) bot c) as [(o & rest)|].
      * destruct IH as (mid & below & -> & -> & Mo & Mm). exists (x :: mid), below. repeat split; [exact Mo|]. intros y [<-|Hy]; auto.
      * intros y [<-|Hy]; auto.
Qed.
Lemma sim_back dead ds rs d : sim dead ds rs -> In d ds -> exists r, In r rs /\ same d r.
Proof.
  induction 1 as [|d0 r0 ds rs Hs H IH|r0 ds rs Hd H IH]; intros Hi; [destruct Hi|destruct Hi as [<-|Hi]|].
  - exists r0. split; [left; reflexivity|exact Hs].
  - destruct (IH Hi) as (r & A & B). exists r. split; [right; exact A|exact B].
  - destruct (IH Hi) as (r & A & B). exists r. split; [right; exact A|exact B].
Qed.
Lemma same_left d r : same d r -> 0 < r_left r.
Proof. unfold same, r_left. lia. Qed.
Lemma pair_settled base old bot : bot = option_map d_start (hd_error old) -> forall fuel live after bottoms ign stack ign' past next,
  pe_loop fuel (live ++ old) after bottoms ign = Ok (stack, ign') -> (forall i, bottoms i = bot) ->
  sim spent live past -> sim mute after next -> Forall (fun d => d_open d = true) live -> Forall (fun d => d_open d || d_close d = true) after ->
  Forall (above bot) live -> Forall (above bot) after -> Forall (fun r => r_opened r = 0) next -> settled past next ->
  (forall i, covered ign i = base i || existsb (gone i) (past ++ next)) ->
  exists out l, paired past next out /\ stack = l ++ old /\ Forall (above bot) l /\ forall i, covered ign' i = base i || existsb (gone i) out.
Proof.
  intros Hbot. induction fuel as [|fuel IH]; intros live after bottoms ign stack ign' past next H Hbs Sp Sn Ol Oa Al Aa Op St Cov; [discriminate|].
  cbn [pe_loop] in H. destruct after as [|c rest].
  { injection H as <- <-. exists (rev (rev next ++ past)), live. split; [|split; [reflexivity|split; [exact Al|]]].
    - rewrite <- (app_nil_r next) at 1. apply pass_mute; [apply sim_empty; exact Sn|]. apply paired_end.
    - intros i. rewrite Cov, existsb_rev, !existsb_app, existsb_rev. f_equal. apply orb_comm. }
  apply sim_head in Sn as (l & r & next' & -> & Hl & Sr & Sn). inversion Oa as [|? ? Oc Oa']; subst. inversion Aa as [|? ? Ac Aa']; subst.
  apply Forall_app in Op as (Op1 & Op2). inversion Op2 as [|? ? Or Op3]; subst.
  assert (Sp' : sim spent live (rev l ++ past)).
  { apply sim_deads; [|exact Sp]. rewrite Forall_forall in *. intros x Hx. apply mute_spent. apply Hl. apply in_rev. exact Hx. }
  apply (settled_mutes l) in St; [|exact Hl].
  assert (Cov' : forall i, covered ign i = base i || existsb (gone i) ((rev l ++ past) ++ r :: next')).
  { intros i. rewrite Cov, !existsb_app, existsb_rev. cbn [existsb]. f_equal. destruct (existsb _ past), (existsb _ l), (gone i r), (existsb _ next'); reflexivity. }
  assert (Go : exists out l0, paired (rev l ++ past) (r :: next') out /\ stack = l0 ++ old /\ Forall (above (option_map d_start (hd_error old))) l0 /\ forall i, covered ign' i = base i || existsb (gone i) out);
    [|destruct Go as (out & l' & P & C); exists out, l'; split; [apply pass_mute; assumption|exact C]].
  set (pst := rev l ++ past) in *. clearbody pst. clear Sp Cov past l Hl Op1 Op2 Oa Aa.
  set (bot := option_map d_start (hd_error old)) in *. assert (Hbot : bot = option_map d_start (hd_error old)) by reflexivity.
  assert (Pass : forall bottoms' live', pe_loop fuel (live' ++ old) rest bottoms' ign = Ok (stack, ign') -> (forall i, bottoms' i = bot) -> sim spent live' (r :: pst) -> Forall (fun d => d_open d = true) live' -> Forall (above bot) live' ->
    (forall o, In o pst -> ~ fits o r) -> settled (r :: pst) next' ->
    exists out l0, paired pst (r :: next') out /\ stack = l0 ++ old /\ Forall (above bot) l0 /\ forall i, covered ign' i = base i || existsb (gone i) out).
  { intros bt' live' H' Hbt S' O' A' Nf St'. destruct (IH _ _ _ _ _ _ (r :: pst) next' H' Hbt) as (out & l0 & P & C); try assumption.
    - intros i. rewrite Cov', !existsb_app. cbn [existsb app]. rewrite ?existsb_app. f_equal. destruct (existsb _ pst), (gone i r), (existsb _ next'); reflexivity.
    - exists out, l0. split; [apply paired_pass; assumption|exact C]. }
  destruct (d_close c) eqn:Cl.
  - destruct (bottom_index c) as [idx|] eqn:Bi; cbn [bind] in H; [|discriminate]. rewrite Hbs in H.
    pose proof (find_live old bot c Hbot live Al) as Fl. destruct (find_opener (live ++ old) bot c) as [(o & rest0)|] eqn:F; cbn zeta in H.
    + destruct Fl as (mid & below & -> & -> & Mo & Mm). apply sim_split in Sp' as (mid' & o' & below' & -> & Sm & So & Sb).
      assert (Fit : fits o' r) by (apply (match_fits o c); assumption). pose proof Fit as (_ & _ & _ & L1 & L2 & _). destruct (strength_le o' r L1 L2) as (U1 & U2 & U3).
      assert (Eu : use_delims o c = strength o' r).
      { unfold use_delims, strength. destruct So as (_ & _ & _ & _ & _ & _ & -> & _). destruct Sr as (_ & _ & _ & _ & _ & _ & -> & _). rewrite andb_comm. reflexivity. }
      rewrite Eu in H. set (u := strength o' r) in *.
      assert (No : forall x, In x mid' -> ~ fits x r).
      { intros x Hx. destruct (sim_in _ _ _ _ Sm Hx) as [D|(d & Hd & Sd)]; [apply spent_no_fit; exact D|]. intros Fx. apply (match_fits d c) in Fx; [|assumption..]. rewrite (Mm d Hd) in Fx. discriminate. }
      assert (St' : settled (map shut mid' ++ open_with u o' :: below') (close_with u r :: next')).
      { inversion St as [|past0 c0 next0 Hc0 H2|m2 o2 b2 c0 next0 Hf2 Hn2 H2]; subst.
        - exfalso. destruct Hc0 as [K|[K|K]].
          + destruct Fit as (_ & K' & _). congruence.
          + lia.
          + destruct (K o'); [apply in_or_app; right; left; reflexivity| |lia]. destruct Fit as (K' & _). congruence.
        - destruct (first_unique (fun x => fits x r) m2 o2 b2 mid' o' below') as (-> & -> & ->); try assumption. }
      apply Forall_app in Ol as (_ & Ol). inversion Ol as [|? ? Oo Ob]; subst. apply Forall_app in Al as (_ & Al). inversion Al as [|? ? Ao Ab]; subst.
      assert (Sh : Forall spent (map shut mid')).
      { apply Forall_forall. intros x Hx. apply in_map_iff in Hx as (y & <- & _). left. reflexivity. }
      assert (No' : forall q, d_num (shrink u q) = d_num q - u) by reflexivity.
      assert (Nn : d_num o = r_left o' /\ d_num c = r_left r) by (split; [apply So|apply Sr]). destruct Nn as (Nno & Nnc).
      assert (Eb : (if d_num (shrink u o) =? 0 then below ++ old else shrink u o :: below ++ old) = (if d_num (shrink u o) =? 0 then below else shrink u o :: below) ++ old) by (destruct (d_num (shrink u o) =? 0); reflexivity).
      rewrite Eb in H. clear Eb.
      destruct (IH _ _ _ _ _ _ (map shut mid' ++ open_with u o' :: below') (close_with u r :: next') H) as (out & l0 & P & C). all: clear H.
      * exact Hbs.
      * apply sim_deads; [exact Sh|]. rewrite No'. destruct (Nat.eqb_spec (d_num o - u) 0) as [Z|Z].
        -- apply sim_dead; [|exact Sb]. right. unfold r_left in *. cbn. lia.
        -- apply sim_live; [apply shrink_same_open; [exact So|lia]|exact Sb].
      * rewrite No'. destruct (Nat.eqb_spec (d_num c - u) 0) as [Z|Z].
        -- apply sim_dead; [|exact Sn]. right. unfold r_left in *. cbn. lia.
        -- apply sim_live; [apply shrink_same_close; [exact Sr|lia]|exact Sn].
      * destruct (_ =? 0); [exact Ob|constructor; [exact Oo|exact Ob]].
      * destruct (_ =? 0); [exact Oa'|constructor; [cbn [shrink d_open d_close]; rewrite Cl; apply orb_true_r|exact Oa']].
      * destruct (_ =? 0); [exact Ab|constructor; [exact Ao|exact Ab]].
      * destruct (_ =? 0); [exact Aa'|constructor; [exact Ac|exact Aa']].
      * constructor; [exact Or|exact Op3].
      * exact St'.
      * intros i. rewrite covered_app, Cov'. unfold covered. rewrite !existsb_app. cbn [existsb]. rewrite ?existsb_app. cbn [existsb].
        rewrite existsb_map_shut, (gone_open i u o o' So U2), (gone_close i u c r Sr U3 Or). unfold inr. destruct (base i); cbn [orb]; [reflexivity|].
        repeat match goal with |- context [existsb ?f ?l] => destruct (existsb f l) end. all: repeat match goal with |- context [gone ?a ?b] => destruct (gone a b) end; cbn [orb]; rewrite ?orb_true_r, ?orb_false_r; reflexivity.
      * exists out, l0. split; [apply paired_pair; assumption|exact C].
    + assert (Nf : forall x, In x pst -> ~ fits x r).
      { intros x Hx. destruct (sim_in _ _ _ _ Sp' Hx) as [D|(d & Hd & Sd)]; [apply spent_no_fit; exact D|]. intros Fx. apply (match_fits d c) in Fx; [|assumption..]. rewrite (Fl d Hd) in Fx. discriminate. }
      assert (Hr : r_closes r = true /\ 0 < r_left r).
      { split; [destruct Sr as (_ & _ & _ & _ & _ & Q & _); congruence|exact (same_left _ _ Sr)]. } destruct Hr as (Hr1 & Hr2).
      assert (St' : settled (r :: pst) next' /\ forall o, In o pst -> r_opens o = false \/ r_left o = 0).
      { inversion St as [|past0 c0 next0 Hc0 H2|m2 o2 b2 c0 next0 Hf2 Hn2 H2]; subst.
        - split; [exact H2|]. destruct Hc0 as [K|[K|K]]; [congruence|lia|exact K].
        - exfalso. apply (Nf o2); [apply in_or_app; right; left; reflexivity|exact Hf2]. }
      destruct St' as (St' & Qu).
      assert (live = []) as ->.
      { destruct live as [|d live]; [reflexivity|exfalso]. destruct (sim_back _ _ _ d Sp' ltac:(left; reflexivity)) as (q & Hq & Sq). inversion Ol; subst.
        destruct (Qu q Hq) as [K|K]; [destruct Sq as (_ & _ & _ & _ & Q & _); congruence|pose proof (same_left _ _ Sq); lia]. }
      cbn [app] in H. assert (Hbs' : forall i, upd bottoms idx (option_map d_start (hd_error old)) i = bot) by (intros i; unfold upd; destruct (i =? idx); [reflexivity|apply Hbs]).
      destruct (d_open c) eqn:Ocl.
      * apply (Pass _ [c] H Hbs'); try assumption.
        -- apply sim_live; assumption.
        -- constructor; [exact Ocl|constructor].
        -- constructor; [exact Ac|constructor].
      * apply (Pass _ [] H Hbs'); try assumption. apply sim_dead; [|exact Sp']. left. destruct Sr as (_ & _ & _ & _ & Q & _); congruence.
  - assert (Oc' : d_open c = true) by (rewrite orb_false_r in Oc; exact Oc).
    apply (Pass bottoms (c :: live) H Hbs).
    + apply sim_live; assumption.
    + constructor; assumption.
    + constructor; assumption.
    + intros o _ (_ & K & _). destruct Sr as (_ & _ & _ & _ & _ & Q & _). congruence.
    + inversion St as [|past0 c0 next0 Hc0 H2|m2 o2 b2 c0 next0 Hf2 Hn2 H2]; subst; [exact H2|]. exfalso. destruct Hf2 as (_ & K & _). destruct Sr as (_ & _ & _ & _ & _ & Q & _). congruence.
Qed.
