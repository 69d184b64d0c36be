(** The codec of Bytes.v is UTF-8. *)
From Coq Require Import String List NArith ZArith Bool Arith Lia ZifyBool ZifyN.
From Verif Require Import Str Bytes BytesSpec.
Import ListNotations.
Local Open Scope list_scope.
Local Open Scope N_scope.

Ltac bytes := unfold cont, byte_in, follows, scalar in *.
Ltac arith := repeat match goal with |- context [N.eqb ?a ?b] => destruct (N.eqb_spec a b) | H : context [N.eqb ?a ?b] |- _ => destruct (N.eqb_spec a b) end; lia.
Ltac yes := match goal with |- (if ?b then _ else _) = _ => replace b with true by (bytes; arith) end; try reflexivity.
Ltac no := match goal with |- (if ?b then _ else _) = _ => replace b with false by (bytes; arith) end.
Lemma decode_char c b bs : utf8_char c b -> decode (b ++ bs) = push c (decode bs).
Proof.
  intros H. destruct H as [c H|c x y H Hx Hy E|c x y z H S Hx Hy Hz E|c x y z w H Hx Hy Hz Hw E]; cbn [app decode].
  - yes.
  - no. yes. rewrite <- E. reflexivity.
  - no. no. yes. rewrite <- E. reflexivity.
  - no. no. no. yes. rewrite <- E. reflexivity.
Qed.
Lemma decode_utf8 s b : utf8 s b -> forall r, decode (b ++ r) = (s ++ fst (decode r), snd (decode r)).
Proof.
  induction 1 as [|c s b bs H _ IH]; intros r; [cbn; destruct (decode r); reflexivity|]. rewrite <- app_assoc, (decode_char _ _ _ H), IH. reflexivity.
Qed.
(** The decoder stops where no character begins. *)
Lemma decode_inv n : forall b s bad, (length b <= n)%nat -> decode b = (s, bad) ->
  exists p q, b = p ++ q /\ utf8 s p /\ (bad = false -> q = []) /\ (bad = true -> q <> [] /\ forall c x r, utf8_char c x -> q <> x ++ r).
Proof.
  induction n as [|n IH]; intros b s bad L D.
  - destruct b; [|cbn in L; lia]. injection D as <- <-. exists [], []. repeat split; try constructor; discriminate.
  - destruct b as [|x b1]; [injection D as <- <-; exists [], []; repeat split; try constructor; discriminate|].
    assert (Bad : forall q, q <> [] -> (forall c x r, utf8_char c x -> q <> x ++ r) -> exists p q', q = p ++ q' /\ utf8 [] p /\ (true = false -> q' = []) /\ (true = true -> q' <> [] /\ forall c x r, utf8_char c x -> q' <> x ++ r)).
    { intros q Q1 Q2. exists [], q. repeat split; auto; [constructor|discriminate]. }
    assert (Go : forall c u r, utf8_char c u -> (length r <= n)%nat -> x :: b1 = u ++ r -> push c (decode r) = (s, bad) ->
      exists p q, x :: b1 = p ++ q /\ utf8 s p /\ (bad = false -> q = []) /\ (bad = true -> q <> [] /\ forall c x r, utf8_char c x -> q <> x ++ r)).
    { intros c u r U Lr -> P. unfold push in P. destruct (decode r) as (s' & bad') eqn:Dr. cbn in P. injection P as <- <-.
      destruct (IH r s' bad' Lr Dr) as (p & q & -> & Up & Q). exists (u ++ p), q. split; [apply app_assoc|]. split; [constructor; assumption|exact Q]. }
    assert (No : forall q, q = x :: b1 -> decode q = ([], true) -> forall c u r, utf8_char c u -> q <> u ++ r).
    { intros q _ Dq c u r U ->. rewrite (decode_char _ _ _ U) in Dq. discriminate. }
    pose proof D as D0. cbn [length] in L. cbn [decode] in D.
    destruct (byte_in 0 0x7F x) eqn:X1; [apply (Go x [x] b1); [constructor; bytes; lia|lia|reflexivity|exact D]|].
    destruct b1 as [|y b2]; [injection D as <- <-; apply Bad; [discriminate|apply No; [reflexivity|exact D0]]|].
    cbn [length] in L. destruct (byte_in 0xC2 0xDF x && cont y)%bool eqn:X2.
    { apply (Go ((x - 0xC0) * 64 + (y - 0x80)) [x; y] b2); [constructor; bytes; lia|lia|reflexivity|exact D]. }
    destruct b2 as [|z b3]; [injection D as <- <-; apply Bad; [discriminate|apply No; [reflexivity|exact D0]]|].
    cbn [length] in L. destruct (byte_in 0xE0 0xEF x && cont z && _)%bool eqn:X3.
    { apply (Go ((x - 0xE0) * 4096 + (y - 0x80) * 64 + (z - 0x80)) [x; y; z] b3); [|lia|reflexivity|exact D].
      bytes. destruct (x =? 0xE0) eqn:Y1, (x =? 0xED) eqn:Y2; constructor; bytes; lia. }
    destruct b3 as [|w b4]; [injection D as <- <-; apply Bad; [discriminate|apply No; [reflexivity|exact D0]]|].
    cbn [length] in L. destruct (byte_in 0xF0 0xF4 x && cont z && cont w && _)%bool eqn:X4.
    { apply (Go ((x - 0xF0) * 262144 + (y - 0x80) * 4096 + (z - 0x80) * 64 + (w - 0x80)) [x; y; z; w] b4); [|lia|reflexivity|exact D].
      bytes. destruct (x =? 0xF0) eqn:Y1, (x =? 0xF4) eqn:Y2; constructor; bytes; lia. }
    injection D as <- <-. apply Bad; [discriminate|apply No; [reflexivity|exact D0]].
Qed.
Lemma decode_iff b s : decode b = (s, false) <-> utf8 s b.
Proof.
  split; intros H.
  - destruct (decode_inv _ b s false (le_n _) H) as (p & q & -> & U & Q & _). rewrite (Q eq_refl), app_nil_r. exact U.
  - rewrite <- (app_nil_r b), (decode_utf8 _ _ H). cbn. rewrite app_nil_r. reflexivity.
Qed.
Lemma decode_bad b : snd (decode b) = true <-> not_utf8 b.
Proof.
  destruct (decode b) as (s & bad) eqn:D. cbn. split.
  - intros -> t H. apply decode_iff in H. congruence.
  - intros H. destruct bad; [reflexivity|]. destruct (H s). apply decode_iff. exact D.
Qed.

Lemma mod_up c m : m <> 0 -> m * (c / m) + c mod m = c /\ c mod m < m.
Proof. intros H. split; [symmetry; apply N.div_mod; exact H|apply N.mod_lt; exact H]. Qed.
Lemma some_inj {A} (a b : A) : Some a = Some b -> a = b.
Proof. congruence. Qed.
Lemma encode_char_iff c b : encode_char c = Some b <-> utf8_char c b.
Proof.
  unfold encode_char. split.
  - destruct (c <? 0x80) eqn:C1; [intros H; apply some_inj in H; subst b; constructor; lia|].
    pose proof (mod_up c 64 ltac:(lia)) as M1. set (c1 := c / 64) in *. set (r1 := c mod 64) in *.
    destruct (c <? 0x800) eqn:C2; [intros H; apply some_inj in H; subst b; constructor; bytes; lia|].
    assert (E2 : c / 4096 = c1 / 64) by (unfold c1; rewrite N.div_div by lia; reflexivity).
    assert (E3 : c / 262144 = (c / 4096) / 64) by (rewrite N.div_div by lia; reflexivity).
    rewrite E3, E2. pose proof (mod_up c1 64 ltac:(lia)) as M2. set (c2 := c1 / 64) in *. set (r2 := c1 mod 64) in *.
    destruct (byte_in 0xD800 0xDFFF c) eqn:S; [discriminate|]. destruct (c <? 0x10000) eqn:C3; [intros H; apply some_inj in H; subst b; constructor; bytes; lia|].
    pose proof (mod_up c2 64 ltac:(lia)) as M3. set (c3 := c2 / 64) in *. set (r3 := c2 mod 64) in *.
    destruct (c <=? 0x10FFFF) eqn:C4; [intros H; apply some_inj in H; subst b; constructor; bytes; lia|discriminate].
  - intros H. destruct H as [c H|c x y H Hx Hy E|c x y z H S Hx Hy Hz E|c x y z w H Hx Hy Hz Hw E]; bytes.
    + replace (c <? 128) with true by lia. reflexivity.
    + replace (c <? 128) with false by lia. replace (c <? 2048) with true by lia.
      replace (c / 64) with (x - 0xC0) by (apply (N.div_unique _ _ _ (y - 0x80)); lia). replace (c mod 64) with (y - 0x80) by (apply (N.mod_unique _ _ (x - 0xC0)); lia).
      do 2 f_equal; [lia|]. f_equal. lia.
    + replace (c <? 128) with false by lia. replace (c <? 2048) with false by lia. replace (_ && _)%bool with false by lia. replace (c <? 65536) with true by lia.
      assert (D1 : c / 64 = (x - 0xE0) * 64 + (y - 0x80)) by (symmetry; apply (N.div_unique _ _ _ (z - 0x80)); lia).
      replace (c / 4096) with (c / 64 / 64) by (rewrite N.div_div by lia; reflexivity). rewrite D1.
      replace (c mod 64) with (z - 0x80) by (apply (N.mod_unique _ _ ((x - 0xE0) * 64 + (y - 0x80))); lia).
      replace (((x - 0xE0) * 64 + (y - 0x80)) / 64) with (x - 0xE0) by (apply (N.div_unique _ _ _ (y - 0x80)); lia).
      replace (((x - 0xE0) * 64 + (y - 0x80)) mod 64) with (y - 0x80) by (apply (N.mod_unique _ _ (x - 0xE0)); lia).
      do 2 f_equal; [lia|]. f_equal; [lia|]. f_equal. lia.
    + replace (c <? 128) with false by lia. replace (c <? 2048) with false by lia. replace (_ && _)%bool with false by lia. replace (c <? 65536) with false by lia. replace (c <=? 1114111) with true by lia.
      assert (D1 : c / 64 = (x - 0xF0) * 4096 + (y - 0x80) * 64 + (z - 0x80)) by (symmetry; apply (N.div_unique _ _ _ (w - 0x80)); lia).
      assert (D2 : c / 4096 = (x - 0xF0) * 64 + (y - 0x80)).
      { replace (c / 4096) with (c / 64 / 64) by (rewrite N.div_div by lia; reflexivity). rewrite D1. symmetry. apply (N.div_unique _ _ _ (z - 0x80)); lia. }
      replace (c / 262144) with (c / 4096 / 64) by (rewrite N.div_div by lia; reflexivity). rewrite D2, D1.
      replace (c mod 64) with (w - 0x80) by (apply (N.mod_unique _ _ ((x - 0xF0) * 4096 + (y - 0x80) * 64 + (z - 0x80))); lia).
      replace (((x - 0xF0) * 4096 + (y - 0x80) * 64 + (z - 0x80)) mod 64) with (z - 0x80) by (apply (N.mod_unique _ _ ((x - 0xF0) * 64 + (y - 0x80))); lia).
      replace (((x - 0xF0) * 64 + (y - 0x80)) / 64) with (x - 0xF0) by (apply (N.div_unique _ _ _ (y - 0x80)); lia).
      replace (((x - 0xF0) * 64 + (y - 0x80)) mod 64) with (y - 0x80) by (apply (N.mod_unique _ _ (x - 0xF0)); lia).
      do 2 f_equal; [lia|]. f_equal; [lia|]. f_equal; [lia|]. f_equal. lia.
Qed.
Lemma encode_char_none c : encode_char c = None <-> ~ scalar c.
Proof.
  unfold encode_char, scalar, byte_in. split.
  - destruct (c <? 128) eqn:A; [discriminate|]. destruct (c <? 2048) eqn:B; [discriminate|]. destruct (_ && _)%bool eqn:S; [lia|]. destruct (c <? 65536) eqn:D; [discriminate|]. destruct (c <=? 1114111) eqn:F; [discriminate|lia].
  - intros H. replace (c <? 128) with false by lia. replace (c <? 2048) with false by lia. destruct (_ && _)%bool eqn:S; [reflexivity|]. replace (c <? 65536) with false by lia. replace (c <=? 1114111) with false by lia. reflexivity.
Qed.
Lemma utf8_cons_inv c s b : utf8 (c :: s) b -> exists x bs, b = x ++ bs /\ utf8_char c x /\ utf8 s bs.
Proof. intros H. inversion H; subst. eauto. Qed.
Lemma encode_iff s : forall b, encode s = (b, false) <-> utf8 s b.
Proof.
  induction s as [|c s IH]; intros b; cbn [encode]; split; intros H.
  - injection H as <-. constructor.
  - inversion H. reflexivity.
  - destruct (encode_char c) as [x|] eqn:C; [|discriminate]. destruct (encode s) as (bs & bad) eqn:S. cbn in H. injection H as <- ->. constructor; [apply encode_char_iff; exact C|apply IH; reflexivity].
  - apply utf8_cons_inv in H as (x & bs & -> & C & U). apply encode_char_iff in C. apply IH in U. rewrite C, U. reflexivity.
Qed.
Lemma encode_scalar s : snd (encode s) = false <-> Forall scalar s.
Proof.
  induction s as [|c s IH]; cbn [encode]; [split; [constructor|reflexivity]|]. destruct (encode_char c) as [x|] eqn:C; cbn [snd].
  - rewrite IH. split; [|inversion 1; assumption]. intros H. constructor; [|exact H].
    assert (D : scalar c \/ ~ scalar c) by (unfold scalar; lia). destruct D as [D|D]; [exact D|]. apply encode_char_none in D. congruence.
  - split; [discriminate|]. inversion 1 as [|? ? S]; subst. apply encode_char_none in C. contradiction.
Qed.
Lemma encode_decode s b : encode s = (b, false) -> decode b = (s, false).
Proof. rewrite encode_iff, decode_iff. auto. Qed.
Lemma decode_encode s b : decode b = (s, false) -> encode s = (b, false).
Proof. rewrite encode_iff, decode_iff. auto. Qed.
Lemma utf8_scalar s b : utf8 s b -> Forall scalar s.
Proof. intros H. apply encode_scalar. apply encode_iff in H. rewrite H. reflexivity. Qed.
Lemma utf8_app s t b c : utf8 s b -> utf8 t c -> utf8 (s ++ t) (b ++ c).
Proof. induction 1 as [|x s u v H _ IH]; intros K; [exact K|]. cbn. rewrite <- app_assoc. constructor; auto. Qed.
Lemma utf8_split s t b : utf8 (s ++ t) b -> exists b1 b2, b = b1 ++ b2 /\ utf8 s b1 /\ utf8 t b2.
Proof.
  revert b. induction s as [|c s IH]; intros b H; [exists [], b; repeat split; [constructor|exact H]|].
  cbn in H. apply utf8_cons_inv in H as (x & bs & -> & C & U). destruct (IH _ U) as (b1 & b2 & -> & U1 & U2). exists (x ++ b1), b2. repeat split; [apply app_assoc|constructor; assumption|exact U2].
Qed.
