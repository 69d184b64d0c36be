(** Entities: the decoder terminates, and when it does not raise. *)
From Coq Require Import String List NArith ZArith Bool Arith Lia.
From Verif Require Import Str StrFacts Spec EnvSpec Entity.
Import ListNotations.
Local Open Scope list_scope.

Lemma s_lookup_ok tbl s n : forall fuel i low hi, hi < length tbl -> low <= i <= hi -> hi - low < fuel ->
  exists r, s_lookup fuel tbl i low hi s n = Ok r.
Proof.
  induction fuel as [|fuel IH]; intros i low hi Hh Hi Hf; [lia|]. cbn [s_lookup].
  destruct (nth_error tbl i) as [(name & bytes & k)|] eqn:Ei; [|apply nth_error_None in Ei; lia].
  destruct (strncmp s name n).
  - destruct (n =? _); eauto.
  - destruct (low <? i) eqn:L; [|eauto]. apply Nat.ltb_lt in L.
    assert (Hd : (i - low) / 2 <= i - low) by (apply Nat.div_le_upper_bound; lia).
    assert (Hd2 : (i - low) / 2 * 2 <= i - low) by (rewrite Nat.mul_comm; apply Nat.mul_div_le; lia).
    destruct (Nat.eqb_spec (i - (i - low) / 2) i); apply IH; lia.
  - destruct (i <? hi) eqn:L; [|eauto]. apply Nat.ltb_lt in L.
    assert (Hd2 : (hi - i) / 2 * 2 <= hi - i) by (rewrite Nat.mul_comm; apply Nat.mul_div_le; lia).
    destruct (Nat.eqb_spec (i + (hi - i) / 2) i); apply IH; lia.
Qed.
Lemma lookup_ok E s n : e_entities E <> [] -> exists r, lookup_entity E s n = Ok r.
Proof.
  intros H. unfold lookup_entity. assert (L : 0 < length (e_entities E)) by (destruct (e_entities E); [congruence|cbn; lia]).
  assert (Hd : length (e_entities E) / 2 < length (e_entities E)) by (apply Nat.div_lt; lia). apply s_lookup_ok; lia.
Qed.
Lemma lookup_err E s n e : lookup_entity E s n = Err e -> e = IndexError /\ e_entities E = [].
Proof.
  intros H. destruct (e_entities E) as [|x t] eqn:Et.
  - unfold lookup_entity in H. rewrite Et in H. cbn in H. injection H as <-. auto.
  - destruct (lookup_ok E s n) as (r & Hr); [congruence|]. congruence.
Qed.
Lemma named_ok E src t : e_entities E <> [] -> forall i, exists r, named_entity E src t i = Ok r.
Proof.
  intros H. induction t as [|c t IH]; intros i; cbn [named_entity]; [eauto|]. destruct (N.eqb c cSP); [eauto|]. destruct (N.eqb c 59); [|apply IH].
  destruct (lookup_ok E src i H) as (r & ->). cbn [bind]. destruct r; eauto.
Qed.
Lemma named_err E src t e : forall i, named_entity E src t i = Err e -> e = IndexError /\ e_entities E = [].
Proof.
  induction t as [|c t IH]; intros i; cbn [named_entity]; [discriminate|]. destruct (N.eqb c cSP); [discriminate|]. destruct (N.eqb c 59); [|apply IH].
  destruct (lookup_entity E src i) as [r|e'] eqn:L; cbn [bind]; [destruct r; discriminate|]. intros H. injection H as <-. eapply lookup_err. exact L.
Qed.

(** Digits that Python's [\d] accepts outside ASCII are what makes the decoder raise. *)
Definition ascii_digits (E : env) (s : str) : Prop := forall c, In c s -> e_digit E c = true -> (48 <= c <= 57)%N.
Lemma dec_digits_nonneg E s : ascii_digits E s -> forall cp n, (0 <= cp)%Z -> (0 <= fst (fst (dec_digits E s cp n)))%Z.
Proof.
  induction s as [|c s IH]; intros Hd cp n H; cbn [dec_digits]; [exact H|]. destruct (e_digit E c) eqn:D; [|exact H].
  assert (Hc : (48 <= c <= 57)%N) by (apply Hd; [left; reflexivity|exact D]).
  apply IH; [intros x Hx; apply Hd; right; exact Hx|]. destruct (_ <=? _)%Z; lia.
Qed.
Lemma hex_digits_nonneg E s : ascii_digits E s -> forall cp n, (0 <= cp)%Z -> (0 <= fst (fst (hex_digits E s cp n)))%Z.
Proof.
  induction s as [|c s IH]; intros Hd cp n H; cbn [hex_digits]; [exact H|]. destruct (hex_class E c) eqn:D; [|exact H].
  assert (G : (0 <= (Z.of_N (N.lor c 32)) mod 39 - 9)%Z).
  { unfold hex_class, in_range in D. rewrite !orb_true_iff, !andb_true_iff, !N.leb_le in D.
    assert (K : In c [48;49;50;51;52;53;54;55;56;57;65;66;67;68;69;70;97;98;99;100;101;102]%N).
    { destruct D as [[D|D]|D]; [pose proof (Hd c (or_introl eq_refl) D)| |]; cbn; lia. }
    cbn in K. repeat (destruct K as [<-|K]; [vm_compute; discriminate|]). destruct K. }
  apply IH; [intros x Hx; apply Hd; right; exact Hx|]. destruct (_ <=? _)%Z; lia.
Qed.
Lemma encode_ok cp : (0 <= cp)%Z -> exists b, encode_char (fix_codepoint cp) = Ok b.
Proof.
  intros H. unfold encode_char. replace (fix_codepoint cp <? 0)%Z with false; [destruct (1 <? _)%Z; eauto|].
  symmetry. apply Z.ltb_ge. unfold fix_codepoint. destruct (_ || _)%Z; lia.
Qed.
Lemma encode_err cp e : encode_char cp = Err e -> e = ValueError.
Proof. unfold encode_char. destruct (_ <? 0)%Z; [congruence|]. destruct (1 <? _)%Z; discriminate. Qed.
Lemma unescape_ent_err E s e : unescape_ent E s = Err e -> e = ValueError \/ (e = IndexError /\ e_entities E = []).
Proof.
  unfold unescape_ent. destruct (_ && _).
  - destruct (tl s) as [|c1 s1]; [discriminate|].
    destruct (if e_digit E c1 then _ else _) as ((((cp & num) & rest) & sk) & maxd). destruct (_ && _ && _); [|discriminate].
    destruct (encode_char _) as [b|e'] eqn:En; cbn [bind]; [discriminate|]. intros H. injection H as <-. left. eapply encode_err. exact En.
  - intros H. right. eapply named_err. exact H.
Qed.
Lemma unescape_ent_ok E s : e_entities E <> [] -> ascii_digits E s -> exists r, unescape_ent E s = Ok r.
Proof.
  intros He Hd. unfold unescape_ent. destruct (_ && _); [|apply named_ok; exact He].
  destruct s as [|c0 [|c1 s1]]; cbn [tl]; [eauto|eauto|].
  assert (Hd1 : ascii_digits E (c1 :: s1)) by (intros x Hx; apply Hd; right; exact Hx).
  assert (Hd2 : ascii_digits E s1) by (intros x Hx; apply Hd1; right; exact Hx).
  destruct (e_digit E c1) eqn:D1; [|destruct (N.eqb c1 120 || N.eqb c1 88)].
  - pose proof (dec_digits_nonneg E (c1 :: s1) Hd1 0%Z 0 ltac:(lia)) as G. destruct (dec_digits E (c1 :: s1) 0 0) as ((cp & n) & rest). cbn [fst] in G.
    destruct (_ && _ && _); [|eauto]. destruct (encode_ok cp G) as (b & ->). cbn [bind]. eauto.
  - pose proof (hex_digits_nonneg E s1 Hd2 0%Z 0 ltac:(lia)) as G. destruct (hex_digits E s1 0 0) as ((cp & n) & rest). cbn [fst] in G.
    destruct (_ && _ && _); [|eauto]. destruct (encode_ok cp G) as (b & ->). cbn [bind]. eauto.
  - cbn. eauto.
Qed.
Lemma skipn_length_le {A} n (l : list A) : length (skipn n l) <= length l.
Proof. rewrite skipn_length. lia. Qed.
Lemma skipn_in {A} n (l : list A) x : In x (skipn n l) -> In x l.
Proof. intros H. rewrite <- (firstn_skipn n l). apply in_or_app. right. exact H. Qed.
Lemma unescape_html_err E : forall fuel s e, length s < fuel -> unescape_html fuel E s = Err e -> e = ValueError \/ (e = IndexError /\ e_entities E = []).
Proof.
  induction fuel as [|fuel IH]; intros s e Hl; [lia|]. cbn [unescape_html]. destruct s as [|c s]; [discriminate|]. cbn [length] in Hl.
  destruct (N.eqb c 38).
  - destruct (unescape_ent E s) as [[(b & n)|]|e1] eqn:U; cbn [bind].
    + destruct (unescape_html fuel E (skipn n s)) eqn:R; cbn [bind]; [discriminate|]. intros X. injection X as <-. eapply IH; [|exact R]. eapply Nat.le_lt_trans; [apply skipn_length_le|lia].
    + destruct (unescape_html fuel E s) eqn:R; cbn [bind]; [discriminate|]. intros X. injection X as <-. eapply IH; [|exact R]. lia.
    + intros X. injection X as <-. eapply unescape_ent_err. exact U.
  - destruct (unescape_html fuel E s) eqn:R; cbn [bind]; [discriminate|]. intros X. injection X as <-. eapply IH; [|exact R]. lia.
Qed.
Lemma unescape_html_ok E : e_entities E <> [] -> forall fuel s, length s < fuel -> ascii_digits E s -> exists r, unescape_html fuel E s = Ok r.
Proof.
  intros He. induction fuel as [|fuel IH]; intros s Hl Hd; [lia|]. cbn [unescape_html]. destruct s as [|c s]; [eauto|]. cbn [length] in Hl.
  assert (Hd1 : ascii_digits E s) by (intros x Hx; apply Hd; right; exact Hx).
  destruct (IH s ltac:(lia) Hd1) as (r & Hr).
  destruct (N.eqb c 38).
  - destruct (unescape_ent_ok E s He Hd1) as ([(b & n)|] & ->); cbn [bind].
    + destruct (IH (skipn n s) ltac:(eapply Nat.le_lt_trans; [apply skipn_length_le|lia])) as (r2 & ->); [intros x Hx; apply Hd1; eapply skipn_in; exact Hx|]. cbn [bind]. eauto.
    + rewrite Hr. cbn [bind]. eauto.
  - rewrite Hr. cbn [bind]. eauto.
Qed.
Lemma unescape_html_f_err E s e : unescape_html_f E s = Err e -> e = ValueError \/ (e = IndexError /\ e_entities E = []).
Proof. apply unescape_html_err. lia. Qed.
Lemma unescape_html_f_ok E s : e_entities E <> [] -> ascii_digits E s -> exists r, unescape_html_f E s = Ok r.
Proof. intros. apply unescape_html_ok; auto. Qed.
Lemma strbuf_unescape_err s : forall e, strbuf_unescape s = Err e -> e = IndexError.
Proof.
  assert (G : forall n s, length s < n -> forall e, strbuf_unescape s = Err e -> e = IndexError).
  { induction n as [|n IH]; intros t Hl e; [lia|]. destruct t as [|c t]; [discriminate|]. cbn [strbuf_unescape]. cbn [length] in Hl.
    destruct (N.eqb c cBS); [|apply IH; lia]. destruct t as [|d t]; [congruence|]. cbn [length] in Hl. destruct (ascii_punct d); apply IH; cbn [length]; lia. }
  apply (G (S (length s))). lia.
Qed.
