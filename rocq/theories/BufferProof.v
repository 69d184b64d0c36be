(** The buffers of Buffer.v against the texts of Entity.v and Inlines.v. *)
From Coq Require Import String List NArith ZArith Bool Arith Lia.
From Verif Require Import Str StrFacts Regex HtmlRe Fence Atx Entity Inlines Buffer BufferSpec.
From Verif Require Write.
Import ListNotations.
Local Open Scope list_scope.

(** At least one count per character. *)
Definition counted (b : buf) : Prop := (Z.of_nat (length (b_ptr b)) <= b_size b)%Z.
(** The greatest size a buffer may have. *)
Definition LIMIT : Z := 1073741823.

Lemma land_small t : (0 <= t <= LIMIT)%Z -> Z.land t INT32_MAX = t.
Proof.
  intros H. unfold LIMIT in H. change INT32_MAX with (Z.ones 31). rewrite Z.land_ones by lia. apply Z.mod_small. change (2 ^ 31)%Z with 2147483648%Z. lia.
Qed.
Lemma grow_done b t : (0 < t <= LIMIT)%Z -> exists a, buf_grow b t = Done (mkBuf (b_ptr b) a (b_size b)).
Proof.
  intros H. unfold buf_grow. destruct (Z.leb_spec t 0); [lia|]. destruct (t <? b_asize b)%Z; [exists (b_asize b); destruct b; reflexivity|].
  rewrite land_small by lia. change (INT32_MAX / 2)%Z with LIMIT. destruct (Z.ltb_spec LIMIT t); [lia|]. eexists. reflexivity.
Qed.
Lemma put_done b d n : counted b -> (0 <= n)%Z -> (b_size b + n <= LIMIT)%Z ->
  exists a, buf_put b d n = Done (mkBuf (b_ptr b ++ firstn (Z.to_nat n) d) a (b_size b + n)).
Proof.
  unfold counted, buf_put. intros C H L. destruct (Z.leb_spec n 0) as [Z|Z].
  - assert (n = 0%Z) as -> by lia. exists (b_asize b). cbn [Z.to_nat firstn]. rewrite app_nil_r, Z.add_0_r. destruct b; reflexivity.
  - destruct (grow_done b (b_size b + n)) as (a & ->); [lia|]. cbn [obind b_ptr b_size b_asize]. exists a.
    rewrite firstn_all2 by lia. rewrite (skipn_all2 (b_ptr b)) by lia. rewrite app_nil_r. reflexivity.
Qed.
Lemma put_counted b d n a : counted b -> (0 <= n)%Z -> counted (mkBuf (b_ptr b ++ firstn (Z.to_nat n) d) a (b_size b + n)).
Proof. unfold counted. intros C H. cbn [b_ptr b_size]. rewrite app_length, firstn_length. lia. Qed.
Lemma putc_done b c : counted b -> (b_size b + 1 <= LIMIT)%Z -> N.land c 255 = c ->
  exists a, buf_putc b c = Done (mkBuf (b_ptr b ++ [c]) a (b_size b + 1)).
Proof.
  unfold counted, buf_putc. intros C L Hc. destruct (grow_done b (b_size b + 1)) as (a & ->); [lia|]. cbn [obind b_ptr b_size b_asize]. exists a. rewrite Hc. reflexivity.
Qed.

(** ** One entity *)
Lemma s_lookup_alike tbl s n : forall fuel i low hi,
  s_lookup fuel tbl i low hi s n = match s_lookup_bytes fuel tbl i low hi s n with Ok (Some (b, _)) => Ok (Some b) | Ok None => Ok None | Err e => Err e end.
Proof.
  induction fuel as [|fuel IH]; intros i low hi; [reflexivity|]. cbn [s_lookup s_lookup_bytes]. destruct (nth_error tbl i) as [(name & bytes & k)|]; [|reflexivity].
  destruct (strncmp s name n); [destruct (n =? length name); reflexivity| |].
  - destruct (low <? i); [apply IH|reflexivity].
  - destruct (i <? hi); [apply IH|reflexivity].
Qed.
Lemma s_lookup_in tbl s n : forall fuel i low hi b k, s_lookup_bytes fuel tbl i low hi s n = Ok (Some (b, k)) -> exists name, In (name, (b, k)) tbl.
Proof.
  induction fuel as [|fuel IH]; intros i low hi b k; [discriminate|]. cbn [s_lookup_bytes]. destruct (nth_error tbl i) as [(name & bytes)|] eqn:N; [|discriminate].
  destruct (strncmp s name n); [destruct (n =? length name); [|discriminate]| |].
  - intros H. injection H as ->. exists name. eapply nth_error_In, N.
  - destruct (low <? i); [apply IH|discriminate].
  - destruct (i <? hi); [apply IH|discriminate].
Qed.
(** What the buffer holds after [b] was written to it as [k] characters. *)
Definition wrote (ob : buf) (t : str) (most : Z) (ob' : buf) : Prop :=
  b_ptr ob' = b_ptr ob ++ t /\ counted ob' /\ (b_size ob <= b_size ob' <= b_size ob + most)%Z.
Lemma wrote_trans ob t1 m1 ob1 t2 m2 ob2 : wrote ob t1 m1 ob1 -> wrote ob1 t2 m2 ob2 -> wrote ob (t1 ++ t2) (m1 + m2) ob2.
Proof. intros (A1 & C1 & S1) (A2 & C2 & S2). split; [rewrite A2, A1, app_assoc; reflexivity|]. split; [exact C2|lia]. Qed.
Lemma wrote_more ob t m m' ob' : (m <= m')%Z -> wrote ob t m ob' -> wrote ob t m' ob'.
Proof. intros H (A & C & S). split; [exact A|]. split; [exact C|lia]. Qed.
Lemma wrote_none ob m : counted ob -> (0 <= m)%Z -> wrote ob [] m ob.
Proof. intros C H. split; [rewrite app_nil_r; reflexivity|]. split; [exact C|lia]. Qed.
Lemma put_wrote ob d n : counted ob -> (0 <= n)%Z -> (b_size ob + n <= LIMIT)%Z -> exists ob', buf_put ob d n = Done ob' /\ wrote ob (firstn (Z.to_nat n) d) n ob'.
Proof.
  intros C H L. destruct (put_done ob d n C H L) as (a & ->). eexists. split; [reflexivity|]. split; [reflexivity|]. split; [apply put_counted; assumption|cbn; lia].
Qed.

(** The entity decoder agrees: [m] is what is still allowed. *)
Definition ent_alike (ob : buf) (r : res (option (str * nat))) (o : outcome (buf * nat)) : Prop :=
  match r with
  | Err e => o = Raised e
  | Ok None => o = Done (ob, 0)
  | Ok (Some (b, n)) => exists ob', o = Done (ob', n) /\ 0 < n /\ wrote ob b 8 ob'
  end.
Lemma named_alike E ob src t : few_bytes E -> counted ob -> (b_size ob + 8 <= LIMIT)%Z -> forall i, ent_alike ob (named_entity E src t i) (named_entity_buf E ob src t i).
Proof.
  intros F C L. induction t as [|c t IH]; intros i; [reflexivity|]. cbn [named_entity named_entity_buf]. destruct (N.eqb c cSP); [reflexivity|]. destruct (N.eqb c 59); [|apply IH].
  unfold lookup_entity, lookup_bytes. rewrite s_lookup_alike. destruct (s_lookup_bytes _ _ _ _ _ _ _) as [[(b & k)|]|e] eqn:S; cbn [bind lift obind]; [|reflexivity|reflexivity].
  destruct (s_lookup_in _ _ _ _ _ _ _ _ _ S) as (name & Hin). unfold few_bytes in F. rewrite Forall_forall in F. specialize (F _ Hin). cbn [fst snd] in F.
  destruct (put_wrote ob b (Z.of_nat k) C) as (ob' & -> & W); [lia|lia|]. cbn [obind ent_alike]. exists ob'. split; [reflexivity|]. split; [lia|].
  rewrite Nat2Z.id, firstn_all2 in W by lia. eapply wrote_more; [|exact W]. lia.
Qed.
Lemma dec_length uc : (0 <= uc <= 1)%Z -> firstn 1 (dec uc) = dec uc.
Proof. intros H. assert (uc = 0 \/ uc = 1)%Z as [-> | ->] by lia; reflexivity. Qed.
Lemma encode_alike uc ob : counted ob -> (b_size ob + 8 <= LIMIT)%Z ->
  match encode_char uc with Err e => encode_char_buf uc ob = Raised e | Ok b => exists ob', encode_char_buf uc ob = Done ob' /\ wrote ob b 8 ob' end.
Proof.
  intros C L. unfold encode_char, encode_char_buf. destruct (Z.ltb_spec uc 0); [reflexivity|]. destruct (Z.ltb_spec 1 uc); cbn [orb].
  - destruct (put_wrote ob [cTAB] 3 C) as (ob' & -> & W); [lia|lia|]. exists ob'. split; [reflexivity|]. eapply wrote_more; [|exact W]. lia.
  - destruct (Z.leb_spec 1114112 uc); [lia|]. destruct (put_wrote ob (dec uc) 1 C) as (ob' & -> & W); [lia|lia|]. exists ob'. split; [reflexivity|].
    change (Z.to_nat 1) with 1%nat in W. rewrite dec_length in W by lia. eapply wrote_more; [|exact W]. lia.
Qed.
Lemma ent_alike_ok E ob src size : few_bytes E -> counted ob -> (b_size ob + 8 <= LIMIT)%Z -> size <= length src ->
  ent_alike ob (unescape_ent E (firstn size src)) (unescape_ent_buf E ob src size).
Proof.
  intros F C L Hs. unfold unescape_ent, unescape_ent_buf. rewrite firstn_length, Nat.min_l by lia. set (s := firstn size src).
  destruct ((3 <=? size) && _); [|apply named_alike; assumption]. destruct (tl s) as [|c1 s1]; [reflexivity|].
  destruct (if e_digit E c1 then _ else _) as ((((cp & num) & rest) & skip) & maxd). destruct ((1 <=? num) && _ && _) eqn:K; [|reflexivity].
  assert (A := encode_alike (fix_codepoint cp) ob C L). destruct (encode_char (fix_codepoint cp)) as [b|e]; cbn [bind ent_alike].
  - destruct A as (ob' & -> & W). cbn [obind]. exists ob'. split; [reflexivity|]. split; [lia|exact W].
  - rewrite A. reflexivity.
Qed.

(** ** Entities of a text *)
Lemma ent_consumes E s b n : unescape_ent E s = Ok (Some (b, n)) -> 0 < n.
Proof.
  unfold unescape_ent. assert (G : forall src t i b n, named_entity E src t i = Ok (Some (b, n)) -> 0 < n).
  { intros src t. induction t as [|c t IH]; intros i b' n'; [discriminate|]. cbn [named_entity]. destruct (N.eqb c cSP); [discriminate|]. destruct (N.eqb c 59); [|apply IH].
    destruct (lookup_entity E src i) as [[x|]|]; cbn [bind]; [|discriminate|discriminate]. intros H. injection H as <- <-. lia. }
  destruct (_ && _); [|apply G]. destruct (tl s) as [|c1 s1]; [discriminate|]. destruct (if e_digit E c1 then _ else _) as ((((cp & num) & rest) & skip) & maxd).
  destruct (_ && _); [|discriminate]. destruct (encode_char _); cbn [bind]; [|discriminate]. intros H. injection H as <- <-. lia.
Qed.
Lemma html_fuel E : forall f f' s, length s < f -> length s < f' -> unescape_html f E s = unescape_html f' E s.
Proof.
  induction f as [|f IH]; intros [|f'] s H H'; [lia|lia|lia|]. cbn [unescape_html]. destruct s as [|c s]; [reflexivity|]. cbn [length] in H, H'. destruct (N.eqb c 38).
  - destruct (unescape_ent E s) as [[(b & n)|]|e]; cbn [bind]; [|rewrite (IH f') by lia; reflexivity|reflexivity]. rewrite (IH f'); [reflexivity| |]; rewrite skipn_length; lia.
  - rewrite (IH f') by lia. reflexivity.
Qed.
Lemma html_run E : forall u v f, Forall (fun c => c <> 38%N) u -> length (u ++ v) < f ->
  unescape_html f E (u ++ v) = do t <- unescape_html_f E v; Ok (u ++ t).
Proof.
  induction u as [|c u IH]; intros v f Hu Hf.
  - cbn [app] in *. unfold unescape_html_f. rewrite (html_fuel E f (S (length v))) by lia. destruct (unescape_html _ E v); reflexivity.
  - destruct f as [|f]; [lia|]. cbn [app unescape_html]. inversion Hu as [|x y H1 H2]; subst. apply N.eqb_neq in H1. rewrite H1. rewrite IH; [|exact H2|cbn in Hf; lia].
    destruct (unescape_html_f E v); reflexivity.
Qed.
Lemma span_split (p : N -> bool) s : Forall (fun c => p c = true) (firstn (span_len p s) s) /\
  match skipn (span_len p s) s with [] => True | c :: _ => p c = false end.
Proof.
  induction s as [|c s (A & B)]; [split; [constructor|exact I]|]. cbn [span_len]. destruct (p c) eqn:P; [|split; [constructor|exact P]]. cbn [firstn skipn]. split; [constructor; assumption|exact B].
Qed.
Lemma span_le (p : N -> bool) s : span_len p s <= length s.
Proof. induction s as [|c s IH]; [apply le_n|]. cbn [span_len length]. destruct (p c); lia. Qed.
Lemma skip_skip {A} : forall (l : list A) a b, skipn a (skipn b l) = skipn (b + a) l.
Proof. induction l as [|x l IH]; intros a b; [rewrite !skipn_nil; reflexivity|]. destruct b as [|b]; [reflexivity|]. cbn [skipn Nat.add]. apply IH. Qed.
Lemma slice_more src i k size : skipn k (slice src i size) = slice src (i + k) size.
Proof. unfold slice. rewrite skipn_firstn_comm, skip_skip. f_equal. lia. Qed.
Lemma slice_first src i k size : i + k <= size -> firstn k (slice src i size) = firstn k (skipn i src).
Proof. intros H. unfold slice. rewrite firstn_firstn. f_equal. lia. Qed.

Lemma html_step f E c s : unescape_html (S f) E (c :: s) =
  if N.eqb c 38 then
    do e <- unescape_ent E s;
    match e with
    | Some (b, n) => do t <- unescape_html f E (skipn n s); Ok (b ++ t)
    | None => do t <- unescape_html f E s; Ok (38%N :: t)
    end
  else do t <- unescape_html f E s; Ok (c :: t).
Proof. reflexivity. Qed.
Lemma html_amp E v : unescape_html_f E (38%N :: v) =
  do e <- unescape_ent E v;
  match e with
  | Some (b, n) => do t <- unescape_html_f E (skipn n v); Ok (b ++ t)
  | None => do t <- unescape_html_f E v; Ok (38%N :: t)
  end.
Proof.
  unfold unescape_html_f at 1. change (length (38%N :: v)) with (S (length v)). rewrite html_step. change (N.eqb 38 38) with true. cbv iota.
  destruct (unescape_ent E v) as [[(b & n)|]|e]; cbn [bind]; [|reflexivity|reflexivity]. unfold unescape_html_f. rewrite (html_fuel E (S (length v)) (S (length (skipn n v)))) by (rewrite ?skipn_length; lia). reflexivity.
Qed.
Lemma html_alike E src size : few_bytes E -> size <= length src -> (Z.of_nat size <= LIMIT)%Z -> forall fuel ob i,
  size - i < fuel -> counted ob -> (b_size ob + 8 * Z.of_nat (size - i) <= LIMIT)%Z ->
  match unescape_html_f E (slice src i size) with
  | Err e => html_loop fuel E ob src size i = Raised e
  | Ok t => (exists ob', html_loop fuel E ob src size i = Done (ob', true) /\ wrote ob t (8 * Z.of_nat (size - i)) ob') \/
            (i = 0 /\ 0 < size /\ t = slice src i size /\ html_loop fuel E ob src size i = Done (ob, false))
  end.
Proof.
  intros F Hs Hl. induction fuel as [|fuel IH]; intros ob i Hf C L; [lia|]. cbn [html_loop]. destruct (Nat.ltb_spec i size) as [Hi|Hi].
  2:{ assert (slice src i size = []) as -> by (unfold slice; replace (size - i) with 0 by lia; reflexivity). change (unescape_html_f E []) with (@Ok str []). cbv iota. left. exists ob. split; [reflexivity|]. apply wrote_none; [exact C|lia]. }
  set (s := slice src i size). set (k := span_len _ s). assert (Ls : length s = size - i) by (unfold s, slice; rewrite firstn_length, skipn_length; lia).
  destruct (span_split (fun c => negb (N.eqb c 38)) s) as (S1 & S2). fold k in S1, S2. assert (Lk : k <= size - i) by (unfold k; rewrite <- Ls; apply span_le).
  assert (Hu : Forall (fun c => c <> 38%N) (firstn k s)) by (eapply Forall_impl; [|exact S1]; intros c Hc; cbn in Hc; apply negb_true_iff, N.eqb_neq in Hc; exact Hc). clear S1.
  assert (Es : s = firstn k s ++ skipn k s) by (symmetry; apply firstn_skipn).
  assert (Ek : skipn k s = slice src (i + k) size) by apply slice_more.
  assert (Ef : firstn k s = firstn k (skipn i src)) by (apply slice_first; lia).
  assert (Eh : unescape_html_f E s = do t <- unescape_html_f E (skipn k s); Ok (firstn k s ++ t)).
  { unfold unescape_html_f at 1. rewrite Es at 2. apply html_run; [exact Hu|]. rewrite <- Es. lia. }
  rewrite Eh. replace (i <? i + k) with (0 <? k) by (destruct (Nat.ltb_spec 0 k), (Nat.ltb_spec i (i + k)); lia).
  destruct (Nat.leb_spec size (i + k)) as [He|He].
  - (* no ampersand left *)
    assert (skipn k s = []) as E0 by (apply skipn_all2; lia). rewrite E0. assert (firstn k s = s) as E1 by (rewrite Es at 2; rewrite E0, app_nil_r; reflexivity). rewrite E1. cbn [unescape_html_f unescape_html length bind]. rewrite app_nil_r.
    assert (0 <? k = true) as -> by (apply Nat.ltb_lt; lia). destruct (Nat.eqb_spec i 0) as [E2|E2]; cbn [andb].
    + right. split; [exact E2|]. split; [lia|]. split; reflexivity.
    + left. destruct (put_wrote ob (skipn i src) (Z.of_nat (i + k - i)) C) as (ob' & P & W); [lia|lia|]. cbn [obind]. rewrite P. cbn [obind]. exists ob'. split; [reflexivity|].
      replace (i + k - i) with k in W by lia. rewrite Nat2Z.id, <- Ef, E1 in W. eapply wrote_more; [|exact W]. lia.
  - rewrite andb_false_r.
    assert (exists ob1, obind (if (0 <? k) && (i =? 0) then buf_grow ob (Z.of_nat size) else Done ob) (fun ob => if 0 <? k then buf_put ob (skipn i src) (Z.of_nat (i + k - i)) else Done ob) = Done ob1 /\ wrote ob (firstn k s) (Z.of_nat k) ob1) as (ob1 & P1 & W1).
    { replace (i + k - i) with k by lia. destruct (Nat.ltb_spec 0 k) as [K|K]; cbn [andb].
      - assert (exists a, (if i =? 0 then buf_grow ob (Z.of_nat size) else Done ob) = Done (mkBuf (b_ptr ob) a (b_size ob))) as (a & ->).
        { destruct (i =? 0); [apply grow_done; lia|exists (b_asize ob); destruct ob; reflexivity]. }
        cbn [obind]. destruct (put_wrote (mkBuf (b_ptr ob) a (b_size ob)) (skipn i src) (Z.of_nat k) C) as (ob' & P & W); [lia|cbn; lia|]. exists ob'. split; [exact P|]. rewrite Nat2Z.id, <- Ef in W. exact W.
      - cbn [obind]. exists ob. split; [reflexivity|]. assert (k = 0) as -> by lia. apply wrote_none; [exact C|lia]. }
    destruct (if (0 <? k) && (i =? 0) then buf_grow ob (Z.of_nat size) else Done ob) as [ob0|e|]; cbn [obind] in P1 |- *; [|discriminate|discriminate]. rewrite P1. cbn [obind].
    destruct W1 as (A1 & C1 & Z1). pose proof Ek as Ek'. destruct (skipn k s) as [|c v] eqn:Ev; [exfalso; assert (length (skipn k s) = 0) by (rewrite Ev; reflexivity); rewrite skipn_length in *; lia|].
    apply negb_false_iff, N.eqb_eq in S2. subst c. assert (Es2 : v = slice src (S (i + k)) size).
    { assert (v = skipn 1 (slice src (i + k) size)) as -> by (rewrite <- Ek'; reflexivity). rewrite slice_more. f_equal. lia. }
    assert (Lv : S (length v) = size - i - k) by (change (S (length v)) with (length (38%N :: v)); rewrite <- Ev, skipn_length; lia).
    assert (A := ent_alike_ok E ob1 (skipn (S (i + k)) src) (size - S (i + k)) F C1). rewrite skipn_length in A. specialize (A ltac:(lia) ltac:(lia)).
    change (firstn (size - S (i + k)) (skipn (S (i + k)) src)) with (slice src (S (i + k)) size) in A. rewrite <- Es2 in A.
    rewrite html_amp.
    unfold ent_alike in A. destruct (unescape_ent E v) as [[(b & n)|]|e] eqn:U; cbn [bind].
    + destruct A as (ob2 & -> & Hn & W2). cbn [obind]. assert (n =? 0 = false) as -> by (apply Nat.eqb_neq; lia). cbn [obind].
      assert (Wt := wrote_trans _ _ _ _ _ _ _ (conj A1 (conj C1 Z1)) W2). destruct W2 as (A2 & C2 & Z2).
      specialize (IH ob2 (S (i + k) + n) ltac:(lia) C2 ltac:(lia)).
      rewrite Es2, slice_more. destruct (unescape_html_f E (slice src (S (i + k) + n) size)) as [t|e]; cbn [bind]; [|exact IH]. left. destruct IH as [(ob3 & P3 & W3)|(Q & _)]; [|lia].
      exists ob3. split; [exact P3|]. rewrite app_assoc. eapply wrote_more; [|eapply wrote_trans; [exact Wt|exact W3]]. lia.
    + rewrite A. cbn [obind]. destruct (putc_done ob1 38%N C1) as (a & ->); [lia|reflexivity|]. cbn [obind Nat.eqb]. rewrite Nat.add_0_r.
      assert (W2 : wrote ob (firstn k s ++ [38%N]) (Z.of_nat k + 1) (mkBuf (b_ptr ob1 ++ [38%N]) a (b_size ob1 + 1))).
      { eapply wrote_trans; [exact (conj A1 (conj C1 Z1))|]. split; [reflexivity|]. split; [|cbn; lia]. unfold counted in *. cbn. rewrite app_length. cbn. lia. }
      assert (W2' := W2). destruct W2' as (A2 & C2 & Z2). specialize (IH _ (S (i + k)) ltac:(lia) C2 ltac:(lia)). rewrite Es2.
      destruct (unescape_html_f E (slice src (S (i + k)) size)) as [t|e]; cbn [bind]; [|exact IH]. left. destruct IH as [(ob3 & P3 & W3)|(Q & _)]; [|lia]. exists ob3. split; [exact P3|].
      change (38%N :: t) with ([38%N] ++ t). rewrite app_assoc. eapply wrote_more; [|eapply wrote_trans; [exact W2|exact W3]]. lia.
    + rewrite A. reflexivity.
Qed.
Lemma html_buf_alike E ob src size : few_bytes E -> size <= length src -> counted ob -> (b_size ob + 8 * Z.of_nat size <= LIMIT)%Z ->
  match unescape_html_f E (firstn size src) with
  | Err e => unescape_html_buf E ob src size = Raised e
  | Ok t => (exists ob', unescape_html_buf E ob src size = Done (ob', true) /\ wrote ob t (8 * Z.of_nat size) ob') \/
            (t = firstn size src /\ unescape_html_buf E ob src size = Done (ob, false))
  end.
Proof.
  intros F Hs C L. unfold counted in C. assert (A := html_alike E src size F Hs ltac:(lia) (S size) ob 0 ltac:(lia) C). rewrite Nat.sub_0_r in A. specialize (A L). unfold slice in A. rewrite Nat.sub_0_r in A. cbn [skipn] in A. unfold unescape_html_buf.
  destruct (unescape_html_f E (firstn size src)) as [t|e]; [|exact A]. destruct A as [A|(_ & _ & A & B)]; [left; exact A|right; split; assumption].
Qed.
Lemma html_f_alike E ob src size : few_bytes E -> size <= length src -> counted ob -> (b_size ob + 8 * Z.of_nat size <= LIMIT)%Z ->
  match unescape_html_f E (firstn size src) with
  | Err e => unescape_html_f_buf E ob src size = Raised e
  | Ok t => exists ob', unescape_html_f_buf E ob src size = Done ob' /\ wrote ob t (8 * Z.of_nat size) ob'
  end.
Proof.
  intros F Hs C L. assert (A := html_buf_alike E ob src size F Hs C L). unfold unescape_html_f_buf. destruct (unescape_html_f E (firstn size src)) as [t|e]; [|rewrite A; reflexivity].
  destruct A as [(ob' & -> & W)|(-> & ->)]; cbn [obind]; [exists ob'; auto|]. destruct (put_wrote ob src (Z.of_nat size) C) as (ob' & P & W); [lia|lia|]. exists ob'. split; [exact P|].
  rewrite Nat2Z.id in W. eapply wrote_more; [|exact W]. lia.
Qed.

(** ** Changes in place *)
Lemma set_at_length {A} (s : list A) w (d : A) : w < length s -> length (firstn w s ++ [d] ++ skipn (w + 1) s) = length s.
Proof. intros H. rewrite !app_length, firstn_length, skipn_length. cbn. lia. Qed.
Lemma set_at_skip {A} (s : list A) w (d : A) r : w < length s -> w < r -> skipn r (firstn w s ++ [d] ++ skipn (w + 1) s) = skipn r s.
Proof.
  intros H Hr. rewrite skipn_app, firstn_length, Nat.min_l by lia. rewrite (skipn_all2 (firstn w s)) by (rewrite firstn_length; lia). cbn [app].
  destruct (r - w) as [|k] eqn:K; [lia|]. cbn [skipn]. rewrite skip_skip. f_equal. lia.
Qed.
Lemma nth_skip {A} (s : list A) r c t : skipn r s = c :: t -> nth_error s r = Some c /\ skipn (S r) s = t /\ r < length s.
Proof.
  revert r. induction s as [|x s IH]; intros [|r] H; cbn in H |- *; try discriminate.
  - injection H as -> ->. split; [reflexivity|]. split; [reflexivity|lia].
  - destruct (IH r H) as (P & Q & R). split; [exact P|]. split; [exact Q|lia].
Qed.
Lemma unescape_loop_alike : forall fuel s r w, w <= r -> r <= length s -> length s - r < fuel ->
  match strbuf_unescape (skipn r s) with
  | Ok _ => exists x, unescape_loop fuel s r w = Ok x
  | Err e => unescape_loop fuel s r w = Err e
  end.
Proof.
  induction fuel as [|fuel IH]; intros s r w Hw Hr Hf; [lia|]. cbn [unescape_loop]. destruct (skipn r s) as [|c t] eqn:S1.
  - assert (length (skipn r s) = 0) by (rewrite S1; reflexivity). rewrite skipn_length in *. assert (nth_error s r = None) as -> by (apply nth_error_None; lia). cbn. eauto.
  - destruct (nth_skip _ _ _ _ S1) as (N1 & S2 & L1). rewrite N1. cbn [strbuf_unescape].
    assert (G : forall r1 d, r <= r1 -> r1 < length s -> nth_error s r1 = Some d ->
      match strbuf_unescape (skipn (S r1) s) with
      | Ok _ => exists x, unescape_loop fuel (firstn w s ++ [d] ++ skipn (w + 1) s) (S r1) (S w) = Ok x
      | Err e => unescape_loop fuel (firstn w s ++ [d] ++ skipn (w + 1) s) (S r1) (S w) = Err e
      end).
    { intros r1 d H1 H2 H3. rewrite <- (set_at_skip s w d (S r1)) by lia. apply IH; rewrite ?set_at_length by lia; lia. }
    destruct (N.eqb c cBS).
    + destruct t as [|d t]; [assert (length (skipn (S r) s) = 0) by (rewrite S2; reflexivity); rewrite skipn_length in *; assert (nth_error s (S r) = None) as -> by (apply nth_error_None; lia); reflexivity|].
      destruct (nth_skip _ _ _ _ S2) as (N2 & S3 & L2). rewrite N2. destruct (ascii_punct d); cbn [bind].
      * rewrite N2, <- S3. apply G; [lia|exact L2|exact N2].
      * rewrite N1, <- S2. apply G; [lia|exact L1|exact N1].
    + cbn [bind]. rewrite N1, <- S2. apply G; [lia|exact L1|exact N1].
Qed.
Lemma unescape_alike b :
  match strbuf_unescape (b_ptr b) with
  | Ok _ => exists b', buf_unescape b = Done b'
  | Err e => buf_unescape b = Raised e
  end.
Proof.
  unfold buf_unescape. assert (A := unescape_loop_alike (S (length (b_ptr b))) (b_ptr b) 0 0 (le_n 0) ltac:(lia) ltac:(lia)). cbn [skipn] in A.
  destruct (strbuf_unescape (b_ptr b)) as [u|e]; [|rewrite A; reflexivity]. destruct A as ((s & w) & ->). cbn. eauto.
Qed.

Lemma replace_past : forall s repl i w d, (w < i)%Z -> Write.replace_from i s repl w w d = s.
Proof.
  induction s as [|c s IH]; intros repl i w d H; [reflexivity|]. cbn [Write.replace_from]. assert ((w <? i)%Z = true) as -> by (apply Z.ltb_lt; lia). rewrite orb_true_r, IH by lia. reflexivity.
Qed.
Lemma replace_one : forall s x i w, (i <= w)%Z -> length (Write.replace_from i s [x] w w false) = length s /\
  forall j, (i + Z.of_nat j <> w)%Z -> nth_error (Write.replace_from i s [x] w w false) j = nth_error s j.
Proof.
  induction s as [|c s IH]; intros x i w H; [split; reflexivity|]. cbn [Write.replace_from]. destruct (Z.ltb_spec i w) as [L|L]; cbn [orb].
  - destruct (IH x (i + 1)%Z w ltac:(lia)) as (A & B). split; [cbn; rewrite A; reflexivity|]. intros [|j] Hj; [reflexivity|]. cbn. apply B. lia.
  - assert (i = w) as -> by lia. rewrite Z.ltb_irrefl. rewrite replace_past by lia. split; [reflexivity|]. intros [|j] Hj; [lia|reflexivity].
Qed.
Lemma normalize_loop_alike : forall n s r w ns, w <= r -> r + n = length s ->
  (n <> 0 -> nth_error s (r + n - 1) = Some cCR -> normalize_loop n s r w ns = Err IndexError) /\
  (n = 0 \/ nth_error s (r + n - 1) <> Some cCR -> exists x, normalize_loop n s r w ns = Ok x).
Proof.
  induction n as [|n IH]; intros s r w ns Hw Hl; [split; [congruence|cbn; eauto]|]. cbn [normalize_loop].
  destruct (nth_error s r) as [c|] eqn:N1; [|apply nth_error_None in N1; lia].
  set (step := if N.eqb c cCR then _ else _).
  assert (St : (n = 0 /\ c = cCR /\ step = Err IndexError) \/
    exists s1 w1, step = Ok (s1, w1) /\ w1 <= S r /\ length s1 = length s /\ (forall j, r < j -> nth_error s1 j = nth_error s j) /\ (n = 0 -> c <> cCR)).
  { assert (R : forall x, exists s1, Write.replace_substring s [x] (Z.of_nat w) (Z.of_nat w) = Ok s1 /\ length s1 = length s /\ forall j, r < j -> nth_error s1 j = nth_error s j).
    { intros x. unfold Write.replace_substring. rewrite Z.ltb_irrefl. destruct (replace_one s x 0 (Z.of_nat w) ltac:(lia)) as (A & B). eexists. split; [reflexivity|]. split; [exact A|]. intros j Hj. apply B. lia. }
    unfold step. destruct (N.eqb_spec c cCR) as [->|Nc].
    - destruct (nth_error s (S r)) as [d|] eqn:N2.
      + right. assert (n <> 0) by (intros ->; assert (nth_error s (S r) = None) by (apply nth_error_None; lia); congruence). destruct (N.eqb d cLF).
        * exists s, w. split; [reflexivity|]. split; [lia|]. split; [reflexivity|]. split; [reflexivity|congruence].
        * destruct (R cSP) as (s1 & -> & A & B). exists s1, (S w). split; [reflexivity|]. split; [lia|]. split; [exact A|]. split; [exact B|congruence].
      + left. apply nth_error_None in N2. split; [lia|]. split; reflexivity.
    - right. destruct (N.eqb c cLF); [destruct (R cSP) as (s1 & -> & A & B)|destruct (R c) as (s1 & -> & A & B)]; exists s1, (S w); (split; [reflexivity|]); (split; [lia|]); (split; [exact A|]); (split; [exact B|]); intros _; exact Nc. }
  destruct St as [(-> & -> & ->)|(s1 & w1 & -> & Hw1 & L1 & N2 & Hc)]; cbn [bind].
  - replace (r + 1 - 1) with r by lia. split; [reflexivity|]. intros [H|H]; [discriminate|]. rewrite N1 in H. congruence.
  - destruct (nth_error s1 r) as [c1|] eqn:N3; [|apply nth_error_None in N3; lia].
    destruct (IH s1 (S r) w1 (ns || negb (N.eqb c1 cSP)) Hw1 ltac:(lia)) as (A & B).
    destruct n as [|n].
    + replace (r + 1 - 1) with r by lia. split; [intros _ H; rewrite N1 in H; injection H as ->; exfalso; apply Hc; reflexivity|]. intros _. apply B. left. reflexivity.
    + replace (S r + S n - 1) with (S r + n) in * by lia. replace (r + S (S n) - 1) with (S r + n) by lia. rewrite N2 in A, B by lia. split; [intros _ H; apply A; [lia|exact H]|]. intros [H|H]; [lia|]. apply B. right. exact H.
Qed.
Lemma last_nth_error (s : str) : s <> [] -> nth_error s (length s - 1) = Some (last s 0%N).
Proof.
  induction s as [|c s IH]; [congruence|]. intros _. destruct s as [|d s]; [reflexivity|]. change (last (c :: d :: s) 0%N) with (last (d :: s) 0%N). rewrite <- IH by congruence.
  cbn [length]. replace (S (S (length s)) - 1) with (S (length s)) by lia. cbn [nth_error]. f_equal. lia.
Qed.
(** A code span: [s] is copied to a new buffer and changed in place. *)
Lemma code_alike data n : n <= length data -> (Z.of_nat n <= LIMIT)%Z ->
  let r := obind (buf_set buf_init data (Z.of_nat n)) normalize_code in
  if N.eqb (last (firstn n data) 0%N) cCR then r = Raised IndexError else exists b, r = Done b.
Proof.
  intros Hn Hl r. destruct n as [|n].
  - subst r. change (N.eqb (last (firstn 0 data) 0%N) cCR) with false. cbn.  eexists. reflexivity.
  - set (s := firstn (S n) data) in *. assert (Ls : length s = S n) by (unfold s; rewrite firstn_length; lia).
    assert (exists a, buf_set buf_init data (Z.of_nat (S n)) = Done (mkBuf s a (Z.of_nat (S n)))) as (a & Es).
    { unfold buf_set. destruct (Z.leb_spec (Z.of_nat (S n)) 0); [lia|]. cbn [b_ptr buf_init]. destruct data as [|c data]; [cbn in Hn; lia|]. change (seqb (c :: data) []) with false. cbv iota.
      change (b_asize buf_init) with 0%Z. destruct (Z.leb_spec 0 (Z.of_nat (S n))); [|lia]. destruct (grow_done buf_init (Z.of_nat (S n))) as (a & G); [lia|]. rewrite G. cbn [obind b_ptr b_asize b_size].
      exists a. rewrite Nat2Z.id, skipn_nil, app_nil_r. reflexivity. }
    unfold r. rewrite Es. cbn [obind]. unfold normalize_code. cbn [b_ptr b_size b_asize]. rewrite Nat2Z.id. destruct (normalize_loop_alike (S n) s 0 0 false (le_n 0)) as (A & B); [lia|].
    assert (Hlast := last_nth_error s ltac:(intros X; rewrite X in Ls; discriminate)). rewrite Ls in Hlast. cbn [Nat.add] in A, B.
    destruct (N.eqb_spec (last s 0%N) cCR) as [E|E].
    + rewrite A; [reflexivity|lia|]. rewrite Hlast, E. reflexivity.
    + destruct B as (((s1 & w1) & ns) & ->); [right; rewrite Hlast; congruence|]. cbn [lift obind]. destruct (_ && _); eauto.
Qed.

(** ** Trimmed chunks *)
Lemma rtrim_alike E : forall n data, n <= length data -> chunk_rtrim E data n = Ok (mkChunk data (length (rstrip (cm_space E) (firstn n data)))) /\
  firstn (length (rstrip (cm_space E) (firstn n data))) data = rstrip (cm_space E) (firstn n data).
Proof.
  induction n as [|n IH]; intros data H; [split; reflexivity|]. cbn [chunk_rtrim]. destruct (nth_error data n) as [c|] eqn:N; [|apply nth_error_None in N; lia].
  assert (Ef : firstn (S n) data = firstn n data ++ [c]).
  { clear -N. revert n N. induction data as [|x data IH]; intros [|n] N; cbn in N |- *; try discriminate; [injection N as ->; reflexivity|]. f_equal. apply IH, N. }
  assert (Er : rstrip (cm_space E) (firstn (S n) data) = if cm_space E c then rstrip (cm_space E) (firstn n data) else firstn (S n) data).
  { rewrite Ef. unfold rstrip. rewrite rev_app_distr. cbn [rev app lstrip]. destruct (cm_space E c); [reflexivity|]. cbn [rev]. rewrite rev_involutive. reflexivity. }
  rewrite Er. destruct (cm_space E c); [apply IH; lia|]. rewrite firstn_length, Nat.min_l by lia. split; reflexivity.
Qed.
Lemma ltrim_alike E : forall data n, n <= length data -> exists data' n', chunk_ltrim E data n = Ok (mkChunk data' n') /\
  firstn n' data' = lstrip (cm_space E) (firstn n data) /\ n' <= length data' /\ n' <= n.
Proof.
  induction data as [|c data IH]; intros [|n] H; cbn [chunk_ltrim]; try (cbn in H; lia).
  - exists [], 0. repeat split; lia.
  - exists (c :: data), 0. repeat split; cbn; lia.
  - cbn [firstn lstrip]. destruct (cm_space E c).
    + destruct (IH n ltac:(cbn in H; lia)) as (d & m & A & B & C & D). exists d, m. repeat split; [exact A|exact B|exact C|lia].
    + exists (c :: data), (S n). repeat split; [exact H|lia].
Qed.
Lemma trim_alike E data n : n <= length data -> exists data' n', chunk_trim E (mkChunk data n) = Ok (mkChunk data' n') /\
  firstn n' data' = strip (cm_space E) (firstn n data) /\ n' <= length data' /\ n' <= n.
Proof.
  intros H. unfold chunk_trim. cbn [c_data c_len]. destruct (ltrim_alike E data n H) as (d & m & -> & A & B & C). cbn [bind c_data c_len].
  destruct (rtrim_alike E m d B) as (-> & D). eexists _, _. split; [reflexivity|]. rewrite A in D |- *. split; [exact D|].
  assert (length (rstrip (cm_space E) (firstn m d)) <= m).
  { unfold rstrip. rewrite rev_length. assert (forall p (s : str), length (lstrip p s) <= length s) as G by (intros p s; induction s as [|x s IH]; cbn; [lia|destruct (p x); cbn; lia]). eapply Nat.le_trans; [apply G|]. rewrite rev_length, firstn_length. lia. }
  rewrite A in *. lia.
Qed.

(** ** The parser *)
Lemma counted_init : counted buf_init.
Proof. unfold counted. cbn. lia. Qed.

Lemma close_ticks_between opn : forall rest pos rn bt e bt', rn <= pos -> close_ticks rest pos rn opn bt = (Some e, bt') -> pos - rn + opn <= e <= pos + length rest.
Proof.
  induction rest as [|c rest IH]; intros pos rn bt e bt' Hr; cbn [close_ticks length].
  - destruct (rn =? 0); [discriminate|]. destruct (Nat.eqb_spec rn opn); [|discriminate]. intros H. injection H as <- _. lia.
  - destruct (N.eqb c cTICK); [intros H; apply IH in H; lia|]. destruct (rn =? 0) eqn:R0; [apply Nat.eqb_eq in R0; intros H; apply IH in H; lia|]. destruct (Nat.eqb_spec rn opn) as [->|Hn]; [|intros H; apply IH in H; lia].
    intros H. injection H as <- _. lia.
Qed.
Lemma backticks_alike ch st : c_len ch <= length (c_data ch) -> fits (c_data ch) -> handle_backticks_buf ch st = lift (handle_backticks ch st).
Proof.
  intros Hl Hf. unfold handle_backticks_buf, handle_backticks. set (n := span_len _ _). destruct (MAXBACKTICKS <? n); [reflexivity|]. destruct (s_scanned st && _); [reflexivity|].
  destruct (close_ticks _ _ _ _ _) as ([e|] & bt) eqn:Cl; [|reflexivity]. apply close_ticks_between in Cl; [|lia]. rewrite skipn_length in Cl. unfold c_inp in Cl. rewrite firstn_length, Nat.min_l in Cl by lia.
  set (p := s_pos st + n) in *. replace (Z.of_nat e - Z.of_nat p - Z.of_nat n)%Z with (Z.of_nat (e - n - p)) by lia. unfold fits in Hf; change (2 ^ 27)%Z with 134217728%Z in Hf.
  assert (A := code_alike (skipn p (c_data ch)) (e - n - p)). rewrite skipn_length in A. specialize (A ltac:(lia) ltac:(unfold LIMIT; lia)). cbv zeta in A. unfold slice.
  destruct (N.eqb (last (firstn (e - n - p) (skipn p (c_data ch))) 0%N) cCR).
  - destruct (buf_set _ _ _) as [b|x|]; cbn [obind] in A |- *; [rewrite A; reflexivity|injection A as ->; reflexivity|discriminate].
  - destruct A as (b & A). destruct (buf_set _ _ _) as [b0|x|]; cbn [obind] in A |- *; [rewrite A; reflexivity|discriminate|discriminate].
Qed.

(** [o] ends as [r] does, whatever the value. *)
Definition ends_as {A B} (r : res A) (o : outcome B) : Prop := match r with Ok _ => exists b, o = Done b | Err e => o = Raised e end.
Lemma clean_url_alike E data n : few_bytes E -> n <= length data -> (Z.of_nat n < 134217728)%Z -> ends_as (clean_url E (firstn n data)) (clean_url_buf E (mkChunk data n)).
Proof.
  intros F Hn Hf. unfold clean_url, clean_url_buf. destruct (trim_alike E data n Hn) as (d & m & -> & <- & B & C). cbn [lift obind c_data c_len].
  assert (A := html_f_alike E buf_init d m F B counted_init ltac:(cbn [b_size buf_init]; unfold LIMIT; lia)). destruct (unescape_html_f E (firstn m d)) as [t|e]; cbn [bind].
  - destruct A as (b & -> & W). cbn [obind]. assert (U := unescape_alike b). destruct W as (W & _). cbn [buf_init b_ptr app] in W. rewrite W in U. destruct (strbuf_unescape t) as [u|e]; cbn [ends_as].
    + destruct U as (b' & ->). cbn. eauto.
    + rewrite U. reflexivity.
  - rewrite A. reflexivity.
Qed.
Lemma clean_title_alike E data n : few_bytes E -> n <= length data -> (Z.of_nat n < 134217728)%Z -> ends_as (clean_title E (firstn n data)) (clean_title_buf E (mkChunk data n)).
Proof.
  intros F Hn Hf. unfold clean_title, clean_title_buf. cbn [c_data c_len]. destruct n as [|n]; [cbn; eauto|]. destruct data as [|c data]; [cbn in Hn; lia|]. cbn [firstn hd_error].
  assert (L : length (firstn n data) = n) by (rewrite firstn_length; cbn in Hn; lia).
  assert (Ln : nth_error (c :: data) n = Some (last (c :: firstn n data) 0%N)).
  { rewrite <- last_nth_error by discriminate. cbn [length]. rewrite L. replace (S n - 1) with n by lia. change (c :: firstn n data) with (firstn (S n) (c :: data)).
    clear. revert n. generalize (c :: data) as l. induction l as [|x l IH]; intros [|n]; cbn; try reflexivity. apply (IH n). }
  rewrite Ln. set (quoted := orb _ _). cbn [length]. rewrite L. cbn [tl].
  assert (G : forall d m, m <= length d -> (Z.of_nat m < 134217728)%Z -> ends_as (do b <- unescape_html_f E (firstn m d); strbuf_unescape b) (run b <- unescape_html_f_buf E buf_init d m; run b <- buf_unescape b; Done (Some (buf_detach b)))).
  { intros d m B Hm. assert (A := html_f_alike E buf_init d m F B counted_init ltac:(cbn [b_size buf_init]; unfold LIMIT; lia)). destruct (unescape_html_f E (firstn m d)) as [t|e]; cbn [bind].
    - destruct A as (b & -> & W). cbn [obind]. assert (U := unescape_alike b). destruct W as (W & _). cbn [buf_init b_ptr app] in W. rewrite W in U. destruct (strbuf_unescape t) as [u|e]; cbn [ends_as].
      + destruct U as (b' & ->). cbn. eauto.
      + rewrite U. reflexivity.
    - rewrite A. reflexivity. }
  destruct quoted.
  - rewrite firstn_firstn. replace (Nat.min (S n - 2) n) with (S n - 2) by lia. apply G; cbn in Hn; lia.
  - apply (G (c :: data) (S n)); [exact Hn|exact Hf].
Qed.

Lemma matchlen_le r s : matchlen r s <= length s.
Proof. unfold matchlen. destruct (rmatch _ _ _ _); lia. Qed.
Lemma scan_at_le r ch p : scan_at r ch p <= length (c_data ch) - p.
Proof. unfold scan_at. destruct (_ <? _); [lia|]. rewrite <- skipn_length. apply matchlen_le. Qed.
Lemma autolink_alike E ch st n mail : few_bytes E -> n <= length (c_data ch) - s_pos st -> fits (c_data ch) -> autolink_buf E ch st n mail = lift (autolink E ch st n).
Proof.
  intros F Hn Hf. unfold fits in Hf; change (2 ^ 27)%Z with 134217728%Z in Hf. unfold autolink_buf, autolink, clean_autolink, chunk_dup. destruct (trim_alike E (skipn (s_pos st) (c_data ch)) (n - 1)) as (d & m & -> & Es & B & C); [rewrite skipn_length; lia|].
  cbn [lift obind c_data c_len]. unfold slice. replace (s_pos st + n - 1 - s_pos st) with (n - 1) by lia. rewrite <- Es.
  assert (exists b, (if mail then buf_puts buf_init (lit "mailto:") else Done buf_init) = Done b /\ counted b /\ (b_size b <= 7)%Z) as (b & -> & Cb & Sb).
  { destruct mail; [|exists buf_init; split; [reflexivity|]; split; [apply counted_init|cbn; lia]]. eexists. split; [vm_compute; reflexivity|]. split; [unfold counted; vm_compute; discriminate|vm_compute; discriminate]. }
  cbn [obind]. assert (A := html_f_alike E b d m F B Cb ltac:(unfold LIMIT; lia)). destruct (unescape_html_f E (firstn m d)) as [t|e] eqn:U; cbn [bind lift]; [|rewrite A; reflexivity].
  destruct A as (b' & -> & _). cbn [obind]. unfold str_with_entities. cbn [c_data c_len].
  assert (A := html_buf_alike E buf_init d m F B counted_init ltac:(cbn [b_size buf_init]; unfold LIMIT; lia)). rewrite U in A. destruct A as [(b2 & -> & _)|(_ & ->)]; reflexivity.
Qed.
Lemma pointy_alike E ch st : few_bytes E -> fits (c_data ch) -> handle_pointy_brace_buf E ch st = lift (handle_pointy_brace E ch st).
Proof.
  intros F Hf. unfold handle_pointy_brace_buf, handle_pointy_brace. cbn [s_pos set_pos].
  destruct (0 <? scan_at re_scan_autolink_uri _ _); [apply autolink_alike; [exact F|apply scan_at_le|exact Hf]|].
  destruct (0 <? scan_at re_scan_autolink_email _ _); [apply autolink_alike; [exact F|apply scan_at_le|exact Hf]|].
  destruct (html_inline _ _ _) as (n & ((a & b) & c)). reflexivity.
Qed.
Lemma entity_alike E ch st : few_bytes E -> c_len ch <= length (c_data ch) -> handle_entity_buf E ch st = lift (handle_entity E ch st).
Proof.
  intros F Hl. unfold handle_entity_buf, handle_entity. set (p := S (s_pos st)).
  assert (A := ent_alike_ok E buf_init (skipn p (c_data ch)) (c_len ch - p) F counted_init ltac:(cbn [b_size buf_init]; unfold LIMIT; lia) ltac:(rewrite skipn_length; lia)).
  unfold c_inp. rewrite skipn_firstn_comm. unfold ent_alike in A. destruct (unescape_ent E _) as [[(b & n)|]|e]; cbn [bind lift].
  - destruct A as (ob & -> & _). reflexivity.
  - rewrite A. cbn [obind]. rewrite Nat.add_0_r. reflexivity.
  - rewrite A. reflexivity.
Qed.
Lemma url1_between : forall s i m, scan_url1 s i = Some m -> i + 1 <= m <= i + length s.
Proof.
  assert (G : forall k s i m, length s <= k -> scan_url1 s i = Some m -> i + 1 <= m <= i + length s).
  { induction k as [|k IH]; intros [|c s] i m Hk; cbn [length] in Hk; cbn [scan_url1]; try discriminate; try lia. destruct (N.eqb c 62).
    - destruct s; [discriminate|]. intros H. injection H as <-. cbn. lia.
    - destruct (N.eqb c cBS).
      + destruct s as [|d s]; [discriminate|]. intros H. apply IH in H; cbn in *; lia.
      + destruct (_ || _); [discriminate|]. intros H. apply IH in H; cbn; lia. }
  intros s i m. apply (G (length s)). lia.
Qed.
Lemma url2_between E : forall s i nb m, scan_url2 E s i nb = Some m -> i <= m <= i + length s.
Proof.
  assert (G : forall k s i nb m, length s <= k -> scan_url2 E s i nb = Some m -> i <= m <= i + length s).
  { induction k as [|k IH]; intros [|c s] i nb m Hk; cbn [length] in Hk; cbn [scan_url2]; try discriminate; try lia.
    assert (P : forall nb', scan_url2 E s (S i) nb' = Some m -> i <= m <= i + length (c :: s)) by (intros nb' H; apply IH in H; cbn; lia). cbn zeta.
    destruct (N.eqb c cBS); [destruct s as [|d s]; [apply P|]; destruct (ascii_punct d); [|apply P]; intros H; apply IH in H; cbn in *; lia|].
    destruct (N.eqb c 40); [destruct (32 <=? nb); [discriminate|]; apply P|]. destruct (N.eqb c 41); [destruct nb; [intros H; injection H as <-; cbn; lia|apply P]|].
    destruct (cm_space E c); [|apply P]. destruct (i =? 0); [discriminate|]. destruct (nb =? 0); [|discriminate]. intros H. injection H as <-. cbn. lia. }
  intros s i nb m. apply (G (length s)). lia.
Qed.
Lemma url_alike E ch off : c_len ch <= length (c_data ch) ->
  match scan_url E ch off with
  | None => scan_url_chunk E ch off = None
  | Some (n, u) => exists d m, scan_url_chunk E ch off = Some (n, mkChunk d m) /\ u = firstn m d /\ m <= length d /\ m <= length (c_data ch)
  end.
Proof.
  intros Hl. unfold scan_url, scan_url_chunk, chunk_dup. assert (L : length (skipn off (c_inp ch)) <= length (c_data ch) - off) by (rewrite skipn_length; unfold c_inp; rewrite firstn_length; lia).
  destruct (skipn off (c_inp ch)) as [|c s]; [reflexivity|]. cbn [length] in L. destruct (N.eqb c 60).
  - destruct (scan_url1 s 1) as [m|] eqn:U; [|reflexivity]. apply url1_between in U. eexists _, _. split; [reflexivity|]. unfold slice. replace (S off + (m - 2) - S off) with (m - 2) by lia. split; [reflexivity|]. rewrite skipn_length. lia.
  - destruct (scan_url2 E (c :: s) 0 0) as [m|] eqn:U; [|reflexivity]. apply url2_between in U. cbn [length] in U. eexists _, _. split; [reflexivity|]. unfold slice. replace (off + m - off) with m by lia. split; [reflexivity|]. rewrite skipn_length. lia.
Qed.
Lemma inline_link_alike E ch p : few_bytes E -> c_len ch <= length (c_data ch) -> fits (c_data ch) -> inline_link_buf E ch p = lift (inline_link E ch p).
Proof.
  intros F Hl Hf. unfold inline_link_buf, inline_link. unfold fits in Hf; change (2 ^ 27)%Z with 134217728%Z in Hf. destruct (peek_is ch p 40); [|reflexivity]. set (sps := scan_at re_scan_spacechars ch (S p)).
  assert (U := url_alike E ch (S p + sps) Hl). destruct (scan_url E ch (S p + sps)) as [(n & u)|]; [|rewrite U; reflexivity]. destruct U as (d & m & -> & -> & Hm & Hm2).
  set (endurl := S p + sps + n). set (st := endurl + scan_at _ _ endurl). set (et := if st =? endurl then st else _). set (ea := et + _).
  assert (Het : et - st <= length (c_data ch) - st) by (unfold et; destruct (st =? endurl); [lia|]; pose proof (scan_at_le re_scan_link_title ch st); lia).
  destruct (peek_at ch ea) as [c|e]; cbn [bind lift obind]; [|reflexivity]. destruct (N.eqb c 41); [|reflexivity].
  assert (A := clean_url_alike E d m F Hm ltac:(lia)). destruct (clean_url E (firstn m d)) as [x|e]; cbn [ends_as bind lift] in A |- *; [|rewrite A; reflexivity]. destruct A as (t & ->). cbn [obind].
  assert (B := clean_title_alike E (skipn st (c_data ch)) (et - st) F ltac:(rewrite skipn_length; lia) ltac:(lia)). unfold slice, chunk_dup.
  destruct (clean_title E (firstn (et - st) (skipn st (c_data ch)))) as [y|e]; cbn [ends_as bind lift] in B |- *; [|rewrite B; reflexivity]. destruct B as (t' & ->). reflexivity.
Qed.
Lemma close_bracket_alike E ch st : few_bytes E -> c_len ch <= length (c_data ch) -> fits (c_data ch) -> handle_close_bracket_buf E ch st = lift (handle_close_bracket E ch st).
Proof.
  intros F Hl Hf. unfold handle_close_bracket_buf, handle_close_bracket. cbn [s_brackets s_pos set_pos]. destruct (s_brackets st) as [|b bs]; [reflexivity|]. destruct (negb (b_active b)); [reflexivity|].
  rewrite inline_link_alike by assumption. destruct (inline_link E ch (S (s_pos st))) as [[e|]|e]; cbn [bind lift obind]; [| |reflexivity].
  - destruct (process_emphasis _ _); reflexivity.
  - destruct (ref_label _ _); reflexivity.
Qed.
Lemma inline_buf_alike E ch st c : few_bytes E -> c_len ch <= length (c_data ch) -> fits (c_data ch) -> parse_inline_buf E ch st c = lift (parse_inline E ch st c).
Proof.
  intros F Hl Hf. unfold parse_inline_buf. destruct (N.eqb_spec c cTICK) as [->|N1]; [unfold parse_inline; change (N.eqb cTICK cCR || N.eqb cTICK cLF) with false; cbv iota; apply backticks_alike; assumption|].
  destruct (N.eqb_spec c 38) as [->|N2]; [apply entity_alike; assumption|]. destruct (N.eqb_spec c 60) as [->|N3]; [apply pointy_alike; assumption|].
  destruct (N.eqb_spec c cRB) as [->|N4]; [apply close_bracket_alike; assumption|reflexivity].
Qed.
Lemma loop_alike E ch : few_bytes E -> c_len ch <= length (c_data ch) -> fits (c_data ch) -> forall fuel st, parse_loop_buf fuel E ch st = lift (parse_loop fuel E ch st).
Proof.
  intros F Hl Hf. induction fuel as [|fuel IH]; intros st; [reflexivity|]. cbn [parse_loop_buf parse_loop]. destruct (peek ch (s_pos st)) as [c|]; [|reflexivity]. rewrite inline_buf_alike by assumption.
  destruct (parse_inline E ch st c) as [st'|e]; cbn [bind lift obind]; [apply IH|reflexivity].
Qed.
Lemma rstrip_le p (s : str) : length (rstrip p s) <= length s.
Proof.
  unfold rstrip. rewrite rev_length. rewrite <- (rev_length s). generalize (rev s) as l. intros l. induction l as [|x l IH]; cbn; [lia|destruct (p x); cbn; lia].
Qed.
Lemma inlines_alike E s : few_bytes E -> fits s -> parse_inlines_buf E s = lift (parse_inlines E s).
Proof.
  intros F Hf. unfold parse_inlines_buf, parse_inlines. destruct (rtrim_alike E (length s) s (le_n _)) as (-> & _). rewrite firstn_all. cbn [lift obind]. fold (trimmed E s).
  rewrite loop_alike; [|exact F|unfold trimmed; cbn [c_len c_data]; apply rstrip_le|exact Hf]. destruct (parse_loop _ _ _ _) as [st|e]; cbn [bind lift obind]; [|reflexivity].
  destruct (process_emphasis st None); reflexivity.
Qed.
Lemma delete_le c (s : str) : length (delete_char c s) <= length s.
Proof. unfold delete_char. induction s as [|x s IH]; cbn; [lia|]. destruct (negb _); cbn; lia. Qed.
Lemma remove_alike E p s : few_bytes E -> fits s -> remove_emphasis_buf E p s = lift (remove_emphasis E p s).
Proof.
  intros F Hf. assert (fits (delete_char 0 s)) by (unfold fits in *; pose proof (delete_le 0 s); lia). unfold remove_emphasis_buf, remove_emphasis. destruct p; [| | | | | |reflexivity]; rewrite inlines_alike by assumption; destruct (parse_inlines E _); reflexivity.
Qed.
