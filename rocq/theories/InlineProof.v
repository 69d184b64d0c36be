(** The scanner behind remove_emphasis: it terminates, what it removes, what it raises. *)
From Coq Require Import String List NArith ZArith Bool Arith Lia.
From Verif Require Import Str StrFacts Spec EnvSpec Regex HtmlRe Fence Atx Entity Inlines HelperSpec EntityProof.
Import ListNotations.
Local Open Scope list_scope.

Definition is_delim (c : N) : Prop := c = 42%N \/ c = 95%N.

Section Positions.
(** Positions at which the runs of delimiters lie. *)
Variable Q : nat -> Prop.
Definition good_delim (data : str) (d : delim) : Prop :=
  d_start d + d_len d = d_end d /\ d_num d + d_off d = d_len d /\ 1 <= d_num d /\ is_delim (d_char d)
  /\ forall i, d_start d <= i < d_end d -> nth_error data i = Some (d_char d) /\ Q i.
Definition good_range (data : str) (r : nat * nat) : Prop :=
  forall i, fst r <= i < snd r -> Q i /\ exists c, nth_error data i = Some c /\ is_delim c.
Definition inv (ch : chunk) (st : subject) : Prop :=
  Forall (good_delim (c_data ch)) (s_delims st) /\ Forall (good_range (c_data ch)) (s_ignore st).

(** ** process_emphasis *)
Lemma find_opener_some before bottom closer o below : find_opener before bottom closer = Some (o, below) ->
  exists skipped, before = skipped ++ o :: below /\ can_match o closer = true.
Proof.
  induction before as [|x l IH]; cbn [find_opener]; [discriminate|]. destruct (oid_eqb _ _); [discriminate|]. destruct (can_match x closer) eqn:C.
  - intros H. injection H as <- <-. exists []. auto.
  - intros H. destruct (IH H) as (sk & -> & C'). exists (x :: sk). auto.
Qed.
Lemma bottom_index_ok data d : good_delim data d -> exists i, bottom_index d = Ok i.
Proof. unfold bottom_index. intros (_ & _ & _ & D & _). destruct D as [D|D]; rewrite D; cbn; eexists; reflexivity. Qed.
Lemma use_le o c : 1 <= d_num o -> 1 <= d_num c -> 1 <= use_delims o c /\ use_delims o c <= d_num o /\ use_delims o c <= d_num c.
Proof. intros A B. unfold use_delims. destruct (Nat.leb_spec 2 (d_num c)), (Nat.leb_spec 2 (d_num o)); cbn; lia. Qed.
Lemma shrink_good data u d : good_delim data d -> u <= d_num d -> d_num (shrink u d) <> 0 -> good_delim data (shrink u d).
Proof. intros (A & B & C & D & F) Hu Hn. unfold shrink, good_delim in *. cbn in *. split; [|split; [|split; [|split; [exact D|exact F]]]]; lia. Qed.
Lemma opener_range_good data u d : good_delim data d -> u <= d_num d -> good_range data (opener_range u d).
Proof. intros (A & B & C & D & F) Hu i Hi. destruct (F i) as (F1 & F2); [unfold opener_range in Hi; cbn in Hi; lia|]. split; [exact F2|]. exists (d_char d). auto. Qed.
Lemma closer_range_good data u d : good_delim data d -> u <= d_num d -> good_range data (closer_range u d).
Proof. intros (A & B & C & D & F) Hu i Hi. destruct (F i) as (F1 & F2); [unfold closer_range in Hi; cbn in Hi; lia|]. split; [exact F2|]. exists (d_char d). auto. Qed.

Definition nums (l : list delim) : nat := fold_right (fun d n => d_num d + n) 0 l.
Lemma nums_app a b : nums (a ++ b) = nums a + nums b.
Proof. induction a as [|x a IH]; cbn; [reflexivity|]. unfold nums in *. cbn. rewrite IH. lia. Qed.
Lemma nums_cons x a : nums (x :: a) = d_num x + nums a.
Proof. reflexivity. Qed.
Lemma measure_eq before after : pe_measure before after = length after + nums before + nums after.
Proof. unfold pe_measure. fold (nums (before ++ after)). rewrite nums_app. lia. Qed.

Lemma pe_loop_ok data : forall fuel before after bottoms ign,
  pe_measure before after < fuel -> Forall (good_delim data) before -> Forall (good_delim data) after -> Forall (good_range data) ign ->
  exists stack ign', pe_loop fuel before after bottoms ign = Ok (stack, ign') /\ Forall (good_delim data) stack /\ Forall (good_range data) ign'.
Proof.
  induction fuel as [|fuel IH]; intros before after bottoms ign Hf Hb Ha Hi; [lia|]. cbn [pe_loop]. rewrite measure_eq in Hf.
  destruct after as [|closer rest]; [eauto|]. inversion Ha as [|? ? Hc Hr]; subst. cbn [length] in Hf. rewrite nums_cons in Hf.
  destruct (d_close closer).
  - destruct (bottom_index_ok _ _ Hc) as (idx & ->). cbn [bind]. destruct (find_opener before (bottoms idx) closer) as [(o & below)|] eqn:Fo.
    + destruct (find_opener_some _ _ _ _ _ Fo) as (sk & -> & _). apply Forall_app in Hb as (_ & Hb). inversion Hb as [|? ? Ho Hbl]; subst.
      destruct (use_le o closer) as (U1 & U2 & U3); [apply Ho|apply Hc|]. set (u := use_delims o closer) in *. cbn zeta.
      rewrite nums_app, nums_cons in Hf.
      apply IH.
      * rewrite measure_eq.
        destruct (Nat.eqb_spec (d_num (shrink u o)) 0); destruct (Nat.eqb_spec (d_num (shrink u closer)) 0); rewrite ?nums_cons; cbn [length shrink d_num] in *; lia.
      * destruct (Nat.eqb_spec (d_num (shrink u o)) 0); [exact Hbl|]. constructor; [apply shrink_good; assumption|exact Hbl].
      * destruct (Nat.eqb_spec (d_num (shrink u closer)) 0); [exact Hr|]. constructor; [apply shrink_good; assumption|exact Hr].
      * apply Forall_app. split; [exact Hi|]. constructor; [apply opener_range_good; assumption|]. constructor; [apply closer_range_good; assumption|constructor].
    + cbn zeta. apply IH; auto.
      * rewrite measure_eq. destruct (d_open closer); rewrite ?nums_cons; lia.
      * destruct (d_open closer); [constructor; assumption|exact Hb].
  - apply IH; auto. rewrite measure_eq, nums_cons. lia.
Qed.
Lemma split_at_some b l x y : split_at b l = Some (x, y) -> l = x ++ y.
Proof.
  revert x y. induction l as [|d l IH]; intros x y; cbn [split_at]; [discriminate|]. destruct (_ =? _); [intros H; injection H as <- <-; reflexivity|].
  destruct (split_at b l) as [(p & q)|]; [|discriminate]. intros H. injection H as <- <-. cbn. f_equal. auto.
Qed.
Lemma drop_until_good data b l : Forall (good_delim data) l -> Forall (good_delim data) (drop_until b l).
Proof. induction 1 as [|d l Hd H IH]; cbn [drop_until]; [constructor|]. destruct (oid_eqb _ _); [constructor; assumption|exact IH]. Qed.
Lemma process_ok ch st bottom : inv ch st -> exists st', process_emphasis st bottom = Ok st' /\ inv ch st' /\ s_pos st' = s_pos st.
Proof.
  intros (Hd & Hi). unfold process_emphasis.
  destruct (match bottom with None => _ | Some b => _ end) as (above & below) eqn:Es.
  assert (G : Forall (good_delim (c_data ch)) above /\ Forall (good_delim (c_data ch)) below).
  { destruct bottom as [b|].
    - destruct (split_at b (s_delims st)) as [(x & y)|] eqn:Sp; injection Es as <- <-; [|auto]. apply split_at_some in Sp. rewrite Sp in Hd. apply Forall_app in Hd. exact Hd.
    - injection Es as <- <-. auto. }
  destruct G as (G1 & G2). assert (G3 : Forall (good_delim (c_data ch)) (rev above)) by (apply Forall_rev; exact G1).
  destruct (pe_loop_ok (c_data ch) (S (pe_measure below (rev above))) below (rev above) (fun _ => bottom) (s_ignore st) (Nat.lt_succ_diag_r _) G2 G3 Hi) as (stack & ign & -> & A & B).
  cbn [bind]. eexists. split; [reflexivity|]. split; [|reflexivity]. split; [apply drop_until_good; exact A|exact B].
Qed.

(** ** One step *)
Definition known_error (e : exn) : Prop := e = IndexError \/ e = KeyError \/ e = ValueError.
Lemma ke_index : known_error IndexError.
Proof. left. reflexivity. Qed.
Definition run_ok (ch : chunk) (st : subject) (c : N) : Prop :=
  is_delim c -> forall i, s_pos st <= i < s_pos st + span_len (N.eqb c) (skipn (s_pos st) (c_inp ch)) -> Q i.
Definition step_ok (ch : chunk) (st : subject) (r : res subject) : Prop :=
  match r with
  | Ok st' => inv ch st' /\ s_pos st < s_pos st'
  | Err e => known_error e
  end.
Lemma nth_skipn {A} (l : list A) n i : nth_error (skipn n l) i = nth_error l (n + i).
Proof. revert l. induction n as [|n IH]; intros [|x l]; cbn; try reflexivity; [destruct i; reflexivity|apply IH]. Qed.
Lemma nth_firstn {A} (l : list A) : forall n i, nth_error (firstn n l) i = if i <? n then nth_error l i else None.
Proof.
  induction l as [|x l IH]; intros [|n] [|i]; cbn [firstn nth_error]; try reflexivity.
  - destruct (S i <? S n); reflexivity.
  - rewrite IH. destruct (Nat.ltb_spec i n), (Nat.ltb_spec (S i) (S n)); try lia; reflexivity.
Qed.
Lemma span_len_spec (p : N -> bool) s : forall i, i < span_len p s -> exists c, nth_error s i = Some c /\ p c = true.
Proof.
  induction s as [|c s IH]; cbn [span_len]; intros i; [lia|]. destruct (p c) eqn:P; [|lia]. destruct i as [|i]; cbn [nth_error]; [eauto|]. intros H. apply IH. lia.
Qed.
Lemma span_len_stop (p : N -> bool) s c : nth_error s (span_len p s) = Some c -> p c = false.
Proof. induction s as [|x s IH]; cbn [span_len]; [discriminate|]. destruct (p x) eqn:P; cbn [nth_error]; [exact IH|]. intros H. injection H as <-. exact P. Qed.
Lemma span_len_pos (p : N -> bool) s c : nth_error s 0 = Some c -> p c = true -> 1 <= span_len p s.
Proof. destruct s as [|x s]; cbn; [discriminate|]. intros H Hp. injection H as ->. rewrite Hp. lia. Qed.
Lemma peek_inp ch i : peek ch i = nth_error (c_inp ch) i.
Proof. unfold peek, c_inp. rewrite nth_firstn. reflexivity. Qed.
Lemma inp_data ch i c : nth_error (c_inp ch) i = Some c -> nth_error (c_data ch) i = Some c.
Proof. unfold c_inp. rewrite nth_firstn. destruct (_ <? _); [auto|discriminate]. Qed.

Lemma scan_delims_len E ch pos c : fst (fst (scan_delims E ch pos c)) = span_len (N.eqb c) (skipn pos (c_inp ch)).
Proof. unfold scan_delims. destruct (N.eqb c cUND); reflexivity. Qed.
Lemma handle_delim_ok E ch st c : inv ch st -> peek ch (s_pos st) = Some c -> is_delim c -> run_ok ch st c -> step_ok ch st (Ok (handle_delim E ch st c)).
Proof.
  intros (Hd & Hi) Hp Hc Hq. unfold handle_delim. pose proof (scan_delims_len E ch (s_pos st) c) as L. destruct (scan_delims E ch (s_pos st) c) as ((n & op) & cl). cbn [fst] in L. subst n.
  set (n := span_len (N.eqb c) (skipn (s_pos st) (c_inp ch))).
  assert (Hn : 1 <= n).
  { apply (span_len_pos _ _ c); [rewrite nth_skipn, Nat.add_0_r, <- peek_inp; exact Hp|apply N.eqb_refl]. }
  destruct (op || cl); cbn; (split; [|lia]); (split; [|exact Hi]); [|exact Hd].
  constructor; [|exact Hd]. unfold good_delim. cbn. split; [lia|split; [lia|split; [lia|split; [exact Hc|]]]]. intros i Hi2.
  destruct (span_len_spec (N.eqb c) (skipn (s_pos st) (c_inp ch)) (i - s_pos st)) as (x & X1 & X2); [fold n; lia|].
  apply N.eqb_eq in X2. subst x. rewrite nth_skipn in X1. replace (s_pos st + (i - s_pos st)) with i in X1 by lia. split; [apply inp_data; exact X1|]. apply (Hq Hc). fold n. lia.
Qed.
Lemma handle_newline_ok ch st c : inv ch st -> peek ch (s_pos st) = Some c -> c = 13%N \/ c = 10%N -> step_ok ch st (handle_newline ch st).
Proof.
  intros Hi Hp Hc. unfold handle_newline, peek_at. rewrite peek_inp in Hp. apply inp_data in Hp. rewrite Hp. cbn [bind].
  destruct Hc as [-> | ->]; [change (N.eqb 13 cCR) with true|change (N.eqb 10 cCR) with false]; cbv iota.
  - destruct (nth_error (c_data ch) (S (s_pos st))) as [d|]; cbn [bind]; [|exact ke_index]. split; [exact Hi|]. cbn. destruct (N.eqb d cLF); lia.
  - rewrite Hp. cbn [bind]. change (N.eqb 10 cLF) with true. cbv iota. split; [exact Hi|]. cbn [s_pos set_pos]. lia.
Qed.
Lemma close_ticks_pos rest : forall pos run opn bt e bt', close_ticks rest pos run opn bt = (Some e, bt') -> pos <= e.
Proof.
  induction rest as [|c rest IH]; intros pos run opn bt e bt'; cbn [close_ticks].
  - destruct (run =? 0); [discriminate|]. destruct (run =? opn); [|discriminate]. intros H. injection H as <- _. lia.
  - destruct (N.eqb c cTICK); [intros H; apply IH in H; lia|]. destruct (run =? 0); [intros H; apply IH in H; lia|].
    destruct (run =? opn); [intros H; injection H as <- _; lia|]. intros H; apply IH in H; lia.
Qed.
Lemma handle_backticks_ok ch st : inv ch st -> peek ch (s_pos st) = Some cTICK -> step_ok ch st (handle_backticks ch st).
Proof.
  intros Hi Hp. unfold handle_backticks. set (n := span_len (N.eqb cTICK) (skipn (s_pos st) (c_inp ch))).
  assert (Hn : 1 <= n).
  { apply (span_len_pos _ _ cTICK); [rewrite nth_skipn, Nat.add_0_r, <- peek_inp; exact Hp|apply N.eqb_refl]. }
  destruct (MAXBACKTICKS <? n); [split; [exact Hi|cbn; lia]|]. destruct (_ && _); [split; [exact Hi|cbn; lia]|].
  destruct (close_ticks _ _ _ _ _) as ([e|] & bt) eqn:C; [|split; [exact Hi|cbn; lia]].
  apply close_ticks_pos in C. destruct (N.eqb _ cCR); [exact ke_index|]. split; [exact Hi|cbn; lia].
Qed.
Lemma find_special_ok rest : forall n, match find_special rest n with Ok m => n <= m | Err e => e = IndexError end.
Proof.
  induction rest as [|c rest IH]; intros n; cbn [find_special]; [lia|]. destruct (N.ltb 256 c); [lia|]. destruct (N.eqb c 256); [reflexivity|]. destruct (special_char c); [lia|].
  specialize (IH (S n)). destruct (find_special rest (S n)); [lia|exact IH].
Qed.
Lemma autolink_ok E ch st p n : inv ch st -> s_pos st = S p -> match autolink E ch st n with Ok st' => inv ch st' /\ p < s_pos st' | Err e => known_error e end.
Proof.
  intros Hi Hp. unfold autolink. destruct (unescape_html_f E _) as [b|e] eqn:U; cbn [bind].
  - split; [exact Hi|]. cbn. lia.
  - destruct (unescape_html_f_err _ _ _ U) as [->|(-> & _)]; unfold known_error; auto.
Qed.
Lemma pointy_ok E ch st : inv ch st -> step_ok ch st (handle_pointy_brace E ch st).
Proof.
  intros Hi. unfold handle_pointy_brace, step_ok. destruct (0 <? _); [apply autolink_ok; [exact Hi|reflexivity]|]. destruct (0 <? _); [apply autolink_ok; [exact Hi|reflexivity]|].
  destruct (html_inline ch _ _) as (n & ((a & b) & c)). split; [exact Hi|]. cbn. lia.
Qed.
Lemma entity_ok E ch st : inv ch st -> step_ok ch st (handle_entity E ch st).
Proof.
  intros Hi. unfold handle_entity. destruct (unescape_ent E _) as [[(b & n)|]|e] eqn:U; cbn [bind].
  - split; [exact Hi|cbn; lia].
  - split; [exact Hi|cbn; lia].
  - destruct (unescape_ent_err _ _ _ U) as [->|(-> & _)]; unfold step_ok, known_error; auto.
Qed.
Lemma skip_line_end_le ch p : p <= skip_line_end ch p.
Proof. unfold skip_line_end. destruct (peek_is ch p cCR); destruct (peek_is ch _ cLF); lia. Qed.
Lemma backslash_ok ch st : inv ch st -> step_ok ch st (Ok (handle_backslash ch st)).
Proof.
  intros Hi. unfold handle_backslash. destruct (peek ch (S (s_pos st))) as [c|].
  - destruct (ascii_punct c); (split; [exact Hi|]); cbn; [lia|]. pose proof (skip_line_end_le ch (S (s_pos st))). lia.
  - split; [exact Hi|cbn; lia].
Qed.
Lemma clean_url_err E u e : clean_url E u = Err e -> known_error e.
Proof.
  unfold clean_url. destruct (unescape_html_f E _) as [b|e1] eqn:U; cbn [bind].
  - intros H. apply strbuf_unescape_err in H. left. exact H.
  - intros H. injection H as <-. destruct (unescape_html_f_err _ _ _ U) as [->|(-> & _)]; unfold known_error; auto.
Qed.
Lemma clean_title_err E u e : clean_title E u = Err e -> known_error e.
Proof.
  unfold clean_title. destruct u as [|f u]; [discriminate|]. destruct (unescape_html_f E _) as [b|e1] eqn:U; cbn [bind].
  - intros H. apply strbuf_unescape_err in H. left. exact H.
  - intros H. injection H as <-. destruct (unescape_html_f_err _ _ _ U) as [->|(-> & _)]; unfold known_error; auto.
Qed.
Lemma inline_link_ok E ch p : match inline_link E ch p with Ok (Some e) => p < e | Ok None => True | Err e => known_error e end.
Proof.
  unfold inline_link. destruct (peek_is ch p 40); [|exact I]. destruct (scan_url E ch _) as [(n & url)|]; [|exact I].
  set (endurl := S p + _ + n). set (st := endurl + _). cbn zeta. set (et := if st =? endurl then _ else _). set (ea := et + _).
  assert (Hle : p < ea). { unfold ea, et, st, endurl. destruct (_ =? _); lia. }
  clearbody ea. unfold peek_at. destruct (nth_error (c_data ch) ea) as [c|]; cbn [bind]; [|exact ke_index].
  destruct (N.eqb c 41); [|exact I].
  destruct (clean_url E url) as [[]|e] eqn:U; cbn [bind]; [|eapply clean_url_err; exact U].
  destruct (clean_title E _) as [[]|e] eqn:T; cbn [bind]; [lia|eapply clean_title_err; exact T].
Qed.
Lemma close_bracket_ok E ch st : inv ch st -> step_ok ch st (handle_close_bracket E ch st).
Proof.
  intros Hi. unfold handle_close_bracket. cbn zeta. cbn [s_brackets set_pos]. destruct (s_brackets st) as [|b bs]; [split; [exact Hi|cbn; lia]|].
  destruct (negb (b_active b)); [split; [exact Hi|cbn; lia]|]. change (s_pos (set_pos st (S (s_pos st)))) with (S (s_pos st)).
  pose proof (inline_link_ok E ch (S (s_pos st))) as L. destruct (inline_link E ch (S (s_pos st))) as [[e|]|e]; cbn [bind]; [| |exact L].
  - destruct (process_ok ch (set_pos (set_pos st (S (s_pos st))) e) (b_prevdelim b) Hi) as (st' & -> & A & B). cbn [bind]. split; [exact A|]. cbn [set_brackets s_pos]. rewrite B. cbn. lia.
  - unfold ref_label. destruct (peek_is ch (S (s_pos st)) cLB); [|split; [exact Hi|cbn; lia]].
    destruct (_ || _); cbn [bind]; [split; [exact Hi|cbn; lia]|]. exact (or_intror (or_introl eq_refl)).
Qed.
Lemma parse_inline_ok E ch st c : inv ch st -> peek ch (s_pos st) = Some c -> run_ok ch st c -> step_ok ch st (parse_inline E ch st c).
Proof.
  intros Hi Hp Hq. unfold parse_inline.
  destruct (N.eqb c cCR || N.eqb c cLF) eqn:C1.
  { apply orb_true_iff in C1. rewrite !N.eqb_eq in C1. eapply handle_newline_ok; eauto. }
  destruct (N.eqb_spec c cTICK) as [->|_]; [apply handle_backticks_ok; assumption|].
  destruct (N.eqb c cBS); [apply backslash_ok; assumption|]. destruct (N.eqb c 38); [apply entity_ok; assumption|].
  destruct (N.eqb c 60); [apply pointy_ok; assumption|].
  destruct (N.eqb c cSTAR || N.eqb c cUND) eqn:C2.
  { apply orb_true_iff in C2. rewrite !N.eqb_eq in C2. apply handle_delim_ok; assumption. }
  destruct (cin c _); [split; [exact Hi|cbn; lia]|]. destruct (N.eqb c cLB); [split; [exact Hi|cbn; lia]|].
  destruct (N.eqb c cRB); [apply close_bracket_ok; assumption|].
  pose proof (find_special_ok (skipn (S (s_pos st)) (c_inp ch)) (S (s_pos st))) as F. destruct (find_special _ _) as [m|e]; cbn [bind].
  - split; [exact Hi|]. cbn. lia.
  - subst e. exact ke_index.
Qed.

(** ** The loop *)
Lemma peek_lt ch i c : peek ch i = Some c -> i < c_len ch.
Proof. unfold peek. destruct (Nat.ltb_spec i (c_len ch)); [auto|discriminate]. Qed.
Lemma parse_loop_inv E ch (J : subject -> Prop) :
  (forall st c, J st -> peek ch (s_pos st) = Some c -> run_ok ch st c) ->
  (forall st c st', J st -> peek ch (s_pos st) = Some c -> parse_inline E ch st c = Ok st' -> J st') ->
  forall fuel st, inv ch st -> J st -> c_len ch - s_pos st < fuel ->
  match parse_loop fuel E ch st with
  | Ok st' => inv ch st' /\ J st' /\ peek ch (s_pos st') = None
  | Err e => known_error e
  end.
Proof.
  intros HQ HJ. induction fuel as [|fuel IH]; intros st Hi Hj Hf; [lia|]. cbn [parse_loop]. destruct (peek ch (s_pos st)) as [c|] eqn:P; [|auto].
  pose proof (parse_inline_ok E ch st c Hi P (HQ st c Hj P)) as S. destruct (parse_inline E ch st c) as [st'|e] eqn:PI; cbn [bind]; [|exact S].
  destruct S as (Hi' & Hlt). pose proof (HJ _ _ _ Hj P PI) as Hj'. apply peek_lt in P. apply IH; [exact Hi'|exact Hj'|lia].
Qed.
Lemma trimmed_len E s : c_len (trimmed E s) <= length s.
Proof. cbn. destruct (rstrip_split (cm_space E) s) as (suf & Es & _). rewrite Es at 2. rewrite app_length. lia. Qed.
Lemma inv_init ch : inv ch init_subject.
Proof. split; constructor. Qed.
Lemma parse_inlines_inv E s (J : subject -> Prop) : J init_subject ->
  (forall st c, J st -> peek (trimmed E s) (s_pos st) = Some c -> run_ok (trimmed E s) st c) ->
  (forall st c st', J st -> peek (trimmed E s) (s_pos st) = Some c -> parse_inline E (trimmed E s) st c = Ok st' -> J st') ->
  match parse_inlines E s with
  | Ok ign => Forall (good_range s) ign
  | Err e => known_error e
  end.
Proof.
  intros H0 HQ HJ. unfold parse_inlines. pose proof (trimmed_len E s) as L.
  pose proof (parse_loop_inv E (trimmed E s) J HQ HJ (S (length s)) init_subject (inv_init _) H0 ltac:(cbn [s_pos init_subject]; lia)) as P.
  destruct (parse_loop (S (length s)) E (trimmed E s) init_subject) as [st|e]; cbn [bind]; [|exact P].
  destruct P as (P & _). destruct (process_ok (trimmed E s) st None P) as (st' & -> & (_ & A) & _). cbn [bind]. exact A.
Qed.

(** ** The result *)
Lemma filter_from_deletes data s : forall i ranges, (forall k c, nth_error s k = Some c -> nth_error data (i + k) = Some c) ->
  Forall (good_range data) ranges -> deletes is_delim s (filter_from i s ranges).
Proof.
  induction s as [|c s IH]; intros i ranges Hd Hr; cbn [filter_from]; [constructor|].
  assert (Hd' : forall k x, nth_error s k = Some x -> nth_error data (S i + k) = Some x).
  { intros k x Hk. specialize (Hd (S k) x Hk). replace (i + S k) with (S i + k) in Hd by lia. exact Hd. }
  destruct (existsb _ ranges) eqn:X.
  - apply existsb_exists in X as (r & Hin & Hb). apply andb_true_iff in Hb as (B1 & B2). apply Nat.leb_le in B1. apply Nat.ltb_lt in B2.
    rewrite Forall_forall in Hr. destruct (Hr r Hin i (conj B1 B2)) as (_ & x & Hx & Hxd).
    specialize (Hd 0 c eq_refl). rewrite Nat.add_0_r in Hd. rewrite Hd in Hx. injection Hx as ->.
    apply del_drop; [exact Hxd|]. apply IH; [exact Hd'|]. rewrite Forall_forall. exact Hr.
  - apply del_keep. apply IH; assumption.
Qed.
Lemma filter_from_keeps data s : forall i ranges, Forall (good_range data) ranges -> (forall k, i <= k < i + length s -> ~ Q k) -> filter_from i s ranges = s.
Proof.
  induction s as [|c s IH]; intros i ranges Hr Hk; cbn [filter_from]; [reflexivity|]. cbn [length] in Hk.
  destruct (existsb _ ranges) eqn:X.
  - exfalso. apply existsb_exists in X as (r & Hin & Hb). apply andb_true_iff in Hb as (B1 & B2). apply Nat.leb_le in B1. apply Nat.ltb_lt in B2.
    rewrite Forall_forall in Hr. destruct (Hr r Hin i (conj B1 B2)) as (HQ & _). apply (Hk i); [lia|exact HQ].
  - f_equal. apply IH; [exact Hr|]. intros k H. apply Hk. lia.
Qed.
End Positions.

Lemma filter_from_app a : forall i b ranges, filter_from i (a ++ b) ranges = filter_from i a ranges ++ filter_from (i + length a) b ranges.
Proof.
  induction a as [|c a IH]; intros i b ranges; cbn [app filter_from length]; [rewrite Nat.add_0_r; reflexivity|]. rewrite IH.
  replace (i + S (length a)) with (S i + length a) by lia. destruct (existsb _ ranges); reflexivity.
Qed.
Definition anywhere (_ : nat) : Prop := True.
Lemma parse_inlines_ok E s : match parse_inlines E s with
  | Ok ign => Forall (good_range anywhere s) ign
  | Err e => known_error e
  end.
Proof. apply (parse_inlines_inv anywhere E s (fun _ => True)); auto. intros st c _ _ _ i _. exact I. Qed.
Lemma parse_loop_known E s : match parse_loop (S (length s)) E (trimmed E s) init_subject with
  | Ok st' => inv anywhere (trimmed E s) st' /\ peek (trimmed E s) (s_pos st') = None
  | Err e => known_error e
  end.
Proof.
  pose proof (trimmed_len E s) as L.
  pose proof (parse_loop_inv anywhere E (trimmed E s) (fun _ => True) (fun st c _ _ _ i _ => I) (fun _ _ _ _ _ _ => I) (S (length s)) init_subject (inv_init _ _) I ltac:(cbn [s_pos init_subject]; lia)) as P.
  destruct (parse_loop _ _ _ _); [|exact P]. destruct P as (A & _ & B). auto.
Qed.
