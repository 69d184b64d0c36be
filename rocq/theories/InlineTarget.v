(** The targets of links in the inline scanner: blanks, addresses and titles. *)
From Coq Require Import String List NArith ZArith Bool Arith Lia.
From Verif Require Import Str StrFacts Spec EnvSpec Regex RegexSpec RegexProof HtmlRe Fence Atx Entity Inlines HelperSpec EntityProof EmphSpec DelimSpec LinkSpec HtmlProof AtxProof InlineProof InlineHtml InlineRun InlineOpaque InlineEmph InlineRead.
Import ListNotations.
Local Open Scope list_scope.

(** ** Decoding *)
Lemma no_ent E s : ~ In 59%N s -> unescape_ent E s = Ok None.
Proof.
  intros H. unfold unescape_ent. destruct ((3 <=? length s) && N.eqb (hd 0%N s) cHASH).
  - assert (T : forall n, nth_error s n <> Some 59%N) by (intros n X; apply H; eapply nth_error_In; exact X).
    assert (G : forall k rest, rest = skipn k (tl s) -> N.eqb (hd 0%N rest) 59 = false).
    { intros k rest ->. apply N.eqb_neq. intros X. destruct (skipn k (tl s)) as [|x r] eqn:Q; [discriminate|]. cbn in X. subst x. apply H. assert (In 59%N (skipn k (tl s))) as Y by (rewrite Q; left; reflexivity). apply skipn_in in Y. destruct s; [exact Y|right; exact Y]. }
    destruct (tl s) as [|c1 s1] eqn:Et; [reflexivity|]. destruct (e_digit E c1).
    + destruct (dec_digits E (c1 :: s1) 0 0) as ((cp & n) & rest) eqn:D. apply dec_rest in D as (_ & D). rewrite (G _ rest D), andb_false_r. reflexivity.
    + destruct (N.eqb c1 120 || N.eqb c1 88).
      * destruct (hex_digits E s1 0 0) as ((cp & n) & rest) eqn:D. apply hex_rest in D as (_ & D). rewrite (G (S (n - 0)) rest D), andb_false_r. reflexivity.
      * reflexivity.
  - assert (K : ~ In 59%N (skipn 2 (firstn 32 s))) by (intros X; apply skipn_in in X; apply H; rewrite <- (firstn_skipn 32 s); apply in_or_app; left; exact X).
    set (t := skipn 2 (firstn 32 s)) in *. clearbody t. generalize 2. revert K. induction t as [|c t IH]; intros K i; [reflexivity|]. cbn [named_entity]. cbn [In] in K. destruct (N.eqb c cSP); [reflexivity|]. destruct (N.eqb_spec c 59); [exfalso; tauto|]. apply IH. tauto.
Qed.
Lemma unescape_plain E s : no_entity s -> unescape_html_f E s = Ok s.
Proof.
  intros H. unfold unescape_html_f. assert (G : forall fuel s, length s < fuel -> no_entity s -> unescape_html fuel E s = Ok s).
  { induction fuel as [|fuel IH]; intros t Hl Hn; [lia|]. destruct t as [|c t]; [reflexivity|]. cbn [unescape_html]. cbn [length] in Hl.
    assert (Hn' : no_entity t) by (unfold no_entity in *; cbn [In] in Hn; tauto).
    destruct (N.eqb_spec c 38) as [->|_]; [|rewrite IH; [reflexivity|lia|exact Hn']]. destruct Hn as [X|X]; [exfalso; apply X; left; reflexivity|]. rewrite no_ent by (intros Y; apply X; right; exact Y). cbn [bind]. rewrite IH; [reflexivity|lia|exact Hn']. }
  apply G; [lia|exact H].
Qed.
Lemma strbuf_plain s : ~ In 92%N s -> strbuf_unescape s = Ok tt.
Proof. induction s as [|c s IH]; intros H; [reflexivity|]. cbn [strbuf_unescape]. cbn [In] in H. change cBS with 92%N. destruct (N.eqb_spec c 92); [exfalso; apply H; auto|]. apply IH. tauto. Qed.
Lemma lstrip_in p s c : In c (lstrip p s) -> In c s.
Proof. induction s as [|x s IH]; [auto|]. cbn [lstrip]. destruct (p x); intros H; [right; auto|exact H]. Qed.
Lemma strip_in p s c : In c (strip p s) -> In c s.
Proof. unfold strip, rstrip. intros H. apply in_rev in H. apply lstrip_in in H. apply in_rev in H. apply lstrip_in in H. exact H. Qed.
Lemma lstrip_id p s : Forall (fun c => p c = false) s -> lstrip p s = s.
Proof. destruct 1 as [|c s H]; [reflexivity|]. cbn. rewrite H. reflexivity. Qed.
Lemma strip_id p s : Forall (fun c => p c = false) s -> strip p s = s.
Proof. intros H. unfold strip, rstrip. rewrite (lstrip_id p s H), lstrip_id by (apply Forall_rev; exact H). apply rev_involutive. Qed.
Lemma punctuation_iff c : ascii_punct c = true <-> punctuation c.
Proof. apply ascii_punct_iff. Qed.
Lemma strbuf_address E n d : address E n d -> strbuf_unescape d = Ok tt.
Proof.
  induction 1 as [|n c d Hv Hc H IH|n c d Hp H IH|n c d Hp H IH|n d Hn H IH|n d H IH]; cbn [strbuf_unescape]; change cBS with 92%N.
  - reflexivity.
  - destruct (N.eqb_spec c 92) as [->|_]; [exfalso; apply Hc; cbn; tauto|exact IH].
  - rewrite N.eqb_refl. apply punctuation_iff in Hp. rewrite Hp. exact IH.
  - rewrite N.eqb_refl. destruct (ascii_punct c) eqn:P; [apply punctuation_iff in P; contradiction|]. exact IH.
  - exact IH.
  - exact IH.
Qed.
Lemma strbuf_title q w : title_text q w -> strbuf_unescape w = Ok tt.
Proof.
  assert (G : forall w, title_text q w -> strbuf_unescape w = Ok tt /\ (forall c w', w = c :: w' -> c = 92%N -> True)); [|intros H; apply G; exact H].
  clear w. induction 1 as [|c w H0 H1 H2 H3 H IH|c w H0 H IH]; (split; [|auto]); cbn [strbuf_unescape]; change cBS with 92%N.
  - reflexivity.
  - destruct (N.eqb_spec c 92); [contradiction|apply IH].
  - rewrite N.eqb_refl. destruct (ascii_punct c) eqn:P; [apply IH|]. destruct (N.eqb_spec c 92) as [->|_]; [discriminate P|apply IH].
Qed.

(** ** Blanks *)
Lemma spaces_len b s : HtmlSpec.blanks b -> (33 <= hd 33 s)%N -> matchlen re_scan_spacechars (b ++ s) = length b.
Proof.
  intros Hb Hs. apply blanks_ws in Hb. assert (Ns : forall c s', s = c :: s' -> ~ In c space6) by (intros c s' -> X; cbn in Hs, X; intuition (subst; lia)).
  unfold matchlen. destruct (rmatch re_scan_spacechars None (b ++ s) (fun _ s' => Some s')) as [rest|] eqn:R.
  - destruct (match_split _ _ _ _ R) as (pv' & Mm). apply plus_star in Mm. apply star_set in Mm as (u & Eu & Fu & _).
    destruct (seq_star_stuck _ _ _ _ _ R) as ((pv & St) & _).
    assert (Nr : forall c r, rest = c :: r -> ~ In c space6).
    { intros c r -> X. apply (St (Some c) r); [|cbn; lia]. exists c. split; [reflexivity|]. split; [apply cin_In; exact X|reflexivity]. }
    assert (Fu' : Forall (fun c => In c space6) u) by (eapply Forall_impl; [|exact Fu]; intros c Hc; apply cin_In; exact Hc).
    assert (Heq : forall b u, Forall (fun c => In c space6) b -> Forall (fun c => In c space6) u -> b ++ s = u ++ rest -> rest = s).
    { clear - Ns Nr. induction b as [|x b IH]; intros [|y u] Fb Fu E; cbn in E; [auto| | |].
      - exfalso. apply (Ns _ _ E). inversion Fu; assumption.
      - exfalso. symmetry in E. apply (Nr _ _ E). inversion Fb; assumption.
      - injection E as -> E. inversion Fb; inversion Fu; subst. eapply IH; eassumption. }
    rewrite (Heq b u Hb Fu' Eu), app_length. lia.
  - destruct b as [|c b]; [reflexivity|]. exfalso. destruct (oneof_plus_make space6 (c :: b) None s ltac:(discriminate) Hb) as (pv' & Mm). refine (rmatch_complete _ _ _ _ _ _ Mm _ R). discriminate.
Qed.
Lemma skip_app (a b : str) n : n = length a -> skipn n (a ++ b) = b.
Proof. intros ->. apply skipn_app_len. Qed.
Lemma inp_pre E a c b ch : scanned E ch -> c_data ch = a ++ c :: b -> cm_space E c = false -> exists b', c_inp ch = a ++ c :: b'.
Proof.
  intros Hs Hd Hc. pose proof (in_scan E ch a c b Hs Hd Hc) as L. unfold c_inp. rewrite Hd, firstn_app, (firstn_all2 a) by lia. destruct (c_len ch - length a) as [|k] eqn:K; [lia|]. exists (firstn k b). reflexivity.
Qed.
Lemma scan_here r ch a b : c_data ch = a ++ b -> length a <= c_len ch -> scan_at r ch (length a) = matchlen r b.
Proof. intros Hd Hl. unfold scan_at. destruct (Nat.ltb_spec (c_len ch) (length a)); [lia|]. rewrite Hd, skipn_app_len. reflexivity. Qed.

(** ** Addresses *)
Lemma blank_space E c : zs_ascii E -> c = 32%N \/ c = 9%N -> cm_space E c = true.
Proof. intros Hz H. apply space_iff. destruct H as [->| ->]; [left; apply (Hz 32%N); [lia|reflexivity]|right; cbn; tauto]. Qed.
Definition closing (E : env) (i : nat) (s : str) : Prop := exists c s', s = c :: s' /\ (c = 41%N \/ ((c = 32%N \/ c = 9%N) /\ i <> 0)).
Lemma scan_address E n d post : zs_ascii E -> address E n d -> forall i, closing E (i + length d) post -> scan_url2 E (d ++ post) i n = Some (i + length d).
Proof.
  intros Hz. induction 1 as [|n c d (Hv1 & Hv2) Hc H IH|n c d Hp H IH|n c d Hp H IH|n d Hn H IH|n d H IH]; intros i Cl; cbn [app scan_url2 length]; cbn [length] in Cl; change cBS with 92%N.
  - destruct Cl as (c & s' & -> & [->|(Hb & Hi)]); cbn [scan_url2]; [rewrite Nat.add_0_r; reflexivity|]. rewrite Nat.add_0_r in *. assert (Sp := blank_space E c Hz Hb).
    assert (X : N.eqb c cBS = false /\ N.eqb c 40 = false /\ N.eqb c 41 = false) by (destruct Hb as [->| ->]; auto). destruct X as (-> & -> & ->). rewrite Sp. destruct (Nat.eqb_spec i 0); [contradiction|reflexivity].
  - destruct (N.eqb_spec c 92) as [->|_]; [exfalso; apply Hc; cbn; tauto|]. destruct (N.eqb_spec c 40) as [->|_]; [exfalso; apply Hc; cbn; tauto|].
    destruct (N.eqb_spec c 41) as [->|_]; [exfalso; apply Hc; cbn; tauto|]. apply space_not in Hv2. rewrite Hv2. rewrite IH; [f_equal; lia|]. replace (S i + length d) with (i + S (length d)) by lia. exact Cl.
  - rewrite N.eqb_refl. apply punctuation_iff in Hp. rewrite Hp. rewrite IH; [f_equal; lia|]. replace (S (S i) + length d) with (i + S (S (length d))) by lia. exact Cl.
  - rewrite N.eqb_refl. destruct (ascii_punct c) eqn:P; [apply punctuation_iff in P; contradiction|]. change (scan_url2 E ((c :: d) ++ post) (S i) n = Some (i + S (S (length d)))). rewrite (IH (S i)); [f_equal; cbn [length]; lia|]. cbn [length]. replace (S i + S (length d)) with (i + S (S (length d))) by lia. exact Cl.
  - change (N.eqb 40 92) with false. change (N.eqb 40 40) with true. cbn match. destruct (Nat.leb_spec 32 n); [lia|]. rewrite IH; [f_equal; lia|]. replace (S i + length d) with (i + S (length d)) by lia. exact Cl.
  - change (N.eqb 41 92) with false. change (N.eqb 41 40) with false. change (N.eqb 41 41) with true. cbn match. rewrite IH; [f_equal; lia|]. replace (S i + length d) with (i + S (length d)) by lia. exact Cl.
Qed.
Lemma address_visible E n d : zs_ascii E -> address E n d -> Forall (fun c => cm_space E c = false) d.
Proof.
  intros Hz. assert (K : forall c, punctuation c -> cm_space E c = false) by (intros c Hc; apply ascii_punct_not_space; [exact Hz|apply punctuation_iff; exact Hc]).
  induction 1 as [|n c d (Hv1 & Hv2) Hc H IH|n c d Hp H IH|n c d Hp H IH|n d Hn H IH|n d H IH]; repeat constructor; auto; try (apply K; unfold punctuation; lia).
  - apply space_not. exact Hv2.
  - inversion IH; assumption.
  - inversion IH; assumption.
Qed.
Lemma address_first E n d : address E n d -> (33 <= hd 33 d)%N.
Proof. destruct 1 as [|n c d (Hv1 & Hv2) Hc H|n c d Hp H|n c d Hp H|n d Hn H|n d H]; cbn; lia. Qed.
Lemma scan_pointed d post : Forall (fun c => ~ In c (lit "<>\") /\ c <> 10%N /\ c <> 13%N) d -> post <> [] -> forall i, scan_url1 (d ++ 62%N :: post) i = Some (S (i + length d)).
Proof.
  intros H Hp. induction H as [|c d (H1 & H2 & H3) H IH]; intros i; cbn [app scan_url1 length].
  - change (N.eqb 62 62) with true. cbn match. destruct post; [contradiction|]. rewrite Nat.add_0_r. reflexivity.
  - destruct (N.eqb_spec c 62) as [->|_]; [exfalso; apply H1; cbn; tauto|]. change cBS with 92%N. change cLF with 10%N. destruct (N.eqb_spec c 92) as [->|_]; [exfalso; apply H1; cbn; tauto|].
    destruct (N.eqb_spec c 10); [contradiction|]. destruct (N.eqb_spec c 60) as [->|_]; [exfalso; apply H1; cbn; tauto|]. cbn [orb]. rewrite IH. f_equal. lia.
Qed.

(** ** Titles *)
Lemma title_no0 q w : title_text q w -> ~ In 0%N w.
Proof. induction 1 as [|c w H0 H1 H2 H3 H IH|c w H0 H IH]; cbn; intuition. Qed.
Lemma title_star q pv s pv' s' : q <> 125%N -> q <> 126%N -> q <> 45%N -> q <> 93%N -> star (M (RAlt re_escaped_char (RNotIn [q; 0%N]))) pv s pv' s' -> exists u, s = u ++ s' /\ ~ In q u.
Proof.
  intros Q1 Q2 Q3 Q4. induction 1 as [pv s|pv s pv1 s1 pv2 s2 H1 H2 (u & -> & Hu)]; [exists []; auto|]. destruct H1 as [H1|(c & -> & Hc & _)].
  - apply M_lit in H1. exists (lit "}~-]" ++ u). rewrite <- app_assoc. split; [exact H1|]. intros X. apply in_app_or in X as [X|X]; [|contradiction]. cbn in X. intuition.
  - exists (c :: u). split; [reflexivity|]. intros [->|X]; [|contradiction]. unfold cin in Hc. cbn in Hc. rewrite N.eqb_refl in Hc. discriminate.
Qed.
Lemma title_make q w pv s : ~ In q w -> ~ In 0%N w -> exists pv', star (M (RAlt re_escaped_char (RNotIn [q; 0%N]))) pv (w ++ s) pv' s.
Proof.
  revert pv. induction w as [|c w IH]; intros pv Hq H0; [eexists; apply star_done|]. cbn [In] in Hq, H0. destruct (IH (Some c)) as (pv' & Hm); [tauto|tauto|]. exists pv'. eapply star_more; [|exact Hm].
  right. exists c. split; [reflexivity|]. split; [|reflexivity]. apply negb_true_iff. destruct (cin c [q; 0%N]) eqn:C; [|reflexivity]. apply cin_In in C. cbn in C. destruct C as [C|[C|[]]]; [exfalso; apply Hq; left; symmetry; exact C|exfalso; apply H0; left; symmetry; exact C].
Qed.
Lemma split_here (q : N) u s v t : ~ In q u -> ~ In q v -> u ++ q :: s = v ++ q :: t -> u = v /\ s = t.
Proof. apply split_first. Qed.
Lemma scan_title q w s : q = 34%N \/ q = 39%N -> ~ In q w -> ~ In 0%N w -> matchlen re_scan_link_title (q :: w ++ q :: s) = S (S (length w)).
Proof.
  intros Hq Hw H0. assert (R : rmatch re_scan_link_title None (q :: w ++ q :: s) (fun _ u => Some u) = Some s).
  { apply rmatch_only.
    - intros pv' s' H. unfold re_scan_link_title in H. apply M_alts in H as (r & Hr & H).
      assert (G : r = RSeqs [RChr q; RStar (RAlt re_escaped_char (RNotIn [q; 0%N])); RChr q]).
      { destruct Hr as [<-|[<-|[<-|[]]]]; apply M_seqs_cons in H as (pv1 & s1 & A & _); apply M_chr in A as (A & _); injection A as -> _; destruct Hq as [Hq|Hq]; try discriminate Hq; reflexivity. }
      subst r. apply M_seqs_cons in H as (pv1 & s1 & A & H). apply M_chr in A as (A & _). injection A as <-. apply M_seqs_cons in H as (pv2 & s2 & B & H). apply title_star in B as (u & Eu & Hu); try (destruct Hq as [->| ->]; discriminate).
      apply M_seqs_cons in H as (pv3 & s3 & C & H). apply M_seqs_nil in H as (-> & ->). apply M_chr in C as (-> & _). symmetry. exact (proj2 (split_here q w s u _ Hw Hu Eu)).
    - destruct (title_make q w (Some q) (q :: s) Hw H0) as (pv1 & Hm). exists (Some q). unfold re_scan_link_title. apply M_alts. exists (RSeqs [RChr q; RStar (RAlt re_escaped_char (RNotIn [q; 0%N])); RChr q]).
      split; [destruct Hq as [->| ->]; cbn [In]; auto|]. apply M_seqs_cons. exists (Some q), (w ++ q :: s). split; [apply M_chr; auto|]. apply M_seqs_cons. exists pv1, (q :: s). split; [exact Hm|]. apply M_seqs_cons. exists (Some q), s. split; [apply M_chr; auto|]. apply M_seqs_nil. auto. }
  unfold matchlen. rewrite R. cbn [length]. rewrite app_length. cbn [length]. lia.
Qed.
Lemma scan_no_title s : matchlen re_scan_link_title (41%N :: s) = 0.
Proof.
  unfold matchlen. rewrite rmatch_none; [reflexivity|]. intros pv' s' H. unfold re_scan_link_title in H. apply M_alts in H as (r & Hr & H).
  destruct Hr as [<-|[<-|[<-|[]]]]; apply M_seqs_cons in H as (pv1 & s1 & A & _); apply M_chr in A as (A & _); discriminate.
Qed.

(** ** Links *)
Lemma clean_place E x : zs_ascii E -> match x with Plain d => address E 0 d | Pointed d => Forall (fun c => ~ In c (lit "<>\") /\ c <> 10%N /\ c <> 13%N) d end -> no_entity (show_place x) ->
  clean_url E (match x with Plain d => d | Pointed d => d end) = Ok tt.
Proof.
  intros Hz Hx He. unfold clean_url. destruct x as [d|d]; cbn [show_place] in He.
  - rewrite strip_id by (eapply address_visible; eassumption). rewrite unescape_plain by exact He. cbn [bind]. eapply strbuf_address. exact Hx.
  - assert (He' : no_entity (strip (cm_space E) d)).
    { destruct He as [He|He]; [left|right]; intros X; apply He; right; apply in_or_app; left; eapply strip_in; exact X. }
    rewrite unescape_plain by exact He'. cbn [bind]. apply strbuf_plain. intros X. apply strip_in in X. rewrite Forall_forall in Hx. apply Hx in X as (X & _). apply X. cbn. tauto.
Qed.
Lemma clean_caption E q w : q = 34%N \/ q = 39%N -> title_text q w -> no_entity w -> clean_title E (q :: w ++ [q]) = Ok tt.
Proof.
  intros Hq Hw He. unfold clean_title. cbn [tl].
  replace (last (q :: w ++ [q]) 0%N) with q by (change (q :: w ++ [q]) with ((q :: w) ++ [q]); rewrite last_last; reflexivity).
  replace ((N.eqb q 39 && N.eqb q 39) || (N.eqb q 40 && N.eqb q 41) || (N.eqb q 34 && N.eqb q 34))%bool with true by (destruct Hq as [->| ->]; reflexivity).
  replace (firstn (length (q :: w ++ [q]) - 2) (w ++ [q])) with w.
  - rewrite unescape_plain by exact He. cbn [bind]. eapply strbuf_title. exact Hw.
  - cbn [length]. rewrite app_length. cbn [length]. replace (S (length w + 1) - 2) with (length w) by lia. rewrite firstn_app, Nat.sub_diag, firstn_all. cbn. symmetry. apply app_nil_r.
Qed.
Lemma slice_mid (a m b : str) : slice (a ++ m ++ b) (length a) (length a + length m) = m.
Proof. unfold slice. rewrite skipn_app_len. replace (length a + length m - length a) with (length m) by lia. rewrite firstn_app, Nat.sub_diag, firstn_all. cbn. apply app_nil_r. Qed.
Lemma blanks_first b s : HtmlSpec.blanks b -> b <> [] -> exists c r, b ++ s = c :: r /\ (c = 32%N \/ c = 9%N).
Proof. intros H Hb. destruct H as [|c b Hc H]; [contradiction|]. exists c, (b ++ s). auto. Qed.
Lemma link_found E ch a g b : scanned E ch -> zs_ascii E -> well_formed E g -> handled g -> c_data ch = a ++ spelt (LinkTo g) ++ b -> inline_link E ch (S (length a)) = Ok (Some (length a + length (spelt (LinkTo g)))).
Proof.
  intros Hs Hz (B1 & B2 & B3 & Hpl & Hti) (He1 & He2) Ed. destruct g as [b1 x b2 t b3]. cbn [t_before t_place t_between t_title t_after] in *. cbn [spelt] in *. unfold show_target in *. cbn [t_before t_place t_between t_title t_after] in *.
  assert (S41 : cm_space E 41 = false) by (apply ascii_punct_not_space; [exact Hz|reflexivity]). assert (S40 : cm_space E 40 = false) by (apply ascii_punct_not_space; [exact Hz|reflexivity]).
  set (u0 := a ++ [93; 40]%N). set (u1 := u0 ++ b1). set (u2 := u1 ++ show_place x). set (u3 := u2 ++ b2). set (u4 := u3 ++ show_title t). set (u5 := u4 ++ b3).
  assert (Ed5 : c_data ch = u5 ++ 41%N :: b) by (rewrite Ed; unfold u5, u4, u3, u2, u1, u0; rewrite <- !app_assoc; reflexivity).
  assert (Ed4 : c_data ch = u4 ++ b3 ++ 41%N :: b) by (rewrite Ed5; unfold u5; rewrite <- app_assoc; reflexivity).
  assert (Ed3 : c_data ch = u3 ++ show_title t ++ b3 ++ 41%N :: b) by (rewrite Ed4; unfold u4; rewrite <- app_assoc; reflexivity).
  assert (Ed2 : c_data ch = u2 ++ b2 ++ show_title t ++ b3 ++ 41%N :: b) by (rewrite Ed3; unfold u3; rewrite <- app_assoc; reflexivity).
  assert (Ed1 : c_data ch = u1 ++ show_place x ++ b2 ++ show_title t ++ b3 ++ 41%N :: b) by (rewrite Ed2; unfold u2; rewrite <- app_assoc; reflexivity).
  assert (Ed0 : c_data ch = u0 ++ b1 ++ show_place x ++ b2 ++ show_title t ++ b3 ++ 41%N :: b) by (rewrite Ed1; unfold u1; rewrite <- app_assoc; reflexivity).
  assert (Lt : length u5 < c_len ch) by (apply (in_scan E ch u5 41%N b); assumption).
  assert (L5 : length u5 = length u4 + length b3) by (unfold u5; rewrite app_length; reflexivity). assert (L4 : length u4 = length u3 + length (show_title t)) by (unfold u4; rewrite app_length; reflexivity).
  assert (L3 : length u3 = length u2 + length b2) by (unfold u3; rewrite app_length; reflexivity). assert (L2 : length u2 = length u1 + length (show_place x)) by (unfold u2; rewrite app_length; reflexivity).
  assert (L1 : length u1 = length u0 + length b1) by (unfold u1; rewrite app_length; reflexivity). assert (L0 : length u0 = S (S (length a))) by (unfold u0; rewrite app_length; cbn; lia).
  assert (P40 : peek_is ch (S (length a)) 40 = true).
  { unfold peek_is. assert (P : peek ch (S (length a)) = Some 40%N); [|rewrite P; reflexivity]. apply (peek_data E); [exact Hs| |exact S40]. rewrite Ed, nth_error_app2 by lia. replace (S (length a) - length a) with 1 by lia. reflexivity. }
  unfold inline_link. rewrite P40. rewrite <- L0.
  (* the tail after the place *)
  set (tail := b2 ++ show_title t ++ b3 ++ 41%N :: b) in *.
  assert (H0 : length (show_place x) = 0 -> b2 = [] /\ show_title t = [] /\ b3 = []).
  { intros X. destruct x as [d|d]; [|discriminate]. cbn [show_place] in X. destruct d; [|discriminate]. destruct Hpl as (_ & _ & K). destruct (K eq_refl) as (-> & ->). auto. }
  assert (Cl : closing E (length (show_place x)) tail).
  { unfold tail. destruct b2 as [|c b2'].
    - destruct t as [(q & w)|]; [destruct Hti as (X & _); contradiction|]. cbn [show_title app]. destruct b3 as [|c b3']; [exists 41%N, b; auto|]. exists c, (b3' ++ 41%N :: b). split; [reflexivity|]. right. inversion B3; subst. split; [assumption|]. intros X. destruct (H0 X) as (_ & _ & Y). discriminate.
    - exists c, (b2' ++ show_title t ++ b3 ++ 41%N :: b). split; [reflexivity|]. right. inversion B2; subst. split; [assumption|]. intros X. destruct (H0 X) as (Y & _). discriminate. }
  assert (Hp33 : (33 <= hd 33 (show_place x ++ tail))%N).
  { destruct x as [d|d]; cbn [show_place]; [|cbn; lia]. destruct d as [|c d]; [|destruct Hpl as (Hpl & _); apply address_first in Hpl; exact Hpl].
    destruct (H0 eq_refl) as (-> & X & ->). unfold tail. rewrite X. cbn. lia. }
  rewrite (scan_here re_scan_spacechars ch u0 _ Ed0) by lia. rewrite spaces_len by assumption. rewrite <- L1.
  destruct (inp_pre E u5 41%N b ch Hs Ed5 S41) as (b' & Ei).
  set (tail' := b2 ++ show_title t ++ b3 ++ 41%N :: b').
  assert (Ei1 : c_inp ch = u1 ++ show_place x ++ tail') by (rewrite Ei; unfold u5, u4, u3, u2, tail'; rewrite <- !app_assoc; reflexivity).
  assert (Cl' : closing E (length (show_place x)) tail').
  { destruct Cl as (c & s' & Et & Hc). unfold tail, tail' in *. destruct b2 as [|y b2']; [|cbn in Et |- *; injection Et as -> _; eexists _, _; split; [reflexivity|exact Hc]].
    destruct (show_title t) as [|y t']; [|cbn in Et |- *; injection Et as -> _; eexists _, _; split; [reflexivity|exact Hc]].
    destruct b3 as [|y b3']; cbn in Et |- *; injection Et as -> _; eexists _, _; split; try reflexivity; exact Hc. }
  assert (X : scan_url E ch (length u1) = Some (length (show_place x), match x with Plain d => d | Pointed d => d end)).
  { unfold scan_url. rewrite Ei1, skipn_app_len. destruct x as [d|d]; cbn [show_place] in *.
    - destruct Hpl as (Ha & Hh & _). assert (Sc : scan_url2 E (d ++ tail') 0 0 = Some (length d)) by (rewrite (scan_address E 0 d tail' Hz Ha 0); [reflexivity|exact Cl']).
      rewrite Sc. assert (Sl : slice (c_data ch) (length u1) (length u1 + length d) = d) by (rewrite Ed1; apply slice_mid). rewrite Sl.
      destruct (d ++ tail') as [|c s'] eqn:Q; [destruct Cl' as (c & s' & Y & _); destruct d; [cbn in Q; rewrite Y in Q|]; discriminate|].
      assert (c <> 60%N) as N60. { destruct d as [|c0 d]; [|cbn in Q, Hh; injection Q as -> _; exact Hh]. cbn in Q. destruct Cl' as (c1 & s1 & Y & Hc). rewrite Q in Y. injection Y as -> _. destruct Hc as [->|([->| ->] & _)]; discriminate. }
      destruct (N.eqb_spec c 60); [contradiction|]. reflexivity.
    - cbn [app]. change (N.eqb 60 60) with true. cbn match. rewrite <- app_assoc. cbn [app]. rewrite (scan_pointed d tail' Hpl); [|destruct Cl' as (c & s' & -> & _); discriminate].
      f_equal. f_equal; [cbn [length]; rewrite app_length; cbn; lia|]. rewrite Ed1. replace (u1 ++ (60%N :: d ++ [62%N]) ++ tail) with ((u1 ++ [60%N]) ++ d ++ (62%N :: tail)) by (rewrite <- !app_assoc; cbn [app]; rewrite <- app_assoc; reflexivity).
      replace (S (length u1)) with (length (u1 ++ [60%N])) by (rewrite app_length; cbn; lia). replace (S (1 + length d) - 2) with (length d) by lia. apply slice_mid. }
  rewrite X. rewrite <- L2. clear X.
  assert (Cu : clean_url E (match x with Plain d => d | Pointed d => d end) = Ok tt) by (apply clean_place; [exact Hz|destruct x; [apply Hpl|exact Hpl]|exact He1]).
  assert (Fin : forall e : nat, e = length u5 -> peek_at ch e = Ok 41%N).
  { intros e ->. unfold peek_at. rewrite Ed5, nth_error_app2, Nat.sub_diag by lia. reflexivity. }
  assert (Len : S (length u5) = length a + length ([93; 40]%N ++ (b1 ++ show_place x ++ b2 ++ show_title t ++ b3) ++ [41%N])) by (rewrite L5, L4, L3, L2, L1, L0, !app_length; cbn [length]; lia).
  destruct t as [(q & w)|].
  - destruct Hti as (Nb & Hq & Hw), He2 as (Nq & Hn & Hwe). assert (Hq' : q = 34%N \/ q = 39%N) by (cbn in Hq; intuition congruence). clear Hq.
    assert (Et : show_title (Some (q, w)) = q :: w ++ [q]) by (cbn [show_title]; destruct Hq' as [->| ->]; reflexivity). rewrite Et in *.
    rewrite (scan_here re_scan_spacechars ch u2 _ Ed2) by lia. unfold tail. rewrite spaces_len; [|assumption|cbn; destruct Hq' as [->| ->]; lia]. rewrite <- L3.
    destruct (Nat.eqb_spec (length u3) (length u2)) as [Y|_]; [destruct b2; [contradiction|cbn in L3; lia]|].
    rewrite (scan_here re_scan_link_title ch u3 _ Ed3) by lia. cbn [app]. rewrite <- app_assoc. cbn [app]. rewrite scan_title; [|exact Hq'|exact Hn|eapply title_no0; exact Hw].
    replace (length u3 + S (S (length w))) with (length u4) by (rewrite L4; cbn [length]; rewrite app_length; cbn; lia).
    rewrite (scan_here re_scan_spacechars ch u4 _ Ed4) by lia. rewrite spaces_len; [|assumption|cbn; lia]. rewrite <- L5. rewrite (Fin _ eq_refl). cbn [bind]. change (N.eqb 41 41) with true. cbn match. rewrite Cu. cbn [bind].
    replace (slice (c_data ch) (length u3) (length u4)) with (q :: w ++ [q]) by (rewrite Ed3, L4; symmetry; apply slice_mid). rewrite clean_caption by assumption. cbn [bind]. rewrite Len. reflexivity.
  - subst b2. cbn [show_title] in *. assert (E3 : length u3 = length u2) by (cbn in L3; lia). assert (E4 : length u4 = length u2) by (cbn in L4; lia).
    unfold tail in Ed2. cbn [app] in Ed2. rewrite (scan_here re_scan_spacechars ch u2 _ Ed2) by lia. rewrite spaces_len; [|assumption|cbn; lia]. rewrite <- E4, <- L5.
    assert (Sp : scan_at re_scan_spacechars ch (length u5) = 0) by (rewrite (scan_here re_scan_spacechars ch u5 _ Ed5) by lia; apply (spaces_len [] (41%N :: b)); [constructor|cbn; lia]).
    assert (Ti : scan_at re_scan_link_title ch (length u5) = 0) by (rewrite (scan_here re_scan_link_title ch u5 _ Ed5) by lia; apply scan_no_title).
    rewrite Ti, Nat.add_0_r.
    replace (if length u5 =? length u4 then length u5 else length u5) with (length u5) by (destruct (_ =? _); reflexivity). rewrite Sp, Nat.add_0_r. rewrite (Fin _ eq_refl). cbn [bind]. change (N.eqb 41 41) with true. cbn match. rewrite Cu. cbn [bind].
    unfold slice. rewrite Nat.sub_diag. cbn [firstn clean_title bind]. rewrite Len. reflexivity.
Qed.
