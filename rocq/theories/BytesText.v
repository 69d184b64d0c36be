(** What md-toc writes consists of characters that UTF-8 has. *)
From Coq Require Import String List NArith ZArith Bool Arith Lia.
From Verif Require Import Str StrFacts Spec EnvSpec DecFacts Fence Atx Anchor Toc Write Cli Args Argv Disk AnchorSpec TocSpec DocSpec TableSpec WriteSpec.
From Verif Require Import AtxProof LabelProof AnchorProof WriteProof Inert Bytes BytesSpec BytesProof.
Import ListNotations.
Local Open Scope list_scope.

Definition clean (s : str) : Prop := Forall scalar s.
Lemma small c : (c < 0xD800)%N -> scalar c.
Proof. left. assumption. Qed.
Lemma clean_app a b : clean a -> clean b -> clean (a ++ b).
Proof. intros A B. apply Forall_app. split; assumption. Qed.
Lemma clean_cons c a : scalar c -> clean a -> clean (c :: a).
Proof. constructor; assumption. Qed.
Lemma clean_lit s : forallb (fun c => N.ltb c 0xD800) s = true -> clean s.
Proof. intros H. apply Forall_forall. intros c Hc. rewrite forallb_forall in H. apply small. apply N.ltb_lt. apply H. exact Hc. Qed.
Lemma clean_incl a b : (forall c, In c a -> In c b) -> clean b -> clean a.
Proof. intros H B. unfold clean in *. rewrite Forall_forall in *. auto. Qed.
Lemma clean_concat l : Forall clean l <-> clean (concat l).
Proof.
  induction l as [|x l IH]; cbn; [split; constructor|]. split.
  - inversion 1; subst. apply clean_app; tauto.
  - intros H. apply Forall_app in H as (A & B). constructor; [exact A|apply IH; exact B].
Qed.
Lemma clean_firstn n l : Forall clean l -> Forall clean (firstn n l).
Proof. intros H. rewrite <- (firstn_skipn n l) in H. apply Forall_app in H. tauto. Qed.
Lemma clean_skipn n l : Forall clean l -> Forall clean (skipn n l).
Proof. intros H. rewrite <- (firstn_skipn n l) in H. apply Forall_app in H. tauto. Qed.
Lemma lstrip_incl p (s : str) c : In c (lstrip p s) -> In c s.
Proof. induction s as [|x s IH]; [auto|]. cbn. destruct (p x); [auto|intros H; exact H]. Qed.
Lemma rstrip_incl p (s : str) c : In c (rstrip p s) -> In c s.
Proof. unfold rstrip. intros H. apply in_rev in H. apply lstrip_incl in H. apply in_rev. exact H. Qed.
Lemma lstrip_out p (s : str) c : In c s -> p c = true \/ In c (lstrip p s).
Proof. induction s as [|x s IH]; [intros []|]. cbn. destruct (p x) eqn:X; [intros [<-|H]; auto|auto]. Qed.
Lemma strip_out p (s : str) c : In c s -> p c = true \/ In c (strip p s).
Proof.
  intros H. destruct (lstrip_out p s c H) as [G|G]; [auto|]. unfold strip, rstrip. apply in_rev in G. destruct (lstrip_out p _ c G) as [K|K]; [auto|]. right. apply -> in_rev. exact K.
Qed.
Lemma crlf_incl n : forall (s : str) c, length s <= n -> In c (replace_crlf s) -> In c s.
Proof.
  induction n as [|n IH]; intros [|a s] c L; cbn [replace_crlf]; try (cbn in L; lia); auto. cbn in L. assert (G : In c (a :: replace_crlf s) -> In c (a :: s)) by (intros [<-|H]; [left; reflexivity|right; apply IH; [lia|exact H]]).
  destruct (N.eqb a cCR); [|exact G]. destruct s as [|b s]; [exact (fun H => H)|]. destruct (N.eqb_spec b cLF) as [->|]; [|exact G]. cbn in L. intros [<-|H]; [right; left; reflexivity|right; right; apply IH; [lia|exact H]].
Qed.
Lemma clean_universal s : clean s -> clean (universal s).
Proof.
  intros H. unfold universal, replace_char. apply Forall_forall. intros c Hc. apply in_map_iff in Hc as (x & <- & Hx). destruct (N.eqb x cCR); [apply small; reflexivity|].
  unfold clean in H. rewrite Forall_forall in H. apply H. exact (crlf_incl _ _ _ (le_n _) Hx).
Qed.
Lemma split_incl c (s : str) : forall p, In p (split_char c s) -> forall x, In x p -> In x s.
Proof.
  induction s as [|a s IH]; intros p H x Hx; cbn [split_char] in H; [destruct H as [<-|[]]; exact Hx|]. destruct (N.eqb a c).
  - destruct H as [<-|H]; [destruct Hx|]. right. exact (IH p H x Hx).
  - destruct (split_char c s) as [|q ps]; [destruct H as [<-|[]]; destruct Hx as [<-|[]]; left; reflexivity|]. destruct H as [<-|H].
    + destruct Hx as [<-|Hx]; [left; reflexivity|right; exact (IH q (or_introl eq_refl) x Hx)].
    + right. exact (IH p (or_intror H) x Hx).
Qed.
Lemma split_clean line s : In s (replace_and_split_newlines line) -> clean line -> clean s.
Proof.
  intros H C. change (replace_and_split_newlines line) with (split_char cLF (strip (N.eqb cLF) (universal line))) in H. eapply clean_incl; [|exact (clean_universal _ C)].
  intros c Hc. apply (split_incl _ _ _ H) in Hc. unfold strip in Hc. apply rstrip_incl, lstrip_incl in Hc. exact Hc.
Qed.
Lemma clean_lines s : clean s -> Forall clean (lines_of s).
Proof. intros H. apply clean_concat. rewrite concat_lines_of. exact H. Qed.
Lemma clean_decN n : clean (decN n).
Proof. destruct (decN_decimal n) as (F & _). eapply Forall_impl; [|exact F]. cbn. intros c H. unfold decimal_digit in H. apply small. lia. Qed.
Lemma clean_dec z : clean (dec z).
Proof. destruct z; cbn [dec]; try apply clean_decN. apply clean_cons; [apply small; reflexivity|apply clean_decN]. Qed.
Lemma rc_small s : forall i st t j u, rc_loop s i st = (t, j, u) -> Forall (fun c => (c < 128)%N) t.
Proof.
  induction s as [|x s IH]; intros i st t j u; cbn [rc_loop]; [intros H; injection H as <- _ _; constructor|].
  destruct (_ || _); [apply IH|]. destruct (negb (N.leb x 127) || _) eqn:X.
  - destruct (rc_loop s i true) as ((t' & j') & u') eqn:R. intros H. injection H as <- _ _. destruct (i && negb st); [constructor; [reflexivity|]|]; eapply IH; exact R.
  - destruct (rc_loop s true false) as ((t' & j') & u') eqn:R. intros H. injection H as <- _ _. constructor; [|eapply IH; exact R].
    apply orb_false_iff in X as (X & _). apply negb_false_iff, N.leb_le in X. unfold ascii_tolower, ascii_upper, in_range. destruct (_ && _)%bool eqn:Y; [apply andb_true_iff in Y as (_ & Y); apply N.leb_le in Y|]; lia.
Qed.
Lemma clean_rc s : clean (rc_anchor s).
Proof.
  unfold rc_anchor. destruct (rc_loop s false false) as ((t & i) & st) eqn:R.
  assert (G : clean t) by (eapply Forall_impl; [|exact (rc_small _ _ _ _ _ _ R)]; cbn; intros; apply small; lia).
  destruct (negb i && _).
  - apply clean_app; [apply clean_lit; reflexivity|]. eapply Forall_impl; [|exact (hexuint_digits (N.to_hex_uint (rc_hash s)))]. cbn. intros c H. unfold lower_hex, is_digit in H. apply small. lia.
  - destruct (st && i); [|exact G]. eapply clean_incl; [|exact G]. intros c. apply removelast_incl.
Qed.

Section Clean.
Context (E : env) (Hu : unicode_tables E).
Definition clean_header (h : header) : Prop := clean (hd_text h) /\ (forall a, hd_anchor h = Some a -> clean a).
Lemma clean_anchor p d text a d' : build_anchor_link E p d text = Ok (Some a, d') -> clean a.
Proof.
  unfold build_anchor_link. destruct (1 <? _); [discriminate|]. destruct (cm_family p) eqn:Hp.
  - destruct (slug E p text) as [s|] eqn:S; cbn [bind]; [|discriminate]. unfold number_anchor. intros H. injection H as <- _.
    assert (G : clean s). { eapply Forall_impl; [|exact (slug_chars _ _ _ _ Hp S)]. cbn. intros c [H| ->]; [apply Hu; auto|apply small; reflexivity]. }
    destruct (_ <? _)%Z; [|exact G]. apply clean_app; [exact G|]. apply clean_cons; [apply small; reflexivity|apply clean_dec].
  - destruct p; try discriminate. intros H. injection H as <- _. apply clean_rc.
Qed.
Lemma clean_md_headers p l : forall d hs d', md_headers E p d l = Ok (hs, d') -> (forall h, In (Some h) l -> clean (h_text h)) ->
  forall h, In (Some h) hs -> clean_header h.
Proof.
  induction l as [|[x|] l IH]; intros d hs d' H F h Hh; cbn [md_headers] in H.
  - injection H as <- _. destruct Hh.
  - destruct (build_anchor_link E p d (h_text x)) as [(a & d1)|] eqn:A; cbn [bind] in H; [|discriminate]. destruct (md_headers E p d1 l) as [(hs' & d2)|] eqn:M; cbn [bind] in H; [|discriminate].
    injection H as <- _. destruct Hh as [Hh|Hh]; [|eapply IH; [exact M| |exact Hh]; intros y Hy; apply F; right; exact Hy].
    injection Hh as <-. split; cbn; [apply F; left; reflexivity|]. intros b ->. eapply clean_anchor. exact A.
  - destruct (md_headers E p d l) as [(hs' & d2)|] eqn:M; cbn [bind] in H; [|discriminate]. injection H as <- _. destruct Hh as [Hh|Hh]; [discriminate|].
    eapply IH; [exact M| |exact Hh]. intros y Hy. apply F. right. exact Hy.
Qed.
Lemma clean_headings p keep nl line hs h : get_atx_heading p keep nl line = Ok hs -> clean line -> In (Some h) hs -> clean (h_text h).
Proof.
  unfold get_atx_heading. destruct (_ <? _)%Z; [discriminate|]. destruct line as [|c0 line]; [intros H _; injection H as <-; intros [H|[]]; discriminate|].
  intros H C Hin. apply Forall_forall. intros c Hc. destruct (atx_lines_chars _ _ _ _ _ _ _ _ H Hin Hc) as [(s & X & Y)|[->| ->]]; [|apply small; reflexivity|apply small; reflexivity].
  pose proof (split_clean _ _ X C) as G. unfold clean in G. rewrite Forall_forall in G. auto.
Qed.

Lemma marker_clean p ordered m : marker_ok p ordered m = true -> known p = true -> clean m.
Proof.
  unfold marker_ok. intros H K. rewrite K in H. cbn in H. assert (G : In m [lit "."; lit ")"; lit "-"; lit "+"; lit "*"]).
  { destruct ordered, p; cbn in H |- *; rewrite ?orb_true_iff, ?seqb_eq in H; try discriminate; intuition congruence. }
  cbn in G. intuition (subst m; apply clean_lit; reflexivity).
Qed.
Lemma clean_add o ordered m st h st' : add_header o ordered m st h = Ok st' -> clean_header h -> clean (o_newline o) -> Forall clean (t_toc st) -> Forall clean (t_toc st').
Proof.
  intros H (T & A) N0 F. unfold add_header in H. destruct (if ordered && _ then _ else _) as [(types & index)|]; cbn [bind] in H; [|discriminate].
  destruct (if o_no_indentation o then _ else _) as [((first & log) & spaces)|]; cbn [bind] in H; [|discriminate].
  destruct (toc_line_no_indent _ _ _ _ _ _) as [[line|]|] eqn:L; cbn [bind] in H; try discriminate.
  unfold build_toc_line in H. destruct (_ <? _)%Z; cbn [bind] in H; [discriminate|]. injection H as <-. cbn [t_toc]. apply Forall_app. split; [exact F|]. constructor; [|constructor].
  apply clean_app; [|exact N0]. apply clean_app; [apply Forall_forall; intros c Hc; apply repeat_spec in Hc; subst c; apply small; reflexivity|].
  unfold toc_line_no_indent in L. destruct (_ <? 1)%Z; [discriminate|]. destruct (_ <? 1)%Z; [discriminate|]. destruct (marker_ok _ _ _) eqn:M; cbn [negb] in L; [|discriminate]. destruct (known _) eqn:K; [|discriminate].
  pose proof (marker_clean _ _ _ M K) as Cm. assert (Cm' : clean (if ordered then dec index ++ m else m)) by (destruct ordered; [apply clean_app; [apply clean_dec|exact Cm]|exact Cm]).
  destruct (o_no_links o); cbn [bind] in L.
  - injection L as <-. apply clean_app; [exact Cm'|]. apply clean_cons; [apply small; reflexivity|exact T].
  - destruct (hd_anchor h) as [a|]; [|discriminate]. cbn [bind] in L. injection L as <-. apply clean_app; [exact Cm'|]. apply clean_cons; [apply small; reflexivity|].
    repeat (apply clean_app || apply clean_cons); try exact T; try (apply A; reflexivity); try (apply small; reflexivity); try (apply clean_lit; reflexivity); constructor.
Qed.
Lemma clean_line o ordered m line st st' : line_step E o ordered m line st = Ok st' -> clean line -> clean (o_newline o) -> Forall clean (t_toc st) -> Forall clean (t_toc st').
Proof.
  intros H L N0 F. unfold line_step in H. destruct (fence_step _ _ _) as ((look & inside) & fence). destruct look; [|injection H as <-; exact F].
  unfold get_md_header in H. destruct (get_atx_heading _ _ _ _) as [l|] eqn:G; cbn [bind] in H; [|discriminate].
  destruct (md_headers E _ _ l) as [(hs & d)|] eqn:M; cbn [bind] in H; [|discriminate]. destruct hs as [|[h|] hs]; [discriminate| |injection H as <-; exact F].
  destruct (hd_visible h); [|injection H as <-; exact F]. eapply clean_add; [exact H| |exact N0|exact F].
  eapply clean_md_headers; [exact M| |left; reflexivity]. intros x Hx. eapply clean_headings; [exact G|exact L|exact Hx].
Qed.
Lemma clean_loop o stdin ordered m lines : forall st r, toc_loop E o stdin ordered m lines false st = Ok r -> Forall clean lines -> clean (o_newline o) -> Forall clean (t_toc st) ->
  exists st', r = Some st' /\ Forall clean (t_toc st').
Proof.
  induction lines as [|line rest IH]; intros st r H L N0 F; cbn [toc_loop] in H; [injection H as <-; eauto|].
  replace (negb stdin && _) with false in H by (destruct rest; rewrite andb_false_r; reflexivity). set (st1 := if negb stdin && _ then set_end st else st) in H.
  destruct (line_step E o ordered m line st1) as [st2|] eqn:S; cbn [bind] in H; [|discriminate]. inversion L; subst. eapply IH; [exact H|assumption|exact N0|].
  eapply clean_line; [exact S|assumption|exact N0|]. unfold st1. destruct (_ && _); exact F.
Qed.
Lemma skip_clean n : forall ls d', skip n (mkDoc ls false) = Ok d' -> Forall clean ls -> Forall clean (d_lines d') /\ d_bad d' = false.
Proof.
  induction n as [|n IH]; intros ls d' H F; cbn [skip] in H; [injection H as <-; auto|]. cbn [d_lines d_bad] in H. destruct ls as [|l ls]; [injection H as <-; auto|]. inversion F; subst. eapply IH; eauto.
Qed.
Lemma clean_toc o fn ls t : build_toc E o fn (mkDoc ls false) = Ok t -> Forall clean ls -> clean (o_newline o) -> clean t.
Proof.
  unfold build_toc. destruct (_ <? _)%Z; [discriminate|]. destruct (fix_marker o) as [(ordered & m)|]; cbn [bind]; [|discriminate]. destruct (skip _ _) as [d'|] eqn:S; cbn [bind]; [|discriminate].
  intros H F N0. destruct (skip_clean _ _ _ S F) as (F' & B). rewrite B in H.
  assert (H' : (do log <- init_indentation_log (o_parser o) m; do r <- toc_loop E o (is_stdin fn) ordered m (d_lines d') false (init_state log); match r with None => Ok (binary_comment fn) | Some st => Ok (concat (t_toc st)) end) = Ok t) by (destruct (d_lines d'); exact H).
  clear H. destruct (init_indentation_log _ _) as [log|]; cbn [bind] in H'; [|discriminate]. destruct (toc_loop _ _ _ _ _ _ _ _) as [r|] eqn:L; cbn [bind] in H'; [|discriminate].
  destruct (clean_loop _ _ _ _ _ _ _ L F' N0) as (st & -> & Fs); [constructor|]. injection H' as <-. apply clean_concat. exact Fs.
Qed.

(** ** What is written *)
Lemma clean_remove t ivs : forall ts, disk_remove t ivs = Ok ts -> clean t -> Forall clean ts.
Proof.
  revert t. induction ivs as [|iv ivs IH]; intros t ts H C; cbn [disk_remove] in H; [injection H as <-; constructor|].
  destruct iv as [|a [|b [|c iv]]]; try discriminate. destruct (_ || _ || _); [discriminate|]. destruct (fpy_remove _ _ _) as [ls|] eqn:R; cbn [bind] in H; [|discriminate].
  destruct (disk_remove (concat ls) ivs) as [ts'|] eqn:D; cbn [bind] in H; [|discriminate]. injection H as <-.
  assert (Cl : Forall clean ls). { unfold fpy_remove in R. destruct (_ || _ || _); [discriminate|]. injection R as <-. pose proof (clean_lines _ (clean_universal _ C)) as L. apply Forall_app. split; [apply clean_firstn|apply clean_skipn]; exact L. }
  assert (Cc : clean (concat ls)) by (apply clean_concat; exact Cl). constructor; [exact Cc|]. eapply IH; [exact D|exact Cc].
Qed.
Lemma marker_in marker ls : forall n, marker_lines E marker n ls <> [] -> Forall clean ls -> clean marker.
Proof.
  induction ls as [|l ls IH]; intros n H F; cbn [marker_lines] in H; [destruct (H eq_refl)|]. inversion F; subst. destruct (seqb _ _) eqn:X; [|eapply IH; eassumption].
  apply seqb_eq in X. apply Forall_forall. intros c Hc. destruct (strip_out (e_space E) _ _ Hc) as [G|G]; [apply Hu; auto|].
  unfold py_strip in X. rewrite <- X in G. unfold strip in G. apply rstrip_incl, lstrip_incl in G. match goal with H1 : clean l |- _ => unfold clean in H1; rewrite Forall_forall in H1; apply H1 end. exact G.
Qed.
Lemma last_clean (ts : list str) t : Forall clean ts -> clean t -> clean (last ts t).
Proof. intros F C. induction F as [|x ts Hx F IH]; [exact C|]. destruct ts; [exact Hx|exact IH]. Qed.
Lemma clean_steps nl toc marker s ts b : disk_steps E nl toc marker s = Ok (ts, b) -> clean (st_text s) -> clean nl -> clean toc -> st_bad s = false /\ Forall clean ts.
Proof.
  unfold disk_steps. destruct (get_existing_toc E marker (seen s)) as [x|] eqn:X; cbn [bind]; [|discriminate]. intros H C Cn Ct.
  assert (B : st_bad s = false). { unfold get_existing_toc in X. cbn [seen d_bad] in X. destruct (st_bad s); [discriminate|reflexivity]. }
  split; [exact B|]. destruct (disk_remove (st_text s) (x_delete x)) as [s1|] eqn:R1; cbn [bind] in H; [|discriminate].
  pose proof (clean_remove _ _ _ R1 C) as C1. pose proof (last_clean _ _ C1 C) as L1.
  destruct (if negb (x_two x) && _ then _ else _) as [s2|] eqn:R2; cbn [bind] in H; [|discriminate].
  assert (C2 : Forall clean s2). { destruct (negb (x_two x) && _); [|injection R2 as <-; constructor]. destruct (x_positions x) as [|p ps]; [discriminate|]. eapply clean_remove; [exact R2|exact L1]. }
  pose proof (last_clean _ _ C2 L1) as L2. destruct (1 <=? x_len x) eqn:Len.
  - unfold disk_insert in H. destruct (_ || _); cbn [bind] in H; [discriminate|]. injection H as <- _. apply Forall_app. split; [exact C1|]. apply Forall_app. split; [exact C2|]. constructor; [|constructor].
    pose proof (clean_lines _ (clean_universal _ L2)) as Ls.
    assert (Cm : clean marker).
    { apply (marker_in marker (lines_of (universal (st_text s))) 1); [|apply clean_lines, clean_universal; exact C]. intros M. unfold get_existing_toc in X. cbn [seen d_bad d_lines] in X. rewrite B, M in X. cbn in X. injection X as <-. discriminate. }
    apply clean_app; [apply clean_concat, clean_firstn; exact Ls|]. apply clean_app; [|apply clean_concat, clean_skipn; exact Ls].
    unfold final_toc. repeat apply clean_app; try exact Cm; try exact Cn. eapply clean_incl; [|exact Ct]. intros c. apply rstrip_incl.
  - injection H as <- _. apply Forall_app. split; assumption.
Qed.
End Clean.
