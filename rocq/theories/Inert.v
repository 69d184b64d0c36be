(** The rows of a table are lines that md-toc does not look at, and that it recognises. *)
From Coq Require Import String List NArith ZArith Bool Arith Lia.
From Verif Require Import Str StrFacts Spec EnvSpec DecFacts Fence Atx Anchor Toc Write AnchorSpec TocSpec DocSpec TableSpec WriteSpec.
From Verif Require Import AtxProof LabelProof AnchorProof TocProof TocLoop TableProof PropTable WriteProof WriteLoop WriteTwice.
Import ListNotations.
Local Open Scope list_scope.

(** ** Headings have one line *)
Lemma slice_incl (s : str) a b c : In c (slice s a b) -> In c s.
Proof.
  unfold slice. intros H. assert (G : forall n (l : str), In c (firstn n l) -> In c l).
  { clear. induction n; intros [|x l]; cbn; try tauto. intros [H|H]; auto. }
  apply G in H. revert H. generalize s. clear. induction a as [|a IH]; intros l H; [exact H|]. destruct l as [|x l]; [exact H|]. right. apply IH. exact H.
Qed.
Lemma link_label_chars s t c : link_label s = Ok t -> In c t -> In c s \/ c = 92%N \/ c = 32%N.
Proof.
  unfold link_label. set (s' := if N.eqb (last s 0%N) cBS then s ++ [cSP] else s).
  destruct (_ =? 0); [discriminate|]. destruct (_ <? _)%Z; [discriminate|]. intros H. injection H as <-. intros H.
  destruct (escapes_chars _ _ _ (escape_spec s') c H) as [G|G]; [|auto].
  unfold s' in G. destruct (N.eqb _ _); [|auto]. apply in_app_or in G as [G|[G|[]]]; auto.
Qed.
Lemma atx_cm_chars p keep nl vis s h v c : atx_cm p keep nl vis s = Ok (Some h, v) -> In c (h_text h) -> In c s \/ c = 92%N \/ c = 32%N.
Proof.
  unfold atx_cm. destruct s as [|c0 s]; [discriminate|]. destruct (N.eqb c0 cBS); [discriminate|]. destruct (3 <? _); [discriminate|]. destruct (_ || _); [discriminate|].
  destruct (skipn (leading cHASH _) _) as [|c1 rest].
  - destruct nl; cbn [bind].
    + intros H. injection H as <- _. intros [].
    + destruct (link_label []) as [t|] eqn:L; cbn [bind]; [|discriminate]. intros H. injection H as <- _. cbn. intros H. destruct (link_label_chars _ _ _ L H) as [[]|G]; auto.
  - destruct (_ || _); [|discriminate]. destruct (cut_closing _ _ _ _ _ _ _ _) as [e|]; cbn [bind]; [|discriminate]. destruct nl; cbn [bind].
    + intros H. injection H as <- _. cbn [h_text]. intros H. left. exact (slice_incl _ _ _ _ H).
    + destruct (link_label _) as [t|] eqn:L; cbn [bind]; [|discriminate]. intros H. injection H as <- _. cbn [h_text]. intros H.
      destruct (link_label_chars _ _ _ L H) as [G|G]; [|auto]. left. exact (slice_incl _ _ _ _ G).
Qed.
Lemma atx_redcarpet_chars nl vis s h v c : atx_redcarpet nl vis s = (Some h, v) -> In c (h_text h) -> In c s \/ c = 92%N \/ c = 32%N.
Proof.
  unfold atx_redcarpet. destruct (startswith _ _); [|discriminate]. destruct (skipn _ _); [discriminate|]. destruct (negb _); [discriminate|].
  destruct (_ <? _); [|discriminate]. destruct (negb nl && _).
  - intros H. injection H as <- _. cbn [h_text]. intros H. apply slice_incl in H. apply in_app_or in H as [H|[H|[]]]; auto.
  - intros H. injection H as <- _. cbn [h_text]. intros H. apply slice_incl in H. auto.
Qed.
Lemma atx_lines_chars p keep nl subls : forall vis hs h c, atx_lines p keep nl vis subls = Ok hs -> In (Some h) hs -> In c (h_text h) ->
  (exists s, In s subls /\ In c s) \/ c = 92%N \/ c = 32%N.
Proof.
  induction subls as [|s rest IH]; intros vis hs h c; cbn [atx_lines]; [intros H; injection H as <-; intros []|].
  assert (G : forall r v, (forall h, r = Some h -> In c (h_text h) -> In c s \/ c = 92%N \/ c = 32%N) ->
    (do hs0 <- atx_lines p keep nl v rest; Ok (r :: hs0)) = Ok hs -> In (Some h) hs -> In c (h_text h) -> (exists s0, In s0 (s :: rest) /\ In c s0) \/ c = 92%N \/ c = 32%N).
  { intros r v Hr H Hin Hc. destruct (atx_lines p keep nl v rest) as [l|] eqn:L; cbn [bind] in H; [|discriminate]. injection H as <-. destruct Hin as [->|Hin].
    - destruct (Hr h eq_refl Hc) as [X|X]; [left; exists s; split; [left; reflexivity|exact X]|auto].
    - destruct (IH v l h c L Hin Hc) as [(x & X & Y)|X]; [left; exists x; split; [right; exact X|exact Y]|auto]. }
  destruct (cm_family p).
  - destruct (atx_cm p keep nl vis s) as [(r & v)|] eqn:A; cbn [bind]; [|discriminate]. apply G. intros h0 -> H0. eapply atx_cm_chars; eauto.
  - assert (K : forall v, atx_lines p keep nl v rest = Ok hs -> In (Some h) hs -> In c (h_text h) -> (exists s0, In s0 (s :: rest) /\ In c s0) \/ c = 92%N \/ c = 32%N).
    { intros v A B C. destruct (IH v hs h c A B C) as [(x & X & Y)|X]; [left; exists x; split; [right; exact X|exact Y]|auto]. }
    destruct p; try (apply K). destruct (atx_redcarpet nl vis s) as (r & v) eqn:A. apply G. intros h0 -> H0. eapply atx_redcarpet_chars; eauto.
Qed.
Lemma heading_text_single p keep nl line hs h : get_atx_heading p keep nl line = Ok hs -> In (Some h) hs -> single_line (h_text h).
Proof.
  unfold get_atx_heading. destruct (_ <? _)%Z; [discriminate|]. destruct line as [|c0 line]; [intros H; injection H as <-; intros [H|[]]; discriminate|].
  intros H Hin. destruct (split_newlines_spec (c0 :: line)) as (_ & _ & _ & _ & _ & _ & _ & Hs & _).
  split; intros Hc; destruct (atx_lines_chars _ _ _ _ _ _ _ _ H Hin Hc) as [(s & X & Y)|[X|X]]; try discriminate; destruct (Hs s X) as (P & Q); auto.
Qed.
Lemma word_single E s : word_ascii E -> Forall (fun c => e_word E c = true \/ c = 45%N) s -> single_line s.
Proof.
  intros Hw F. rewrite Forall_forall in F. split; intros H; destruct (F _ H) as [G|G]; try discriminate; apply Hw in G; try lia; unfold is_letter, is_digit in G; lia.
Qed.
Lemma ascii_tolower_not c x : (x < 65)%N -> ascii_tolower c = x -> c = x.
Proof.
  intros Hx. unfold ascii_tolower, ascii_upper, in_range. destruct (N.leb_spec 65 c), (N.leb_spec c 90); cbn; intros; lia.
Qed.
Lemma rc_loop_chars s : forall i st t j u c, rc_loop s i st = (t, j, u) -> In c t -> (c < 65)%N -> In c s \/ c = 45%N.
Proof.
  induction s as [|x s IH]; intros i st t j u c; cbn [rc_loop]; [intros H; injection H as <- _ _; intros []|].
  destruct (_ || _).
  - intros H Hc Hlt. destruct (IH _ _ _ _ _ _ H Hc Hlt); auto. left. right. assumption.
  - destruct (_ || _).
    + destruct (rc_loop s i true) as ((t' & j') & u') eqn:R. intros H. injection H as <- _ _. intros Hc Hlt.
      destruct (i && negb st).
      * destruct Hc as [<-|Hc]; [auto|]. destruct (IH _ _ _ _ _ _ R Hc Hlt); auto. left. right. assumption.
      * destruct (IH _ _ _ _ _ _ R Hc Hlt); auto. left. right. assumption.
    + destruct (rc_loop s true false) as ((t' & j') & u') eqn:R. intros H. injection H as <- _ _. intros [Hc|Hc] Hlt.
      * left. left. apply (ascii_tolower_not _ _ Hlt). exact Hc.
      * destruct (IH _ _ _ _ _ _ R Hc Hlt); auto. left. right. assumption.
Qed.
Lemma removelast_incl {A} (l : list A) x : In x (removelast l) -> In x l.
Proof. induction l as [|y l IH]; [intros []|]. cbn. destruct l; [intros []|]. intros [H|H]; auto. Qed.
Lemma rc_anchor_single s : single_line s -> single_line (rc_anchor s).
Proof.
  intros (H1 & H2). unfold rc_anchor. destruct (rc_loop s false false) as ((t & i) & st) eqn:R.
  assert (G : single_line t).
  { split; intros H; destruct (rc_loop_chars _ _ _ _ _ _ _ R H ltac:(lia)) as [X|X]; try discriminate; auto. }
  destruct (negb i && _).
  - assert (F := hexuint_digits (N.to_hex_uint (rc_hash s))). rewrite Forall_forall in F.
    split; intros H; apply in_app_or in H as [H|H]; try (cbn in H; intuition discriminate); specialize (F _ H); unfold lower_hex, is_digit in F; lia.
  - destruct (st && i); [|exact G]. destruct G as (G1 & G2). split; intros H; apply removelast_incl in H; auto.
Qed.
Lemma found_single E p nl l f : word_ascii E -> line_heading E p nl l = Ok (Some f) -> single_line (f_text f) /\ single_line (f_slug f).
Proof.
  intros Hw. unfold line_heading. destruct (get_atx_heading p 6 nl l) as [[|[h|] [|]]|] eqn:G; try discriminate.
  assert (Ht : single_line (h_text h)) by (eapply heading_text_single; [exact G|left; reflexivity]).
  unfold build_anchor_link. destruct (1 <? _); [discriminate|]. destruct (cm_family p) eqn:Hc.
  - destruct (slug E p (h_text h)) as [s|] eqn:S; cbn [bind]; [|discriminate]. cbn. intros H. injection H as <-. cbn. split; [exact Ht|].
    apply (word_single E); [exact Hw|]. eapply slug_chars; eauto.
  - destruct p; try discriminate. intros H. injection H as <-. cbn. split; [exact Ht|]. apply rc_anchor_single. exact Ht.
Qed.
Lemma single_app a b : single_line a -> single_line b -> single_line (a ++ b).
Proof. intros (A & B) (C & D). split; intros H; apply in_app_or in H as [H|H]; auto. Qed.
Lemma single_cons c a : c <> 10%N -> c <> 13%N -> single_line a -> single_line (c :: a).
Proof. intros X Y (A & B). split; intros [H|H]; auto. Qed.
Lemma decN_single n : single_line (decN n).
Proof.
  destruct (decN_decimal n) as (F & _). rewrite Forall_forall in F. split; intros H; specialize (F _ H); unfold decimal_digit in F; lia.
Qed.
Lemma label_number_single s k : single_line s -> single_line (label_number s k).
Proof.
  intros H. unfold label_number. destruct (_ =? _); [exact H|]. apply single_app; [exact H|]. apply single_cons; [discriminate|discriminate|]. apply decN_single.
Qed.
Lemma entries_single E p nl ks hs keep : word_ascii E -> headings E p nl ks hs ->
  Forall (fun e => single_line (e_text e) /\ single_line (e_anchor e)) (entries p keep hs).
Proof.
  intros Hw Hh. assert (F : Forall (fun f => single_line (f_text f) /\ single_line (f_slug f)) hs).
  { induction Hh as [|l ls fs H Hs IH|l ls f fs H Hs IH]; auto. constructor; [exact (found_single _ _ _ _ _ Hw H)|exact IH]. }
  assert (G : forall seen, Forall (fun e => single_line (e_text e) /\ single_line (e_anchor e)) (with_anchors p seen hs)).
  { clear Hh. induction F as [|f fs (F1 & F2) F IH]; intros seen; cbn [with_anchors]; constructor; auto. cbn. split; [exact F1|].
    unfold anchor_of. destruct p; try (apply label_number_single); exact F2. }
  unfold entries. apply Forall_forall. intros e He. apply filter_In in He as (He & _). specialize (G []). rewrite Forall_forall in G. auto.
Qed.

(** ** Rows *)
Definition listy (c : N) : Prop := In c (lit "-+*") \/ decimal_digit c.
Lemma marker_text_head o n : valid_marker o -> exists c r, marker_text o n = c :: r /\ listy c.
Proof.
  intros Hv. unfold marker_text, valid_marker in *. destruct (used_ordered o).
  - change (numeral (N.of_nat n)) with (decN (N.of_nat n)). destruct (decN_decimal (N.of_nat n)) as (F & _ & H). destruct (decN (N.of_nat n)) as [|c r]; [exfalso; destruct H as [H|(? & ? & H & _)]; discriminate|].
    exists c, (r ++ used_marker o). split; [reflexivity|]. inversion F; subst. right. assumption.
  - destruct Hv as [Hv|Hv]; [discriminate|]. cbn in Hv. destruct Hv as [<-|[<-|[<-|[]]]]; eexists; exists []; (split; [reflexivity|]); left; cbn; auto.
Qed.
Lemma used_closing o : used_ordered o = true -> known_parser (o_parser o) -> In (used_marker o) [lit "."; lit ")"].
Proof.
  intros H Hp. rewrite used_marker_model by exact Hp. cbv zeta. rewrite H. destruct (sin _ (closing_markers _)) eqn:Es; [|left; reflexivity].
  unfold sin in Es. apply existsb_exists in Es as (x & Hx & He). apply seqb_eq in He. rewrite He. clear -Hx Hp. destruct (o_parser o); cbn in *; try tauto.
Qed.
Lemma marker_single o n : known_parser (o_parser o) -> valid_marker o -> single_line (marker_text o n).
Proof.
  intros Hp Hv. unfold marker_text, valid_marker in *. destruct (used_ordered o) eqn:Ho.
  - apply single_app; [apply decN_single|]. destruct (used_closing o Ho Hp) as [<-|[<-|[]]]; split; cbn; intuition discriminate.
  - destruct Hv as [Hv|Hv]; [discriminate|]. cbn in Hv. destruct Hv as [<-|[<-|[<-|[]]]]; split; cbn; intuition discriminate.
Qed.
Lemma repeat_single n : single_line (repeat 32%N n).
Proof. split; intros H; apply repeat_spec in H; discriminate. Qed.
Definition row_text (o : opts) (e : entry) (col num : nat) : str :=
  repeat 32%N col ++ marker_text o num ++ [32%N] ++ entry_label o (e_text e) (e_anchor e).
Lemma row_lf o e col num : o_newline o = [10%N] -> row o e col num = row_text o e col num ++ [10%N].
Proof. intros H. unfold row, row_text. rewrite H, <- !app_assoc. reflexivity. Qed.
Lemma row_text_single o e col num : known_parser (o_parser o) -> valid_marker o -> single_line (e_text e) -> single_line (e_anchor e) -> single_line (row_text o e col num).
Proof.
  intros Hp Hv Ht Ha. unfold row_text. apply single_app; [apply repeat_single|]. apply single_app; [apply marker_single; assumption|]. apply single_cons; [discriminate|discriminate|].
  unfold entry_label. destruct (o_no_links o); [exact Ht|]. apply single_cons; [discriminate|discriminate|]. apply single_app; [exact Ht|].
  apply single_cons; [discriminate|discriminate|]. apply single_cons; [discriminate|discriminate|]. apply single_cons; [discriminate|discriminate|]. apply single_app; [exact Ha|]. split; cbn; intuition discriminate.
Qed.

(** A line whose first character that is not white space starts neither a heading nor a fence. *)
Lemma blank_prefix_plain p (ws : str) c r : (forall x, In x ws -> ~ In x (lit "#`~")) -> c <> 32%N -> ~ In c (lit "#`~") -> plain_line p (ws ++ c :: r).
Proof.
  intros Hw Hc1 Hc2.
  assert (Hhead : hd_error (ws ++ c :: r) <> Some 35%N).
  { destruct ws as [|x ws]; cbn; intros H; injection H as ->; [apply Hc2|apply (Hw 35%N); [left; reflexivity|]]; cbn; auto. }
  assert (G : forall ind d t, In d (lit "#`~") -> ws ++ c :: r <> repeat 32%N ind ++ d :: t).
  { intros ind d t Hd. revert ind. induction ws as [|x ws IH]; intros ind H.
    - destruct ind; cbn in H; injection H as -> _; [contradiction|congruence].
    - destruct ind; cbn in H; injection H as -> H.
      + apply (Hw d); [left; reflexivity|exact Hd].
      + apply (IH (fun y Hy => Hw y (or_intror Hy)) ltac:(destruct ws as [|y ws']; cbn; intros K; injection K as ->; [apply Hc2; cbn; auto|apply (Hw 35%N); [right; left; reflexivity|cbn; auto]]) ind H). }
  assert (K : (forall level rest s, (ws ++ c :: r = s \/ ws ++ c :: r = s ++ [10%N]) -> single_line s -> ~ atx_line p s level rest) /\ (forall d n, ~ opening_fence_line (ws ++ c :: r) d n)).
  { split.
    - intros level rest s Hs _ (ind & E & _ & (Hl & _) & _). destruct level as [|level]; [lia|]. cbn [repeat app] in E.
      destruct Hs as [Hs|Hs]; rewrite E in Hs.
      + apply (G ind 35%N (repeat 35%N level ++ rest)); [cbn; auto|exact Hs].
      + rewrite <- app_assoc in Hs. apply (G ind 35%N ((repeat 35%N level ++ rest) ++ [10%N])); [cbn; auto|exact Hs].
    - intros d n (ind & info & E & _ & Hn & Hd). destruct n as [|n]; [lia|]. cbn [repeat app] in E.
      apply (G ind d (repeat d n ++ info)); [|exact E]. destruct Hd as [(-> & _)|(-> & _)]; cbn; auto. }
  destruct p; try exact K. exact Hhead.
Qed.
Lemma listy_facts c : listy c -> c <> 32%N /\ ~ In c (lit "#`~").
Proof.
  unfold listy, decimal_digit. cbn. intros [[<-|[<-|[<-|[]]]]|H]; split; try discriminate; try (intuition discriminate); try lia.
Qed.
Lemma row_plain o e col num : valid_marker o -> plain_line (o_parser o) (row o e col num).
Proof.
  intros Hv. unfold row. destruct (marker_text_head o num Hv) as (c & r & -> & Hc). destruct (listy_facts _ Hc) as (A & B).
  cbn [app]. apply blank_prefix_plain; auto. intros x Hx. apply repeat_spec in Hx. subst. cbn. intuition discriminate.
Qed.

Lemma rows_valid o es ls : known_parser (o_parser o) -> rows o (used_ordered o) (used_marker o) [] es = Ok ls -> es <> [] -> valid_marker o.
Proof.
  intros Hp H Hne. destruct es as [|e es]; [congruence|]. cbn [rows] in H. destruct (entry_line _ _ _ _ _ _ _) as [s|] eqn:Es; [|discriminate].
  unfold entry_line in Es. destruct (_ && _ && _); [discriminate|]. destruct (_ && incoherent _ _); [discriminate|].
  destruct (negb (used_ordered o) && _) eqn:Em; [discriminate|]. apply valid_marker_iff; assumption.
Qed.
Fixpoint row_list (o : opts) (es : list entry) (cols nums : list nat) : list str :=
  match es, cols, nums with
  | e :: es', c :: cols', n :: nums' => row o e c n :: row_list o es' cols' nums'
  | _, _, _ => []
  end.
Lemma row_list_table o es : forall cols nums, concat (row_list o es cols nums) = table o es cols nums.
Proof. induction es as [|e es IH]; intros [|c cols] [|n nums]; cbn; try reflexivity. rewrite IH. reflexivity. Qed.
Lemma row_list_in o es : forall cols nums r, In r (row_list o es cols nums) -> exists e c n, In e es /\ r = row o e c n.
Proof.
  induction es as [|e es IH]; intros [|c cols] [|n nums] r; cbn; try tauto. intros [<-|H]; [eauto 10|]. destruct (IH _ _ _ H) as (e' & c' & n' & A & B). eauto 10.
Qed.

(** The table as a list of lines. *)
Lemma table_lines E o fn lines ks t : word_ascii E -> o_newline o = [10%N] -> applies E o fn lines ks ->
  build_toc E o fn (mkDoc lines false) = Ok t ->
  exists tl, concat tl = t /\ full_lines tl /\ Forall (plain_line (o_parser o)) tl
    /\ Forall (fun l => exists ws c r, l = ws ++ c :: r /\ Forall (fun x => x = 32%N) ws /\ listy c) tl.
Proof.
  intros Hw Hn Ha H. destruct (applies_table _ _ _ _ _ _ Ha H) as (hs & ls & Hh & Hrows & (_ & _ & Ht)).
  pose proof (entries_single E _ _ _ _ (o_keep o) Hw Hh) as Hs.
  assert (Hp : known_parser (o_parser o)) by apply Ha.
  set (es := entries (o_parser o) (o_keep o) hs) in *. set (cols := cols_of _ _ _ _ _) in Ht. set (nums := nums_of _ _ _ _ _) in Ht.
  exists (row_list o es cols nums). split; [rewrite row_list_table; auto|].
  assert (Hv : forall r, In r (row_list o es cols nums) -> valid_marker o).
  { intros r Hr. apply (rows_valid o es ls Hp Hrows). intros E0. rewrite E0 in Hr. destruct Hr. }
  split; [|split]; apply Forall_forall; intros r Hr; pose proof (Hv r Hr) as V; destruct (row_list_in _ _ _ _ _ Hr) as (e & c & n & He & ->).
  - exists (row_text o e c n). rewrite Forall_forall in Hs. destruct (Hs e He). split; [apply row_text_single; assumption|apply row_lf; exact Hn].
  - apply row_plain. exact V.
  - unfold row. destruct (marker_text_head o n V) as (c' & r & -> & Hc'). exists (repeat 32%N c), c', (r ++ [32%N] ++ entry_label o (e_text e) (e_anchor e) ++ o_newline o).
    split; [rewrite <- ?app_assoc; reflexivity|]. split; [|exact Hc']. apply Forall_forall. intros x Hx. apply repeat_spec in Hx. exact Hx.
Qed.

(** ** Recognition *)
Lemma strip_prefix_char (p : N -> bool) ws c r : Forall (fun x => p x = true) ws -> p c = false -> exists r', strip p (ws ++ c :: r) = c :: r'.
Proof.
  intros Hw Hc. unfold strip. rewrite lstrip_unique by auto. destruct (rstrip_split p (c :: r)) as (suf & E & F & _).
  destruct (rstrip p (c :: r)) as [|x r'] eqn:Er.
  - cbn in E. exfalso. assert (X : In c suf) by (rewrite <- E; left; reflexivity). rewrite Forall_forall in F. rewrite (F c X) in Hc. discriminate.
  - cbn in E. injection E as <- E. eauto.
Qed.
Lemma rstrip_keeps (p : N -> bool) a c b : p c = false -> exists b', rstrip p (a ++ c :: b) = a ++ c :: b'.
Proof.
  intros Hc. destruct (rstrip_split p (a ++ c :: b)) as (suf & E & F & _). 
  apply app_eq_cases in E as [(u & E1 & E2)|(u & Hu & E1 & E2)].
  - destruct u as [|x u].
    + cbn in E2. exfalso. rewrite E2 in F. inversion F; subst. congruence.
    + cbn in E2. subst suf. exfalso. rewrite Forall_forall in F. assert (X : p c = true) by (apply F; right; apply in_or_app; right; left; reflexivity). congruence.
  - destruct u as [|x u]; [congruence|]. cbn in E2. injection E2 as <- _. rewrite E1. eauto.
Qed.
