(** Which exceptions build_toc can raise: C47. *)
From Coq Require Import String List NArith ZArith Bool Arith Lia.
From Verif Require Import Str StrFacts Fence Atx HtmlRe Inlines Anchor Toc Spec EnvSpec AnchorSpec TocSpec EmphSpec SafeSpec AsciiEnv.
From Verif Require Import FenceProof AtxProof LabelProof DecFacts AnchorProof TocProof TocLoop Inert PropHeading PropDoc PropEmphasis SafeProof.
Import ListNotations.
Local Open Scope list_scope.

(** ** Headings *)
Lemma content_infix p rest text : heading_content p rest text -> exists a b, rest = a ++ text ++ b.
Proof.
  intros [|b1 t b2 n b3 _ _ _ _ _ _ _|b1 t b2 _ _ _ _ _ _]; [exists [], []; reflexivity|exists b1, (b2 ++ repeat 35%N n ++ b3); reflexivity|exists b1, b2; reflexivity].
Qed.
Lemma heading_safe E p keep line k h : python_tables E -> commonmark_parser p -> single_line line -> safe_line E line ->
  get_atx_heading p keep false (line ++ repeat 10%N k) = Ok [Some h] -> Forall (safe_char E) (h_text h) /\ closed_b false (h_text h) = true /\ bsl_b false (h_text h) = true.
Proof.
  intros (_ & Hda & _) Hp Hl (H0 & Hdg & Hbs) H. destruct (C05_labels_are_escaped p keep line k h Hp Hl H) as (rest & text & label & (ind & Hline & _) & Hc & _ & Hpr & Hesc & _).
  apply content_infix in Hc as (a & b & ->).
  assert (Hin : forall c, In c text -> In c line) by (intros c Hc; rewrite Hline, !in_app_iff; tauto).
  assert (Hb : bsl_b false text = true).
  { assert (G : bsl_b false line = true) by (apply bsl_iff; [exact Hbs|discriminate]). rewrite Hline in G. rewrite !app_assoc in G. rewrite <- (app_assoc _ text b) in G. eapply bsl_mid. exact G. }
  assert (Hs : forall c, In c text \/ c = 32%N \/ c = 92%N -> safe_char E c).
  { intros c [Hc|Hc]; [|split; [lia|]; split; [lia|]; split; [lia|]; intros X; apply Hda in X; [unfold is_digit in X; lia|lia]].
    apply Hin in Hc. split; [intros ->; contradiction|]. split; [intros ->; apply (proj2 Hl); exact Hc|]. split; [intros ->; apply (proj1 Hl); exact Hc|]. apply Hdg. exact Hc. }
  assert (Hlab : (forall c, In c label -> In c text \/ c = 32%N) /\ bsl_b false label = true).
  { destruct Hpr as [(r & _ & ->)|(_ & ->)]; [|auto]. split; [intros c Hc; apply in_app_iff in Hc as [Hc|[Hc|[]]]; auto|]. rewrite bsl_app_eq, Hb. cbn [andb bsl_b]. reflexivity. }
  destruct Hlab as (L1 & L2). split; [|split; [eapply escapes_closed; exact Hesc|eapply escapes_bsl; [exact Hesc|exact L2]]].
  rewrite Forall_forall. intros c Hc. apply Hs. destruct (escapes_chars _ _ _ Hesc c Hc) as [X|X]; [apply L1 in X|]; tauto.
Qed.
Lemma closed_none s : ~ In 93%N s -> forall e, closed_b e s = true.
Proof. induction s as [|c s IH]; intros H e; [reflexivity|]. cbn [closed_b]. rewrite IH by (intros X; apply H; right; exact X). destruct (N.eqb_spec c 93); [subst; exfalso; apply H; left; reflexivity|reflexivity]. Qed.
Lemma heading_safe_plain E p keep line k h : (1 <= keep)%Z -> commonmark_parser p -> single_line line -> safe_line E line -> ~ In 93%N line ->
  get_atx_heading p keep true (line ++ repeat 10%N k) = Ok [Some h] -> Forall (safe_char E) (h_text h) /\ closed_b false (h_text h) = true /\ bsl_b false (h_text h) = true.
Proof.
  intros Hk Hp Hl (H0 & Hdg & Hbs) H93 H. rewrite get_atx_single in H by assumption. destruct (atx_line_dec p line) as [(lev & r & A)|A].
  - rewrite (atx_cm_heading p _ true true line lev r A) in H. cbn in H. injection H as <-. cbn [h_text]. destruct A as (ind & Hline & _ & _ & Hr). apply content_exists in Hr. apply content_infix in Hr as (a & b & Er).
    set (text := cm_text p r) in *. assert (Hin : forall c, In c (reported text) -> In c line) by (intros c Hc; rewrite Hline, Er, !in_app_iff; unfold reported in Hc; destruct (forallb is_hash text); [destruct Hc|]; tauto).
    split; [|split].
    + rewrite Forall_forall. intros c Hc. apply Hin in Hc. split; [intros ->; contradiction|]. split; [intros ->; apply (proj2 Hl); exact Hc|]. split; [intros ->; apply (proj1 Hl); exact Hc|]. apply Hdg. exact Hc.
    + apply closed_none. intros X. apply Hin in X. contradiction.
    + unfold reported. destruct (forallb is_hash text); [reflexivity|]. assert (G : bsl_b false line = true) by (apply bsl_iff; [exact Hbs|discriminate]). rewrite Hline, Er in G. rewrite !app_assoc in G. rewrite <- (app_assoc _ text b) in G. eapply bsl_mid. exact G.
  - destruct (atx_cm_none p keep true true line A) as (v & X). rewrite X in H. discriminate.
Qed.
Lemma heading_links E p keep line k h : (1 <= keep)%Z -> commonmark_parser p -> single_line line -> safe_line E line -> plain_links line ->
  get_atx_heading p keep true (line ++ repeat 10%N k) = Ok [Some h] -> Forall (safe_char E) (h_text h) /\ plain_links (h_text h).
Proof.
  intros Hk Hp Hl (H0 & Hdg & _) (H1 & H2 & H3) H. rewrite get_atx_single in H by assumption. destruct (atx_line_dec p line) as [(lev & r & A)|A].
  - rewrite (atx_cm_heading p _ true true line lev r A) in H. cbn in H. injection H as <-. cbn [h_text]. destruct A as (ind & Hline & _ & _ & Hr). apply content_exists in Hr. apply content_infix in Hr as (a & b & Er).
    set (text := cm_text p r) in *. assert (Hin : forall c, In c (reported text) -> In c line) by (intros c Hc; rewrite Hline, Er, !in_app_iff; unfold reported in Hc; destruct (forallb is_hash text); [destruct Hc|]; tauto).
    split; [|split; [|split]].
    + rewrite Forall_forall. intros c Hc. apply Hin in Hc. split; [intros ->; contradiction|]. split; [intros ->; apply (proj2 Hl); exact Hc|]. split; [intros ->; apply (proj1 Hl); exact Hc|]. apply Hdg. exact Hc.
    + intros c Hc. apply H1, Hin, Hc.
    + destruct H2 as [H2|H2]; [left|right]; intros X; apply H2, Hin, X.
    + assert (L : exists pre, line = pre ++ text ++ b) by (rewrite Hline, Er, !app_assoc; rewrite <- (app_assoc _ text b); eexists; reflexivity). destruct L as (pre & L).
      intros x y X. unfold reported in X. destruct (forallb is_hash text); [destruct x; discriminate|]. apply (H3 (pre ++ x) (y ++ b)). rewrite L, X, <- !app_assoc. reflexivity.
  - destruct (atx_cm_none p keep true true line A) as (v & X). rewrite X in H. discriminate.
Qed.

(** The errors of one line. *)
Definition label_error (e : exn) : Prop := e = GithubEmptyLinkLabel \/ e = GithubOverflowCharsLinkLabel.
Definition scanner_error (e : exn) : Prop := e = IndexError \/ e = KeyError \/ e = ValueError.
Lemma link_label_errors s e : link_label s = Err e -> label_error e.
Proof. unfold link_label. cbn zeta. destruct (_ =? 0); [intros H; injection H as <-; left; reflexivity|]. destruct (_ <? _)%Z; [intros H; injection H as <-; right; reflexivity|discriminate]. Qed.
Lemma get_atx_errors p keep nl line e : known_parser p -> (1 <= keep)%Z -> file_line line -> get_atx_heading p keep nl line = Err e -> label_error e /\ nl = false.
Proof.
  intros Hp Hk Hl H. destruct (file_line_split line Hl) as (s & k & Hs & -> & Hne). destruct (known_cases p Hp) as [Hc| ->].
  - assert (Hcm : commonmark_parser p) by (apply cm_family_iff; exact Hc). rewrite get_atx_single in H by (assumption || lia). destruct (atx_line_dec p s) as [(lev & r & A)|A].
    + rewrite (atx_cm_heading p _ nl true s lev r A) in H. destruct nl; [discriminate|]. destruct (link_label _) as [t|x] eqn:L; cbn in H; [discriminate|]. injection H as <-. split; [eapply link_label_errors; exact L|reflexivity].
    + destruct (atx_cm_none p keep nl true s A) as (v & X). rewrite X in H. discriminate.
  - rewrite get_atx_redcarpet in H by (assumption || lia). discriminate.
Qed.
Lemma anchor_known_errors E p d text e : known_parser p -> single_line text -> build_anchor_link E p d text = Err e -> scanner_error e.
Proof.
  intros Hp Ht H. unfold build_anchor_link in H. rewrite <- (app_nil_r text) in H. rewrite (split_newlines_single text 0 Ht : replace_and_split_newlines (text ++ []) = [text]) in H. cbn [length] in H. cbn in H.
  rewrite app_nil_r in H. destruct (known_cases p Hp) as [Hc| ->]; [|discriminate]. rewrite Hc in H.
  unfold slug in H. destruct (remove_emphasis E p _) as [t|x] eqn:R; cbn [bind] in H; [|injection H as <-; eapply C27_terminates; exact R].
  unfold anchor_link_punctuation_filter in H. rewrite Hc in H. cbn [bind] in H. discriminate.
Qed.
Lemma anchor_some E p d text a d' : known_parser p -> build_anchor_link E p d text = Ok (a, d') -> a <> None.
Proof.
  intros Hp H. unfold build_anchor_link in H. destruct (1 <? _); [discriminate|]. destruct (known_cases p Hp) as [Hc| ->].
  - rewrite Hc in H. destruct (slug E p text); cbn [bind] in H; [|discriminate]. destruct (number_anchor E d _). injection H as <- _. discriminate.
  - cbn in H. injection H as <- _. discriminate.
Qed.
Lemma anchor_safe E p d text : python_tables E -> cm_family p = true -> single_line text -> Forall (safe_char E) text -> closed_b false text = true -> bsl_b false text = true ->
  exists a d', build_anchor_link E p d text = Ok (a, d').
Proof.
  intros HE Hp Ht A B C. unfold build_anchor_link. pose proof (split_newlines_single text 0 Ht : replace_and_split_newlines (text ++ []) = [text]) as Q. rewrite app_nil_r in Q. rewrite Q. cbn [length]. cbn [Nat.ltb Nat.leb].
  rewrite Hp. destruct (slug_total E p text HE Hp A B C) as (s & ->). cbn [bind]. destruct (number_anchor E d s). eauto.
Qed.
Lemma anchor_links E p d text : python_tables E -> zs_ascii E -> cm_family p = true -> single_line text -> Forall (safe_char E) text -> plain_links text ->
  exists a d', build_anchor_link E p d text = Ok (a, d').
Proof.
  intros HE Hz Hp Ht A B. unfold build_anchor_link. pose proof (split_newlines_single text 0 Ht : replace_and_split_newlines (text ++ []) = [text]) as Q. rewrite app_nil_r in Q. rewrite Q. cbn [length]. cbn [Nat.ltb Nat.leb].
  rewrite Hp. destruct (slug_links E p text HE Hz Hp A B) as (s & ->). cbn [bind]. destruct (number_anchor E d s). eauto.
Qed.
Lemma header_shape p keep nl line l : known_parser p -> (1 <= keep)%Z -> file_line line -> get_atx_heading p keep nl line = Ok l -> l = [None] \/ exists h, l = [Some h] /\ 1 <= h_level h <= 6.
Proof.
  intros Hp Hk Hl H. pose proof (get_atx_keep p keep nl line Hp Hk Hl) as G. destruct (get_atx_heading p 6 nl line) as [[|[h|] [|x y]]|e].
  - destruct G as (G & _). discriminate.
  - destruct G as (A & G). rewrite G in H. injection H as <-. right. eexists. split; [reflexivity|exact A].
  - destruct G as (G & _). discriminate.
  - destruct G as (_ & G). rewrite G in H. injection H as <-. auto.
  - destruct G as (G & _). discriminate.
  - rewrite G in H. discriminate.
Qed.
Lemma md_header_errors E p keep nl d line : known_parser p -> (1 <= keep)%Z -> file_line line ->
  match get_md_header E p keep nl d line with
  | Ok (hs, _) => hs = [None] \/ exists h, hs = [Some h] /\ 1 <= hd_level h <= 6 /\ hd_anchor h <> None
  | Err e => label_error e \/ (scanner_error e /\ ~ anchors_safe E p nl [line])
  end.
Proof.
  intros Hp Hk Hl. unfold get_md_header. destruct (get_atx_heading p keep nl line) as [l|e] eqn:G; cbn [bind]; [|left; eapply get_atx_errors; eassumption].
  destruct (header_shape p keep nl line l Hp Hk Hl G) as [->|(h & -> & Hh)]; cbn [md_headers bind]; [auto|].
  destruct (build_anchor_link E p d (h_text h)) as [(a & d1)|e] eqn:B; cbn [bind].
  - right. eexists. split; [reflexivity|]. split; [exact Hh|]. eapply anchor_some; eassumption.
  - right. assert (Ht : single_line (h_text h)) by (eapply heading_text_single; [exact G|left; reflexivity]). split; [eapply anchor_known_errors; eassumption|].
    intros [->|(HE & Hs & Hnl)].
    + unfold build_anchor_link in B. rewrite <- (app_nil_r (h_text h)) in B. rewrite (split_newlines_single (h_text h) 0 Ht : replace_and_split_newlines (h_text h ++ []) = [h_text h]) in B. discriminate.
    + inversion Hs as [|? ? Hs1 _]; subst. destruct (file_line_split line Hl) as (s & k & Hsl & -> & Hne). destruct (known_cases p Hp) as [Hc| ->].
      * assert (Hss : safe_line E s).
        { destruct Hs1 as (S0 & Sd & Sb). split; [intros X; apply S0; apply in_or_app; auto|]. split; [intros c X; apply Sd; apply in_or_app; auto|]. intros a b ->. apply (Sb a (b ++ repeat 10%N k)). rewrite <- app_assoc. reflexivity. }
        apply cm_family_iff in Hc as Hcm.
        assert (K : (Forall (safe_char E) (h_text h) /\ closed_b false (h_text h) = true /\ bsl_b false (h_text h) = true) \/ (zs_ascii E /\ Forall (safe_char E) (h_text h) /\ plain_links (h_text h))).
        { destruct nl; [|left; apply (heading_safe E p keep s k h HE); assumption]. specialize (Hnl eq_refl). inversion Hnl as [|? ? [Hn|(Hz & Hn)] _]; subst.
          - left. apply (heading_safe_plain E p keep s k h); auto. intros X. apply Hn. apply in_or_app. auto.
          - right. split; [exact Hz|]. apply (heading_links E p keep s k h); auto. destruct Hn as (N1 & N2 & N3). split; [intros c X; apply N1; apply in_or_app; auto|].
            split; [destruct N2 as [N2|N2]; [left|right]; intros X; apply N2; apply in_or_app; auto|]. intros a b ->. apply (N3 a (b ++ repeat 10%N k)). rewrite <- app_assoc. reflexivity. }
        destruct K as [(A & C & D)|(Hz & A & C)]; [destruct (anchor_safe E p d (h_text h) HE Hc Ht A C D) as (x & y & X)|destruct (anchor_links E p d (h_text h) HE Hz Hc Ht A C) as (x & y & X)]; congruence.
      * unfold build_anchor_link in B. rewrite <- (app_nil_r (h_text h)) in B. rewrite (split_newlines_single (h_text h) 0 Ht : replace_and_split_newlines (h_text h ++ []) = [h_text h]) in B. discriminate.
Qed.

(** ** Rows *)
Definition st_inv (st : state) : Prop :=
  length (t_log st) = 6 /\ Forall (fun e => 0 <= il_spaces e)%Z (t_log st) /\ (0 <= t_prev st <= 6)%Z /\ Forall (fun kv => 0 <= snd kv)%Z (t_types st).
Lemma tc_get_nonneg d k v : Forall (fun kv => 0 <= snd kv)%Z d -> tc_get d k = Some v -> (0 <= v)%Z.
Proof. induction d as [|(k' & w) d IH]; intros H G; cbn in G; [discriminate|]. inversion H; subst. destruct (k' =? k)%Z; [injection G as <-; assumption|auto]. Qed.
Lemma tc_set_nonneg d k v : Forall (fun kv => 0 <= snd kv)%Z d -> (0 <= v)%Z -> Forall (fun kv => 0 <= snd kv)%Z (tc_set d k v).
Proof. induction d as [|(k' & w) d IH]; intros H G; cbn; [constructor; [exact G|constructor]|]. inversion H; subst. destruct (k' =? k)%Z; constructor; auto. Qed.
Lemma increase_ok p d prev curr : (0 <= prev)%Z -> (1 <= curr)%Z -> Forall (fun kv => 0 <= snd kv)%Z d ->
  match increase_index p d prev curr with
  | Ok t => Forall (fun kv => 0 <= snd kv)%Z t /\ exists n, tc_get t curr = Some n /\ (1 <= n)%Z
  | Err e => e = GithubOverflowOrderedListMarker
  end.
Proof.
  intros Hp Hc Hd. unfold increase_index. destruct (Z.ltb_spec prev 0); [lia|]. destruct (Z.ltb_spec curr 1); [lia|]. cbn zeta.
  match goal with |- context[tc_set d curr ?n] => set (v := n) end.
  assert (Hv : (1 <= v)%Z).
  { unfold v. destruct (tc_get d curr) as [w|] eqn:G; [|lia]. destruct (_ <? curr)%Z; [lia|]. pose proof (tc_get_nonneg _ _ _ Hd G). lia. }
  destruct (_ && _); [reflexivity|]. split; [apply tc_set_nonneg; [exact Hd|lia]|]. exists v. split; [|exact Hv]. rewrite tc_get_set, Z.eqb_refl. reflexivity.
Qed.
Lemma upd_spaces (l : list ilog) n f : Forall (fun e => 0 <= il_spaces e)%Z l -> (forall e, (0 <= il_spaces e -> 0 <= il_spaces (f e)))%Z -> Forall (fun e => 0 <= il_spaces e)%Z (list_upd l n f).
Proof. intros H Hf. revert n. induction H as [|e l He Hl IH]; intros n; [destruct n; constructor|]. destruct n; cbn [list_upd]; constructor; try exact He; try (apply Hf; exact He); try assumption; apply IH. Qed.
Lemma log_get_ok (l : list ilog) i : length l = 6 -> (1 <= i <= 6)%Z -> Forall (fun e => 0 <= il_spaces e)%Z l -> exists e, log_get l i = Ok e /\ (0 <= il_spaces e)%Z.
Proof.
  intros Hl Hi Hf. unfold log_get. destruct (Z.ltb_spec i 1); [lia|]. destruct (nth_error l (Z.to_nat (i - 1))) as [e|] eqn:N; [|apply nth_error_None in N; lia].
  exists e. split; [reflexivity|]. rewrite Forall_forall in Hf. apply Hf. eapply nth_error_In. exact N.
Qed.
Lemma log_upd_ok (l : list ilog) i f : length l = 6 -> (1 <= i <= 6)%Z -> Forall (fun e => 0 <= il_spaces e)%Z l -> (forall e, (0 <= il_spaces e -> 0 <= il_spaces (f e)))%Z ->
  exists l', log_upd l i f = Ok l' /\ length l' = 6 /\ Forall (fun e => 0 <= il_spaces e)%Z l'.
Proof.
  intros Hl Hi Hf Hff. unfold log_upd. destruct (log_get_ok l i Hl Hi Hf) as (e & -> & _). cbn [bind]. eexists. split; [reflexivity|]. split; [rewrite length_list_upd; exact Hl|]. apply upd_spaces; assumption.
Qed.
Lemma reset_ok (l : list ilog) c m : length l = 6 -> Forall (fun e => 0 <= il_spaces e)%Z l -> length (reset_deeper l c m) = 6 /\ Forall (fun e => 0 <= il_spaces e)%Z (reset_deeper l c m).
Proof.
  intros Hl Hf. unfold reset_deeper. rewrite <- (firstn_skipn (Z.to_nat c) l) in Hl, Hf. split; [rewrite app_length, map_length in *; exact Hl|].
  apply Forall_app in Hf as (A & _). apply Forall_app. split; [exact A|]. apply Forall_forall. intros e He. apply in_map_iff in He as (x & <- & _). cbn. lia.
Qed.
Lemma indentation_ok p ordered m log curr prev index : known_parser p -> length log = 6 -> Forall (fun e => 0 <= il_spaces e)%Z log -> (1 <= curr <= 6)%Z -> (0 <= prev <= 6)%Z -> (1 <= index)%Z ->
  match compute_indentation p ordered m log curr prev index with
  | Ok l => length l = 6 /\ Forall (fun e => 0 <= il_spaces e)%Z l
  | Err e => e = ValueError /\ marker_ok p ordered m = false
  end.
Proof.
  intros Hp Hl Hf Hc Hpv Hi. unfold compute_indentation. destruct (Z.ltb_spec curr 1); [lia|]. destruct (Z.ltb_spec prev 0); [lia|].
  rewrite Hl. cbn [Nat.eqb negb]. rewrite andb_false_r. destruct (Z.ltb_spec index 1); [lia|].
  destruct (marker_ok p ordered m) eqn:Hm; cbn [negb]; [|auto].
  destruct (known_cases p Hp) as [Hcm| ->].
  - rewrite Hcm.
    assert (X : exists il, (if ordered && negb (prev =? 0)%Z then do e <- log_get log prev; Ok (Z.of_nat (length (dec (il_index e)))) else Ok 0%Z) = Ok il /\ (0 <= il)%Z).
    { destruct (Z.eqb_spec prev 0); [rewrite andb_false_r; exists 0%Z; split; [reflexivity|lia]|]. destruct ordered; cbn [andb negb]; [|exists 0%Z; split; [reflexivity|lia]].
      destruct (log_get_ok log prev Hl ltac:(lia) Hf) as (e & -> & _). cbn [bind]. eexists. split; [reflexivity|lia]. }
    destruct X as (il & -> & Hil). cbn [bind].
    match goal with |- context[bind ?a _] => assert (Y : exists l, a = Ok l /\ length l = 6 /\ Forall (fun e => 0 <= il_spaces e)%Z l) end.
    { destruct (Z.eqb_spec prev 0); [apply log_upd_ok; auto; intros; cbn; lia|]. destruct (prev <? curr)%Z.
      - destruct (log_get_ok log prev Hl ltac:(lia) Hf) as (e & -> & He). cbn [bind]. apply log_upd_ok; auto. intros; cbn. lia.
      - destruct (curr <? prev)%Z; [|eauto]. destruct (reset_ok log curr m Hl Hf). eauto. }
    destruct Y as (l & -> & Hl1 & Hf1). cbn [bind].
    assert (Z : exists l2, (if ordered then log_upd l curr (set_index index) else Ok l) = Ok l2 /\ length l2 = 6 /\ Forall (fun e => 0 <= il_spaces e)%Z l2).
    { destruct ordered; [apply log_upd_ok; auto|eauto]. }
    destruct Z as (l2 & -> & Hl2 & Hf2). cbn [bind]. destruct (log_upd_ok l2 curr (set_marker m) Hl2 Hc Hf2) as (l3 & -> & A & B); [auto|auto].
  - cbn [cm_family]. destruct (log_upd_ok log curr (set_spaces (4 * (curr - 1))) Hl Hc Hf) as (l3 & -> & A & B); [intros; unfold set_spaces; cbn [il_spaces]; lia|auto].
Qed.
Lemma add_header_errors o ordered m st h : known_parser (o_parser o) -> st_inv st -> 1 <= hd_level h <= 6 -> hd_anchor h <> None ->
  match add_header o ordered m st h with
  | Ok st' => st_inv st'
  | Err e => e = GithubOverflowOrderedListMarker \/ e = TocDoesNotRenderAsCoherentList \/ (e = ValueError /\ marker_ok (o_parser o) ordered m = false)
  end.
Proof.
  intros Hp (Hl & Hf & Hpv & Ht) Hlev Ha. unfold add_header. set (curr := Z.of_nat (hd_level h)) in *. assert (Hc : (1 <= curr <= 6)%Z) by (unfold curr; lia).
  assert (X : match (if ordered && negb (o_constant o) then do t <- increase_index (o_parser o) (t_types st) (t_prev st) curr; Ok (t, match tc_get t curr with Some n => n | None => 0%Z end) else Ok (t_types st, 1%Z)) with
              | Ok (t, i) => Forall (fun kv => 0 <= snd kv)%Z t /\ (1 <= i)%Z | Err e => e = GithubOverflowOrderedListMarker end).
  { destruct (ordered && _); [|split; [exact Ht|lia]]. pose proof (increase_ok (o_parser o) (t_types st) (t_prev st) curr ltac:(lia) ltac:(lia) Ht) as I. destruct (increase_index _ _ _ _) as [t|e]; cbn [bind]; [|exact I].
    destruct I as (A & n & -> & B). auto. }
  destruct (if ordered && negb (o_constant o) then _ else _) as [(types & index)|e]; cbn [bind]; [|left; exact X]. destruct X as (Ht' & Hi).
  match goal with |- context[bind ?a _] =>
    assert (Y : match a with Ok (f, l, sp) => length l = 6 /\ Forall (fun e => 0 <= il_spaces e)%Z l /\ (0 <= sp)%Z
      | Err e => e = TocDoesNotRenderAsCoherentList \/ (e = ValueError /\ marker_ok (o_parser o) ordered m = false) end) end.
  { destruct (o_no_indentation o); [split; [exact Hl|]; split; [exact Hf|lia]|].
    assert (K : forall (first : Z) prev, (0 <= prev <= 6)%Z -> match (do log <- compute_indentation (o_parser o) ordered m (t_log st) curr prev index; do e <- log_get log curr; Ok (first, log, il_spaces e)) with
      | Ok (f, l, sp) => length l = 6 /\ Forall (fun e => 0 <= il_spaces e)%Z l /\ (0 <= sp)%Z
      | Err e => e = TocDoesNotRenderAsCoherentList \/ (e = ValueError /\ marker_ok (o_parser o) ordered m = false) end).
    { intros first prev Hpr. pose proof (indentation_ok (o_parser o) ordered m (t_log st) curr prev index Hp Hl Hf Hc Hpr Hi) as I. destruct (compute_indentation _ _ _ _ _ _ _) as [l|e]; cbn [bind]; [|auto].
      destruct I as (A & B). destruct (log_get_ok l curr A Hc B) as (e & -> & C). cbn [bind]. auto. }
    destruct (o_no_list_coherence o); cbn [bind]; [apply (K (t_first st)); exact Hpv|]. destruct (_ || _); cbn [bind]; [auto|]. apply K. destruct (t_prev st =? 0)%Z; lia. }
  match goal with |- context[bind ?a _] => destruct a as [((first & log) & spaces)|e] end; cbn [bind]; [|tauto]. destruct Y as (Hl' & Hf' & Hsp).
  unfold toc_line_no_indent. fold curr. destruct (Z.ltb_spec curr 1); [lia|]. destruct (Z.ltb_spec index 1); [lia|]. destruct (marker_ok (o_parser o) ordered m) eqn:Hm; cbn [negb bind]; [|auto].
  replace (known (o_parser o)) with true by (destruct (o_parser o); try reflexivity; exfalso; apply Hp; reflexivity).
  destruct (hd_anchor h) as [a|]; [|congruence].
  assert (Z : forall t, match (do line <- Ok (Some t); match line with None => Err TypeError | Some line => do line0 <- build_toc_line line spaces; Ok (mkState (t_toc st ++ [line0 ++ o_newline o]) types curr first (t_dups st) log (t_in st) (t_fence st) (t_end st)) end) with
     | Ok st' => st_inv st' | Err e => e = GithubOverflowOrderedListMarker \/ e = TocDoesNotRenderAsCoherentList \/ (e = ValueError /\ true = false) end).
  { intros t. cbn [bind]. unfold build_toc_line. destruct (Z.ltb_spec spaces 0); [lia|]. cbn [bind]. repeat split; cbn; auto; lia. }
  destruct (o_no_links o); cbn [bind] in *; apply Z.
Qed.

(** ** The loop *)
Definition loop_error (E : env) (o : opts) (ordered : bool) (m : str) (lines : list str) (e : exn) : Prop :=
  documented e \/ (e = ValueError /\ marker_ok (o_parser o) ordered m = false) \/ (scanner_error e /\ ~ anchors_safe E (o_parser o) (o_no_links o) lines).
Lemma line_step_errors E o ordered m line st : known_parser (o_parser o) -> (1 <= o_keep o)%Z -> file_line line -> st_inv st ->
  match line_step E o ordered m line st with Ok st' => st_inv st' | Err e => loop_error E o ordered m [line] e end.
Proof.
  intros Hp Hk Hl Hi. unfold line_step. destruct (fence_step _ _ _) as ((look & inside) & fence). destruct look; [|exact Hi].
  pose proof (md_header_errors E (o_parser o) (o_keep o) (o_no_links o) (t_dups (set_fence st inside fence)) line Hp Hk Hl) as G. destruct (get_md_header _ _ _ _ _ _) as [(hs & d)|e]; cbn [bind].
  - destruct G as [->|(h & -> & Hlev & Ha)]; [exact Hi|]. destruct (hd_visible h); [|exact Hi].
    pose proof (add_header_errors o ordered m (set_dups (set_fence st inside fence) d) h Hp Hi Hlev Ha) as A. destruct (add_header _ _ _ _ _) as [st'|e]; [exact A|].
    destruct A as [->|[->|A]]; [left; cbn; auto|left; cbn; auto|right; left; exact A].
  - destruct G as [[->| ->]|G]; [left; cbn; auto|left; cbn; auto|right; right; exact G].
Qed.
Lemma anchors_safe_cons E p nl l ls : anchors_safe E p nl (l :: ls) -> anchors_safe E p nl [l] /\ anchors_safe E p nl ls.
Proof. intros [->|(A & B & C)]; [split; left; reflexivity|]. inversion B; subst. split; right; (split; [exact A|]; split; [auto|]); intros X; specialize (C X); inversion C; auto. Qed.
Lemma loop_errors E o stdin ordered m bad : known_parser (o_parser o) -> (1 <= o_keep o)%Z -> forall lines st, Forall file_line lines -> st_inv st ->
  forall e, toc_loop E o stdin ordered m lines bad st = Err e -> loop_error E o ordered m lines e.
Proof.
  intros Hp Hk. induction lines as [|l ls IH]; intros st Hf Hi e H; cbn [toc_loop] in H; [discriminate|]. inversion Hf as [|? ? Hl Hf']; subst. destruct (_ && _); [discriminate|].
  set (st1 := if negb stdin && _ then set_end st else st) in *. assert (Hi1 : st_inv st1) by (unfold st1; destruct (_ && _); exact Hi).
  pose proof (line_step_errors E o ordered m l st1 Hp Hk Hl Hi1) as A. destruct (line_step _ _ _ _ _ _) as [st'|x]; cbn [bind] in H.
  - destruct (IH st' Hf' A e H) as [G|[G|(G1 & G2)]]; [left; exact G|right; left; exact G|]. right. right. split; [exact G1|]. intros X. apply anchors_safe_cons in X. tauto.
  - injection H as <-. destruct A as [G|[G|(G1 & G2)]]; [left; exact G|right; left; exact G|]. right. right. split; [exact G1|]. intros X. apply anchors_safe_cons in X. tauto.
Qed.

(** ** C47 *)
Lemma known_true p : known_parser p -> known p = true.
Proof. intros H. destruct p; try reflexivity. exfalso. apply H. reflexivity. Qed.
Lemma fix_marker_ok o : known_parser (o_parser o) -> exists ordered m, fix_marker o = Ok (ordered, m) /\ (marker_valid o -> marker_ok (o_parser o) ordered m = true).
Proof.
  intros Hp. unfold fix_marker. rewrite (known_true _ Hp). set (m0 := match o_marker o with Some m => m | None => [] end).
  destruct (o_ordered o) eqn:Ho; cbn [bind orb].
  - eexists _, _. split; [reflexivity|]. intros _. unfold marker_ok. rewrite (known_true _ Hp). cbn [negb orb]. match goal with |- context[if sin ?a ?b then _ else _] => destruct (sin a b) eqn:S end; [exact S|]. destruct (o_parser o); try reflexivity. exfalso. apply Hp. reflexivity.
  - destruct (o_constant o) eqn:Hc; cbn [bind].
    + eexists _, _. split; [reflexivity|]. intros _. unfold marker_ok. rewrite (known_true _ Hp). cbn [negb orb]. match goal with |- context[if sin ?a ?b then _ else _] => destruct (sin a b) eqn:S end; [exact S|]. destruct (o_parser o); try reflexivity. exfalso. apply Hp. reflexivity.
    + eexists _, _. split; [reflexivity|]. intros [H|[H|(m & Hm & Hin)]]; [congruence|congruence|]. unfold m0. rewrite Hm. unfold marker_ok. rewrite (known_true _ Hp). cbn [negb orb].
      destruct (o_parser o); try (exfalso; apply Hp; reflexivity); destruct Hin as [<-|[<-|[<-|[]]]]; reflexivity.
Qed.
Lemma skip_errors : forall n d, match skip n d with Ok d' => exists k, d_lines d' = skipn k (d_lines d) | Err e => e = UnicodeDecodeError /\ d_bad d = true /\ length (d_lines d) < n end.
Proof.
  induction n as [|n IH]; intros d; cbn [skip]; [exists 0; reflexivity|]. destruct d as [[|l ls] bad]; cbn.
  - destruct bad; [repeat split; cbn; lia|exists 0; reflexivity].
  - specialize (IH (mkDoc ls bad)). destruct (skip n (mkDoc ls bad)) as [d'|e]; [destruct IH as (k & H); exists (S k); exact H|]. cbn in IH. destruct IH as (A & B & C). repeat split; auto. lia.
Qed.
Lemma anchors_safe_skipn E p nl k lines : anchors_safe E p nl lines -> anchors_safe E p nl (skipn k lines).
Proof. intros [->|(A & B & C)]; [left; reflexivity|]. right. rewrite <- (firstn_skipn k lines) in B, C. rewrite Forall_app in *. split; [exact A|]. tauto. Qed.
Lemma build_toc_errors E o fn d e : known_parser (o_parser o) -> (1 <= o_keep o)%Z -> (0 <= o_skip o)%Z -> Forall file_line (d_lines d) -> build_toc E o fn d = Err e ->
  documented e \/ (e = UnicodeDecodeError /\ d_bad d = true /\ (Z.of_nat (length (d_lines d)) < o_skip o)%Z)
  \/ (e = ValueError /\ ~ marker_valid o) \/ (scanner_error e /\ ~ anchors_safe E (o_parser o) (o_no_links o) (d_lines d)).
Proof.
  intros Hp Hk Hs Hf H. unfold build_toc in H. destruct (Z.ltb_spec (o_skip o) 0); [lia|]. destruct (fix_marker_ok o Hp) as (ordered & m & Hm & Hv). rewrite Hm in H. cbn [bind] in H.
  pose proof (skip_errors (Z.to_nat (o_skip o)) d) as S. destruct (skip _ d) as [d'|x]; cbn [bind] in H.
  - destruct S as (k & Hd).
    assert (G : (do log <- init_indentation_log (o_parser o) m; do r <- toc_loop E o (is_stdin fn) ordered m (d_lines d') (d_bad d') (init_state log);
        match r with None => Ok (binary_comment fn) | Some st => Ok (concat (t_toc st)) end) = Err e).
    { destruct (d_lines d') as [|l ls]; [destruct (d_bad d'); [discriminate|exact H]|exact H]. }
    clear H. unfold init_indentation_log in G. rewrite (known_true _ Hp) in G. cbn [bind] in G. destruct (toc_loop _ _ _ _ _ _ _ _) as [r|x] eqn:L; cbn [bind] in G; [destruct r; discriminate|]. injection G as ->.
    assert (Hf' : Forall file_line (d_lines d')) by (rewrite Hd; rewrite <- (firstn_skipn k (d_lines d)) in Hf; apply Forall_app in Hf; tauto).
    destruct (loop_errors E o (is_stdin fn) ordered m (d_bad d') Hp Hk (d_lines d') (init_state (repeat (mkIlog 0 m 0) 6)) Hf') with (e := e) as [A|[(A & B)|(A & B)]].
    + split; [reflexivity|]. split; [cbn; repeat constructor; cbn; lia|]. split; [cbn; lia|constructor].
    + exact L.
    + left. exact A.
    + right. right. left. split; [exact A|]. intros X. apply Hv in X. congruence.
    + right. right. right. split; [exact A|]. intros X. apply B. rewrite Hd. apply anchors_safe_skipn. exact X.
  - injection H as ->. destruct S as (A & B & C). right. left. repeat split; auto. lia.
Qed.

(** Whatever the options (of a known parser) and the document, building the table ends, and if it
    ends with an exception this is one of the documented ones, a decoding error, a ValueError, an
    IndexError or a KeyError: never a TypeError, an unbound variable, the complaint about newlines
    inside a heading or an endless loop. *)
Theorem C47_errors_of_build_toc : forall E o fn d e, known_parser (o_parser o) -> Forall file_line (d_lines d) ->
  build_toc E o fn d = Err e -> documented e \/ In e [UnicodeDecodeError; ValueError; IndexError; KeyError].
Proof.
  intros E o fn d e Hp Hf H. destruct (Z.ltb_spec (o_skip o) 0) as [Hs|Hs].
  { unfold build_toc in H. destruct (Z.ltb_spec (o_skip o) 0); [|lia]. injection H as <-. right. cbn. auto. }
  destruct (Z.ltb_spec (o_keep o) 1) as [Hk|Hk].
  - right. unfold build_toc in H. destruct (Z.ltb_spec (o_skip o) 0); [lia|]. destruct (fix_marker_ok o Hp) as (ordered & m & Hm & _). rewrite Hm in H. cbn [bind] in H.
    pose proof (skip_errors (Z.to_nat (o_skip o)) d) as S. destruct (skip _ d) as [d'|x]; cbn [bind] in H; [|injection H as ->; destruct S as (-> & _); cbn; auto].
    assert (G : (do log <- init_indentation_log (o_parser o) m; do r <- toc_loop E o (is_stdin fn) ordered m (d_lines d') (d_bad d') (init_state log);
        match r with None => Ok (binary_comment fn) | Some st => Ok (concat (t_toc st)) end) = Err e).
    { destruct (d_lines d') as [|l ls]; [destruct (d_bad d'); [discriminate|exact H]|exact H]. }
    clear H. unfold init_indentation_log in G. rewrite (known_true _ Hp) in G. cbn [bind] in G. destruct (toc_loop _ _ _ _ _ _ _ _) as [r|x] eqn:L; cbn [bind] in G; [destruct r; discriminate|]. injection G as ->.
    assert (K : forall lines st, toc_loop E o (is_stdin fn) ordered m lines (d_bad d') st = Err e -> e = ValueError).
    { induction lines as [|l ls IH]; intros st T; cbn [toc_loop] in T; [discriminate|]. destruct (_ && _); [discriminate|]. destruct (line_step _ _ _ _ _ _) as [st'|x] eqn:LS; cbn [bind] in T; [eapply IH; exact T|]. injection T as ->.
      unfold line_step in LS. destruct (fence_step _ _ _) as ((look & inside) & fence). destruct look; [|discriminate]. unfold get_md_header, get_atx_heading in LS. destruct (Z.ltb_spec (o_keep o) 1); [|lia]. cbn [bind] in LS. congruence. }
    rewrite (K _ _ L). cbn. auto.
  - destruct (build_toc_errors E o fn d e Hp Hk Hs Hf H) as [A|[(-> & _)|[(-> & _)|(A & _)]]]; [left; exact A|right; cbn; auto|right; cbn; auto|]. right. unfold scanner_error in A. cbn in *. intuition.
Qed.
Print Assumptions C47_errors_of_build_toc.
Example C47_errors_of_build_toc_ex :
  Forall file_line [ln "# a [b][c"] /\
  build_toc ascii_env (mkOpts false true false false 6 Github (Some (lit "-")) 0 false [10%N]) (lit "f") (mkDoc [ln "# a [b][c"] false) = Err KeyError.
Proof. split; [constructor; [fln|constructor]|vm_compute; reflexivity]. Qed.

(** With sensible options only the documented exceptions are left, when the anchors are those of
    Redcarpet, or the lines are safe and links are on (or the lines have ordinary links only). *)
Theorem C47_only_documented_errors : forall E o fn d e,
  known_parser (o_parser o) -> (1 <= o_keep o)%Z -> (0 <= o_skip o)%Z -> marker_valid o ->
  Forall file_line (d_lines d) -> d_bad d = false ->
  anchors_safe E (o_parser o) (o_no_links o) (d_lines d) ->
  build_toc E o fn d = Err e -> documented e.
Proof.
  intros E o fn d e Hp Hk Hs Hm Hf Hb Ha H. destruct (build_toc_errors E o fn d e Hp Hk Hs Hf H) as [A|[(_ & B & _)|[(_ & B)|(_ & B)]]]; [exact A|congruence|tauto|tauto].
Qed.
Print Assumptions C47_only_documented_errors.
Lemma ascii_digit_range c : ascii_digit c = true -> (48 <= c <= 57)%N.
Proof. unfold ascii_digit, in_range. rewrite andb_true_iff, !N.leb_le. auto. Qed.
Lemma python_tables_ascii : python_tables ascii_env.
Proof.
  split; [|split; [|discriminate]].
  - intros s. exists (map (fun c => [if N.eqb c 256 then 257%N else ascii_tolower c]) s). split.
    + induction s as [|c s IH]; constructor; [|exact IH]. unfold lowered, ascii_tolower, ascii_upper, in_range.
      destruct (N.eqb_spec c 256) as [->|Hne]; [split; [lia|]; split; [lia|]; intros _; split; [discriminate|]; constructor; [|constructor]; split; [right; lia|]; split; [lia|]; intros X; discriminate|].
      destruct ((65 <=? c) && (c <=? 90))%N eqn:X; [apply andb_true_iff in X as (A & B); rewrite N.leb_le in *; split; [reflexivity|]; split; lia|].
      apply andb_false_iff in X; rewrite !N.leb_gt in X. split; [lia|]. split; [reflexivity|]. intros H. split; [discriminate|]. constructor; [|constructor]. split; [right; lia|]. split; [lia|reflexivity].
    + induction s as [|c s IH]; [reflexivity|]. cbn in *. rewrite IH. reflexivity.
  - intros c _. cbn. unfold ascii_digit, in_range, is_digit. rewrite andb_true_iff, !N.leb_le. reflexivity.
Qed.
Lemma safe_line_b s : forallb (fun c => negb (N.eqb c 0)) s && bsl_b false s = true -> safe_line ascii_env s.
Proof.
  rewrite andb_true_iff, forallb_forall. intros (A & B). split; [intros X; apply A in X; discriminate|]. split; [intros c _ H; apply ascii_digit_range; exact H|].
  intros a b ->. apply bsl_app in B as (_ & B). cbn in B. destruct (last a 0%N =? 92)%N; discriminate B.
Qed.
Example C47_only_documented_errors_ex :
  let o := mkOpts false false false false 6 Github (Some (lit "-")) 0 false [10%N] in
  let ls := [ln "# [a](b) *c*"; ln "### d"] in
  marker_valid o /\ Forall file_line ls /\ anchors_safe ascii_env Github false ls /\
  build_toc ascii_env o (lit "f") (mkDoc ls false) = Err TocDoesNotRenderAsCoherentList.
Proof.
  cbv zeta. split; [right; right; exists (lit "-"); split; [reflexivity|left; reflexivity]|]. split.
  { constructor; [fln|constructor; [fln|constructor]]. }
  split; [|vm_compute; reflexivity].
  right. split; [exact python_tables_ascii|]. split; [|discriminate]. constructor; [|constructor; [|constructor]]; apply safe_line_b; vm_compute; reflexivity.
Qed.
Lemma plain_links_b s : forallb (fun c => negb (cin c [60; 92; 34; 39; 11; 59]%N)) s = true -> nref_b false s = true -> plain_links s.
Proof.
  rewrite forallb_forall. intros H R. assert (G : forall c, In c s -> ~ In c [60; 92; 34; 39; 11; 59]%N) by (intros c Hc; apply cin_not_In, negb_true_iff, H, Hc).
  split; [intros c Hc X; apply (G c Hc); cbn in *; tauto|]. split; [right; intros X; apply (G _ X); cbn; auto 8|]. apply (nref_iff s false), R.
Qed.
Example C47_only_documented_errors_links_ex :
  let o := mkOpts false true false false 6 Github (Some (lit "-")) 0 false [10%N] in
  let ls := [ln "# [a](b) and [*c*](http://d.e/?f=g&h=i#j)"; ln "### ![k](l.png) [m]"] in
  marker_valid o /\ Forall file_line ls /\ anchors_safe ascii_env Github true ls /\
  build_toc ascii_env o (lit "f") (mkDoc ls false) = Err TocDoesNotRenderAsCoherentList.
Proof.
  cbv zeta. split; [right; right; exists (lit "-"); split; [reflexivity|left; reflexivity]|]. split.
  { constructor; [fln|constructor; [fln|constructor]]. }
  split; [|vm_compute; reflexivity].
  right. split; [exact python_tables_ascii|]. split; [constructor; [|constructor; [|constructor]]; apply safe_line_b; vm_compute; reflexivity|].
  intros _. constructor; [|constructor; [|constructor]]; right; (split; [exact zs_ascii_ex|]); apply plain_links_b; vm_compute; reflexivity.
Qed.

(** Without the condition on backslashes before '<' it is false: removing the HTML tags of this
    heading undoes an escape, and the destination of the link that appears is never closed. *)
Theorem C47_only_documented_errors_refuted : exists E o fn d,
  known_parser (o_parser o) /\ (1 <= o_keep o)%Z /\ (0 <= o_skip o)%Z /\ marker_valid o /\ Forall file_line (d_lines d) /\ d_bad d = false /\
  o_no_links o = false /\ python_tables E /\ Forall (fun s => ~ In 0%N s /\ plain_digits E s) (d_lines d) /\ build_toc E o fn d = Err IndexError.
Proof.
  exists ascii_env, (mkOpts false false false false 6 Github (Some (lit "-")) 0 false [10%N]), (lit "f"), (mkDoc [lit "# \<b>[x\<b>](u ""t""" ++ [10%N]] false).
  split; [discriminate|]. split; [cbn; lia|]. split; [cbn; lia|]. split; [right; right; exists (lit "-"); split; [reflexivity|left; reflexivity]|].
  split; [constructor; [apply (file_ln "# \<b>[x\<b>](u ""t"""), single_lit; vm_compute; reflexivity|constructor]|].
  split; [reflexivity|]. split; [reflexivity|]. split; [exact python_tables_ascii|]. split; [|vm_compute; reflexivity].
  constructor; [|constructor]. split; [vm_compute; intuition discriminate|]. intros c _ H. apply ascii_digit_range. exact H.
Qed.
Print Assumptions C47_only_documented_errors_refuted.
