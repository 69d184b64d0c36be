(** Rows of the table, from the history-based specification. *)
From Coq Require Import String List NArith ZArith Bool Arith Lia.
From Verif Require Import Str Fence Atx HtmlRe Inlines Anchor Toc Spec AnchorSpec TocSpec TableSpec.
From Verif Require Import StrFacts FenceProof AtxProof DecFacts AnchorProof TocProof TocLoop.
Import ListNotations.
Local Open Scope list_scope.

Definition history := list (nat * nat).

Definition push (o : opts) (ordered : bool) (m : str) (hist : history) (l : nat) : history :=
  (l, length (entry_marker o ordered m hist l)) :: hist.

Fixpoint rows (o : opts) (ordered : bool) (m : str) (hist : history) (es : list entry) : res (list str) :=
  match es with
  | [] => Ok []
  | e :: es' =>
      match entry_line o ordered m hist (e_level e) (e_text e) (e_anchor e) with
      | Err x => Err x
      | Ok s => match rows o ordered m (push o ordered m hist (e_level e)) es' with
                | Err x => Err x
                | Ok ss => Ok (s :: ss)
                end
      end
  end.

Lemma toc_lines_rows E o ordered m ks fs :
  headings E (o_parser o) (o_no_links o) ks fs -> forall seen hist,
  toc_lines E o ordered m seen hist ks =
  rows o ordered m hist (filter (fun e => listed (o_parser o) (o_keep o) (e_level e)) (with_anchors (o_parser o) seen fs)).
Proof.
  induction 1 as [|l ls fs H Hs IH|l ls f fs H Hs IH]; intros seen hist; cbn [toc_lines]; [reflexivity| |]; rewrite H.
  - apply IH.
  - cbn [with_anchors filter e_level]. destruct (listed _ _ _); [|apply IH].
    cbn [rows e_level e_text e_anchor]. destruct (entry_line _ _ _ _ _ _ _); [|reflexivity]. rewrite IH. reflexivity.
Qed.

Lemma headings_dec E p nl ks :
  (exists fs, headings E p nl ks fs) \/ exists l e, In l ks /\ line_heading E p nl l = Err e.
Proof.
  induction ks as [|l ks [(fs & IH)|(l' & e & Hin & IH)]].
  - left. eexists. constructor.
  - destruct (line_heading E p nl l) as [[f|]|e] eqn:El.
    + left. eexists. eapply hs_heading; eauto.
    + left. eexists. eapply hs_other; eauto.
    + right. exists l, e. cbn. auto.
  - right. exists l', e. cbn. auto.
Qed.
Lemma toc_lines_headings E o ordered m ks : forall seen hist ls,
  toc_lines E o ordered m seen hist ks = Ok ls -> exists fs, headings E (o_parser o) (o_no_links o) ks fs.
Proof.
  induction ks as [|l ks IH]; intros seen hist ls; cbn [toc_lines]; intros H; [eexists; constructor|].
  destruct (line_heading E (o_parser o) (o_no_links o) l) as [[f|]|e] eqn:El; [| |discriminate].
  - destruct (listed _ _ _).
    + destruct (entry_line _ _ _ _ _ _ _); [|discriminate].
      destruct (toc_lines _ _ _ _ _ _ _) eqn:Et; [|discriminate]. apply IH in Et as (fs & G). eexists. eapply hs_heading; eauto.
    + apply IH in H as (fs & G). eexists. eapply hs_heading; eauto.
  - apply IH in H as (fs & G). eexists. eapply hs_other; eauto.
Qed.
Lemma headings_fun E p nl ks fs : headings E p nl ks fs -> forall fs', headings E p nl ks fs' -> fs = fs'.
Proof.
  induction 1 as [|l ls fs H Hs IH|l ls f fs H Hs IH]; intros fs' G; inversion G; subst; try congruence; auto.
  - rewrite H in *. match goal with A : Ok (Some _) = Ok (Some _) |- _ => injection A as -> end. f_equal. auto.
Qed.
Lemma headings_slugs E p nl ks fs : headings E p nl ks fs -> line_slugs E p nl ks = map f_slug fs.
Proof.
  induction 1 as [|l ls fs H Hs IH|l ls f fs H Hs IH]; [reflexivity| |]; unfold line_slugs in *; cbn; rewrite H; cbn; congruence.
Qed.

(** ** The content of the rows *)
Fixpoint cols_of (o : opts) (ordered : bool) (m : str) (hist : history) (ls : list nat) : list nat :=
  match ls with
  | [] => []
  | l :: ls' => (if o_no_indentation o then 0 else column (o_parser o) hist l)
                :: cols_of o ordered m (push o ordered m hist l) ls'
  end.
Fixpoint nums_of (o : opts) (ordered : bool) (m : str) (hist : history) (ls : list nat) : list nat :=
  match ls with
  | [] => []
  | l :: ls' => entry_number o ordered hist l :: nums_of o ordered m (push o ordered m hist l) ls'
  end.
Lemma cols_length o ordered m ls : forall hist, length (cols_of o ordered m hist ls) = length ls.
Proof. induction ls; intros; cbn; auto. Qed.
Lemma nums_length o ordered m ls : forall hist, length (nums_of o ordered m hist ls) = length ls.
Proof. induction ls; intros; cbn; auto. Qed.

Lemma rows_table o es : forall hist ls,
  rows o (used_ordered o) (used_marker o) hist es = Ok ls ->
  concat ls = table o es (cols_of o (used_ordered o) (used_marker o) hist (levels es))
                         (nums_of o (used_ordered o) (used_marker o) hist (levels es)).
Proof.
  induction es as [|e es IH]; intros hist ls; cbn [rows]; intros H; [injection H as <-; reflexivity|].
  destruct (entry_line _ _ _ _ _ _ _) as [s|] eqn:Es; [|discriminate].
  destruct (rows _ _ _ _ _) as [ss|] eqn:Er; [|discriminate]. injection H as <-. cbn [concat levels map cols_of nums_of table].
  rewrite (IH _ _ Er). f_equal. unfold entry_line in Es.
  destruct (numbered_list _ _ && _ && _); [discriminate|]. destruct (_ && incoherent _ _); [discriminate|].
  destruct (negb _ && negb _); [discriminate|]. injection Es as <-. reflexivity.
Qed.

(** ** When rows are produced *)
Definition valid_marker (o : opts) : Prop :=
  used_ordered o = true \/ In (used_marker o) [lit "-"; lit "+"; lit "*"].
Lemma valid_marker_iff o : known_parser (o_parser o) ->
  (negb (used_ordered o) && negb (sin (used_marker o) (bullet_markers (o_parser o))) = false <-> valid_marker o).
Proof.
  intros Hp. unfold valid_marker. destruct (used_ordered o); cbn [negb andb]; [tauto|].
  assert (Hb : bullet_markers (o_parser o) = [lit "-"; lit "+"; lit "*"]) by (destruct (o_parser o); try reflexivity; destruct Hp; reflexivity).
  rewrite Hb, negb_false_iff. unfold sin. rewrite existsb_exists. split.
  - intros (x & H & G). apply seqb_eq in G. subst. auto.
  - intros [H|H]; [discriminate|]. exists (used_marker o). split; [exact H|]. apply seqb_eq. reflexivity.
Qed.

Lemma last_number_bound h l : last_number h l <= length h.
Proof.
  induction h as [|x h IH]; cbn [last_number length]; [lia|]. destruct (x =? l); [|lia].
  destruct h as [|y h']; [lia|]. destruct (y <? l); lia.
Qed.
Lemma number_bound h l : number h l <= S (length h).
Proof. unfold number. destruct h as [|y h]; [lia|]. destruct (y <? l); [lia|]. pose proof (last_number_bound (y :: h) l). lia. Qed.

Definition coherent_step (hist : list nat) (l : nat) : Prop := incoherent hist l = false.
Fixpoint coherent_from (hist : list nat) (ls : list nat) : Prop :=
  match ls with
  | [] => True
  | l :: ls' => coherent_step hist l /\ coherent_from (l :: hist) ls'
  end.
Lemma push_levels o ordered m hist l : map fst (push o ordered m hist l) = l :: map fst hist.
Proof. reflexivity. Qed.

Lemma incoherent_iff hist l : coherent_step hist l <-> (hist = [] \/ last hist 0 <= l <= S (hd 0 hist)).
Proof.
  unfold coherent_step, incoherent. destruct hist as [|x h]; [intuition|].
  rewrite orb_false_iff, !Nat.ltb_ge. cbn [hd]. split; [right; lia|]. intros [H|H]; [discriminate|lia].
Qed.
Lemma coherent_from_iff ls : forall hist, coherent_from hist ls <->
  forall pre l post, ls = pre ++ l :: post -> coherent_step (rev pre ++ hist) l.
Proof.
  induction ls as [|a ls IH]; intros hist; cbn [coherent_from].
  - split; [|auto]. intros _ [|x pre] l post H; discriminate.
  - rewrite IH. split.
    + intros (A & B) [|x pre] l post H; injection H as <- H; [subst; exact A|].
      cbn [rev]. rewrite <- app_assoc. apply (B pre l post H).
    + intros H. split; [apply (H [] a ls); reflexivity|]. intros pre l post G.
      specialize (H (a :: pre) l post). cbn [rev] in H. rewrite <- app_assoc in H. apply H. rewrite G. reflexivity.
Qed.
Lemma last_rev {A} (l : list A) d : last (rev l) d = hd d l.
Proof. destruct l as [|x l]; [reflexivity|]. cbn [rev hd]. apply last_last. Qed.
Lemma hd_rev {A} (l : list A) d : hd d (rev l) = last l d.
Proof. rewrite <- (rev_involutive l) at 2. rewrite last_rev. reflexivity. Qed.
Lemma coherent_iff ls : coherent ls <-> coherent_from [] ls.
Proof.
  rewrite coherent_from_iff. unfold coherent. split; intros H pre l post E.
  - rewrite app_nil_r. apply incoherent_iff. destruct pre as [|x pre]; [left; reflexivity|]. right.
    rewrite last_rev, hd_rev. apply (H _ _ _ E). discriminate.
  - intros Hne. specialize (H _ _ _ E). rewrite app_nil_r in H. apply incoherent_iff in H as [H|H].
    + destruct pre; [congruence|]. cbn in H. destruct (rev pre); discriminate.
    + rewrite last_rev, hd_rev in H. exact H.
Qed.

Definition no_overflow (o : opts) (n : nat) : Prop :=
  numbered_list o (used_ordered o) = false \/ limits_index (o_parser o) = false \/ (Z.of_nat n <= 999999999)%Z.

Lemma rows_accept o es : forall hist,
  known_parser (o_parser o) -> valid_marker o -> no_overflow o (length hist + length es) ->
  (o_no_indentation o = true \/ o_no_list_coherence o = true \/ coherent_from (map fst hist) (levels es)) ->
  exists ls, rows o (used_ordered o) (used_marker o) hist es = Ok ls.
Proof.
  induction es as [|e es IH]; intros hist Hp Hm Hov Hc; [eexists; reflexivity|]. cbn [rows].
  assert (G : exists s, entry_line o (used_ordered o) (used_marker o) hist (e_level e) (e_text e) (e_anchor e) = Ok s).
  { unfold entry_line.
    assert (Ho : numbered_list o (used_ordered o) && limits_index (o_parser o) && (999999999 <? Z.of_nat (entry_number o (used_ordered o) hist (e_level e)))%Z = false).
    { destruct Hov as [Hov|[Hov|Hov]].
      - rewrite Hov. reflexivity.
      - rewrite Hov. rewrite andb_false_r. reflexivity.
      - apply andb_false_iff. right. apply Z.ltb_ge. unfold entry_number.
        cbn [length] in Hov. pose proof (number_bound (map fst hist) (e_level e)) as Hb. rewrite map_length in Hb.
        destruct (numbered_list _ _); lia. }
    rewrite Ho.
    assert (Hi : negb (o_no_indentation o) && negb (o_no_list_coherence o) && incoherent (map fst hist) (e_level e) = false).
    { destruct Hc as [Hc|[Hc|(Hc & _)]].
      - rewrite Hc. reflexivity.
      - rewrite Hc. rewrite andb_false_r. reflexivity.
      - unfold coherent_step in Hc. rewrite Hc. apply andb_false_r. }
    rewrite Hi. apply (valid_marker_iff o Hp) in Hm. rewrite Hm. eexists. reflexivity. }
  destruct G as (s & ->).
  destruct (IH (push o (used_ordered o) (used_marker o) hist (e_level e))) as (ls & ->); try assumption.
  - cbn [push length] in *. rewrite <- Nat.add_succ_comm in Hov. exact Hov.
  - destruct Hc as [Hc|[Hc|(_ & Hc)]]; auto.
  - eexists. reflexivity.
Qed.

Lemma rows_reject o es : forall hist,
  known_parser (o_parser o) -> valid_marker o -> no_overflow o (length hist + length es) ->
  o_no_indentation o = false -> o_no_list_coherence o = false -> ~ coherent_from (map fst hist) (levels es) ->
  rows o (used_ordered o) (used_marker o) hist es = Err TocDoesNotRenderAsCoherentList.
Proof.
  induction es as [|e es IH]; intros hist Hp Hm Hov Hi Hn Hc; [destruct Hc; exact I|]. cbn [rows].
  unfold entry_line.
  assert (Ho : numbered_list o (used_ordered o) && limits_index (o_parser o) && (999999999 <? Z.of_nat (entry_number o (used_ordered o) hist (e_level e)))%Z = false).
  { destruct Hov as [Hov|[Hov|Hov]].
    - rewrite Hov. reflexivity.
    - rewrite Hov. rewrite andb_false_r. reflexivity.
    - apply andb_false_iff. right. apply Z.ltb_ge. unfold entry_number.
      cbn [length] in Hov. pose proof (number_bound (map fst hist) (e_level e)) as Hb. rewrite map_length in Hb.
      destruct (numbered_list _ _); lia. }
  rewrite Ho, Hi, Hn. cbn [negb andb]. destruct (incoherent (map fst hist) (e_level e)) eqn:Einc; [reflexivity|].
  pose proof Hm as Hm'. apply (valid_marker_iff o Hp) in Hm'. rewrite Hm'.
  rewrite (IH (push o (used_ordered o) (used_marker o) hist (e_level e))); auto.
  - cbn [push length] in *. rewrite <- Nat.add_succ_comm in Hov. exact Hov.
  - intros G. apply Hc. split; [exact Einc|exact G].
Qed.
Lemma rows_coherent o ordered m es : forall hist ls,
  o_no_indentation o = false -> o_no_list_coherence o = false ->
  rows o ordered m hist es = Ok ls -> coherent_from (map fst hist) (levels es).
Proof.
  induction es as [|e es IH]; intros hist ls Hi Hn H; [exact I|]. cbn [rows] in H.
  destruct (entry_line _ _ _ _ _ _ _) as [s|] eqn:Es; [|discriminate].
  destruct (rows _ _ _ _ _) as [ss|] eqn:Er; [|discriminate]. split; [|apply (IH _ _ Hi Hn Er)].
  unfold entry_line in Es. rewrite Hi, Hn in Es. cbn [negb andb] in Es.
  destruct (numbered_list _ _ && _ && _); [discriminate|]. unfold coherent_step. destruct (incoherent _ _); [discriminate|reflexivity].
Qed.

(** ** Numbers and columns in a coherent table *)
Fixpoint coherent_hist (hist : list nat) : Prop :=
  match hist with [] => True | x :: h => coherent_step h x /\ coherent_hist h end.

Lemma last_cons2 {A} (x y : A) h d : last (x :: y :: h) d = last (y :: h) d.
Proof. reflexivity. Qed.

Lemma last_number_siblings h l :
  coherent_hist h -> h <> [] -> l <= hd 0 h -> last h 0 <= l -> last_number h l = siblings h l.
Proof.
  induction h as [|x h IH]; intros Hc Hne Hhd Hla; [congruence|]. cbn [hd] in Hhd. destruct Hc as (Hs & Hc).
  cbn [last_number siblings]. replace (x <? l) with false by (symmetry; apply Nat.ltb_ge; lia).
  apply incoherent_iff in Hs.
  destruct h as [|y h'].
  - cbn [last] in Hla. assert (x = l) by lia. subst. rewrite Nat.eqb_refl. reflexivity.
  - destruct Hs as [Hs|Hs]; [discriminate|]. cbn [hd] in Hs. rewrite last_cons2 in Hla.
    destruct (x =? l) eqn:Exl.
    + destruct (y <? l) eqn:Eyl.
      * cbn [siblings]. rewrite Eyl. reflexivity.
      * apply Nat.ltb_ge in Eyl. rewrite IH; auto; [discriminate].
    + apply Nat.eqb_neq in Exl. rewrite IH; auto; [discriminate|cbn [hd]; lia].
Qed.
Lemma number_siblings h l : coherent_hist h -> coherent_step h l -> number h l = S (siblings h l).
Proof.
  intros Hc Hs. unfold number. destruct h as [|y h]; [reflexivity|]. apply incoherent_iff in Hs as [Hs|Hs]; [discriminate|].
  cbn [hd] in Hs. destruct (y <? l) eqn:E.
  - cbn [siblings]. rewrite E. reflexivity.
  - apply Nat.ltb_ge in E. rewrite last_number_siblings; auto; [discriminate|lia].
Qed.

Fixpoint parent_column (hist : history) (l : nat) : nat :=
  match hist with
  | [] => 0
  | (x, w) :: h => if x <? l then column_from true h x + w + 1 else parent_column h l
  end.
Lemma column_parent_false h l : coherent_hist (map fst h) -> (h = [] \/ l <= hd 0 (map fst h)) -> column_from false h l = parent_column h l
with column_parent h l : coherent_hist (map fst h) -> column_from true h l = parent_column h l.
Proof.
  - destruct h as [|(x & w) h]; intros Hc Hl; [reflexivity|]. cbn [column_from parent_column].
    destruct Hl as [Hl|Hl]; [discriminate|]. cbn in Hl. replace (x <? l) with false by (symmetry; apply Nat.ltb_ge; lia).
    destruct Hc as (Hs & Hc). destruct (x =? l) eqn:E; [apply column_parent; exact Hc|].
    apply Nat.eqb_neq in E. apply column_parent_false; [exact Hc|]. apply incoherent_iff in Hs as [Hs|Hs]; [left; destruct h; [reflexivity|discriminate]|].
    cbn [fst] in Hs. right. lia.
  - destruct h as [|(x & w) h]; intros Hc; [reflexivity|]. cbn [column_from parent_column].
    destruct Hc as (Hs & Hc). destruct (x <? l) eqn:El; [reflexivity|]. apply Nat.ltb_ge in El.
    destruct (x =? l) eqn:E; [apply column_parent; exact Hc|].
    apply Nat.eqb_neq in E. apply column_parent_false; [exact Hc|]. apply incoherent_iff in Hs as [Hs|Hs]; [left; destruct h; [reflexivity|discriminate]|].
    cbn [fst] in Hs. right. lia.
Qed.

Lemma nums_siblings o ordered m ls : numbered_list o ordered = true -> forall hist,
  coherent_hist (map fst hist) -> coherent_from (map fst hist) ls ->
  forall i l, nth_error ls i = Some l ->
  nth_error (nums_of o ordered m hist ls) i = Some (S (siblings (rev (firstn i ls) ++ map fst hist) l)).
Proof.
  intros Hn. induction ls as [|a ls IH]; intros hist Hh Hc i l Hi; [destruct i; discriminate|].
  destruct Hc as (Hs & Hc). destruct i as [|i]; cbn [nth_error firstn rev nums_of] in *.
  - injection Hi as ->. unfold entry_number. rewrite Hn, number_siblings by assumption. reflexivity.
  - rewrite (IH (push o ordered m hist a)) with (l := l); auto; [|split; assumption].
    cbn [push map fst]. rewrite <- app_assoc. reflexivity.
Qed.

(** *** Nesting *)
Lemma cols_nth o ordered m ls : forall hist i l, nth_error ls i = Some l ->
  exists hi, nth_error (cols_of o ordered m hist ls) i = Some (if o_no_indentation o then 0 else column (o_parser o) hi l)
    /\ nth_error (nums_of o ordered m hist ls) i = Some (entry_number o ordered hi l)
    /\ hi = fold_left (push o ordered m) (firstn i ls) hist.
Proof.
  induction ls as [|a ls IH]; intros hist i l Hi; [destruct i; discriminate|].
  destruct i as [|i]; cbn [nth_error firstn cols_of nums_of fold_left] in *.
  - injection Hi as ->. exists hist. auto.
  - destruct (IH (push o ordered m hist a) i l Hi) as (hi & A & B & C). exists hi. auto.
Qed.
Lemma fold_push_levels o ordered m ls : forall hist, map fst (fold_left (push o ordered m) ls hist) = rev ls ++ map fst hist.
Proof.
  induction ls as [|a ls IH]; intros hist; [reflexivity|]. cbn [fold_left rev]. rewrite IH. cbn [push map fst]. rewrite <- app_assoc. reflexivity.
Qed.
Lemma fold_push_snoc o ordered m ls a hist :
  fold_left (push o ordered m) (ls ++ [a]) hist = push o ordered m (fold_left (push o ordered m) ls hist) a.
Proof. rewrite fold_left_app. reflexivity. Qed.

Lemma coherent_hist_rev ls : coherent_from [] ls -> coherent_hist (rev ls).
Proof.
  rewrite coherent_from_iff. induction ls as [|a ls IH] using rev_ind; intros H; [exact I|].
  rewrite rev_app_distr. cbn [rev app]. split.
  - specialize (H ls a [] eq_refl). rewrite app_nil_r in H. exact H.
  - apply IH. intros pre l post E. apply (H pre l (post ++ [a])). rewrite E, <- app_assoc. reflexivity.
Qed.
Lemma coherent_firstn i ls : coherent_from [] ls -> coherent_from [] (firstn i ls).
Proof.
  rewrite !coherent_from_iff. intros H pre l post E. apply (H pre l (post ++ skipn i ls)).
  rewrite <- (firstn_skipn i ls) at 1. rewrite E, <- app_assoc. reflexivity.
Qed.
Lemma parent_column_shallow o ordered m pre l : forall hist,
  Forall (fun x => l <= x) pre ->
  parent_column (fold_left (push o ordered m) pre hist) l = parent_column hist l.
Proof.
  induction pre as [|a pre IH]; intros hist F; [reflexivity|]. inversion F; subst. cbn [fold_left]. rewrite IH by assumption.
  cbn [push parent_column]. replace (a <? l) with false by (symmetry; apply Nat.ltb_ge; lia). reflexivity.
Qed.
Lemma firstn_split {A} (l : list A) j i x : j < i -> nth_error l j = Some x -> i <= length l ->
  firstn i l = firstn j l ++ x :: firstn (i - S j) (skipn (S j) l).
Proof.
  revert j i. induction l as [|a l IH]; intros j i Hj Hx Hi; [destruct j; discriminate|].
  destruct i as [|i]; [lia|]. destruct j as [|j]; cbn [nth_error firstn skipn app] in *.
  - injection Hx as ->. replace (S i - 1) with i by lia. reflexivity.
  - rewrite (IH j i) by (lia || assumption || (cbn in Hi; lia)). reflexivity.
Qed.
Lemma nth_error_skipn {A} (l : list A) : forall n k, nth_error (skipn n l) k = nth_error l (n + k).
Proof. induction l as [|a l IH]; intros [|n] k; cbn; auto. destruct k; reflexivity. Qed.
Lemma nth_error_firstn {A} (l : list A) : forall n k, k < n -> nth_error (firstn n l) k = nth_error l k.
Proof. induction l as [|a l IH]; intros [|n] [|k] H; cbn; auto; try lia. apply IH. lia. Qed.
Lemma nth_error_firstn_lt {A} (l : list A) n k x : nth_error (firstn n l) k = Some x -> k < n /\ nth_error l k = Some x.
Proof.
  intros H. assert (k < length (firstn n l)) by (apply nth_error_Some; congruence).
  rewrite firstn_length in H0. split; [lia|]. rewrite nth_error_firstn in H by lia. exact H.
Qed.

Lemma cols_nested o ls :
  cm_family (o_parser o) = true -> o_no_indentation o = false -> coherent_from [] ls ->
  nested o ls (cols_of o (used_ordered o) (used_marker o) [] ls) (nums_of o (used_ordered o) (used_marker o) [] ls).
Proof.
  intros Hp Hi Hc.
  assert (Hcol : forall h l, column (o_parser o) h l = column_from true h l) by (intros; destruct (o_parser o); try discriminate; reflexivity).
  split.
  - intros j i cj nj (Hji & lj & li & Ej & Ei & Hl & Hbetween) Hcj Hnj.
    destruct (cols_nth o (used_ordered o) (used_marker o) ls [] j lj Ej) as (hj & Aj & Bj & Cj).
    destruct (cols_nth o (used_ordered o) (used_marker o) ls [] i li Ei) as (hi & Ai & Bi & Ci).
    rewrite Hi, Hcol in Ai, Aj. rewrite Ai. f_equal.
    assert (Hlen : i < length ls) by (apply nth_error_Some; congruence).
    assert (Hch : coherent_hist (map fst hi)).
    { rewrite Ci, fold_push_levels, app_nil_r. apply coherent_hist_rev, coherent_firstn, Hc. }
    rewrite column_parent by exact Hch.
    rewrite Ci, (firstn_split ls j i lj) by (assumption || lia). rewrite app_cons_snoc, fold_left_app, fold_push_snoc, <- Cj.
    rewrite parent_column_shallow.
    + cbn [push parent_column]. replace (lj <? li) with true by (symmetry; apply Nat.ltb_lt; exact Hl).
      rewrite Aj in Hcj. injection Hcj as <-. rewrite Bj in Hnj. injection Hnj as <-. unfold marker_text, entry_marker. reflexivity.
    + apply Forall_forall. intros x Hx. apply In_nth_error in Hx as (k & Hk). apply nth_error_firstn_lt in Hk as (Hk1 & Hk2).
      rewrite nth_error_skipn in Hk2. apply (Hbetween (S j + k)); [lia|exact Hk2].
  - intros i Hlen Hno. destruct (nth_error ls i) as [li|] eqn:Ei; [|apply nth_error_None in Ei; lia].
    destruct (cols_nth o (used_ordered o) (used_marker o) ls [] i li Ei) as (hi & Ai & Bi & Ci).
    rewrite Hi, Hcol in Ai. rewrite Ai. f_equal.
    assert (Hch : coherent_hist (map fst hi)).
    { rewrite Ci, fold_push_levels, app_nil_r. apply coherent_hist_rev, coherent_firstn, Hc. }
    rewrite column_parent by exact Hch. rewrite Ci. rewrite parent_column_shallow; [reflexivity|].
    apply Forall_forall. intros x Hx. apply In_nth_error in Hx as (k & Hk). apply nth_error_firstn_lt in Hk as (Hk1 & Hk2).
    (* otherwise the last smaller entry before i would be a parent *)
    destruct (Nat.le_gt_cases li x) as [|Hlt]; [assumption|]. exfalso.
    assert (Hex : exists j, parent ls j i).
    { clear -Hk1 Hk2 Ei Hlt. remember (i - k) as d eqn:Hd. revert k x Hk1 Hk2 Hlt Hd.
      induction d as [d IH] using (well_founded_induction lt_wf). intros k x Hk1 Hk2 Hlt Hd.
      assert (Hcase : (exists k' x', k < k' < i /\ nth_error ls k' = Some x' /\ x' < li) \/ (forall k' x', k < k' < i -> nth_error ls k' = Some x' -> li <= x')).
      { assert (G : forall n, n <= i -> (exists k' x', k < k' < n /\ nth_error ls k' = Some x' /\ x' < li) \/ (forall k' x', k < k' < n -> nth_error ls k' = Some x' -> li <= x')).
        { induction n as [|n IHn]; intros Hn; [right; intros; lia|]. destruct IHn as [(k' & x' & A & B & C)|IHn]; [lia| |].
          - left. exists k', x'. split; [lia|auto].
          - destruct (Nat.le_gt_cases n k) as [Hnk|Hnk]; [right; intros; lia|].
            destruct (nth_error ls n) as [y|] eqn:Ey.
            + destruct (Nat.le_gt_cases li y) as [Hy|Hy].
              * right. intros k' x' A B. destruct (Nat.eq_dec k' n) as [->|]; [congruence|]. apply (IHn k' x'); [lia|exact B].
              * left. exists n, y. split; [lia|auto].
            + right. intros k' x' A B. destruct (Nat.eq_dec k' n) as [->|]; [congruence|]. apply (IHn k' x'); [lia|exact B]. }
        apply G. lia. }
      destruct Hcase as [(k' & x' & A & B & C)|Hno].
      - apply (IH (i - k')) with (k := k') (x := x'); auto; lia.
      - exists k. split; [exact Hk1|]. exists x, li. split; [exact Hk2|]. split; [exact Ei|]. split; [exact Hlt|].
        intros k' x' A B. apply (Hno k' x' A B). }
    destruct Hex as (j & Hj). apply (Hno j Hj).
Qed.
