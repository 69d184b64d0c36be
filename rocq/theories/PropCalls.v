(** Tables built row by row with the library's functions (C64). *)
From Coq Require Import String List NArith ZArith Bool Arith Lia.
From Verif Require Import Str Anchor Toc Spec TocSpec TableSpec BookSpec CallSpec StrFacts TocProof TableProof PropTable PropArgs.
From Verif Require PropBook.
Import ListNotations.
Local Open Scope list_scope.

Section Rows.
  Context (p : parser) (ordered no_links : bool) (m : str).
  Local Notation bl n := (length (bullet ordered m n) + 1).
  Definition entry_ok (first : nat) (path : list nat) (log : list ilog) (d : nat) : Prop :=
    exists e, nth_error log (first + d - 1) = Some e /\ il_marker e = m
      /\ il_spaces e = Z.of_nat (list_sum (map (fun n => bl n) (firstn d path)))
      /\ (ordered = true -> il_index e = Z.of_nat (nth d path 0)).
  Definition desk_ok (first : nat) (path : list nat) (k : desk) : Prop :=
    length (k_log k) = 6
    /\ (path = [] -> k_prev k = 0 /\ (ordered = true -> tc_get (k_counts k) (Z.of_nat first) = None))
    /\ (path <> [] -> k_prev k = first + (length path - 1)
        /\ (ordered = true -> forall d, d < length path -> tc_get (k_counts k) (Z.of_nat (first + d)) = Some (Z.of_nat (nth d path 0)))
        /\ (cm_family p = true -> forall d, d < length path -> entry_ok first path (k_log k) d)).

  Lemma marker_right : p <> OtherParser -> right_marker p ordered m -> marker_ok p ordered m = true.
  Proof.
    intros Hp H. unfold marker_ok, right_marker in *. apply orb_true_iff. right.
    destruct ordered; apply sin_iff; destruct p; try congruence; exact H.
  Qed.
  Lemma dec_nat n : dec (Z.of_nat n) = numeral (N.of_nat n).
  Proof. unfold dec. rewrite <- nat_N_Z. destruct n; [reflexivity|]. rewrite N2Z.id. reflexivity. Qed.
  Lemma bullet_length n : length (bullet ordered m n) = (if ordered then length (dec (Z.of_nat n)) else 0) + length m.
  Proof.
    unfold bullet. rewrite app_length. destruct ordered; [|reflexivity]. rewrite dec_nat. reflexivity.
  Qed.
  Lemma advance_nth path d e : d <= length path -> nth e (advance path d) 0 = if e <? d then nth e path 0 else if e =? d then S (nth d path 0) else 0.
  Proof.
    intros H. unfold advance. destruct (Nat.ltb_spec e d).
    - rewrite app_nth1 by (rewrite firstn_length; lia). rewrite <- (firstn_skipn d path) at 2. rewrite app_nth1 by (rewrite firstn_length; lia). reflexivity.
    - rewrite app_nth2; rewrite firstn_length; [|lia]. replace (Nat.min d (length path)) with d by lia.
      destruct (Nat.eqb_spec e d) as [->|]; [rewrite Nat.sub_diag; reflexivity|]. destruct (e - d) as [|[|k]] eqn:Ek; [lia|reflexivity|reflexivity].
  Qed.
  Lemma advance_length path d : d <= length path -> length (advance path d) = S d.
  Proof. intros H. unfold advance. rewrite app_length, firstn_length. cbn. lia. Qed.
  Lemma advance_firstn path d e : d <= length path -> e <= d -> firstn e (advance path d) = firstn e path.
  Proof. intros H He. unfold advance. apply PropBook.firstn_snoc_le; lia. Qed.

  Lemma log_upd_spec log l f : 1 <= l <= 6 -> length log = 6 -> exists log', log_upd log (Z.of_nat l) f = Ok log' /\ length log' = 6
    /\ (forall k, k <> l - 1 -> nth_error log' k = nth_error log k) /\ (forall e, nth_error log (l - 1) = Some e -> nth_error log' (l - 1) = Some (f e)).
  Proof.
    intros Hl Hlen. destruct (nth_error log (l - 1)) as [e|] eqn:E; [|apply nth_error_None in E; lia].
    exists (list_upd log (l - 1) f). split; [apply (log_upd_nat log l f e); [lia|exact E]|]. split; [rewrite length_list_upd; exact Hlen|]. split.
    - intros k Hk. rewrite nth_list_upd. apply Nat.eqb_neq in Hk. rewrite Hk. reflexivity.
    - intros e0 He0. injection He0 as <-. rewrite nth_list_upd, Nat.eqb_refl, E. reflexivity.
  Qed.

  (** The indentation of one row, for the parsers that align. *)
  Lemma indent_step first path k l : cm_family p = true -> marker_ok p ordered m = true -> desk_ok first path k ->
    first <= l -> 1 <= first -> l <= 6 -> l - first <= length path ->
    let path' := advance path (l - first) in
    exists log' , compute_indentation p ordered m (k_log k) (Z.of_nat l) (Z.of_nat (k_prev k)) (if ordered then Z.of_nat (last path' 0) else 1) = Ok log'
      /\ length log' = 6 /\ forall d, d < length path' -> entry_ok first path' log' d.
  Proof.
    intros Hc Hm (Hlen & H0 & H1) Hfl Hf Hl6 Hd path'. set (d := l - first) in *. assert (El : l = first + d) by lia.
    assert (Hla : last path' 0 = S (nth d path 0)) by (unfold path', advance; apply last_last).
    unfold compute_indentation.
    replace (Z.of_nat l <? 1)%Z with false by (symmetry; apply Z.ltb_ge; lia).
    replace (Z.of_nat (k_prev k) <? 0)%Z with false by (symmetry; apply Z.ltb_ge; lia).
    rewrite Hc, Hlen. cbn [Nat.eqb negb andb].
    set (n := if ordered then Z.of_nat (last path' 0) else 1%Z).
    replace (n <? 1)%Z with false by (symmetry; apply Z.ltb_ge; unfold n; destruct ordered; lia). rewrite Hm. cbn [negb].
    (* the log with the new column *)
    assert (S1 : exists ilen log1,
      (if ordered && negb (Z.of_nat (k_prev k) =? 0)%Z then do e <- log_get (k_log k) (Z.of_nat (k_prev k)); Ok (Z.of_nat (length (dec (il_index e)))) else Ok 0%Z) = Ok ilen
      /\ (if (Z.of_nat (k_prev k) =? 0)%Z then log_upd (k_log k) (Z.of_nat l) (set_spaces 0)
          else if (Z.of_nat (k_prev k) <? Z.of_nat l)%Z then
            do e <- log_get (k_log k) (Z.of_nat (k_prev k));
            log_upd (k_log k) (Z.of_nat l) (set_spaces (il_spaces e + Z.of_nat (length (il_marker e)) + ilen + 1)%Z)
          else if (Z.of_nat l <? Z.of_nat (k_prev k))%Z then Ok (reset_deeper (k_log k) (Z.of_nat l) m)
          else Ok (k_log k)) = Ok log1
      /\ length log1 = 6
      /\ (forall e, e < d -> nth_error log1 (first + e - 1) = nth_error (k_log k) (first + e - 1))
      /\ exists e, nth_error log1 (l - 1) = Some e /\ il_spaces e = Z.of_nat (list_sum (map (fun n => bl n) (firstn d path)))).
    { destruct path as [|a path0].
      - destruct (H0 eq_refl) as (-> & _). cbn in Hd. assert (d = 0) by lia. clearbody d. subst d.
        exists 0%Z. rewrite andb_false_r. cbn [Z.of_nat Z.eqb].
        destruct (log_upd_spec (k_log k) l (set_spaces 0)) as (log1 & E1 & L1 & N1 & V1); [lia|exact Hlen|].
        exists log1. split; [reflexivity|]. split; [exact E1|]. split; [exact L1|]. split; [lia|].
        destruct (nth_error (k_log k) (l - 1)) as [e|] eqn:E; [|apply nth_error_None in E; lia].
        exists (set_spaces 0 e). split; [apply V1; reflexivity|reflexivity].
      - set (path := a :: path0) in *. destruct H1 as (Hpv & _ & He); [discriminate|]. specialize (He Hc).
        assert (Hpl : 1 <= length path) by (cbn; lia). set (q := length path - 1) in *.
        destruct (He q) as (e & E & Em & Es & Ei); [lia|]. rewrite Hpv.
        replace (Z.of_nat (first + q) =? 0)%Z with false by (symmetry; apply Z.eqb_neq; lia). cbn [negb]. rewrite andb_true_r.
        exists (if ordered then Z.of_nat (length (dec (il_index e))) else 0%Z). rewrite log_get_nat by lia. rewrite E. cbn [bind].
        assert (A : (if ordered then Ok (Z.of_nat (length (dec (il_index e)))) else Ok 0%Z) = Ok (if ordered then Z.of_nat (length (dec (il_index e))) else 0%Z)) by (destruct ordered; reflexivity).
        rewrite A. clear A.
        destruct (Z.of_nat (first + q) <? Z.of_nat l)%Z eqn:C1.
        + apply Z.ltb_lt in C1. assert (d = S q) by lia.
          destruct (log_upd_spec (k_log k) l (set_spaces (il_spaces e + Z.of_nat (length (il_marker e)) + (if ordered then Z.of_nat (length (dec (il_index e))) else 0) + 1)%Z)) as (log1 & E1 & L1 & N1 & V1); [lia|exact Hlen|].
          exists log1. split; [reflexivity|]. split; [exact E1|]. split; [exact L1|]. split; [intros x Hx; apply N1; lia|].
          destruct (nth_error (k_log k) (l - 1)) as [e1|] eqn:F; [|apply nth_error_None in F; lia].
          eexists. split; [apply V1; reflexivity|]. cbn [set_spaces il_spaces]. rewrite Es, Em.
          assert (Fq : firstn d path = firstn q path ++ [nth q path 0]).
          { rewrite firstn_all2 by lia. rewrite <- (firstn_skipn q path) at 1. f_equal.
            assert (G : skipn q path <> []) by (intros G; apply (f_equal (@length _)) in G; rewrite skipn_length in G; cbn [length] in G; lia).
            destruct (skipn q path) as [|y [|z r]] eqn:Sq; [congruence| |].
            - f_equal. rewrite <- (firstn_skipn q path), app_nth2, firstn_length by (rewrite firstn_length; lia). rewrite Sq. replace (q - Nat.min q (length path)) with 0 by lia. reflexivity.
            - apply (f_equal (@length _)) in Sq. rewrite skipn_length in Sq. cbn [length] in Sq. unfold q in Sq. cbn [length path] in Sq. lia. }
          rewrite Fq, map_app, list_sum_app. cbn [map list_sum fold_right]. rewrite bullet_length. destruct ordered; [rewrite <- Ei by reflexivity|]; lia.
        + apply Z.ltb_ge in C1. assert (Hdq : d <= q) by lia. destruct (He d) as (e1 & E1 & _ & Es1 & _); [lia|]. rewrite <- El in E1.
          destruct (Z.of_nat l <? Z.of_nat (first + q))%Z eqn:C2.
          * eexists. split; [reflexivity|]. split; [reflexivity|]. unfold reset_deeper. rewrite Nat2Z.id. split; [|split].
            -- rewrite app_length, map_length, <- app_length, firstn_skipn. exact Hlen.
            -- intros x Hx. rewrite nth_reset. destruct (Nat.ltb_spec (first + x - 1) l); [reflexivity|lia].
            -- exists e1. split; [|exact Es1]. rewrite nth_reset. destruct (Nat.ltb_spec (l - 1) l); [exact E1|lia].
          * exists (k_log k). split; [reflexivity|]. split; [reflexivity|]. split; [exact Hlen|]. split; [reflexivity|]. exists e1. auto. }
    destruct S1 as (ilen & log1 & -> & A & L1 & N1 & e1 & E1 & Es1). cbn [bind]. rewrite A. cbn [bind]. clear A.
    assert (S2 : exists log2, (if ordered then log_upd log1 (Z.of_nat l) (set_index n) else Ok log1) = Ok log2 /\ length log2 = 6
      /\ (forall x, x <> l - 1 -> nth_error log2 x = nth_error log1 x)
      /\ exists e, nth_error log2 (l - 1) = Some e /\ il_spaces e = il_spaces e1 /\ (ordered = true -> il_index e = n)).
    { destruct ordered; [|exists log1; repeat split; auto; exists e1; repeat split; auto; discriminate].
      destruct (log_upd_spec log1 l (set_index n)) as (log2 & E2 & L2 & N2 & V2); [lia|exact L1|]. exists log2. split; [exact E2|]. split; [exact L2|]. split; [exact N2|].
      exists (set_index n e1). split; [apply V2; exact E1|]. split; reflexivity. }
    destruct S2 as (log2 & -> & L2 & N2 & e2 & E2 & Es2 & Ei2). cbn [bind].
    destruct (log_upd_spec log2 l (set_marker m)) as (log3 & E3 & L3 & N3 & V3); [lia|exact L2|]. exists log3. split; [exact E3|]. split; [exact L3|].
    intros x Hx. unfold path' in Hx. rewrite advance_length in Hx by exact Hd. unfold entry_ok, path'. rewrite advance_firstn by lia. rewrite advance_nth by exact Hd.
    destruct (Nat.eq_dec x d) as [->|Hne].
    - exists (set_marker m e2). rewrite <- El. split; [apply V3; exact E2|]. split; [reflexivity|]. cbn [set_marker il_spaces il_index]. split; [rewrite Es2; exact Es1|].
      intros O. rewrite Ei2 by exact O. unfold n. rewrite O, Hla, Nat.ltb_irrefl, Nat.eqb_refl. reflexivity.
    - assert (x < d) by lia. destruct path as [|a path0]; [cbn in Hd; lia|]. destruct H1 as (_ & _ & He); [discriminate|]. destruct (He Hc x) as (e & E & Em & Es & Ei); [lia|].
      exists e. rewrite N3, N2, N1 by lia. split; [exact E|]. split; [exact Em|]. split; [exact Es|]. destruct (Nat.ltb_spec x d); [exact Ei|lia].
  Qed.

  Lemma counts_step first path k l : desk_ok first path k -> first <= l -> 1 <= first -> l - first <= length path ->
    (limits_index p = true -> (Z.of_nat (nth (l - first) path 0%nat) < 999999999)%Z) -> ordered = true ->
    let path' := advance path (l - first) in
    exists counts, increase_index p (k_counts k) (Z.of_nat (k_prev k)) (Z.of_nat l) = Ok counts
      /\ tc_get counts (Z.of_nat l) = Some (Z.of_nat (last path' 0))
      /\ forall d, d < length path' -> tc_get counts (Z.of_nat (first + d)) = Some (Z.of_nat (nth d path' 0)).
  Proof.
    intros (_ & H0 & H1) Hfl Hf Hd Hb O path'. set (d := l - first) in *. assert (El : l = first + d) by lia.
    assert (Hla : last path' 0 = S (nth d path 0)) by (unfold path', advance; apply last_last).
    unfold increase_index.
    replace (Z.of_nat (k_prev k) <? 0)%Z with false by (symmetry; apply Z.ltb_ge; lia).
    replace (Z.of_nat l <? 1)%Z with false by (symmetry; apply Z.ltb_ge; lia).
    assert (B : match tc_get (k_counts k) (Z.of_nat l) with
                | Some v => if ((if (Z.of_nat (k_prev k) =? 0)%Z then Z.of_nat l else Z.of_nat (k_prev k)) <? Z.of_nat l)%Z then 0%Z else v
                | None => 0%Z end = Z.of_nat (nth d path 0)).
    { destruct path as [|a path0].
      - destruct (H0 eq_refl) as (_ & G). cbn in Hd. replace l with first by lia. rewrite (G O). destruct d; reflexivity.
      - set (path := a :: path0) in *. destruct H1 as (Hpv & G & _); [discriminate|]. specialize (G O). rewrite Hpv.
        replace (Z.of_nat (first + (length path - 1)) =? 0)%Z with false by (symmetry; apply Z.eqb_neq; lia).
        assert (1 <= length path) by (cbn; lia). destruct (Z.ltb_spec (Z.of_nat (first + (length path - 1))) (Z.of_nat l)).
        + rewrite nth_overflow by lia. destruct (tc_get (k_counts k) (Z.of_nat l)); reflexivity.
        + rewrite El, G by lia. reflexivity. }
    rewrite B. clear B. replace (Z.of_nat (nth d path 0%nat) + 1)%Z with (Z.of_nat (last path' 0)) by (rewrite Hla; lia).
    assert (Hlim : limits_index p && (999999999 <? Z.of_nat (last path' 0%nat))%Z = false).
    { destruct (limits_index p); [|reflexivity]. specialize (Hb eq_refl). cbn [andb]. apply Z.ltb_ge. rewrite Hla. lia. }
    rewrite Hlim. eexists. split; [reflexivity|]. split; [rewrite tc_get_set, Z.eqb_refl; reflexivity|].
    intros x Hx. unfold path' in Hx |- *. rewrite advance_length in Hx by exact Hd. rewrite tc_get_set, advance_nth by exact Hd.
    destruct (Z.eqb_spec (Z.of_nat l) (Z.of_nat (first + x))) as [E|E].
    - assert (x = d) by lia. subst x. rewrite Nat.ltb_irrefl, Nat.eqb_refl. fold path'. rewrite Hla. reflexivity.
    - assert (x < d) by lia. destruct (Nat.ltb_spec x d); [|lia]. destruct path as [|a path0]; [cbn in Hd; lia|]. destruct H1 as (_ & G & _); [discriminate|]. apply (G O). lia.
  Qed.

  Lemma row_step first path k x : p <> OtherParser -> marker_ok p ordered m = true -> desk_ok first path k ->
    first <= i_level x -> 1 <= first -> i_level x <= 6 -> i_level x - first <= length path ->
    (Z.of_nat (nth (i_level x - first) path 0%nat) < 999999999)%Z ->
    let path' := advance path (i_level x - first) in
    exists k', one_row p ordered no_links m k x = Ok (row_of p ordered no_links m path' x, k') /\ desk_ok first path' k'.
  Proof.
    intros Hp Hm Hk Hfl Hf Hl6 Hd Hb path'. unfold one_row. set (l := i_level x) in *.
    assert (Hla : last path' 0 = S (nth (l - first) path 0)) by (unfold path', advance; apply last_last).
    assert (Hrm : removelast path' = firstn (l - first) path) by (unfold path', advance; apply removelast_last).
    assert (C : exists counts, (if ordered then increase_index p (k_counts k) (Z.of_nat (k_prev k)) (Z.of_nat l) else Ok (k_counts k)) = Ok counts
      /\ (if ordered then match tc_get counts (Z.of_nat l) with Some n => n | None => 0%Z end else 1%Z) = (if ordered then Z.of_nat (last path' 0) else 1%Z)
      /\ (ordered = true -> forall d, d < length path' -> tc_get counts (Z.of_nat (first + d)) = Some (Z.of_nat (nth d path' 0)))).
    { destruct ordered eqn:O; [|exists (k_counts k); split; [reflexivity|]; split; [reflexivity|discriminate]].
      rewrite <- O in *. destruct (counts_step first path k l Hk Hfl Hf Hd (fun _ => Hb) O) as (counts & -> & T & D). exists counts.
      split; [reflexivity|]. split; [rewrite T; reflexivity|]. intros _. exact D. }
    destruct C as (counts & -> & En & D). cbn [bind]. rewrite En. clear En.
    set (n := if ordered then Z.of_nat (last path' 0) else 1%Z).
    assert (Hn : (1 <= n)%Z) by (unfold n; destruct ordered; lia).
    assert (I : exists log' e, compute_indentation p ordered m (k_log k) (Z.of_nat l) (Z.of_nat (k_prev k)) n = Ok log'
      /\ length log' = 6 /\ log_get log' (Z.of_nat l) = Ok e /\ il_spaces e = Z.of_nat (left_edge p ordered m l (removelast path'))
      /\ (cm_family p = true -> forall d, d < length path' -> entry_ok first path' log' d)).
    { destruct (cm_family p) eqn:Hc.
      - destruct (indent_step first path k l Hc Hm Hk Hfl Hf Hl6 Hd) as (log' & E & L & G). fold path' in E, G. fold n in E.
        destruct (G (l - first)) as (e & Ee & _ & Es & _); [unfold path'; rewrite advance_length by exact Hd; lia|].
        exists log', e. split; [exact E|]. split; [exact L|]. split; [rewrite log_get_nat by lia; replace (l - 1) with (first + (l - first) - 1) by lia; rewrite Ee; reflexivity|].
        split; [|intros _; exact G]. rewrite Es, Hrm. unfold path'. rewrite advance_firstn by lia. unfold left_edge. destruct p; try discriminate; reflexivity.
      - assert (Ep : p = Redcarpet) by (revert Hp Hc; clear; destruct p; intros; congruence || discriminate). pose proof Hm as Hm'. rewrite Ep in Hm' |- *.
        destruct (compute_indentation_redcarpet ordered m (k_log k) l (Z.of_nat (k_prev k)) n Hm') as (log' & e & E & L & G & S); [apply Hk|lia|lia|exact Hn|].
        exists log', e. split; [exact E|]. split; [exact L|]. split; [exact G|]. split; [exact S|discriminate]. }
    destruct I as (log' & e & -> & L & G & S & F). cbn [bind]. rewrite G. cbn [bind].
    unfold toc_line_no_indent. cbn [hd_level hd_text hd_anchor]. fold l.
    replace (Z.of_nat l <? 1)%Z with false by (symmetry; apply Z.ltb_ge; lia).
    replace (n <? 1)%Z with false by (symmetry; apply Z.ltb_ge; lia). rewrite Hm. cbn [negb].
    assert (K : known p = true) by (destruct p; congruence || reflexivity). rewrite K.
    assert (Eb : (if ordered then dec n ++ m else m) = bullet ordered m (last path' 0)).
    { unfold bullet, n. destruct ordered; [|reflexivity]. rewrite dec_nat. reflexivity. }
    rewrite Eb. unfold build_toc_line. rewrite S.
    replace (Z.of_nat (left_edge p ordered m l (removelast path')) <? 0)%Z with false by (symmetry; apply Z.ltb_ge; lia). rewrite Nat2Z.id.
    exists (Desk counts log' l). split.
    - unfold row_of. fold l. destruct no_links; reflexivity.
    - split; [exact L|]. split; [intros X; apply PropBook.advance_nonempty in X; destruct X|]. intros _. cbn [k_prev k_counts k_log]. split; [|split; assumption].
      unfold path'. rewrite advance_length by exact Hd. lia.
  Qed.

  Lemma rows_step first xs : p <> OtherParser -> marker_ok p ordered m = true -> 1 <= first -> forall hist path k c,
    desk_ok first path k -> Forall (fun x => i_level x <= 6) xs -> coherent_from hist (map i_level xs) ->
    (path = [] <-> hist = []) -> (hist = [] -> hd first (map i_level xs) = first) ->
    (hist <> [] -> last hist 0 = first /\ length path = S (hd 0 hist - first)) ->
    (forall d, nth d path 0 <= c) -> (Z.of_nat (c + length xs) <= 999999999)%Z ->
    exists k', by_hand p ordered no_links m k xs = Ok (rows_of p ordered no_links m first path xs, k') /\ length (k_log k') = 6.
  Proof.
    intros Hp Hm Hf. induction xs as [|x xs IH]; intros hist path k c Hk F C Hph H0 H1 Hc Hn.
    - exists k. split; [reflexivity|apply Hk].
    - cbn [map coherent_from length] in *. destruct C as (C1 & C2). inversion F as [|? ? F1 F2]; subst.
      assert (A : first <= i_level x /\ i_level x - first <= length path).
      { apply incoherent_iff in C1 as [->|C1].
        - specialize (H0 eq_refl). cbn in H0. subst first. lia.
        - destruct hist as [|y h]; [specialize (H0 eq_refl); cbn in H0; subst first; lia|].
          destruct H1 as (A & B); [discriminate|]. rewrite A in C1. cbn [hd] in *. lia. }
      destruct A as (A1 & A2). specialize (Hc (i_level x - first)) as Hcx.
      destruct (row_step first path k x Hp Hm Hk A1 Hf F1 A2) as (k1 & E1 & K1); [lia|].
      cbn [by_hand rows_of]. rewrite E1. cbn [bind].
      destruct (IH (i_level x :: hist) (advance path (i_level x - first)) k1 (S c)) as (k2 & E2 & L2); try assumption.
      + split; [intros X; apply PropBook.advance_nonempty in X; destruct X|discriminate].
      + discriminate.
      + intros _. rewrite advance_length by exact A2. split; [|reflexivity].
        destruct hist as [|y h]; [specialize (H0 eq_refl); cbn in H0 |- *; exact H0|]. destruct H1 as (A & _); [discriminate|]. exact A.
      + intros d. rewrite advance_nth by exact A2. specialize (Hc d). destruct (d <? _); [lia|]. destruct (d =? _); lia.
      + lia.
      + rewrite E2. cbn [bind]. exists k2. split; [reflexivity|exact L2].
  Qed.
End Rows.

(** *** C64 *)
Theorem C64_rows : forall p ordered no_links m log xs,
  callable p ordered m xs -> coherent (map i_level xs) -> length log = 6 ->
  exists k, by_hand p ordered no_links m (new_table log) xs = Ok (expected_rows p ordered no_links m xs, k) /\ length (k_log k) = 6.
Proof.
  intros p ordered no_links m log xs (Hp & Hm & F & Hn) C L.
  destruct xs as [|x xs]; [exists (new_table log); split; [reflexivity|exact L]|].
  unfold expected_rows. cbn [map hd]. inversion F as [|? ? F1 F2]; subst.
  apply (rows_step p ordered no_links m (i_level x) (x :: xs) Hp) with (hist := []) (c := 0).
  - apply marker_right; assumption.
  - lia.
  - split; [exact L|]. split; [intros _; split; reflexivity|congruence].
  - eapply Forall_impl; [|exact F]. cbn. lia.
  - apply coherent_iff. exact C.
  - tauto.
  - reflexivity.
  - congruence.
  - intros [|d]; cbn; lia.
  - exact Hn.
Qed.
Print Assumptions C64_rows.

Theorem C64_tables : forall js log, Forall job_fits js -> length log = 6 -> tables log js = Ok (map job_rows js).
Proof.
  induction js as [|j js IH]; intros log F L; [reflexivity|]. inversion F as [|? ? (F1 & F2) F3]; subst.
  cbn [tables map]. destruct (C64_rows _ _ (j_no_links j) _ log _ F1 F2 L) as (k & -> & L'). cbn [bind].
  rewrite (IH _ F3 L'). reflexivity.
Qed.
Print Assumptions C64_tables.
Definition it (l : nat) (t : string) : item := Item l (lit t) (lit t).
Definition fresh_log : list ilog := repeat (mkIlog 0 (lit "-") 0) 6.
Definition ex_jobs : list job :=
  [Job Github true false (lit ")") [it 1 "a"; it 2 "b"; it 2 "c"; it 3 "d"; it 2 "e"; it 1 "f"; it 2 "g"];
   Job Gitlab false true (lit "*") [it 2 "a"; it 3 "b"; it 2 "c"];
   Job Redcarpet true false (lit ".") [it 3 "a"; it 4 "b"]].
Example C64_tables_ex : Forall job_fits ex_jobs /\ length fresh_log = 6
  /\ map job_rows ex_jobs =
     [[lit "1) [a](#a)"; lit "   1) [b](#b)"; lit "   2) [c](#c)"; lit "      1) [d](#d)"; lit "   3) [e](#e)"; lit "2) [f](#f)"; lit "   1) [g](#g)"];
      [lit "* a"; lit "  * b"; lit "* c"];
      [lit "        1. [a](#a)"; lit "            1. [b](#b)"]].
Proof.
  split; [|split; vm_compute; reflexivity].
  repeat (apply Forall_cons || apply Forall_nil);
    (split; [split; [discriminate|]; split; [cbn; auto|]; split; [repeat constructor|cbn; lia]|apply coherent_by; repeat split]).
Qed.
(** When the levels are not coherent, what an earlier table left in the log shows: the same rows are
    indented differently. *)
Theorem C64_incoherent_refuted : exists p ordered no_links m first xs lines k k1 k2,
  callable p ordered m first /\ coherent (map i_level first) /\ callable p ordered m xs
  /\ by_hand p ordered no_links m (new_table fresh_log) first = Ok (lines, k)
  /\ exists rows1 rows2, by_hand p ordered no_links m (new_table fresh_log) xs = Ok (rows1, k1)
  /\ by_hand p ordered no_links m (new_table (k_log k)) xs = Ok (rows2, k2) /\ rows1 <> rows2.
Proof.
  exists Github, false, true, (lit "-"), [it 1 "a"; it 2 "b"], [it 3 "c"; it 2 "d"]. do 4 eexists.
  split; [split; [discriminate|]; split; [cbn; auto|]; split; [repeat constructor|cbn; lia]|].
  split; [apply coherent_by; repeat split|].
  split; [split; [discriminate|]; split; [cbn; auto|]; split; [repeat constructor|cbn; lia]|].
  split; [vm_compute; reflexivity|]. do 2 eexists. split; [vm_compute; reflexivity|]. split; [vm_compute; reflexivity|]. discriminate.
Qed.
(** The counts must be empty: the numbers of an earlier table would go on. *)
Theorem C64_counts_refuted : exists p m first xs lines k rows k', callable p true m first /\ callable p true m xs
  /\ coherent (map i_level xs) /\ by_hand p true true m (new_table fresh_log) first = Ok (lines, k)
  /\ by_hand p true true m (Desk (k_counts k) fresh_log 0) xs = Ok (rows, k') /\ rows <> expected_rows p true true m xs.
Proof.
  exists Github, (lit "."), [it 1 "a"; it 1 "b"], [it 1 "c"]. do 4 eexists.
  split; [split; [discriminate|]; split; [cbn; auto|]; split; [repeat constructor|cbn; lia]|].
  split; [split; [discriminate|]; split; [cbn; auto|]; split; [repeat constructor|cbn; lia]|].
  split; [apply coherent_by; repeat split|].
  split; [vm_compute; reflexivity|]. split; [vm_compute; reflexivity|]. vm_compute. discriminate.
Qed.
