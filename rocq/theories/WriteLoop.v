(** What get_existing_toc finds, and what a write does to a file. *)
From Coq Require Import String List NArith ZArith Bool Arith Lia.
From Verif Require Import Str Regex HtmlRe RegexSpec Toc Spec Write WriteSpec StrFacts RegexProof AtxProof WriteProof.
Import ListNotations.
Local Open Scope list_scope.

Lemma is_marker_dec E marker l : {is_marker E marker l} + {~ is_marker E marker l}.
Proof. unfold is_marker. apply str_dec. Qed.
Lemma seqb_marker E marker l : seqb (py_strip E l) (py_strip E marker) = true <-> is_marker E marker l.
Proof. apply seqb_eq. Qed.

(** ** Marker lines *)
Lemma marker_lines_app E marker u : forall n v,
  marker_lines E marker n (u ++ v) = marker_lines E marker n u ++ marker_lines E marker (n + length u) v.
Proof.
  induction u as [|l u IH]; intros n v; cbn [app marker_lines length]; [rewrite Nat.add_0_r; reflexivity|].
  rewrite IH, <- plus_n_Sm. destruct (seqb _ _); reflexivity.
Qed.
Lemma marker_lines_none E marker u : no_marker E marker u -> forall n, marker_lines E marker n u = [].
Proof.
  induction u as [|l u IH]; intros H n; [reflexivity|]. cbn [marker_lines].
  replace (seqb (py_strip E l) (py_strip E marker)) with false.
  - apply IH. intros x Hx. apply H. right. exact Hx.
  - symmetry. apply seqb_neq. apply (H l). left. reflexivity.
Qed.
Lemma marker_lines_cons E marker m n v : is_marker E marker m -> marker_lines E marker n (m :: v) = n :: marker_lines E marker (S n) v.
Proof. intros H. cbn [marker_lines]. apply seqb_marker in H. rewrite H. reflexivity. Qed.

Lemma next_marker E marker ls : no_marker E marker ls \/
  exists u m v, ls = u ++ m :: v /\ no_marker E marker u /\ is_marker E marker m.
Proof.
  induction ls as [|l ls IH].
  - left. intros x [].
  - destruct (is_marker_dec E marker l) as [H|H].
    + right. exists [], l, ls. split; [reflexivity|]. split; [intros x []|exact H].
    + destruct IH as [IH|(u & m & v & -> & Hu & Hm)].
      * left. intros x [<-|Hx]; auto.
      * right. exists (l :: u), m, v. split; [reflexivity|]. split; [|exact Hm]. intros x [<-|Hx]; auto.
Qed.
Lemma no_marker_app E marker a b : no_marker E marker (a ++ b) <-> no_marker E marker a /\ no_marker E marker b.
Proof.
  unfold no_marker. split.
  - intros H. split; intros l Hl; apply H, in_or_app; auto.
  - intros (A & B) l Hl. apply in_app_or in Hl as [Hl|Hl]; auto.
Qed.

(** ** Recognising a table *)
Lemma region_iff E P a mid b post : text_lines (P ++ a :: mid ++ b :: post) ->
  let text := concat (P ++ a :: mid ++ b :: post) in
  let za := Z.of_nat (S (length P)) in
  let zb := Z.of_nat (S (length P) + S (length mid)) in
  detect_toc_list E (read_line_interval text (za + 2) (zb - 2)) || string_empty (read_line_interval text (za + 1) (zb - 1)) = true
  <-> table_region E mid.
Proof.
  intros Ht. cbn zeta.
  assert (Hmid : read_line_interval (concat (P ++ a :: mid ++ b :: post)) (Z.of_nat (S (length P)) + 1) (Z.of_nat (S (length P) + S (length mid)) - 1) = joined mid).
  { rewrite read_line_interval_spec by (auto; lia).
    replace (Z.to_nat (Z.of_nat (S (length P)) + 1 - 1)) with (length (P ++ [a])) by (rewrite app_length; cbn [length]; lia).
    replace (Z.to_nat (Z.of_nat (S (length P) + S (length mid)) - 1 - (Z.of_nat (S (length P)) + 1) + 1)) with (length mid) by lia.
    replace (P ++ a :: mid ++ b :: post) with ((P ++ [a]) ++ mid ++ b :: post) by (rewrite <- app_assoc; reflexivity).
    rewrite skipn_app_len, firstn_app_len. reflexivity. }
  assert (Hinner : read_line_interval (concat (P ++ a :: mid ++ b :: post)) (Z.of_nat (S (length P)) + 2) (Z.of_nat (S (length P) + S (length mid)) - 2) = joined (inner mid)).
  { rewrite read_line_interval_spec by (auto; lia).
    replace (Z.to_nat (Z.of_nat (S (length P)) + 2 - 1)) with (length (P ++ [a]) + 1) by (rewrite app_length; cbn [length]; lia).
    replace (Z.to_nat (Z.of_nat (S (length P) + S (length mid)) - 2 - (Z.of_nat (S (length P)) + 2) + 1)) with (length mid - 2) by lia.
    replace (P ++ a :: mid ++ b :: post) with ((P ++ [a]) ++ mid ++ b :: post) by (rewrite <- app_assoc; reflexivity).
    replace (skipn (length (P ++ [a]) + 1) ((P ++ [a]) ++ mid ++ b :: post)) with (skipn 1 (mid ++ b :: post)).
    2:{ rewrite (skipn_app (length (P ++ [a]) + 1) (P ++ [a])), (skipn_all2 (P ++ [a])) by lia. replace (length (P ++ [a]) + 1 - length (P ++ [a])) with 1 by lia. reflexivity. }
    unfold inner. destruct mid as [|x mid]; [reflexivity|]. cbn [app skipn tl length]. rewrite removelast_firstn_len, <- Nat.sub_1_r.
    replace (S (length mid) - 2) with (length mid - 1) by lia. rewrite firstn_app. replace (length mid - 1 - length mid) with 0 by lia.
    rewrite firstn_O, app_nil_r. reflexivity. }
  rewrite Hmid, Hinner, orb_true_iff, detect_iff, string_empty_iff. unfold table_region.
  assert (Hnc : ~ In 13%N (joined mid)).
  { intros H. unfold joined in H. apply in_concat in H as (x & Hx & H). apply in_map_iff in Hx as (l & <- & Hl).
    unfold chomp, delete_char in H. apply filter_In in H as (H & _).
    apply (text_no_cr _ Ht). apply in_concat. exists l. split; [|exact H]. apply in_or_app. right. right. apply in_or_app. left. exact Hl. }
  assert (Hnl := joined_no_lf mid).
  assert (G : (Forall blank_char (joined mid) /\ lfcr_ok (joined mid)) <-> Forall (fun c => In c [32; 9; 11]%N) (joined mid)).
  { rewrite !Forall_forall. split.
    - intros (F & _) c Hc. specialize (F c Hc). unfold blank_char in F. cbn in *. destruct F as [F|[F|[F|[F|[F|[]]]]]]; auto; subst; contradiction.
    - intros F. split.
      + intros c Hc. specialize (F c Hc). unfold blank_char. cbn in *. intuition.
      + intros x y E'. exfalso. apply Hnl. rewrite E'. apply in_or_app. right. left. reflexivity. }
  rewrite G. reflexivity.
Qed.

(** ** Pairs of markers *)
Lemma no_table_short E marker P a : no_marker E marker P -> no_table E marker (P ++ [a]).
Proof.
  intros Hp x a' mid b y E' Ha Hb Hm. exfalso.
  replace (x ++ a' :: mid ++ b :: y) with ((x ++ [a']) ++ mid ++ b :: y) in E' by (rewrite <- app_assoc; reflexivity).
  assert (Hlen : length x < length P).
  { apply (f_equal (@length str)) in E'. rewrite !app_length in E'. cbn in E'. lia. }
  assert (In a' P).
  { replace P with (firstn (length P) (P ++ [a])) by apply firstn_app_len. rewrite E'.
    replace (firstn (length P) ((x ++ [a']) ++ mid ++ b :: y)) with ((x ++ [a']) ++ firstn (length P - length (x ++ [a'])) (mid ++ b :: y)).
    - apply in_or_app. left. apply in_or_app. right. left. reflexivity.
    - rewrite (firstn_app (length P) (x ++ [a'])). f_equal. symmetry. apply firstn_all2. rewrite app_length. cbn. lia. }
  exact (Hp a' H Ha).
Qed.
Lemma app_eq_cases {A} (a b c d : list A) : a ++ b = c ++ d ->
  (exists u, a = c ++ u /\ d = u ++ b) \/ (exists u, u <> [] /\ c = a ++ u /\ b = u ++ d).
Proof.
  revert c. induction a as [|x a IH]; intros c H.
  - destruct c as [|y c]; [left; exists []; auto|]. right. exists (y :: c). split; [discriminate|]. auto.
  - destruct c as [|y c].
    + left. exists (x :: a). auto.
    + injection H as -> H. apply IH in H as [(u & -> & ->)|(u & Hu & -> & ->)]; [left; exists u; auto|right; exists u; auto].
Qed.
Lemma no_table_more E marker P a mid b :
  no_table E marker (P ++ [a]) -> is_marker E marker a -> no_marker E marker mid -> ~ table_region E mid ->
  no_table E marker ((P ++ a :: mid) ++ [b]).
Proof.
  intros Hno Ha Hmid Hreg x a' mid' b' y Eq Ha' Hb' Hmid'.
  destruct (exists_last (l := b' :: y)) as (y' & z & Hy); [discriminate|].
  rewrite Hy in Eq. replace (x ++ a' :: mid' ++ y' ++ [z]) with ((x ++ a' :: mid' ++ y') ++ [z]) in Eq by (rewrite <- !app_assoc; cbn; rewrite <- !app_assoc; reflexivity).
  apply app_inj_tail in Eq as (Eq & <-).
  destruct y' as [|b'' y'].
  - (* b' is the last element: the pair is (a, b) *)
    rewrite app_nil_r in Eq. apply app_eq_cases in Eq as [(u & -> & Eu)|(u & Hu & -> & Eu)].
    + destruct u as [|w u].
      * injection Eu as -> ->. exact Hreg.
      * exfalso. injection Eu as -> ->. apply (Hmid' a); [|exact Ha]. apply in_or_app. right. left. reflexivity.
    + exfalso. destruct u as [|w u]; [congruence|]. injection Eu as <- ->. apply (Hmid a'); [|exact Ha']. apply in_or_app. right. left. reflexivity.
  - (* the pair is in P ++ [a] *)
    injection Hy as <- Hy. 
    replace (P ++ a :: mid) with ((P ++ [a]) ++ mid) in Eq by (rewrite <- app_assoc; reflexivity).
    replace (x ++ a' :: mid' ++ b' :: y') with ((x ++ a' :: mid' ++ [b']) ++ y') in Eq by (rewrite <- app_assoc; cbn; rewrite <- app_assoc; reflexivity).
    apply app_eq_cases in Eq as [(u & Eu & _)|(u & Hu & Eu & Em)].
    + apply (Hno x a' mid' b' u); auto. rewrite Eu, <- app_assoc. cbn. rewrite <- app_assoc. reflexivity.
    + exfalso. destruct (exists_last Hu) as (u' & w & ->).
      replace (x ++ a' :: mid' ++ [b']) with ((x ++ a' :: mid') ++ [b']) in Eu by (rewrite <- app_assoc; reflexivity).
      rewrite app_assoc in Eu. apply app_inj_tail in Eu as (_ & ->). apply (Hmid w); [|exact Hb']. rewrite Em, <- app_assoc. apply in_or_app. right. left. reflexivity.
Qed.

(** ** The loop *)
Lemma existing_loop_spec E marker : forall n P a rest,
  length rest <= n -> text_lines (P ++ a :: rest) -> is_marker E marker a -> no_table E marker (P ++ [a]) ->
  let all := P ++ a :: rest in
  let pos := S (length P) :: marker_lines E marker (S (S (length P))) rest in
  (exists P' a' mid b post l, all = P' ++ a' :: mid ++ b :: post /\ is_marker E marker a' /\ is_marker E marker b
     /\ no_marker E marker mid /\ table_region E mid /\ no_table E marker (P' ++ [a']) /\ 1 <= l /\
     existing_loop E all pos (length pos) = Ok (Some (py_strip E (concat mid), S (length P'), S (length P') + S (length mid)), l, true))
  \/ (no_table E marker all /\
     existing_loop E all pos (length pos) = Ok (None, 1, negb (length pos =? 1))).
Proof.
  induction n as [|n IH]; intros P a rest Hn Ht Ha Hno; cbn zeta.
  - destruct rest; [|cbn in Hn; lia]. right. split; [exact Hno|]. reflexivity.
  - destruct (next_marker E marker rest) as [Hr|(mid & b & post & -> & Hmid & Hb)].
    + right. rewrite marker_lines_none by exact Hr. split; [|reflexivity].
      intros x a' mid' b' y Eq Ha' Hb' Hm'.
      replace (P ++ a :: rest) with ((P ++ [a]) ++ rest) in Eq by (rewrite <- app_assoc; reflexivity).
      replace (x ++ a' :: mid' ++ b' :: y) with ((x ++ a' :: mid' ++ [b']) ++ y) in Eq by (rewrite <- app_assoc; cbn; rewrite <- app_assoc; reflexivity).
      apply app_eq_cases in Eq as [(u & Eu & _)|(u & Hu & Eu & Em)].
      * apply (Hno x a' mid' b' u); auto. rewrite Eu, <- app_assoc. cbn. rewrite <- app_assoc. reflexivity.
      * exfalso. destruct (exists_last Hu) as (u' & w & ->).
        replace (x ++ a' :: mid' ++ [b']) with ((x ++ a' :: mid') ++ [b']) in Eu by (rewrite <- app_assoc; reflexivity).
        rewrite app_assoc in Eu. apply app_inj_tail in Eu as (_ & ->). apply (Hr w); [|exact Hb']. rewrite Em, <- app_assoc. apply in_or_app. right. left. reflexivity.
    + rewrite marker_lines_app, (marker_lines_none _ _ _ Hmid), app_nil_l, marker_lines_cons by exact Hb.
      replace (S (S (length P)) + length mid) with (S (length P) + S (length mid)) by lia.
      set (tailpos := marker_lines E marker (S (S (length P) + S (length mid))) post).
      cbn [existing_loop].
      pose proof (region_iff E P a mid b post Ht) as Hreg. cbn zeta in Hreg.
      destruct (detect_toc_list E _ || string_empty _) eqn:Ed.
      * left. exists P, a, mid, b, post, (length (S (length P) :: S (length P) + S (length mid) :: tailpos) - 1).
        split; [reflexivity|]. split; [exact Ha|]. split; [exact Hb|]. split; [exact Hmid|]. split; [apply Hreg; reflexivity|]. split; [exact Hno|].
        split; [cbn; lia|].
        assert (Hx : (if (Z.of_nat (S (length P)) + 1 <=? Z.of_nat (S (length P) + S (length mid)) - 1)%Z
            then do t <- extract_lines (P ++ a :: mid ++ b :: post) (Z.of_nat (S (length P)) + 1) (Z.of_nat (S (length P) + S (length mid)) - 1); Ok (py_strip E t)
            else Ok []) = Ok (py_strip E (concat mid))).
        { destruct (Z.leb_spec (Z.of_nat (S (length P)) + 1) (Z.of_nat (S (length P) + S (length mid)) - 1)) as [Hle|Hgt].
          - unfold extract_lines.
            replace (Z.of_nat (S (length P) + S (length mid)) - 1 <? Z.of_nat (S (length P)) + 1)%Z with false by (symmetry; apply Z.ltb_ge; lia).
            replace (Z.of_nat (S (length P)) + 1 <? 1)%Z with false by (symmetry; apply Z.ltb_ge; lia).
            replace (Z.of_nat (S (length P) + S (length mid)) - 1 <? 1)%Z with false by (symmetry; apply Z.ltb_ge; lia). cbn [orb bind]. do 3 f_equal.
            replace (Z.to_nat (Z.of_nat (S (length P) + S (length mid)) - 1 - (Z.of_nat (S (length P)) + 1) + 1)) with (length mid) by lia.
            replace (Z.to_nat (Z.of_nat (S (length P)) + 1 - 1)) with (length (P ++ [a])) by (rewrite app_length; cbn [length]; lia).
            replace (P ++ a :: mid ++ b :: post) with ((P ++ [a]) ++ mid ++ b :: post) by (rewrite <- app_assoc; reflexivity).
            rewrite skipn_app_len, firstn_app_len. reflexivity.
          - assert (mid = []) by (destruct mid; [reflexivity|cbn [length] in *; lia]). subst mid. reflexivity. }
        rewrite Hx. reflexivity.
      * assert (Hnr : ~ table_region E mid) by (intros X; apply Hreg in X; congruence).
        pose proof (no_table_more E marker P a mid b Hno Ha Hmid Hnr) as Hno'.
        assert (Hall : P ++ a :: mid ++ b :: post = (P ++ a :: mid) ++ b :: post) by (rewrite <- app_assoc; reflexivity).
        rewrite Hall in Ht |- *.
        assert (Hl' : S (length (P ++ a :: mid)) = S (length P) + S (length mid)) by (rewrite app_length; cbn [length]; lia).
        destruct (IH (P ++ a :: mid) b post) as [(P' & a' & mid' & b' & post' & l & E1 & E2 & E3 & E4 & E5 & E6 & E7 & E8)|(E1 & E2)]; auto.
        { rewrite app_length in Hn. cbn in Hn. lia. }
        -- left. exists P', a', mid', b', post', l. repeat (split; [assumption|]).
           rewrite Hl' in E8. fold tailpos in E8. 
           replace (length (S (length P) :: S (length P) + S (length mid) :: tailpos) - 1) with (length (S (length P) + S (length mid) :: tailpos)) by (cbn; lia).
           match goal with |- bind ?X _ = _ => assert (EX : X = Ok (Some (py_strip E (concat mid'), S (length P'), S (length P') + S (length mid')), l, true)) by exact E8; rewrite EX end. reflexivity.
        -- right. split; [exact E1|]. rewrite Hl' in E2. fold tailpos in E2.
           replace (length (S (length P) :: S (length P) + S (length mid) :: tailpos) - 1) with (length (S (length P) + S (length mid) :: tailpos)) by (cbn; lia).
           match goal with |- bind ?X _ = _ => assert (EX : X = Ok (None, 1, negb (length (S (length P) + S (length mid) :: tailpos) =? 1))) by exact E2; rewrite EX end. reflexivity.
Qed.

(** ** The replaced region exists and is unique *)
Lemma first_marker_unique E marker u m v u' m' v' :
  no_marker E marker u -> is_marker E marker m -> no_marker E marker u' -> is_marker E marker m' ->
  u ++ m :: v = u' ++ m' :: v' -> u = u' /\ m = m' /\ v = v'.
Proof.
  intros Hu Hm Hu' Hm' Eq. apply app_eq_cases in Eq as [(w & -> & Ew)|(w & Hw & -> & Ew)].
  - destruct w as [|x w].
    + injection Ew as -> ->. rewrite app_nil_r. auto.
    + exfalso. injection Ew as -> ->. apply (Hu x); [apply in_or_app; right; left; reflexivity|exact Hm'].
  - destruct w as [|x w]; [congruence|]. exfalso. injection Ew as <- ->. apply (Hu' m); [apply in_or_app; right; left; reflexivity|exact Hm].
Qed.
Lemma first_table_unique E marker P a mid b post P' a' mid' b' post' :
  is_marker E marker a -> is_marker E marker b -> no_marker E marker mid -> table_region E mid -> no_table E marker (P ++ [a]) ->
  is_marker E marker a' -> is_marker E marker b' -> no_marker E marker mid' -> table_region E mid' -> no_table E marker (P' ++ [a']) ->
  P ++ a :: mid ++ b :: post = P' ++ a' :: mid' ++ b' :: post' ->
  P = P' /\ a = a' /\ mid = mid' /\ b = b' /\ post = post'.
Proof.
  assert (G : forall P a mid b post w a' mid' b' post', 
    is_marker E marker b -> is_marker E marker a' -> is_marker E marker b' -> no_marker E marker mid' ->
    table_region E mid' -> no_table E marker ((P ++ a' :: w) ++ [a]) ->
    (w ++ a :: mid ++ b :: post = mid' ++ b' :: post') -> is_marker E marker a -> False).
  { clear. intros P a mid b post w a' mid' b' post' Hb Ha' Hb' Hm' Hr Hno Eq Ha.
    apply app_eq_cases in Eq as [(v & -> & Ev)|(v & Hv & -> & Ev)].
    - (* the marker b' is in w *)
      destruct v as [|x v].
      + injection Ev as -> ->. apply (Hno P a' mid' a []); auto. rewrite app_nil_r, <- app_assoc. reflexivity.
      + injection Ev as -> ->. apply (Hno P a' mid' x (v ++ [a])); auto. rewrite <- !app_assoc. cbn. rewrite <- !app_assoc. reflexivity.
    - destruct v as [|x v]; [congruence|]. injection Ev as -> Ev. apply (Hm' x); [apply in_or_app; right; left; reflexivity|exact Ha]. }
  intros Ha Hb Hm Hr Hno Ha' Hb' Hm' Hr' Hno' Eq.
  pose proof Eq as Eq0. apply app_eq_cases in Eq as [(w & -> & Ew)|(w & Hw & -> & Ew)].
  - destruct w as [|x w].
    + injection Ew as -> Ew. rewrite app_nil_r. split; [reflexivity|]. split; [reflexivity|].
      destruct (first_marker_unique E marker mid' b' post' mid b post) as (-> & -> & ->); auto.
    + exfalso. injection Ew as -> Ew. eapply (G P' a mid b post w x mid' b' post'); eauto.
  - destruct w as [|x w]; [congruence|]. exfalso. injection Ew as <- Ew.
    eapply (G P a' mid' b' post' w a mid b post); eauto.
Qed.

Lemma target_fun E marker lines pre old post t pre' old' post' t' :
  target E marker lines pre old post t -> target E marker lines pre' old' post' t' ->
  pre = pre' /\ old = old' /\ post = post' /\ t = t'.
Proof.
  assert (Hone : forall pre m post pre' m1 mid m2 post', is_marker E marker m -> no_marker E marker pre -> no_marker E marker post ->
    is_marker E marker m1 -> is_marker E marker m2 -> pre ++ [m] ++ post = pre' ++ (m1 :: mid ++ [m2]) ++ post' -> False).
  { clear. intros pre m post pre' m1 mid m2 post' Hm Hpre Hpost H1 H2 Eq.
    destruct (next_marker E marker pre') as [Hn|(u & x & v & -> & Hu & Hx)].
    - destruct (first_marker_unique E marker pre m post pre' m1 (mid ++ [m2] ++ post')) as (_ & _ & ->); auto.
      + rewrite app_assoc. cbn in Eq. rewrite Eq. rewrite <- app_assoc. reflexivity.
      + apply (Hpost m2); [|exact H2]. apply in_or_app. right. left. reflexivity.
    - destruct (first_marker_unique E marker pre m post u x (v ++ (m1 :: mid ++ [m2]) ++ post')) as (_ & _ & ->); auto.
      + cbn in Eq. rewrite Eq, <- app_assoc. reflexivity.
      + apply (Hpost m1); [|exact H1]. apply in_or_app. right. left. reflexivity. }
  assert (Htab : forall pre m1 mid m2 post pre' m1' post', is_marker E marker m1 -> is_marker E marker m2 -> no_marker E marker mid -> table_region E mid ->
    no_table E marker (pre' ++ m1' :: post') -> pre ++ (m1 :: mid ++ [m2]) ++ post = pre' ++ m1' :: post' -> False).
  { clear. intros pre m1 mid m2 post pre' m1' post' H1 H2 Hm Hr Hno Eq. apply (Hno pre m1 mid m2 post); auto. rewrite <- Eq. cbn. rewrite <- app_assoc. reflexivity. }
  intros H G. destruct H as [pre m post H1 H2 H3|pre m1 mid m2 post H1 H2 H3 H4 H5|pre m1 post H1 H2 H3 H4].
  - remember (pre ++ [m] ++ post) as lines eqn:El. destruct G as [pre' m' post' G1 G2 G3|pre' m1' mid' m2' post' G1 G2 G3 G4 G5|pre' m1' post' G1 G2 G3 G4].
    + destruct (first_marker_unique E marker pre' m' post' pre m post) as (-> & -> & ->); auto.
    + exfalso. eapply (Hone pre m post pre' m1' mid' m2' post'); try assumption. symmetry. exact El.
    + exfalso. apply G3. destruct (first_marker_unique E marker pre' m1' post' pre m post) as (-> & -> & ->); auto.
  - remember (pre ++ (m1 :: mid ++ [m2]) ++ post) as lines eqn:El. destruct G as [pre' m' post' G1 G2 G3|pre' m1' mid' m2' post' G1 G2 G3 G4 G5|pre' m1' post' G1 G2 G3 G4].
    + exfalso. eapply (Hone pre' m' post' pre m1 mid m2 post); try assumption.
    + destruct (first_table_unique E marker pre' m1' mid' m2' post' pre m1 mid m2 post) as (-> & -> & -> & -> & ->); auto.
      cbn in El. rewrite <- !app_assoc in El. exact El.
    + exfalso. eapply (Htab pre m1 mid m2 post pre' m1' post'); try assumption. symmetry. exact El.
  - remember (pre ++ m1 :: post) as lines eqn:El. destruct G as [pre' m' post' G1 G2 G3|pre' m1' mid' m2' post' G1 G2 G3 G4 G5|pre' m1' post' G1 G2 G3 G4].
    + exfalso. apply H3. destruct (first_marker_unique E marker pre m1 post pre' m' post') as (-> & -> & ->); auto.
    + exfalso. eapply (Htab pre' m1' mid' m2' post' pre m1 post); try assumption. rewrite <- El. exact H4.
    + destruct (first_marker_unique E marker pre' m1' post' pre m1 post) as (-> & -> & ->); auto.
Qed.

(** What get_existing_toc returns for each kind of target. *)
Definition existing_for (E : env) (marker : str) (lines pre old : list str) (t : str) (x : existing) : Prop :=
  x_old x = t /\ x_first x = S (length pre) /\ 1 <= x_len x /\
  ((x_two x = false /\ x_len x = 1 /\ x_positions x = [S (length pre)] /\ x_delete x = [] /\ length old = 1) \/
   (x_two x = true /\ x_delete x = [[Z.of_nat (S (length pre)); Z.of_nat (length pre + length old)]] /\ 2 <= length old) \/
   (x_two x = true /\ x_delete x = [] /\ old = [])).

Lemma existing_target E marker lines : text_lines lines ->
  no_marker E marker lines \/
  exists pre old post t x, target E marker lines pre old post t
    /\ get_existing_toc E marker (mkDoc lines false) = Ok x /\ existing_for E marker lines pre old t x.
Proof.
  intros Ht. destruct (next_marker E marker lines) as [Hn|(pre & m & rest & -> & Hpre & Hm)]; [left; exact Hn|right].
  unfold get_existing_toc. cbn [d_bad d_lines]. rewrite marker_lines_app, (marker_lines_none _ _ _ Hpre), app_nil_l, marker_lines_cons by exact Hm.
  cbn [Nat.add]. change (1 + length pre) with (S (length pre)).
  destruct (existing_loop_spec E marker (length rest) pre m rest (le_n _) Ht Hm (no_table_short _ _ _ _ Hpre))
    as [(P' & a' & mid & b & post & l & E1 & E2 & E3 & E4 & E5 & E6 & E7 & E8)|(E1 & E2)].
  - exists P', (a' :: mid ++ [b]), post, (py_strip E (concat mid)).
    eexists. split.
    + rewrite E1. replace (P' ++ a' :: mid ++ b :: post) with (P' ++ (a' :: mid ++ [b]) ++ post) by (cbn; rewrite <- app_assoc; reflexivity).
      apply tg_table; assumption.
    + match goal with |- context [existing_loop ?e ?a ?b ?c] => replace (existing_loop e a b c) with (Ok (Some (py_strip E (concat mid), S (length P'), S (length P') + S (length mid)), l, true)) by (symmetry; exact E8) end. cbn [bind].
      split; [reflexivity|]. split; [reflexivity|]. split; [reflexivity|]. split; [exact E7|]. right. left. split; [reflexivity|].
      cbn [x_delete length]. rewrite app_length. cbn [length]. split; [|lia]. replace (S (length P') + S (length mid)) with (length P' + S (length mid + 1)) by lia. reflexivity.
  - destruct (next_marker E marker rest) as [Hn|(u & m2 & v & Er & Hu & Hm2)].
    + exists pre, [m], rest, marker. eexists. split; [apply (tg_single E marker pre m rest); assumption|].
      rewrite (marker_lines_none _ _ rest Hn) in *. cbn [length] in *.
      match goal with |- context [existing_loop ?e ?a ?b ?c] => replace (existing_loop e a b c) with (Ok (@None (str * nat * nat), 1, false)) by (symmetry; exact E2) end. cbn [bind].
      split; [reflexivity|]. split; [reflexivity|]. split; [reflexivity|]. split; [cbn; lia|]. left. auto.
    + exists pre, [], (m :: rest), []. eexists. split.
      * apply (tg_no_table E marker pre m rest); try assumption. intros X. apply (X m2); [|exact Hm2]. rewrite Er. apply in_or_app. right. left. reflexivity.
      * match goal with |- context [existing_loop ?e ?a ?b ?c] => replace (existing_loop e a b c) with (Ok (@None (str * nat * nat), 1, true)) end.
        2:{ symmetry. etransitivity; [exact E2|]. rewrite Er, marker_lines_app, (marker_lines_none _ _ u Hu), app_nil_l, marker_lines_cons by exact Hm2. reflexivity. }
        cbn [bind]. split; [reflexivity|]. split; [reflexivity|]. split; [reflexivity|]. split; [cbn; lia|]. right. right. auto.
Qed.

Lemma target_split E marker lines pre old post t : target E marker lines pre old post t -> lines = pre ++ old ++ post.
Proof. destruct 1; reflexivity. Qed.
Lemma target_existing E marker lines pre old post t : text_lines lines -> target E marker lines pre old post t ->
  exists x, get_existing_toc E marker (mkDoc lines false) = Ok x /\ existing_for E marker lines pre old t x.
Proof.
  intros Ht Hg. destruct (existing_target E marker lines Ht) as [Hn|(pre' & old' & post' & t' & x & A & B & C)].
  - exfalso. destruct Hg as [pre m post H1 H2 H3|pre m1 mid m2 post H1 H2 H3 H4 H5|pre m1 post H1 H2 H3 H4].
    + apply (Hn m); [|assumption]. apply in_or_app. right. left. reflexivity.
    + apply (Hn m1); [|assumption]. apply in_or_app. right. left. reflexivity.
    + apply (Hn m1); [|assumption]. apply in_or_app. right. left. reflexivity.
  - destruct (target_fun _ _ _ _ _ _ _ _ _ _ _ Hg A) as (-> & -> & -> & ->). eauto.
Qed.

(** ** The write *)
Lemma fpy_remove_mid (pre old post : list str) : old <> [] ->
  fpy_remove (pre ++ old ++ post) (S (length pre)) (length pre + length old) = Ok (pre ++ post).
Proof.
  intros Hn. unfold fpy_remove. assert (1 <= length old) by (destruct old; [congruence|cbn; lia]).
  replace (S (length pre) <? 1) with false by (symmetry; apply Nat.ltb_ge; lia).
  replace (length pre + length old <? S (length pre)) with false by (symmetry; apply Nat.ltb_ge; lia).
  replace (length (pre ++ old ++ post) <? length pre + length old) with false by (symmetry; apply Nat.ltb_ge; rewrite !app_length; lia).
  cbn [orb]. replace (S (length pre) - 1) with (length pre) by lia. rewrite firstn_app_len.
  rewrite (app_assoc pre old post), <- app_length, skipn_app_len. reflexivity.
Qed.
(** Universal newlines. *)
Lemma normalized_fun s t t' : normalized s t -> normalized s t' -> t = t'.
Proof.
  intros H. revert t'. induction H as [|s t H IH|s t Hn H IH|c s t Hc H IH]; intros t' G; inversion G; subst; try congruence; try (cbn in *; congruence); f_equal; auto.
Qed.
Lemma normalized_universal s : normalized s (universal s).
Proof. apply normalized_model. Qed.
Lemma universal_is s t : normalized s t -> universal s = t.
Proof. intros H. exact (normalized_fun _ _ _ (normalized_universal s) H). Qed.
Lemma universal_id s : ~ In 13%N s -> universal s = s.
Proof. intros H. exact (normalized_same _ _ (normalized_universal s) H). Qed.
Lemma normalized_app a a' b b' : normalized a a' -> normalized b b' -> hd_error (rev a) <> Some 13%N \/ hd_error b <> Some 10%N -> normalized (a ++ b) (a' ++ b').
Proof.
  intros Ha Hb. induction Ha as [|a a' Ha IH|a a' Hn Ha IH|c a a' Hc Ha IH]; intros H; [exact Hb| | |].
  - cbn [app]. constructor. apply IH. destruct H as [H|H]; [left|right; exact H]. intros X. apply H. cbn [rev]. destruct (rev a); [discriminate|exact X].
  - cbn [app]. assert (K : hd_error (rev a) <> Some 13%N \/ hd_error b <> Some 10%N).
    { destruct H as [H|H]; [left|right; exact H]. intros X. apply H. cbn [rev]. destruct (rev a); [discriminate|exact X]. }
    constructor; [|exact (IH K)]. destruct a as [|x a]; [|exact Hn]. cbn [app]. destruct H as [H|H]; [|exact H]. cbn in H. congruence.
  - cbn [app]. constructor; [exact Hc|]. apply IH. destruct H as [H|H]; [left|right; exact H]. intros X. apply H. cbn [rev]. destruct (rev a); [discriminate|exact X].
Qed.
Lemma universal_app a b : hd_error (rev a) <> Some 13%N \/ hd_error b <> Some 10%N -> universal (a ++ b) = universal a ++ universal b.
Proof. intros H. apply universal_is. apply normalized_app; auto using normalized_universal. Qed.
Lemma rev_last_hd {A} (a : list A) x : hd_error (rev (a ++ [x])) = Some x.
Proof. rewrite rev_app_distr. reflexivity. Qed.
Lemma universal_lf a : exists b, universal (a ++ [10%N]) = b ++ [10%N].
Proof.
  destruct a as [|x a _] using rev_ind; [exists []; reflexivity|]. destruct (N.eq_dec x 13) as [->|Hx].
  - exists (universal a). rewrite <- app_assoc. cbn [app]. rewrite universal_app by (right; discriminate). reflexivity.
  - exists (universal (a ++ [x])). rewrite universal_app by (left; rewrite rev_last_hd; congruence). reflexivity.
Qed.
Lemma hd_rev_in {A} (a : list A) x : hd_error (rev a) = Some x -> In x a.
Proof. intros H. apply in_rev. destruct (rev a); [discriminate|]. injection H as ->. left. reflexivity. Qed.
Lemma final_ends E nl marker toc : line_end nl -> exists a, final_toc E nl marker toc = a ++ [10%N].
Proof.
  intros H. unfold final_toc. destruct H as [<-|[<-|[]]].
  - eexists (marker ++ [10%N] ++ [10%N] ++ rstrip (e_space E) toc ++ [10%N] ++ [10%N] ++ marker). rewrite <- !app_assoc. reflexivity.
  - exists (marker ++ [13%N; 10%N] ++ [13%N; 10%N] ++ rstrip (e_space E) toc ++ [13%N; 10%N] ++ [13%N; 10%N] ++ marker ++ [13%N]). rewrite <- !app_assoc. reflexivity.
Qed.
Lemma lines_of_final E nl marker toc pre post : line_end nl -> full_lines pre -> text_lines post ->
  lines_of (universal (concat pre ++ final_toc E nl marker toc ++ concat post)) = pre ++ lines_of (universal (final_toc E nl marker toc)) ++ post.
Proof.
  intros Hnl Hp Hq. destruct (final_ends E nl marker toc Hnl) as (a & ->).
  assert (Hc1 : ~ In 13%N (concat pre)).
  { intros X. apply in_concat in X as (l & Hl & X). destruct (proj1 (Forall_forall _ _) Hp l Hl) as (s & (_ & Hs) & ->). apply in_app_or in X as [X|[X|[]]]; [exact (Hs X)|discriminate]. }
  rewrite universal_app by (left; intros X; apply Hc1; exact (hd_rev_in _ _ X)).
  rewrite universal_app by (left; rewrite rev_last_hd; discriminate).
  rewrite (universal_id (concat pre)) by exact Hc1. rewrite (universal_id (concat post)) by (apply text_no_cr; exact Hq).
  destruct (universal_lf a) as (b & ->). rewrite lines_of_full by exact Hp. f_equal.
  rewrite <- (app_assoc _ [10%N] (concat post)). rewrite lines_of_split, lines_of_concat by exact Hq. reflexivity.
Qed.
Lemma fpy_insert_at pre post s : fpy_insert (pre ++ post) s (S (length pre)) = Ok (lines_of (universal (concat pre ++ s ++ concat post))).
Proof.
  unfold fpy_insert. replace (S (length pre) <? 1) with false by (symmetry; apply Nat.ltb_ge; lia).
  replace (S (length (pre ++ post)) <? S (length pre)) with false by (symmetry; apply Nat.ltb_ge; rewrite app_length; lia). cbn [orb].
  replace (S (length pre) - 1) with (length pre) by lia. rewrite firstn_app_len, skipn_app_len. reflexivity.
Qed.
Lemma target_full_pre E marker lines pre old post t : text_lines lines -> target E marker lines pre old post t -> full_lines pre /\ text_lines post.
Proof.
  intros Ht Hg. destruct Hg as [pre m post H1 H2 H3|pre m1 mid m2 post H1 H2 H3 H4 H5|pre m1 post H1 H2 H3 H4].
  - split; [exact (text_full _ _ _ Ht)|]. apply (text_app_r (pre ++ [m])). rewrite <- app_assoc. exact Ht.
  - split; [exact (text_full _ _ _ Ht)|]. apply (text_app_r (pre ++ (m1 :: mid ++ [m2]))). rewrite <- app_assoc. exact Ht.
  - split; [exact (text_full _ _ _ Ht)|]. apply (text_app_r pre). exact Ht.
Qed.
Lemma remove_one lines a b : (1 <= a)%Z -> (a <= b)%Z -> remove_line_intervals lines [[a; b]] = fpy_remove lines (Z.to_nat a) (Z.to_nat b).
Proof.
  intros Ha Hb. cbn [remove_line_intervals].
  replace (a <? 1)%Z with false by (symmetry; apply Z.ltb_ge; lia). replace (b <? 1)%Z with false by (symmetry; apply Z.ltb_ge; lia).
  replace (b <? a)%Z with false by (symmetry; apply Z.ltb_ge; lia). cbn [orb]. destruct (fpy_remove _ _ _); reflexivity.
Qed.
Lemma write_steps_any E nl toc marker lines pre old post t : text_lines lines -> target E marker lines pre old post t ->
  exists first, (first = [] /\ old = [] \/ first = [pre ++ post]) /\
  write_toc_steps E nl toc marker (mkDoc lines false) = Ok (first ++ [lines_of (universal (concat pre ++ final_toc E nl marker toc ++ concat post))], seqb (py_strip E toc) t).
Proof.
  intros Ht Hg. destruct (target_existing _ _ _ _ _ _ _ Ht Hg) as (x & Hx & Ho & Hf & Hl & Hcase).
  destruct (target_full_pre _ _ _ _ _ _ _ Ht Hg) as (Hfull & Hpost).
  pose proof (target_split _ _ _ _ _ _ _ Hg) as Hs.
  unfold write_toc_steps. rewrite Hx. cbn [bind d_lines]. rewrite Ho, Hf.
  destruct Hcase as [(C1 & C2 & C3 & C4 & C5)|[(C1 & C2 & C3)|(C1 & C2 & C3)]].
  - rewrite C1, C2, C3, C4. cbn [remove_line_intervals bind negb Nat.eqb andb].
    exists [pre ++ post]. split; [right; reflexivity|].
    change (remove_line_intervals lines [[Z.of_nat (S (length pre)); Z.of_nat (S (length pre))]]) with (remove_line_intervals lines [[Z.of_nat (S (length pre)); Z.of_nat (S (length pre))]]).
    assert (Hr : remove_line_intervals lines [[Z.of_nat (S (length pre)); Z.of_nat (S (length pre))]] = Ok (pre ++ post)).
    { rewrite remove_one by lia. rewrite !Nat2Z.id, Hs. replace (S (length pre)) with (length pre + length old) at 2 by lia.
      apply fpy_remove_mid. destruct old; [discriminate|discriminate]. }
    cbn [remove_line_intervals] in Hr. rewrite Hr. cbn [bind Nat.leb]. rewrite fpy_insert_at. cbn [bind app]. reflexivity.
  - rewrite C1, C2. assert (Hr : remove_line_intervals lines [[Z.of_nat (S (length pre)); Z.of_nat (length pre + length old)]] = Ok (pre ++ post)).
    { rewrite remove_one by lia. rewrite !Nat2Z.id, Hs. apply fpy_remove_mid. destruct old; [cbn in C3; lia|discriminate]. }
    cbn [negb andb]. rewrite Hr. cbn [bind]. exists [pre ++ post]. split; [right; reflexivity|].
    replace (1 <=? x_len x) with true by (symmetry; apply Nat.leb_le; exact Hl). rewrite fpy_insert_at. cbn [bind app]. reflexivity.
  - rewrite C1, C2. cbn [remove_line_intervals negb andb bind]. exists []. split; [left; auto|].
    replace (1 <=? x_len x) with true by (symmetry; apply Nat.leb_le; exact Hl). rewrite Hs, C3. cbn [app]. rewrite fpy_insert_at. cbn [bind]. reflexivity.
Qed.
Lemma write_steps_target E nl toc marker lines pre old post t : line_end nl -> text_lines lines -> target E marker lines pre old post t ->
  let new := lines_of (universal (final_toc E nl marker toc)) in
  exists first, (first = [] /\ old = [] \/ first = [pre ++ post]) /\
  write_toc_steps E nl toc marker (mkDoc lines false) = Ok (first ++ [pre ++ new ++ post], seqb (py_strip E toc) t).
Proof.
  intros Hnl Ht Hg. cbn zeta. destruct (target_full_pre _ _ _ _ _ _ _ Ht Hg) as (Hfull & Hpost).
  destruct (write_steps_any E nl toc marker lines pre old post t Ht Hg) as (first & A & B). exists first. split; [exact A|].
  rewrite B, lines_of_final by assumption. reflexivity.
Qed.
Lemma write_steps_none E nl toc marker lines : text_lines lines -> no_marker E marker lines ->
  write_toc_steps E nl toc marker (mkDoc lines false) = Ok ([], seqb (py_strip E toc) []).
Proof.
  intros Ht Hn. unfold write_toc_steps, get_existing_toc. cbn [d_bad d_lines]. rewrite (marker_lines_none _ _ _ Hn). reflexivity.
Qed.

Lemma normalized_no_cr s t : normalized s t -> ~ In 13%N t.
Proof. induction 1 as [|a a' _ IH|a a' _ _ IH|c a a' Hc _ IH]; intros X; [destruct X| | |]; destruct X as [X|X]; try discriminate; auto. Qed.
Lemma text_lines_of t : ~ In 13%N t -> text_lines (lines_of t).
Proof.
  induction t as [|c t IH]; intros H; [constructor|]. cbn [lines_of]. specialize (IH (fun X => H (or_intror X))). destruct (N.eqb_spec c cLF) as [->|Hc].
  - apply (tl_line [] (lines_of t)); [split; intros []|exact IH].
  - assert (Hc13 : c <> 13%N) by (intros ->; apply H; left; reflexivity).
    assert (K : forall s, single_line s -> single_line (c :: s)) by (intros s (A & B); split; intros [X|X]; [apply Hc; exact X|exact (A X)|congruence|exact (B X)]).
    inversion IH as [E|s Hs Hn E|s ls Hs Hl E].
    + apply tl_last; [apply K; split; intros []|discriminate].
    + apply tl_last; [apply K; exact Hs|discriminate].
    + change (c :: s ++ [10%N]) with ((c :: s) ++ [10%N]). apply tl_line; [apply K; exact Hs|exact Hl].
Qed.
Lemma text_lines_universal t : text_lines (lines_of (universal t)).
Proof. apply text_lines_of. eapply normalized_no_cr. apply normalized_universal. Qed.
(** Whatever the newline string, a write ends and leaves a text file. *)
Lemma write_total E nl toc marker lines : text_lines lines ->
  exists ls b, write_toc E nl toc marker (mkDoc lines false) = Ok (mkDoc ls false, b) /\ text_lines ls.
Proof.
  intros Ht. unfold write_toc. destruct (existing_target E marker lines Ht) as [Hn|(pre & old & post & t & x & Hg & _)].
  - rewrite write_steps_none by assumption. cbn [bind last d_lines d_bad]. eauto.
  - destruct (write_steps_any E nl toc marker lines pre old post t Ht Hg) as (first & _ & ->). cbn [bind d_lines d_bad]. rewrite last_last. eexists _, _. split; [reflexivity|]. apply text_lines_universal.
Qed.
