(** Writing the same text a second time. *)
From Coq Require Import String List NArith ZArith Bool Arith Lia.
From Verif Require Import Str StrFacts Spec Toc Write WriteSpec WriteProof WriteLoop.
Import ListNotations.
Local Open Scope list_scope.

Lemma no_table_swap E marker pre m m' : is_marker E marker m -> no_table E marker (pre ++ [m]) -> no_table E marker (pre ++ [m']).
Proof.
  intros Hm H x a mid b y Eq Ha Hb Hmid.
  destruct (exists_last (l := b :: y)) as (y' & z & Hy); [discriminate|].
  rewrite Hy in Eq. replace (x ++ a :: mid ++ y' ++ [z]) with ((x ++ a :: mid ++ y') ++ [z]) in Eq by (rewrite <- !app_assoc; cbn; rewrite <- !app_assoc; reflexivity).
  apply app_inj_tail in Eq as (Eq & <-).
  destruct y' as [|b' y'].
  - injection Hy as -> ->. rewrite app_nil_r in Eq. apply (H x a mid m []); auto. rewrite Eq, <- app_assoc. reflexivity.
  - injection Hy as -> ->. apply (H x a mid b' (y' ++ [m])); auto. rewrite Eq, <- !app_assoc. cbn. rewrite <- !app_assoc. reflexivity.
Qed.

Lemma strip_pad (p : N -> bool) a s b : Forall (fun c => p c = true) a -> Forall (fun c => p c = true) b -> strip p (a ++ s ++ b) = strip p s.
Proof.
  intros Ha Hb. destruct (strip_split p s) as (pre & suf & Hs & H1 & H2 & H3 & H4).
  rewrite Hs at 1. replace (a ++ (pre ++ strip p s ++ suf) ++ b) with ((a ++ pre) ++ strip p s ++ (suf ++ b)) by (rewrite <- !app_assoc; reflexivity).
  apply strip_unique; try assumption; apply Forall_app; auto.
Qed.
Lemma strip_rstrip (p : N -> bool) s : strip p (rstrip p s) = strip p s.
Proof.
  destruct (rstrip_split p s) as (suf & Hs & H1 & _). rewrite Hs at 2. symmetry. apply (strip_pad p [] (rstrip p s) suf); auto.
Qed.

(** The lines of a text and its last, unterminated line. *)
Lemma split_last_line (b : str) : exists f t, b = concat f ++ t /\ ~ In 10%N t /\ (forall l, In l f -> exists s, l = s ++ [10%N] /\ ~ In 10%N s) /\ forall u, lines_of (b ++ u) = f ++ lines_of (t ++ u).
Proof.
  induction b as [|c b IH].
  - exists [], []. repeat split; auto; contradiction.
  - destruct IH as (f & t & Eb & Ht & Hf & Hl). destruct (N.eq_dec c 10) as [->|Hc].
    + exists ([10%N] :: f), t. repeat split; auto.
      * rewrite Eb. reflexivity.
      * intros l [<-|H]; [exists []; split; [reflexivity|intros []]|auto].
      * intros u. cbn. rewrite Hl. reflexivity.
    + destruct f as [|l f].
      * exists [], (c :: t). repeat split; auto.
        -- rewrite Eb. reflexivity.
        -- intros [H|H]; [congruence|exact (Ht H)].
        -- intros u. cbn [app] in *. rewrite Eb. reflexivity.
      * exists ((c :: l) :: f), t. repeat split; auto.
        -- rewrite Eb. reflexivity.
        -- intros l' [<-|H]; [|apply Hf; right; exact H]. destruct (Hf l (or_introl eq_refl)) as (s & -> & Hs). exists (c :: s). split; [reflexivity|]. intros [H|H]; [congruence|exact (Hs H)].
        -- intros u. cbn [app lines_of]. destruct (N.eqb_spec c cLF); [contradiction|]. rewrite Hl. reflexivity.
Qed.

Lemma written_no_marker E marker toc tl : e_space E 10%N = true -> text_lines tl -> concat tl = toc -> no_marker E marker tl -> py_strip E marker <> [] ->
  no_marker E marker (lines_of (rstrip (e_space E) toc ++ [10%N])).
Proof.
  intros Hlf Htl Ht Hn Hm l Hl Hlm.
  assert (Etl : lines_of toc = tl) by (rewrite <- Ht; apply lines_of_concat; exact Htl).
  destruct (rstrip_split (e_space E) toc) as (ws & Ews & Fws & _). set (b := rstrip (e_space E) toc) in *.
  destruct (split_last_line b) as (f & t & Eb & Htn & _ & Hlines). rewrite Hlines in Hl.
  rewrite Ews, Hlines in Etl. apply in_app_or in Hl as [Hl|Hl].
  - apply (Hn l); [|exact Hlm]. rewrite <- Etl. apply in_or_app. left. exact Hl.
  - rewrite <- (app_nil_r (t ++ [10%N])), lines_of_line in Hl by exact Htn. destruct Hl as [<-|[]].
    assert (G : forall w, Forall (fun c => e_space E c = true) w -> py_strip E (t ++ w) = py_strip E (t ++ [10%N])).
    { intros w Hw. unfold py_strip. rewrite (strip_pad _ [] t w) by auto. symmetry. apply (strip_pad _ [] t [10%N]); auto. }
    destruct (split_last_line ws) as (f2 & t2 & Ew & Ht2 & Hf2 & _).
    destruct f2 as [|l2 f2].
    + cbn [concat app] in Ew. subst ws. destruct (t ++ t2) as [|c r] eqn:Ett.
      * apply app_eq_nil in Ett as (-> & ->). unfold is_marker in Hlm. change (py_strip E ([] ++ [10%N]) = py_strip E marker) in Hlm. rewrite <- (G []) in Hlm by constructor. apply Hm. rewrite <- Hlm. reflexivity.
      * apply (Hn (t ++ t2)).
        -- rewrite <- Etl, <- Ett. apply in_or_app. right. rewrite lines_of_last; [left; reflexivity| |rewrite Ett; discriminate]. intros H. apply in_app_or in H as [H|H]; auto.
        -- unfold is_marker. change (py_strip E (t ++ t2) = py_strip E marker). rewrite (G t2 Fws). exact Hlm.
    + destruct (Hf2 l2 (or_introl eq_refl)) as (s & -> & Hs). cbn [concat] in Ew.
      apply (Hn (t ++ s ++ [10%N])).
      * rewrite <- Etl, Ew. apply in_or_app. right. 
        replace (t ++ ((s ++ [10%N]) ++ concat f2) ++ t2) with (((t ++ s) ++ [10%N]) ++ concat f2 ++ t2) by (rewrite <- !app_assoc; reflexivity).
        rewrite lines_of_line; [left; rewrite app_assoc; reflexivity|]. intros H. apply in_app_or in H as [H|H]; auto.
      * unfold is_marker. change (trim (e_space E)) with (py_strip E). rewrite G; [exact Hlm|]. rewrite Ew in Fws. apply Forall_app in Fws as (F & _). apply Forall_app in F as (F & _). exact F.
Qed.

Lemma delete_app c a b : delete_char c (a ++ b) = delete_char c a ++ delete_char c b.
Proof. apply filter_app. Qed.
Lemma joined_concat ls : joined ls = chomp (concat ls).
Proof. induction ls as [|l ls IH]; [reflexivity|]. unfold joined in *. cbn [map concat]. rewrite IH. unfold chomp. symmetry. apply delete_app. Qed.

Lemma final_lines E marker toc : ~ In 10%N marker ->
  lines_of (final_toc E [10%N] marker toc) = (marker ++ [10%N]) :: ([[10%N]] ++ lines_of (rstrip (e_space E) toc ++ [10%N]) ++ [[10%N]]) ++ [marker ++ [10%N]].
Proof.
  intros Hm. unfold final_toc. set (b := rstrip (e_space E) toc).
  replace (marker ++ [10%N] ++ [10%N] ++ b ++ [10%N] ++ [10%N] ++ marker ++ [10%N])
    with ((marker ++ [10%N]) ++ ([] ++ [10%N]) ++ b ++ [10%N] ++ ([] ++ [10%N]) ++ (marker ++ [10%N]) ++ [])
    by (cbn; rewrite <- !app_assoc; rewrite ?app_nil_r; reflexivity).
  rewrite lines_of_line by exact Hm. rewrite lines_of_line by (intros []). rewrite lines_of_split.
  rewrite lines_of_line by (intros []). rewrite lines_of_line by exact Hm. cbn. rewrite <- app_assoc. reflexivity.
Qed.

Lemma full_lines_of t : ~ In 13%N t -> full_lines (lines_of (t ++ [10%N])).
Proof.
  intros Hc. destruct (split_last_line t) as (f & u & Et & Hu & Hf & Hl). rewrite Hl, <- (app_nil_r (u ++ [10%N])), lines_of_line by exact Hu.
  apply Forall_forall. intros l Hin. apply in_app_or in Hin as [Hin|[<-|[]]].
  - destruct (Hf l Hin) as (s & -> & Hs). exists s. split; [|reflexivity]. split; [exact Hs|]. intros H. apply Hc. rewrite Et. apply in_or_app. left. apply in_concat. exists (s ++ [10%N]). split; [exact Hin|]. apply in_or_app. auto.
  - exists u. split; [|reflexivity]. split; [exact Hu|]. intros H. apply Hc. rewrite Et. apply in_or_app. auto.
Qed.

(** Line ends and white space at the end. *)
Lemma normalized_space (p : N -> bool) s t : p 10%N = true -> normalized s t -> Forall (fun c => p c = true) s -> Forall (fun c => p c = true) t.
Proof.
  intros Hp. induction 1 as [|s t H IH|s t Hn H IH|c s t Hc H IH]; intros F; [constructor| | |].
  - inversion F as [|? ? _ F1]; subst. inversion F1 as [|? ? _ F2]; subst. constructor; auto.
  - inversion F; subst. constructor; auto.
  - inversion F; subst. constructor; auto.
Qed.
Lemma rstrip_universal (p : N -> bool) s : p 10%N = true -> p 13%N = true -> universal (rstrip p s) = rstrip p (universal s).
Proof.
  intros H10 H13. destruct (rstrip_split p s) as (ws & Hs & Hw & Hn). rewrite Hs at 2. set (b := rstrip p s) in *.
  assert (Hb : hd_error (rev b) <> Some 13%N).
  { unfold noend in Hn. intros X. destruct (rev b) as [|c r]; [discriminate|]. injection X as ->. cbn in Hn. congruence. }
  rewrite universal_app by auto. symmetry. assert (Fw : Forall (fun c => p c = true) (universal ws)) by (eapply normalized_space; [exact H10|apply normalized_universal|exact Hw]).
  apply rstrip_unique; [exact Fw|]. clear Hs Fw.
  destruct b as [|x b _] using rev_ind; [exact Hn|]. assert (Hx : p x = false).
  { unfold noend in Hn. rewrite rev_app_distr in Hn. exact Hn. }
  rewrite universal_app by (right; cbn; intros X; injection X as ->; congruence).
  rewrite (universal_id [x]) by (intros [X|[]]; congruence). unfold noend. rewrite rev_app_distr. exact Hx.
Qed.
Lemma universal_final E nl marker toc : line_end nl -> e_space E 10%N = true -> e_space E 13%N = true -> ~ In 13%N marker ->
  universal (final_toc E nl marker toc) = final_toc E [10%N] marker (universal toc).
Proof.
  intros Hnl H10 H13 Hm. unfold final_toc. rewrite <- rstrip_universal by assumption.
  assert (Hmk : hd_error (rev marker) <> Some 13%N) by (intros X; apply Hm; exact (hd_rev_in _ _ X)).
  assert (Hb : hd_error (rev (rstrip (e_space E) toc)) <> Some 13%N).
  { destruct (rstrip_split (e_space E) toc) as (ws & _ & _ & Hn). unfold noend in Hn. intros X. destruct (rev (rstrip (e_space E) toc)) as [|c r]; [discriminate|]. injection X as ->. cbn in Hn. congruence. }
  assert (Hend : hd_error (rev nl) <> Some 13%N) by (destruct Hnl as [<-|[<-|[]]]; discriminate).
  assert (Hu : universal nl = [10%N]) by (destruct Hnl as [<-|[<-|[]]]; reflexivity).
  repeat (rewrite universal_app by (left; assumption)). rewrite Hu, (universal_id marker) by exact Hm. reflexivity.
Qed.

(** After a write, the new block is the target of the next one. *)
Lemma written_target E nl marker toc toc' tl lines pre old post t :
  line_end nl -> normalized toc toc' ->
  e_space E 10%N = true -> e_space E 13%N = true -> single_line marker -> py_strip E marker <> [] ->
  text_lines tl -> concat tl = toc' -> no_marker E marker tl ->
  list_item E (chomp (rstrip (e_space E) toc')) \/ py_strip E toc' = [] ->
  text_lines lines -> target E marker lines pre old post t ->
  let new := lines_of (universal (final_toc E nl marker toc)) in
  text_lines (pre ++ new ++ post) /\ target E marker (pre ++ new ++ post) pre new post (py_strip E toc').
Proof.
  intros Hnl Hno Hlf H13 Hm Hmn Htl Et Hnm Hrec Hlines Hg. cbn zeta.
  destruct (target_full_pre _ _ _ _ _ _ _ Hlines Hg) as (Hpre & Hpost).
  assert (Hcr : ~ In 13%N (rstrip (e_space E) toc')).
  { intros H. apply (text_no_cr _ Htl). rewrite Et. destruct (rstrip_split (e_space E) toc') as (ws & -> & _). apply in_or_app. left. exact H. }
  pose proof (full_lines_of _ Hcr) as Hbody.
  rewrite universal_final by (assumption || apply Hm). rewrite (universal_is _ _ Hno). rewrite final_lines by apply Hm. set (body := lines_of (rstrip (e_space E) toc' ++ [10%N])) in *.
  set (mid := [[10%N]] ++ body ++ [[10%N]]).
  assert (Hmk : is_marker E marker (marker ++ [10%N])) by (unfold is_marker, py_strip; apply (strip_pad _ [] marker [10%N]); auto).
  assert (Hmid : no_marker E marker mid).
  { assert (Hblank : ~ is_marker E marker [10%N]).
    { unfold is_marker. change (trim (e_space E)) with (py_strip E). intros H. apply Hmn. rewrite <- H. unfold py_strip. apply strip_all. auto. }
    intros l Hl. unfold mid in Hl. apply in_app_or in Hl as [[<-|[]]|Hl]; [exact Hblank|]. apply in_app_or in Hl as [Hl|[<-|[]]]; [|exact Hblank].
    exact (written_no_marker E marker toc' tl Hlf Htl Et Hnm Hmn l Hl). }
  assert (Hcm : concat mid = [10%N] ++ rstrip (e_space E) toc' ++ [10%N; 10%N]).
  { unfold mid. cbn [app concat]. rewrite concat_app. unfold body. rewrite concat_lines_of. cbn. rewrite <- app_assoc. reflexivity. }
  assert (Hstrip : py_strip E (concat mid) = py_strip E toc').
  { rewrite Hcm. unfold py_strip. rewrite strip_pad by auto. apply strip_rstrip. }
  assert (Hregion : table_region E mid).
  { destruct Hrec as [H|H].
    - left. unfold inner, mid. change (List.tl ([[10%N]] ++ body ++ [[10%N]])) with (body ++ [[10%N]]). rewrite removelast_last, joined_concat. unfold body. rewrite concat_lines_of.
      unfold chomp in *. fold (delete_char 10 (rstrip (e_space E) toc' ++ [10%N])). rewrite delete_app. replace (delete_char 10 [10%N]) with (@nil N) by reflexivity. rewrite app_nil_r. exact H.
    - right. rewrite joined_concat, Hcm. unfold py_strip in H. rewrite (rstrip_all _ _ (strip_nil_all _ _ H)). constructor. }
  assert (Hnot : no_table E marker (pre ++ [marker ++ [10%N]])).
  { destruct Hg as [pre m post H1 H2 H3|pre m1 mid' m2 post H1 H2 H3 H4 H5|pre m1 post H1 H2 H3 H4].
    - apply no_table_short. exact H2.
    - exact (no_table_swap _ _ _ _ _ H1 H5).
    - apply no_table_short. exact H2. }
  split.
  - apply full_text; [exact Hpre|]. apply full_text; [|exact Hpost].
    apply Forall_forall. intros l [<-|Hl]; [exists marker; split; [exact Hm|reflexivity]|]. apply in_app_or in Hl as [Hl|[<-|[]]]; [|exists marker; split; [exact Hm|reflexivity]].
    assert (Hb : exists s, single_line s /\ [10%N] = s ++ [10%N]) by (exists []; split; [split; intros []|reflexivity]).
    unfold mid in Hl. apply in_app_or in Hl as [[<-|[]]|Hl]; [exact Hb|]. apply in_app_or in Hl as [Hl|[<-|[]]]; [exact (proj1 (Forall_forall _ _) Hbody l Hl)|exact Hb].
  - rewrite <- Hstrip. apply tg_table; assumption.
Qed.
