(** The doubly linked list of delimiters (Pointers.v) behaves like a list (Inlines.v). *)
From Coq Require Import String List NArith Bool Arith Lia.
From Verif Require Import Str Spec EnvSpec Regex HtmlRe Fence Atx Entity Inlines HelperSpec EntityProof InlineProof Pointers PointersTree.
Import ListNotations.
Local Open Scope list_scope.

(** Neighbours in the list are linked to each other; the most recent delimiter is first. *)
Definition linked (g : graph) (L : list nat) : Prop :=
  forall pre a post, L = pre ++ a :: post ->
    l_next (g_cell g a) = hd_error (rev pre) /\ l_prev (g_cell g a) = hd_error post.
Definition dinv (g : graph) (L : list nat) : Prop :=
  linked g L /\ NoDup L /\ g_last g = hd_error L /\ Forall (fun a => a < g_count g) L.

(** The attributes of a delimiter other than its links. *)
Definition core (k : cell) := (l_inl k, l_len k, l_char k, l_open k, l_close k, l_off k).
Definition quiet (g g' : graph) : Prop :=
  g_nodes g' = g_nodes g /\ g_count g' = g_count g /\ forall a, core (g_cell g' a) = core (g_cell g a).
Lemma quiet_refl g : quiet g g.
Proof. repeat split. Qed.
Lemma quiet_trans a b c : quiet a b -> quiet b c -> quiet a c.
Proof. intros (A & B & C) (D & F & G). split; [congruence|]. split; [congruence|]. intros x. rewrite G. apply C. Qed.
Lemma quiet_view g g' a : quiet g g' -> view g' a = view g a.
Proof. intros (A & _ & C). specialize (C a). unfold core in C. injection C as C1 C2 C3 C4 C5 C6. unfold view. rewrite A, C1, C2, C3, C4, C5, C6. reflexivity. Qed.
Lemma quiet_inl g g' a : quiet g g' -> l_inl (g_cell g' a) = l_inl (g_cell g a).
Proof. intros (_ & _ & C). specialize (C a). unfold core in C. injection C as C1 C2 C3 C4 C5 C6. exact C1. Qed.
Lemma quiet_map g g' L : quiet g g' -> map (view g') L = map (view g) L.
Proof. intros Q. apply map_ext. intros a. apply quiet_view. exact Q. Qed.

Lemma split_app {A} (xs ys pre : list A) b post : xs ++ ys = pre ++ b :: post ->
  (exists m, xs = pre ++ b :: m /\ post = m ++ ys) \/ (exists m, pre = xs ++ m /\ ys = m ++ b :: post).
Proof.
  revert pre. induction xs as [|x xs IH]; intros pre H.
  - right. exists pre. auto.
  - destruct pre as [|p pre]; cbn in H; injection H as -> H.
    + left. exists xs. auto.
    + destruct (IH pre H) as [(m & -> & ->)|(m & -> & ->)]; [left; exists m; auto|right; exists m; auto].
Qed.
Lemma hd_rev_app {A} (xs : list A) a m : hd_error (rev (xs ++ a :: m)) = hd_error (rev (a :: m)).
Proof. rewrite rev_app_distr. destruct (rev (a :: m)) eqn:R; [|reflexivity]. apply (f_equal (@length A)) in R. rewrite rev_length in R. discriminate. Qed.
Lemma hd_rev_snoc {A} (xs : list A) a : hd_error (rev (xs ++ [a])) = Some a.
Proof. rewrite rev_app_distr. reflexivity. Qed.
Lemma hd_rev_none {A} (xs : list A) : hd_error (rev xs) = None -> xs = [].
Proof. destruct xs as [|x xs] using rev_ind; [reflexivity|]. rewrite hd_rev_snoc. discriminate. Qed.
Lemma hd_rev_some {A} (xs : list A) n : hd_error (rev xs) = Some n -> exists xs', xs = xs' ++ [n].
Proof. destruct xs as [|x xs] using rev_ind; [discriminate|]. rewrite hd_rev_snoc. intros H. injection H as ->. eauto. Qed.

Lemma cell_set_lprev g n v b : g_cell (set_lprev g n v) b = if b =? n then mkCell v (l_next (g_cell g n)) (l_inl (g_cell g n)) (l_len (g_cell g n)) (l_char (g_cell g n)) (l_open (g_cell g n)) (l_close (g_cell g n)) (l_off (g_cell g n)) else g_cell g b.
Proof. reflexivity. Qed.
Lemma cell_set_lnext g n v b : g_cell (set_lnext g n v) b = if b =? n then mkCell (l_prev (g_cell g n)) v (l_inl (g_cell g n)) (l_len (g_cell g n)) (l_char (g_cell g n)) (l_open (g_cell g n)) (l_close (g_cell g n)) (l_off (g_cell g n)) else g_cell g b.
Proof. reflexivity. Qed.
Lemma set_lprev_quiet g n v : quiet g (set_lprev g n v).
Proof. split; [reflexivity|]. split; [reflexivity|]. intros b. rewrite cell_set_lprev. destruct (Nat.eqb_spec b n) as [->|]; reflexivity. Qed.
Lemma set_lnext_quiet g n v : quiet g (set_lnext g n v).
Proof. split; [reflexivity|]. split; [reflexivity|]. intros b. rewrite cell_set_lnext. destruct (Nat.eqb_spec b n) as [->|]; reflexivity. Qed.
Lemma set_glast_quiet g v : quiet g (set_glast g v).
Proof. repeat split. Qed.

Lemma nodup_app {A} (xs ys : list A) a : NoDup (xs ++ ys) -> In a xs -> ~ In a ys.
Proof.
  induction xs as [|x xs IH]; cbn; intros N H; [destruct H|]. inversion N; subst. destruct H as [->|H]; [|apply IH; assumption].
  intros I. apply H2. apply in_or_app. right. exact I.
Qed.
Lemma nodup_l {A} (xs ys : list A) : NoDup (xs ++ ys) -> NoDup xs.
Proof. induction xs as [|x xs IH]; cbn; intros N; [constructor|]. inversion N; subst. constructor; [|auto]. intros I. apply H1. apply in_or_app. left. exact I. Qed.
Lemma nodup_r {A} (xs ys : list A) : NoDup (xs ++ ys) -> NoDup ys.
Proof. induction xs as [|x xs IH]; cbn; intros N; [exact N|]. inversion N; subst. auto. Qed.
Lemma hd_error_in {A} (xs : list A) x : hd_error xs = Some x -> In x xs.
Proof. destruct xs; [discriminate|]. cbn. intros H. injection H as ->. left. reflexivity. Qed.

Lemma remove_ok g xs a ys : dinv g (xs ++ a :: ys) -> exists g', remove_delimiter g a = Ok g' /\ dinv g' (xs ++ ys) /\ quiet g g'.
Proof.
  intros (K & N & La & Fo). destruct (K xs a ys eq_refl) as (Kn & Kp). unfold remove_delimiter.
  set (r1 := match l_next (g_cell g a) with None => _ | Some n => _ end).
  assert (G1 : exists g1, r1 = Ok g1 /\ quiet g g1 /\ g_last g1 = hd_error (xs ++ ys) /\
     (forall b, l_next (g_cell g1 b) = l_next (g_cell g b)) /\
     (forall b, l_prev (g_cell g1 b) = if oid_eqb (Some b) (hd_error (rev xs)) then hd_error ys else l_prev (g_cell g b))).
  { unfold r1. rewrite Kn, Kp. destruct (hd_error (rev xs)) as [n|] eqn:H.
    - destruct (hd_rev_some _ _ H) as (xs' & ->). exists (set_lprev g n (hd_error ys)). split; [reflexivity|]. split; [apply set_lprev_quiet|]. split; [|split].
      + cbn [g_last set_lprev set_cell]. rewrite La. destruct xs'; reflexivity.
      + intros b. rewrite cell_set_lprev. destruct (Nat.eqb_spec b n) as [->|]; reflexivity.
      + intros b. rewrite cell_set_lprev. cbn [oid_eqb]. destruct (Nat.eqb_spec b n) as [->|]; reflexivity.
    - apply hd_rev_none in H. subst xs. cbn [app] in *. rewrite La. cbn [hd_error oid_eqb]. rewrite Nat.eqb_refl. eexists. split; [reflexivity|]. split; [apply set_glast_quiet|]. split; [reflexivity|]. split; reflexivity. }
  destruct G1 as (g1 & -> & Q1 & L1 & N1 & P1). cbn [bind].
  assert (Hax : ~ In a xs) by (intros I; apply (nodup_app _ _ _ N I); left; reflexivity).
  replace (l_prev (g_cell g1 a)) with (hd_error ys).
  2:{ rewrite P1. destruct (oid_eqb (Some a) (hd_error (rev xs))); [reflexivity|]. symmetry. exact Kp. }
  rewrite N1, Kn.
  set (r2 := match hd_error ys with Some p => _ | None => _ end).
  assert (G2 : exists g2, r2 = Ok g2 /\ quiet g1 g2 /\ g_last g2 = g_last g1 /\
     (forall b, l_next (g_cell g2 b) = if oid_eqb (Some b) (hd_error ys) then hd_error (rev xs) else l_next (g_cell g1 b)) /\
     (forall b, l_prev (g_cell g2 b) = l_prev (g_cell g1 b))).
  { unfold r2. destruct (hd_error ys) as [p|].
    - exists (set_lnext g1 p (hd_error (rev xs))). split; [reflexivity|]. split; [apply set_lnext_quiet|]. split; [reflexivity|]. split.
      + intros b. rewrite cell_set_lnext. cbn [oid_eqb]. destruct (Nat.eqb_spec b p) as [->|]; reflexivity.
      + intros b. rewrite cell_set_lnext. destruct (Nat.eqb_spec b p) as [->|]; reflexivity.
    - exists g1. repeat split. }
  destruct G2 as (g2 & -> & Q2 & L2 & N2 & P2). exists g2. split; [reflexivity|]. assert (Q : quiet g g2) by (eapply quiet_trans; eassumption). split; [|exact Q].
  assert (N' : NoDup (xs ++ ys)) by (apply NoDup_remove_1 in N; exact N).
  split; [|split; [exact N'|split]].
  - intros pre b post H. rewrite N2, P2, N1, P1. destruct (split_app _ _ _ _ _ H) as [(m & -> & ->)|(m & -> & ->)].
    + assert (B : ~ In b ys) by (apply (nodup_app _ _ _ N'); apply in_or_app; right; left; reflexivity).
      replace (oid_eqb (Some b) (hd_error ys)) with false.
      2:{ symmetry. apply oid_eqb_ne. intros E. apply B. destruct ys as [|y ys]; [discriminate|]. injection E as ->. left. reflexivity. }
      assert (K2 := K pre b (m ++ a :: ys)). rewrite <- app_assoc in K2. cbn in K2. destruct (K2 eq_refl) as (K3 & K4). split; [exact K3|].
      destruct m as [|m0 m].
      * rewrite hd_rev_snoc. cbn [oid_eqb]. rewrite Nat.eqb_refl. reflexivity.
      * replace (oid_eqb (Some b) _) with false; [rewrite K4; reflexivity|]. symmetry. apply oid_eqb_ne. intros E.
        rewrite hd_rev_app in E. change (b :: m0 :: m) with ([b] ++ m0 :: m) in E. rewrite hd_rev_app in E. symmetry in E. apply hd_error_in in E. apply in_rev in E.
        apply nodup_l, NoDup_remove_2 in N'. apply N'. apply in_or_app. right. exact E.
    + assert (B : ~ In b xs) by (intros I; apply (nodup_app _ _ _ N' I); apply in_or_app; right; left; reflexivity).
      replace (oid_eqb (Some b) (hd_error (rev xs))) with false.
      2:{ symmetry. apply oid_eqb_ne. intros E. apply B. symmetry in E. apply hd_error_in in E. apply in_rev in E. exact E. }
      assert (K2 := K (xs ++ a :: m) b post). rewrite <- app_assoc in K2. destruct (K2 eq_refl) as (K3 & K4). split; [|exact K4].
      destruct m as [|m0 m].
      * cbn [app hd_error oid_eqb]. rewrite Nat.eqb_refl, app_nil_r. reflexivity.
      * rewrite hd_rev_app. rewrite hd_rev_app in K3. change (a :: m0 :: m) with ([a] ++ m0 :: m) in K3. rewrite hd_rev_app in K3. rewrite K3. replace (oid_eqb (Some b) _) with false; [reflexivity|].
        symmetry. apply oid_eqb_ne. cbn. intros E. injection E as <-. apply nodup_r in N'. inversion N' as [|? ? X _]; subst. apply X. apply in_or_app. right. left. reflexivity.
  - rewrite L2. exact L1.
  - rewrite (proj1 (proj2 Q)). apply Forall_app in Fo as (Fo1 & Fo2). inversion Fo2; subst. apply Forall_app. auto.
Qed.

(** A delimiter is known by the position of its run. *)
Definition sid (g : graph) (a : nat) : nat := d_start (view g a).
Definition ids (g : graph) : Prop := forall a b, a < g_count g -> b < g_count g -> sid g a = sid g b -> a = b.
Definition named (g : graph) (p : ptr) : option nat := option_map (sid g) p.
Definition known (g : graph) (p : ptr) : Prop := forall a, p = Some a -> a < g_count g.
Lemma ids_eqb g a b : ids g -> a < g_count g -> b < g_count g -> (sid g a =? sid g b) = (a =? b).
Proof.
  intros I A B. destruct (Nat.eqb_spec a b) as [->|N]; [apply Nat.eqb_refl|]. apply Nat.eqb_neq. intros E. apply N. apply I; assumption.
Qed.
Lemma ids_oid g a p : ids g -> a < g_count g -> known g p -> oid_eqb (Some (sid g a)) (named g p) = oid_eqb (Some a) p.
Proof. intros I A K. destruct p as [b|]; [|reflexivity]. cbn. apply ids_eqb; auto. Qed.

(** The part of a list above an element, and the rest. *)
Fixpoint cut (b : nat) (l : list nat) : option (list nat * list nat) :=
  match l with
  | [] => None
  | a :: l' => if a =? b then Some ([], l)
               else match cut b l' with Some (x, y) => Some (a :: x, y) | None => None end
  end.
Lemma cut_some b l x y : cut b l = Some (x, y) -> l = x ++ y /\ hd_error y = Some b.
Proof.
  revert x y. induction l as [|a l IH]; intros x y; cbn; [discriminate|]. destruct (Nat.eqb_spec a b) as [->|N]; [intros H; injection H as <- <-; auto|].
  destruct (cut b l) as [(p & q)|]; [|discriminate]. intros H. injection H as <- <-. destruct (IH p q eq_refl) as (-> & Q). auto.
Qed.
Lemma cut_none b l : cut b l = None <-> ~ In b l.
Proof.
  induction l as [|a l IH]; cbn; [split; auto|]. destruct (Nat.eqb_spec a b) as [->|N]; [split; [discriminate|intros H; exfalso; apply H; auto]|].
  destruct (cut b l) as [(p & q)|]; [split; [discriminate|]|].
  - intros H. exfalso. assert (Z : Some (p, q) = None) by (apply IH; intros I; apply H; auto). discriminate.
  - split; [|reflexivity]. intros _ [->|I]; [contradiction|]. apply (proj1 IH eq_refl). exact I.
Qed.
Lemma cut_view g b l : ids g -> b < g_count g -> Forall (fun a => a < g_count g) l ->
  split_at (sid g b) (map (view g) l) = match cut b l with Some (x, y) => Some (map (view g) x, map (view g) y) | None => None end.
Proof.
  intros I B. induction 1 as [|a l A F IH]; cbn [map split_at cut]; [reflexivity|]. fold (sid g a). rewrite ids_eqb by assumption.
  destruct (a =? b); [reflexivity|]. rewrite IH. destruct (cut b l) as [(x & y)|]; reflexivity.
Qed.

(** A suffix of the list is where a walk has got to. *)
Lemma linked_prev g pre a post : linked g (pre ++ a :: post) -> l_prev (g_cell g a) = hd_error post.
Proof. intros K. apply (K pre a post eq_refl). Qed.

Lemma back_none g : forall cur pre fuel, linked g (pre ++ cur) -> length cur <= fuel ->
  back fuel g (hd_error cur) None = Ok (hd_error (rev cur)).
Proof.
  induction cur as [|c rest IH]; intros pre fuel K F; [destruct fuel; reflexivity|]. cbn [length] in F. destruct fuel as [|fuel]; [lia|].
  cbn [hd_error back]. rewrite (linked_prev _ _ _ _ K). destruct rest as [|d rest]; [reflexivity|]. cbn [hd_error oid_eqb].
  change (Some d) with (hd_error (d :: rest)). rewrite (IH (pre ++ [c]) fuel); [|rewrite <- app_assoc; exact K|lia].
  change (c :: d :: rest) with ([c] ++ d :: rest). rewrite hd_rev_app. reflexivity.
Qed.
Lemma back_some g b : forall cur pre fuel, linked g (pre ++ cur) -> NoDup cur -> length cur <= fuel ->
  back fuel g (hd_error cur) (Some b) = Ok (match cut b cur with Some (x, _) => hd_error (rev x) | None => None end).
Proof.
  induction cur as [|c rest IH]; intros pre fuel K N F; [destruct fuel; reflexivity|]. cbn [length] in F. destruct fuel as [|fuel]; [lia|].
  cbn [hd_error back]. rewrite (linked_prev _ _ _ _ K). inversion N as [|? ? Hc N']; subst. destruct (oid_eqb (hd_error rest) (Some b)) eqn:E.
  - apply oid_eqb_spec in E. destruct rest as [|d rest]; [discriminate|]. injection E as ->. cbn [cut]. destruct (Nat.eqb_spec c b) as [->|]; [exfalso; apply Hc; left; reflexivity|].
    rewrite Nat.eqb_refl. reflexivity.
  - rewrite (IH (pre ++ [c]) fuel); [|rewrite <- app_assoc; exact K|exact N'|lia]. f_equal. cbn [cut]. destruct (Nat.eqb_spec c b) as [->|Ne].
    + rewrite (proj2 (cut_none b rest) Hc). reflexivity.
    + destruct (cut b rest) as [(x & y)|] eqn:C; [|reflexivity]. destruct x as [|x0 x].
      * apply cut_some in C as (-> & C). cbn in E. rewrite C in E. cbn in E. rewrite Nat.eqb_refl in E. discriminate.
      * change (c :: x0 :: x) with ([c] ++ x0 :: x). rewrite hd_rev_app. reflexivity.
Qed.

Lemma search_ok g bot c : ids g -> known g bot -> forall cur pre fuel, linked g (pre ++ cur) -> Forall (fun a => a < g_count g) cur -> length cur <= fuel ->
  match find_opener (map (view g) cur) (named g bot) (view g c) with
  | None => search fuel g (hd_error cur) bot c = Ok None
  | Some (d, bl) => exists sk o below, cur = sk ++ o :: below /\ d = view g o /\ bl = map (view g) below /\ search fuel g (hd_error cur) bot c = Ok (Some o)
  end.
Proof.
  intros I Kb. induction cur as [|o rest IH]; intros pre fuel K Fo F; [destruct fuel; reflexivity|]. cbn [length] in F. destruct fuel as [|fuel]; [lia|].
  inversion Fo as [|? ? Ho Fo']; subst. cbn [map find_opener hd_error search]. fold (sid g o). rewrite ids_oid by assumption.
  destruct (oid_eqb (Some o) bot); [reflexivity|]. destruct (can_match (view g o) (view g c)).
  - exists [], o, rest. auto.
  - rewrite (linked_prev _ _ _ _ K). assert (R := IH (pre ++ [o]) fuel). rewrite <- app_assoc in R. specialize (R K Fo' ltac:(lia)).
    destruct (find_opener (map (view g) rest) (named g bot) (view g c)) as [(d & bl)|]; [|exact R].
    destruct R as (sk & o' & below & -> & D & B & S). exists (o :: sk), o', below. auto.
Qed.

Lemma free_between_ok o below : forall sk xs g fuel, dinv g (xs ++ sk ++ o :: below) -> length sk <= fuel ->
  exists g', free_between fuel g (hd_error (sk ++ o :: below)) o = Ok g' /\ dinv g' (xs ++ o :: below) /\ quiet g g'.
Proof.
  induction sk as [|a sk IH]; intros xs g fuel D F.
  - exists g. split; [|split; [exact D|apply quiet_refl]]. destruct fuel; cbn; rewrite Nat.eqb_refl; reflexivity.
  - cbn [length] in F. destruct fuel as [|fuel]; [lia|]. cbn [app hd_error free_between].
    assert (N : a <> o).
    { intros ->. destruct D as (_ & N & _). apply nodup_r in N. cbn in N. inversion N as [|? ? X _]; subst. apply X. apply in_or_app. right. left. reflexivity. }
    destruct (Nat.eqb_spec a o) as [|_]; [contradiction|]. cbn [app] in D. rewrite (linked_prev g xs a (sk ++ o :: below) (proj1 D)).
    destruct (remove_ok g xs a (sk ++ o :: below) D) as (g1 & -> & D1 & Q1). cbn [bind].
    destruct (IH xs g1 fuel D1 ltac:(lia)) as (g2 & -> & D2 & Q2). exists g2. split; [reflexivity|]. split; [exact D2|]. eapply quiet_trans; eassumption.
Qed.

Lemma quiet_sid g g' a : quiet g g' -> sid g' a = sid g a.
Proof. intros Q. unfold sid. rewrite (quiet_view _ _ _ Q). reflexivity. Qed.
Lemma quiet_ids g g' : quiet g g' -> ids g -> ids g'.
Proof. intros Q I a b A B E. rewrite !(quiet_sid _ _ _ Q) in E. rewrite (proj1 (proj2 Q)) in *. apply I; assumption. Qed.
Lemma quiet_named g g' p : quiet g g' -> named g' p = named g p.
Proof. intros Q. destruct p as [a|]; [|reflexivity]. unfold named. cbn [option_map]. rewrite (quiet_sid _ _ _ Q). reflexivity. Qed.
Lemma quiet_known g g' p : quiet g g' -> known g p -> known g' p.
Proof. intros Q K a A. rewrite (proj1 (proj2 Q)). apply K. exact A. Qed.

Lemma drop_ok bot : forall L g fuel, dinv g L -> ids g -> known g bot -> length L <= fuel ->
  exists g' L', drop_delims fuel g bot = Ok g' /\ dinv g' L' /\ quiet g g' /\ map (view g) L' = drop_until (named g bot) (map (view g) L) /\ incl L' L.
Proof.
  induction L as [|a L IH]; intros g fuel D I Kb F.
  - exists g, []. split; [|split; [exact D|split; [apply quiet_refl|split; [reflexivity|apply incl_refl]]]]. destruct D as (_ & _ & La & _). destruct fuel; cbn; rewrite La; reflexivity.
  - cbn [length] in F. destruct fuel as [|fuel]; [lia|]. cbn [drop_delims map drop_until]. destruct D as (K & N & La & Fo). rewrite La. cbn [hd_error]. fold (sid g a).
    inversion Fo as [|? ? A Fo']; subst. rewrite ids_oid by assumption. destruct (oid_eqb (Some a) bot).
    + exists g, (a :: L). split; [reflexivity|]. split; [exact (conj K (conj N (conj La Fo)))|]. split; [apply quiet_refl|]. split; [reflexivity|apply incl_refl].
    + destruct (remove_ok g [] a L) as (g1 & -> & D1 & Q1); [exact (conj K (conj N (conj La Fo)))|]. cbn [bind app] in *.
      destruct (IH g1 fuel D1 (quiet_ids _ _ Q1 I) (quiet_known _ _ _ Q1 Kb) ltac:(lia)) as (g2 & L' & -> & D2 & Q2 & V & I2). exists g2, L'. split; [reflexivity|]. split; [exact D2|].
      split; [eapply quiet_trans; eassumption|]. rewrite !(quiet_map _ _ _ Q1), (quiet_named _ _ _ Q1) in V. split; [exact V|apply incl_tl; exact I2].
Qed.
