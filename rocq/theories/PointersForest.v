(** The nodes that are in use form trees of doubly linked children. *)
From Coq Require Import String List NArith Bool Arith Lia.
From Verif Require Import Str Spec EnvSpec Regex HtmlRe Fence Atx Entity Inlines Pointers PointersTree.
Import ListNotations.
Local Open Scope list_scope.

(** [live]: the nodes that are in use. *)
Definition woven (live : nat -> Prop) (h : heap) : Prop := forall x, live x ->
  x < h_count h /\
  (forall y, next_of h x = Some y -> live y /\ prev_of h y = Some x /\ parent_of h y = parent_of h x) /\
  (forall y, prev_of h x = Some y -> live y /\ next_of h y = Some x /\ parent_of h y = parent_of h x) /\
  (forall p, parent_of h x = Some p -> live p /\ (prev_of h x = None -> first_of h p = Some x) /\ (next_of h x = None -> last_of h p = Some x)) /\
  (forall y, first_of h x = Some y -> live y /\ parent_of h y = Some x /\ prev_of h y = None) /\
  (forall y, last_of h x = Some y -> live y /\ parent_of h y = Some x /\ next_of h y = None) /\
  (parent_of h x = None -> next_of h x = None /\ prev_of h x = None) /\
  (first_of h x = None <-> last_of h x = None).
Definition single (h : heap) (x : nat) : Prop := next_of h x = None /\ prev_of h x = None /\ parent_of h x = None.

Lemma woven_ext live h h' : woven live h -> h_count h <= h_count h' -> (forall x, live x -> h_link h' x = h_link h x) -> woven live h'.
Proof.
  intros W C L x Hx. destruct (W x Hx) as (A0 & A1 & A2 & A3 & A4 & A5 & A6 & A7).
  assert (Q : forall y, live y -> next_of h' y = next_of h y /\ prev_of h' y = prev_of h y /\ parent_of h' y = parent_of h y /\ first_of h' y = first_of h y /\ last_of h' y = last_of h y).
  { intros y Y. unfold next_of, prev_of, parent_of, first_of, last_of. rewrite (L y Y). auto. }
  destruct (Q x Hx) as (-> & -> & -> & -> & ->). split; [lia|].
  split; [intros y Y; destruct (A1 y Y) as (B1 & B2 & B3); destruct (Q y B1) as (_ & -> & -> & _); auto|].
  split; [intros y Y; destruct (A2 y Y) as (B1 & B2 & B3); destruct (Q y B1) as (-> & _ & -> & _); auto|].
  split; [intros y Y; destruct (A3 y Y) as (B1 & B2 & B3); destruct (Q y B1) as (_ & _ & _ & -> & ->); auto|].
  split; [intros y Y; destruct (A4 y Y) as (B1 & B2 & B3); destruct (Q y B1) as (_ & -> & -> & _); auto|].
  split; [intros y Y; destruct (A5 y Y) as (B1 & B2 & B3); destruct (Q y B1) as (-> & _ & -> & _); auto|]. auto.
Qed.

(** ** Unlinking *)
Ltac cases := repeat match goal with
  | |- context [oid_eqb ?a ?b] => destruct (oid_eqb a b) eqn:?
  | |- context [?a =? ?b] => destruct (Nat.eqb_spec a b)
  end.
Ltac oid := repeat match goal with
  | H : oid_eqb _ _ = true |- _ => apply oid_eqb_spec in H
  | H : oid_eqb _ _ = false |- _ => apply oid_eqb_ne in H
  end.
Lemma unl_next h x y : next_of (s_node_unlink h x) y = if oid_eqb (prev_of h x) (Some y) then next_of h x else next_of h y.
Proof.
  unfold s_node_unlink. repeat match goal with |- context [match ?a with _ => _ end] => destruct a eqn:? end; autorewrite with links in *; cbn [oid_eqb] in *;
  repeat match goal with |- context [?a =? ?b] => destruct (Nat.eqb_spec a b); subst; cbn in * | H : context [?a =? ?b] |- _ => destruct (Nat.eqb_spec a b); subst; cbn in * end; try congruence.
Qed.
Lemma unl_prev h x y : prev_of (s_node_unlink h x) y = if oid_eqb (next_of h x) (Some y) then prev_of h x else prev_of h y.
Proof.
  unfold s_node_unlink. set (h1 := match prev_of h x with Some p => set_next h p (next_of h x) | None => h end).
  assert (A1 : forall z, next_of h1 x = next_of h x /\ prev_of h1 z = prev_of h z).
  { intros z. unfold h1. destruct (prev_of h x); autorewrite with links; [|auto]. destruct (x =? _); auto. }
  set (h2 := match next_of h1 x with Some n => set_prev h1 n (prev_of h1 x) | None => h1 end).
  replace (prev_of _ y) with (prev_of h2 y) by (destruct (parent_of h2 x); [|reflexivity]; destruct (oid_eqb (first_of h2 _) _); destruct (oid_eqb (last_of _ _) _); autorewrite with links; reflexivity).
  unfold h2. rewrite (proj1 (A1 x)), (proj2 (A1 x)). destruct (next_of h x) as [n|]; cbn [oid_eqb]; autorewrite with links; [|apply A1].
  rewrite (Nat.eqb_sym n y). destruct (y =? n); [reflexivity|apply A1].
Qed.
Lemma unl_first h x y : first_of (s_node_unlink h x) y = if oid_eqb (parent_of h x) (Some y) && oid_eqb (first_of h y) (Some x) then next_of h x else first_of h y.
Proof.
  unfold s_node_unlink. set (h1 := match prev_of h x with Some p => set_next h p (next_of h x) | None => h end).
  assert (A1 : forall z, next_of h1 x = next_of h x /\ prev_of h1 z = prev_of h z /\ parent_of h1 z = parent_of h z /\ first_of h1 z = first_of h z /\ last_of h1 z = last_of h z).
  { intros z. unfold h1. destruct (prev_of h x); autorewrite with links; [|auto]. destruct (x =? _); auto. }
  set (h2 := match next_of h1 x with Some n => set_prev h1 n (prev_of h1 x) | None => h1 end).
  assert (A2 : forall z, next_of h2 x = next_of h x /\ prev_of h2 x = prev_of h x /\ parent_of h2 z = parent_of h z /\ first_of h2 z = first_of h z /\ last_of h2 z = last_of h z).
  { intros z. destruct (A1 z) as (B1 & _ & B3 & B4 & B5). destruct (A1 x) as (_ & B2 & _). unfold h2. destruct (next_of h1 x) eqn:Q; autorewrite with links; rewrite Q, B2, B3, B4, B5; [|auto]. destruct (x =? _); auto. }
  destruct (A2 x) as (N & P & -> & _). destruct (parent_of h x) as [p|]; cbn [oid_eqb andb]; [|apply A2]. destruct (A2 p) as (_ & _ & _ & F & La). rewrite F.
  replace (first_of _ y) with (first_of (if oid_eqb (first_of h p) (Some x) then set_first h2 p (next_of h2 x) else h2) y) by (destruct (oid_eqb (last_of _ _) _); autorewrite with links; reflexivity).
  destruct (Nat.eqb_spec p y) as [->|Ne]; cbn [andb].
  - destruct (oid_eqb (first_of h y) (Some x)); autorewrite with links; rewrite ?Nat.eqb_refl; auto.
  - destruct (oid_eqb (first_of h p) (Some x)); autorewrite with links; [destruct (Nat.eqb_spec y p); [congruence|]|]; apply A2.
Qed.
Lemma unl_last h x y : last_of (s_node_unlink h x) y = if oid_eqb (parent_of h x) (Some y) && oid_eqb (last_of h y) (Some x) then prev_of h x else last_of h y.
Proof.
  unfold s_node_unlink. set (h1 := match prev_of h x with Some p => set_next h p (next_of h x) | None => h end).
  assert (A1 : forall z, next_of h1 x = next_of h x /\ prev_of h1 z = prev_of h z /\ parent_of h1 z = parent_of h z /\ first_of h1 z = first_of h z /\ last_of h1 z = last_of h z).
  { intros z. unfold h1. destruct (prev_of h x); autorewrite with links; [|auto]. destruct (x =? _); auto. }
  set (h2 := match next_of h1 x with Some n => set_prev h1 n (prev_of h1 x) | None => h1 end).
  assert (A2 : forall z, next_of h2 x = next_of h x /\ prev_of h2 x = prev_of h x /\ parent_of h2 z = parent_of h z /\ first_of h2 z = first_of h z /\ last_of h2 z = last_of h z).
  { intros z. destruct (A1 z) as (B1 & _ & B3 & B4 & B5). destruct (A1 x) as (_ & B2 & _). unfold h2. destruct (next_of h1 x) eqn:Q; autorewrite with links; rewrite Q, B2, B3, B4, B5; [|auto]. destruct (x =? _); auto. }
  destruct (A2 x) as (N & P & -> & _). destruct (parent_of h x) as [p|]; cbn [oid_eqb andb]; [|apply A2]. destruct (A2 p) as (_ & _ & _ & F & La).
  set (h3 := if oid_eqb (first_of h2 p) (Some x) then _ else h2).
  assert (A3 : forall z, prev_of h3 x = prev_of h x /\ last_of h3 z = last_of h z).
  { intros z. unfold h3. destruct (oid_eqb (first_of h2 p) (Some x)); autorewrite with links; split; first [exact P|apply A2]. }
  destruct (A3 p) as (P3 & L3). rewrite L3.
  destruct (Nat.eqb_spec p y) as [->|Ne]; cbn [andb].
  - destruct (oid_eqb (last_of h y) (Some x)); autorewrite with links; rewrite ?Nat.eqb_refl; auto.
  - destruct (oid_eqb (last_of h p) (Some x)); autorewrite with links; [destruct (Nat.eqb_spec y p); [congruence|]|]; apply A3.
Qed.

Lemma nu_next h x y : next_of (node_unlink h x) y = if y =? x then None else if oid_eqb (prev_of h x) (Some y) then next_of h x else next_of h y.
Proof. unfold node_unlink. autorewrite with links. rewrite unl_next. reflexivity. Qed.
Lemma nu_prev h x y : prev_of (node_unlink h x) y = if y =? x then None else if oid_eqb (next_of h x) (Some y) then prev_of h x else prev_of h y.
Proof. unfold node_unlink. autorewrite with links. rewrite unl_prev. reflexivity. Qed.
Lemma nu_first h x y : first_of (node_unlink h x) y = if oid_eqb (parent_of h x) (Some y) && oid_eqb (first_of h y) (Some x) then next_of h x else first_of h y.
Proof. unfold node_unlink. autorewrite with links. apply unl_first. Qed.
Lemma nu_last h x y : last_of (node_unlink h x) y = if oid_eqb (parent_of h x) (Some y) && oid_eqb (last_of h y) (Some x) then prev_of h x else last_of h y.
Proof. unfold node_unlink. autorewrite with links. apply unl_last. Qed.

(** A node that is unlinked stands alone, and the others stay as they should be. *)
Lemma unlink_woven live h x : woven live h -> live x -> next_of h x <> Some x -> parent_of h x <> Some x ->
  woven live (node_unlink h x) /\ single (node_unlink h x) x.
Proof.
  intros W Lx Nx Px. split.
  2:{ unfold single. rewrite nu_next, nu_prev, unlink_parent, Nat.eqb_refl. auto. }
  destruct (W x Lx) as (X0 & X1 & X2 & X3 & X4 & X5 & X6 & X7).
  assert (Vx : prev_of h x <> Some x) by (intros Q; destruct (X2 x Q) as (_ & Q2 & _); contradiction).
  intros y Ly. destruct (W y Ly) as (Y0 & Y1 & Y2 & Y3 & Y4 & Y5 & Y6 & Y7).
  split; [rewrite (proj1 (unlink_same h x)); exact Y0|].
  split; [|split; [|split; [|split; [|split; [|split]]]]].
  - intros z. rewrite nu_next, nu_prev, !unlink_parent. destruct (Nat.eqb_spec y x) as [->|Ne]; [discriminate|]. destruct (oid_eqb (prev_of h x) (Some y)) eqn:Q; oid.
    + intros Z. destruct (X1 z Z) as (Z1 & Z2 & Z3). split; [exact Z1|]. destruct (Nat.eqb_spec z x); [congruence|]. rewrite (proj2 (oid_eqb_spec _ _) Z). split; [exact Q|]. rewrite Z3. symmetry. apply X2. exact Q.
    + intros Z. destruct (Y1 z Z) as (Z1 & Z2 & Z3). split; [exact Z1|]. destruct (Nat.eqb_spec z x); [congruence|]. destruct (oid_eqb (next_of h x) (Some z)) eqn:Q2; oid; [|auto]. destruct (X1 z Q2) as (_ & Z4 & _). congruence.
  - intros z. rewrite nu_next, nu_prev, !unlink_parent. destruct (Nat.eqb_spec y x) as [->|Ne]; [discriminate|]. destruct (oid_eqb (next_of h x) (Some y)) eqn:Q; oid.
    + intros Z. destruct (X2 z Z) as (Z1 & Z2 & Z3). split; [exact Z1|]. destruct (Nat.eqb_spec z x); [congruence|]. rewrite (proj2 (oid_eqb_spec _ _) Z). split; [exact Q|]. rewrite Z3. symmetry. apply X1. exact Q.
    + intros Z. destruct (Y2 z Z) as (Z1 & Z2 & Z3). split; [exact Z1|]. destruct (Nat.eqb_spec z x); [congruence|]. destruct (oid_eqb (prev_of h x) (Some z)) eqn:Q2; oid; [|auto]. destruct (X2 z Q2) as (_ & Z4 & _). congruence.
  - intros p. rewrite nu_next, nu_prev, nu_first, nu_last, unlink_parent. destruct (Nat.eqb_spec y x) as [->|Ne]; [discriminate|]. intros P. destruct (Y3 p P) as (P1 & P2 & P3). split; [exact P1|]. split.
    + destruct (oid_eqb (next_of h x) (Some y)) eqn:Q; oid; intros Z.
      * destruct (X1 y Q) as (_ & _ & Q2). rewrite P in Q2. destruct (X3 p (eq_sym Q2)) as (_ & F & _). rewrite <- Q2, (F Z). cbn [oid_eqb]. rewrite !Nat.eqb_refl. exact Q.
      * rewrite (P2 Z). cbn [oid_eqb]. destruct (Nat.eqb_spec y x); [contradiction|]. rewrite andb_false_r. reflexivity.
    + destruct (oid_eqb (prev_of h x) (Some y)) eqn:Q; oid; intros Z.
      * destruct (X2 y Q) as (_ & _ & Q2). rewrite P in Q2. destruct (X3 p (eq_sym Q2)) as (_ & _ & F). rewrite <- Q2, (F Z). cbn [oid_eqb]. rewrite !Nat.eqb_refl. exact Q.
      * rewrite (P3 Z). cbn [oid_eqb]. destruct (Nat.eqb_spec y x); [contradiction|]. rewrite andb_false_r. reflexivity.
  - intros z. rewrite nu_first, nu_prev, unlink_parent. destruct (oid_eqb (parent_of h x) (Some y) && oid_eqb (first_of h y) (Some x)) eqn:Q.
    + apply andb_true_iff in Q as (Q1 & Q2). oid. intros Z. destruct (X1 z Z) as (Z1 & Z2 & Z3). split; [exact Z1|]. destruct (Nat.eqb_spec z x); [congruence|]. rewrite (proj2 (oid_eqb_spec _ _) Z). split; [congruence|]. apply (Y4 x Q2).
    + intros Z. destruct (Y4 z Z) as (Z1 & Z2 & Z3). split; [exact Z1|]. destruct (Nat.eqb_spec z x) as [->|]; [rewrite Z2, Z in Q; cbn in Q; rewrite !Nat.eqb_refl in Q; discriminate|]. split; [exact Z2|].
      destruct (oid_eqb (next_of h x) (Some z)) eqn:Q2; oid; [|exact Z3]. destruct (X1 z Q2) as (_ & Q3 & _). congruence.
  - intros z. rewrite nu_last, nu_next, unlink_parent. destruct (oid_eqb (parent_of h x) (Some y) && oid_eqb (last_of h y) (Some x)) eqn:Q.
    + apply andb_true_iff in Q as (Q1 & Q2). oid. intros Z. destruct (X2 z Z) as (Z1 & Z2 & Z3). split; [exact Z1|]. destruct (Nat.eqb_spec z x); [congruence|]. rewrite (proj2 (oid_eqb_spec _ _) Z). split; [congruence|]. apply (Y5 x Q2).
    + intros Z. destruct (Y5 z Z) as (Z1 & Z2 & Z3). split; [exact Z1|]. destruct (Nat.eqb_spec z x) as [->|]; [rewrite Z2, Z in Q; cbn in Q; rewrite !Nat.eqb_refl in Q; discriminate|]. split; [exact Z2|].
      destruct (oid_eqb (prev_of h x) (Some z)) eqn:Q2; oid; [|exact Z3]. destruct (X2 z Q2) as (_ & Q3 & _). congruence.
  - rewrite nu_next, nu_prev, unlink_parent. destruct (Nat.eqb_spec y x) as [->|Ne]; [auto|]. intros P. destruct (Y6 P) as (N1 & V1). split.
    + destruct (oid_eqb (prev_of h x) (Some y)) eqn:Q; oid; [|exact N1]. destruct (X2 y Q) as (_ & _ & Q2). apply X6. congruence.
    + destruct (oid_eqb (next_of h x) (Some y)) eqn:Q; oid; [|exact V1]. destruct (X1 y Q) as (_ & _ & Q2). apply X6. congruence.
  - rewrite nu_first, nu_last. destruct (oid_eqb (parent_of h x) (Some y)) eqn:Q; cbn [andb]; [|exact Y7]. oid. destruct (X3 y Q) as (_ & F & La).
    destruct (oid_eqb (first_of h y) (Some x)) eqn:Q1; destruct (oid_eqb (last_of h y) (Some x)) eqn:Q2; oid; [| | |exact Y7].
    + rewrite (proj2 (proj2 (Y4 x Q1))), (proj2 (proj2 (Y5 x Q2))). tauto.
    + split; intros Z; [exfalso; apply Q2; apply La; exact Z|]. apply Y7 in Z. congruence.
    + split; intros Z; [apply Y7 in Z; congruence|exfalso; apply Q1; apply F; exact Z].
Qed.

(** A node that stands alone and has no children can be thrown away. *)
Lemma kill_woven live h x : woven live h -> live x -> single h x -> (forall y, parent_of h y <> Some x) -> woven (fun y => live y /\ y <> x) h.
Proof.
  intros W Lx (S1 & S2 & S3) F.
  intros y (Ly & Ne). destruct (W y Ly) as (Y0 & Y1 & Y2 & Y3 & Y4 & Y5 & Y6 & Y7). split; [exact Y0|].
  split; [intros z Z; destruct (Y1 z Z) as (Z1 & Z2 & Z3); split; [split; [exact Z1|congruence]|auto]|].
  split; [intros z Z; destruct (Y2 z Z) as (Z1 & Z2 & Z3); split; [split; [exact Z1|congruence]|auto]|].
  split; [|split; [intros z Z; destruct (Y4 z Z) as (Z1 & Z2 & Z3); split; [split; [exact Z1|congruence]|auto]|split; [intros z Z; destruct (Y5 z Z) as (Z1 & Z2 & Z3); split; [split; [exact Z1|congruence]|auto]|auto]]].
  intros p P. destruct (Y3 p P) as (P1 & P2 & P3). split; [|auto]. split; [exact P1|]. intros ->. apply (F y). exact P.
Qed.
(** Freeing a text node *)
Lemma free_woven r t live h x : tinv r t h -> woven live h -> live x -> type_of h x = NODE_TEXT ->
  exists h', node_free h x = Ok h' /\ woven (fun y => live y /\ y <> x) h'.
Proof.
  intros T W Lx Tx. assert (Nx : next_of h x <> Some x) by (intros Q; destruct (t_next _ _ _ _ _ T Q); lia). assert (Px : parent_of h x <> Some x) by (intros Q; destruct (t_parent _ _ _ _ _ T Q); lia).
  destruct (unlink_woven live h x W Lx Nx Px) as (W1 & S1).
  assert (W2 := kill_woven live _ x W1 Lx S1). assert (F : forall y, parent_of (node_unlink h x) y <> Some x).
  { intros y. rewrite unlink_parent. destruct (y =? x); [discriminate|]. intros Q. destruct (t_parent _ _ _ _ _ T Q) as (_ & _ & Q2). contradiction. }
  specialize (W2 F). unfold node_free. set (h1 := set_next (s_node_unlink h x) x None).
  assert (La : last_of h1 x = None).
  { destruct (last_of h1 x) as [l|] eqn:E; [|reflexivity]. exfalso. unfold h1 in E. rewrite last_set_next in E. assert (T1 : tinv r t (s_node_unlink h x)) by (apply s_unlink_tinv; exact T).
    destruct (t_last _ _ _ _ _ T1 E) as (_ & Q). apply Q. rewrite (same_type _ _ _ (s_unlink_same h x)). exact Tx. }
  exists h1. split.
  - cbn [free_nodes]. rewrite La. replace (next_of h1 x) with (@None nat); [destruct (h_count h1); reflexivity|]. unfold h1. rewrite next_set_next, Nat.eqb_refl. reflexivity.
  - apply (woven_ext _ (node_unlink h x)); [exact W2|rewrite (proj1 (unlink_same h x)); unfold h1; cbn [set_next set_link h_count]; rewrite (proj1 (s_unlink_same h x)); lia|].
    intros y (_ & Ne). unfold node_unlink. fold h1. unfold set_parent, set_prev, set_link. cbn [h_link]. rewrite !put_ne by exact Ne. reflexivity.
Qed.

(** ** Adding *)
Lemma alloc_woven live h i : woven live h -> (forall x, live x -> x <> h_count h) -> woven (fun x => live x \/ x = h_count h) (fst (alloc h i)) /\ single (fst (alloc h i)) (h_count h) /\
  (forall x, live x -> h_link (fst (alloc h i)) x = h_link h x).
Proof.
  intros W F. set (h' := fst (alloc h i)). assert (K : forall x, live x -> h_link h' x = h_link h x).
  { intros x X. unfold h'. rewrite alloc_link. destruct (Nat.eqb_spec x (h_count h)) as [E|]; [destruct (F x X E)|reflexivity]. }
  assert (N : h_link h' (h_count h) = nolink) by (unfold h'; rewrite alloc_link, Nat.eqb_refl; reflexivity).
  split; [|split; [unfold single, next_of, prev_of, parent_of; rewrite N; auto|exact K]].
  assert (W1 : woven live h') by (apply (woven_ext live h); [exact W|cbn; lia|exact K]).
  intros x [X| ->].
  - destruct (W1 x X) as (Y0 & Y1 & Y2 & Y3 & Y4 & Y5 & Y6). split; [exact Y0|].
    split; [intros z Z; specialize (Y1 z Z); tauto|]. split; [intros z Z; specialize (Y2 z Z); tauto|]. split; [intros z Z; specialize (Y3 z Z); tauto|]. split; [intros z Z; specialize (Y4 z Z); tauto|]. split; [intros z Z; specialize (Y5 z Z); tauto|exact Y6].
  - unfold next_of, prev_of, parent_of, first_of, last_of. rewrite N. cbn. split; [lia|]. repeat (split; [discriminate|]). split; [auto|tauto].
Qed.

Lemma app_next live h n x y : woven live h -> live n -> single h x -> next_of (append_child h n x) y = if oid_eqb (last_of h n) (Some y) then Some x else next_of h y.
Proof.
  intros W Ln (S1 & S2 & S3). destruct (W n Ln) as (_ & _ & _ & _ & _ & Y5 & _). unfold append_child. destruct (last_of h n) as [l|] eqn:L; autorewrite with links; cbn [oid_eqb].
  - rewrite (Nat.eqb_sym l y). destruct (y =? l); [reflexivity|]. destruct (Nat.eqb_spec y x); congruence.
  - destruct (Nat.eqb_spec y x); congruence.
Qed.
Lemma app_prev h n x y : prev_of (append_child h n x) y = if y =? x then last_of h n else prev_of h y.
Proof. unfold append_child. destruct (last_of h n) as [l|] eqn:L; autorewrite with links; reflexivity. Qed.
Lemma app_first h n x y : first_of (append_child h n x) y = if (y =? n) && oid_eqb (last_of h n) None then Some x else first_of h y.
Proof. unfold append_child. destruct (last_of h n) as [l|] eqn:L; autorewrite with links; cbn [oid_eqb]; rewrite ?andb_false_r, ?andb_true_r; reflexivity. Qed.
Lemma app_last h n x y : last_of (append_child h n x) y = if y =? n then Some x else last_of h y.
Proof. unfold append_child. destruct (last_of h n) as [l|] eqn:L; autorewrite with links; reflexivity. Qed.

Lemma append_woven live h n x : woven live h -> live n -> live x -> single h x -> n <> x -> woven live (append_child h n x).
Proof.
  intros W Ln Lx Sx Ne. assert (NX := fun y => app_next live h n x y W Ln Sx). destruct Sx as (S1 & S2 & S3). destruct (W x Lx) as (X0 & X1 & X2 & X3 & X4 & X5 & X6 & X7). destruct (W n Ln) as (N0 & N1 & N2 & N3 & N4 & N5 & N6 & N7).
  intros y Ly. destruct (W y Ly) as (Y0 & Y1 & Y2 & Y3 & Y4 & Y5 & Y6 & Y7).
  split; [rewrite (proj1 (append_same h n x)); exact Y0|].
  split; [|split; [|split; [|split; [|split; [|split]]]]].
  - intros z. rewrite NX, app_prev, !append_parent. destruct (oid_eqb (last_of h n) (Some y)) eqn:Q; oid.
    + intros Z. injection Z as <-. rewrite Nat.eqb_refl. destruct (N5 y Q) as (_ & Q2 & _). split; [exact Lx|]. split; [exact Q|]. destruct (Nat.eqb_spec y x); congruence.
    + intros Z. destruct (Y1 z Z) as (Z1 & Z2 & Z3). split; [exact Z1|]. destruct (Nat.eqb_spec z x); [congruence|]. destruct (Nat.eqb_spec y x); [congruence|auto].
  - intros z. rewrite NX, app_prev, !append_parent. destruct (Nat.eqb_spec y x) as [->|Nx].
    + intros Z. destruct (N5 z Z) as (Z1 & Z2 & Z3). split; [exact Z1|]. rewrite (proj2 (oid_eqb_spec _ _) Z). split; [reflexivity|]. destruct (Nat.eqb_spec z x); congruence.
    + intros Z. destruct (Y2 z Z) as (Z1 & Z2 & Z3). split; [exact Z1|]. destruct (oid_eqb (last_of h n) (Some z)) eqn:Q; oid; [destruct (N5 z Q) as (_ & _ & Q2); congruence|]. split; [exact Z2|]. destruct (Nat.eqb_spec z x); congruence.
  - intros p. rewrite NX, app_prev, append_parent, app_first, app_last. destruct (Nat.eqb_spec y x) as [->|Nx].
    + intros Z. injection Z as <-. split; [exact Ln|]. rewrite !Nat.eqb_refl. split; [intros ->; reflexivity|reflexivity].
    + intros P. destruct (Y3 p P) as (P1 & P2 & P3). split; [exact P1|]. split.
      * intros Z. specialize (P2 Z). destruct (Nat.eqb_spec p n) as [->|]; [|exact P2]. destruct (oid_eqb (last_of h n) None) eqn:Q; oid; cbn [andb]; [|exact P2]. apply N7 in Q. congruence.
      * destruct (oid_eqb (last_of h n) (Some y)) eqn:Q; oid; [discriminate|]. intros Z. specialize (P3 Z). destruct (Nat.eqb_spec p n) as [->|]; [contradiction|exact P3].
  - intros z. rewrite app_first, app_prev, append_parent. destruct (Nat.eqb_spec y n) as [->|Nn]; cbn [andb].
    + destruct (oid_eqb (last_of h n) None) eqn:Q; oid; intros Z.
      * injection Z as <-. rewrite Nat.eqb_refl. auto.
      * destruct (N4 z Z) as (Z1 & Z2 & Z3). split; [exact Z1|]. destruct (Nat.eqb_spec z x); [congruence|auto].
    + intros Z. destruct (Y4 z Z) as (Z1 & Z2 & Z3). split; [exact Z1|]. destruct (Nat.eqb_spec z x); [congruence|auto].
  - intros z. rewrite app_last, NX, append_parent. destruct (Nat.eqb_spec y n) as [->|Nn]; intros Z.
    + injection Z as <-. rewrite Nat.eqb_refl. split; [exact Lx|]. split; [reflexivity|]. destruct (oid_eqb (last_of h n) (Some x)) eqn:Q; oid; [|exact S1]. destruct (N5 x Q) as (_ & Q2 & _). congruence.
    + destruct (Y5 z Z) as (Z1 & Z2 & Z3). split; [exact Z1|]. destruct (Nat.eqb_spec z x); [congruence|]. split; [exact Z2|]. destruct (oid_eqb (last_of h n) (Some z)) eqn:Q; oid; [|exact Z3]. destruct (N5 z Q) as (_ & Q2 & _). congruence.
  - rewrite append_parent, NX, app_prev. destruct (Nat.eqb_spec y x) as [->|Nx]; [discriminate|]. intros P. destruct (Y6 P) as (P1 & P2). split; [|exact P2]. destruct (oid_eqb (last_of h n) (Some y)) eqn:Q; oid; [|exact P1]. destruct (N5 y Q) as (_ & Q2 & _). congruence.
  - rewrite app_first, app_last. destruct (Nat.eqb_spec y n) as [->|Nn]; cbn [andb]; [|exact Y7]. destruct (oid_eqb (last_of h n) None) eqn:Q; oid; [split; discriminate|]. split; [|discriminate]. intros Z. apply N7 in Z. contradiction.
Qed.

(** ** Moving *)
Lemma move_woven live r t e stop : forall fuel h w tmp, tinv r t h -> movable r t h e w -> woven live h -> live e ->
  (forall x, tmp = Some x -> x < h_count h /\ x <> e /\ w <= r x /\ left r (h_count h) x <= fuel /\ live x) ->
  exists h', move (S fuel) h tmp stop e = Ok h' /\ woven live h'.
Proof.
  induction fuel as [|fuel IH]; intros h w tmp T M W Le Ht.
  - destruct tmp as [x|]; [|exists h; cbn; auto]. destruct (Ht x eq_refl) as (X & _ & _ & L & _). exfalso.
    assert (left r (h_count h) x <> 0); [|lia]. unfold left. intros Z. apply length_zero_iff_nil in Z.
    assert (I : In x (filter (fun y => r x <=? r y) (seq 0 (h_count h)))) by (apply filter_In; split; [apply in_seq; lia|apply Nat.leb_refl]). rewrite Z in I. destruct I.
  - destruct tmp as [x|]; [|exists h; cbn; auto]. destruct (Ht x eq_refl) as (X & XE & Wx & L & Lx).
    change (move (S (S fuel)) h (Some x) stop e) with (if oid_eqb (Some x) stop then Ok h else move (S fuel) (append_child (node_unlink h x) e x) (next_of h x) stop e).
    destruct (oid_eqb (Some x) stop); [exists h; auto|].
    destruct (move_step r t h e w x T M X XE Wx) as (T2 & M2 & S2).
    destruct (unlink_woven live h x W Lx) as (W1 & S1); [intros Q; destruct (t_next _ _ _ _ _ T Q); lia|intros Q; destruct (t_parent _ _ _ _ _ T Q); lia|].
    apply (IH _ _ (next_of h x) T2 M2); [apply append_woven; auto|exact Le|].
    intros y Y. destruct (t_next _ _ _ _ _ T Y) as (Y1 & Y2). rewrite (proj1 S2). split; [exact Y1|]. split; [|split; [lia|split]].
    + intros ->. destruct M as (_ & _ & A & _). apply (proj1 (proj1 A x)). exact Y.
    + assert (Q := left_lt r (h_count h) x y Y2 X). lia.
    + destruct (W x Lx) as (_ & X1 & _). apply (X1 y Y).
Qed.

(** ** Inserting *)
Lemma insert_woven live h n e h' : woven live h -> live n -> live e -> single h e -> n <> e -> next_of h n <> Some n -> insert_after h n e = Ok h' -> woven live h'.
Proof.
  intros W Ln Le (S1 & S2 & S3) Ne Nn. unfold insert_after. destruct (parent_of h n) as [p|] eqn:P; [|intros Q; injection Q as <-; exact W].
  destruct (can_contain h p e) as [b|]; [|discriminate]. cbn [bind]. destruct b; cbn [negb]; [|intros Q; injection Q as <-; exact W].
  rewrite (s_unlink_none h e S1 S2 S3). set (h1 := match next_of h n with Some o => set_prev h o (Some e) | None => h end).
  set (h2 := set_next (set_prev (set_next h1 e (next_of h n)) e (Some n)) n (Some e)).
  assert (P2 : parent_of h2 n = Some p) by (unfold h2, h1; destruct (next_of h n); autorewrite with links; exact P). rewrite P2. set (h3 := set_parent h2 e (Some p)).
  assert (P3 : parent_of h3 n = Some p) by (unfold h3; autorewrite with links; destruct (Nat.eqb_spec n e); [contradiction|exact P2]). rewrite P3. set (h4 := match next_of h n with None => _ | Some _ => h3 end).
  intros Q. injection Q as <-. change (match next_of h n with None => set_last h3 p (Some e) | Some _ => h3 end) with h4.
  destruct (W n Ln) as (N0 & N1 & N2 & N3 & N4 & N5 & N6 & N7). destruct (W e Le) as (E0 & E1 & E2 & E3 & E4 & E5 & E6 & E7). destruct (N3 p P) as (Lp & _ & Lap).
  assert (NE : next_of h n <> Some e) by (intros Q; destruct (N1 e Q) as (_ & Q2 & _); congruence).
  assert (X1 : forall y, next_of h4 y = if y =? n then Some e else if y =? e then next_of h n else next_of h y).
  { intros y. unfold h4, h3, h2, h1. destruct (next_of h n); autorewrite with links; reflexivity. }
  assert (X2 : forall y, prev_of h4 y = if y =? e then Some n else if oid_eqb (next_of h n) (Some y) then Some e else prev_of h y).
  { intros y. unfold h4, h3, h2, h1. destruct (next_of h n) as [o|]; cbn [oid_eqb]; autorewrite with links; [|reflexivity]. rewrite (Nat.eqb_sym o y). reflexivity. }
  assert (X3 : forall y, parent_of h4 y = if y =? e then Some p else parent_of h y).
  { intros y. unfold h4, h3, h2, h1. destruct (next_of h n); autorewrite with links; reflexivity. }
  assert (X4 : forall y, first_of h4 y = first_of h y).
  { intros y. unfold h4, h3, h2, h1. destruct (next_of h n); autorewrite with links; reflexivity. }
  assert (X5 : forall y, last_of h4 y = if (y =? p) && oid_eqb (next_of h n) None then Some e else last_of h y).
  { intros y. unfold h4, h3, h2, h1. destruct (next_of h n); cbn [oid_eqb]; autorewrite with links; rewrite ?andb_false_r, ?andb_true_r; reflexivity. }
  assert (C : h_count h4 = h_count h) by (unfold h4, h3, h2, h1; destruct (next_of h n); reflexivity). clearbody h4.
  intros y Ly. destruct (W y Ly) as (Y0 & Y1 & Y2 & Y3 & Y4 & Y5 & Y6 & Y7). split; [rewrite C; exact Y0|].
  split; [|split; [|split; [|split; [|split; [|split]]]]].
  - intros z. rewrite X1, X2, !X3. destruct (Nat.eqb_spec y n) as [->|Yn].
    + intros Z. injection Z as <-. rewrite Nat.eqb_refl. destruct (Nat.eqb_spec n e); [contradiction|]. auto.
    + destruct (Nat.eqb_spec y e) as [->|Ye]; intros Z.
      * destruct (N1 z Z) as (Z1 & Z2 & Z3). destruct (Nat.eqb_spec z e); [congruence|]. rewrite (proj2 (oid_eqb_spec _ _) Z). split; [exact Z1|]. split; [reflexivity|congruence].
      * destruct (Y1 z Z) as (Z1 & Z2 & Z3). destruct (Nat.eqb_spec z e); [congruence|]. split; [exact Z1|]. split; [|exact Z3]. destruct (oid_eqb (next_of h n) (Some z)) eqn:Q; oid; [|exact Z2]. destruct (N1 z Q) as (_ & Q2 & _). congruence.
  - intros z. rewrite X1, X2, !X3. destruct (Nat.eqb_spec y e) as [->|Ye].
    + intros Z. injection Z as <-. rewrite Nat.eqb_refl. destruct (Nat.eqb_spec n e); [contradiction|]. auto.
    + destruct (oid_eqb (next_of h n) (Some y)) eqn:Q; oid; intros Z.
      * injection Z as <-. destruct (N1 y Q) as (_ & Q2 & Q3). destruct (Nat.eqb_spec e n); [congruence|]. rewrite Nat.eqb_refl. split; [exact Le|]. split; [exact Q|congruence].
      * destruct (Y2 z Z) as (Z1 & Z2 & Z3). destruct (Nat.eqb_spec z n) as [->|]; [congruence|]. destruct (Nat.eqb_spec z e); [congruence|]. auto.
  - intros q. rewrite X1, X2, X3, X4, X5. destruct (Nat.eqb_spec y e) as [->|Ye].
    + intros Z. injection Z as <-. destruct (Nat.eqb_spec e n); [congruence|]. split; [exact Lp|]. split; [discriminate|]. intros ->. rewrite Nat.eqb_refl. reflexivity.
    + intros Z. destruct (Y3 q Z) as (Z1 & Z2 & Z3). split; [exact Z1|]. split.
      * destruct (oid_eqb (next_of h n) (Some y)); [discriminate|exact Z2].
      * destruct (Nat.eqb_spec y n) as [->|Yn]; [discriminate|]. intros Q. specialize (Z3 Q). destruct (Nat.eqb_spec q p) as [->|]; cbn [andb]; [|exact Z3]. destruct (oid_eqb (next_of h n) None) eqn:Q2; oid; [|exact Z3]. specialize (Lap Q2). congruence.
  - intros z. rewrite X4, X2, X3. intros Z. destruct (Y4 z Z) as (Z1 & Z2 & Z3). split; [exact Z1|]. destruct (Nat.eqb_spec z e); [congruence|]. split; [exact Z2|]. destruct (oid_eqb (next_of h n) (Some z)) eqn:Q; oid; [|exact Z3]. destruct (N1 z Q) as (_ & Q2 & _). congruence.
  - intros z. rewrite X5, X1, X3. destruct (Nat.eqb_spec y p) as [->|Yp]; cbn [andb].
    + destruct (oid_eqb (next_of h n) None) eqn:Q; oid; intros Z.
      * injection Z as <-. rewrite Nat.eqb_refl. destruct (Nat.eqb_spec e n); [congruence|]. auto.
      * destruct (Y5 z Z) as (Z1 & Z2 & Z3). split; [exact Z1|]. destruct (Nat.eqb_spec z e); [congruence|]. split; [exact Z2|]. destruct (Nat.eqb_spec z n) as [->|]; [contradiction|exact Z3].
    + intros Z. destruct (Y5 z Z) as (Z1 & Z2 & Z3). split; [exact Z1|]. destruct (Nat.eqb_spec z e); [congruence|]. split; [exact Z2|]. destruct (Nat.eqb_spec z n) as [->|]; [congruence|exact Z3].
  - rewrite X1, X2, X3. destruct (Nat.eqb_spec y e) as [->|Ye]; [discriminate|]. intros Z. destruct (Y6 Z) as (Z1 & Z2). destruct (Nat.eqb_spec y n) as [->|]; [congruence|]. split; [exact Z1|]. destruct (oid_eqb (next_of h n) (Some y)) eqn:Q; oid; [|exact Z2]. destruct (N1 y Q) as (_ & _ & Q2). congruence.
  - rewrite X4, X5. destruct (Nat.eqb_spec y p) as [->|Yp]; cbn [andb]; [|exact Y7]. destruct (oid_eqb (next_of h n) None) eqn:Q; oid; [|exact Y7]. specialize (Lap Q). split; [intros Z; apply Y7 in Z; congruence|discriminate].
Qed.

(** ** What is in use *)
(** All nodes but text nodes are in use. *)
Definition branches (live : nat -> Prop) (h : heap) : Prop := forall x, x < h_count h -> type_of h x <> NODE_TEXT -> live x.
Lemma branches_same live h h' : branches live h -> same h h' -> branches live h'.
Proof. intros B S x X T. rewrite (proj1 S) in X. rewrite (same_type _ _ _ S) in T. apply B; assumption. Qed.
(** ... and so are the nodes of [K]. *)
Definition forest (h : heap) (K : nat -> Prop) : Prop := exists live, woven live h /\ branches live h /\ forall k, K k -> live k.
Lemma forest_sub h (K K' : nat -> Prop) : forest h K -> (forall k, K' k -> K k) -> forest h K'.
Proof. intros (live & W & B & H) I. exists live. split; [exact W|]. split; [exact B|]. intros k Q. apply H, I, Q. Qed.
Lemma forest_ext h h' K : forest h K -> h_link h' = h_link h -> h_count h' = h_count h -> (forall x, type_of h' x = type_of h x) -> forest h' K.
Proof.
  intros (live & W & B & H) E C T. exists live. split; [|split; [|auto]]; [apply (woven_ext live h); [exact W|lia|]; intros x _; rewrite E; reflexivity|]. intros x X Y. rewrite C in X. rewrite T in Y. apply B; assumption.
Qed.
Lemma forest_bound h K k : forest h K -> K k -> k < h_count h.
Proof. intros (live & W & _ & H) Q. apply (W k (H k Q)). Qed.
Lemma free_forest r t h x h' K : tinv r t h -> type_of h x = NODE_TEXT -> node_free h x = Ok h' -> forest h K -> K x -> forest h' (fun k => K k /\ k <> x).
Proof.
  intros T Tx E (live & W & B & H) Kx. destruct (free_woven r t live h x T W (H x Kx) Tx) as (h2 & E2 & W2). rewrite E in E2. injection E2 as <-.
  destruct (node_free_ok r t h x T Tx) as (h2 & E2 & _ & S2 & _). rewrite E in E2. injection E2 as <-.
  exists (fun y => live y /\ y <> x). split; [exact W2|]. split; [|intros k (Q1 & Q2); auto].
  intros y Y1 Y2. split; [apply (branches_same _ _ _ B S2); assumption|]. intros ->. rewrite (same_type _ _ _ S2) in Y2. contradiction.
Qed.
Lemma alloc_forest h i K : forest h K -> exists live, woven live (fst (alloc h i)) /\ single (fst (alloc h i)) (h_count h) /\ live (h_count h) /\ (forall k, K k -> live k) /\ branches live (fst (alloc h i)).
Proof.
  intros (live & W & B & H). destruct (alloc_woven live h i W) as (W1 & S1 & _); [intros x X; destruct (W x X) as (Bx & _); lia|]. exists (fun x => live x \/ x = h_count h).
  split; [exact W1|]. split; [exact S1|]. split; [auto|]. split; [auto|]. intros x X T. cbn [alloc fst h_count] in X. destruct (Nat.eq_dec x (h_count h)) as [->|N]; [auto|]. left. apply B; [lia|]. rewrite (grown_type _ _ _ (alloc_grown h i)) in T by lia. exact T.
Qed.
Lemma add_forest h i n K : forest h K -> K n -> forest (append_child (fst (alloc h i)) n (h_count h)) (fun k => K k \/ k = h_count h).
Proof.
  intros F Kn. assert (Bn := forest_bound h K n F Kn). destruct (alloc_forest h i K F) as (live & W & S & L & H & B). exists live. split; [|split; [|intros k [Q| ->]; auto]]; [apply append_woven; auto; lia|]. apply (branches_same _ _ _ B). apply append_same.
Qed.
