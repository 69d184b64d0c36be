(** The tree of inline nodes (Pointers.v): its links never form a cycle, so every walk over
    it ends, whatever the parser does. *)
From Coq Require Import String List NArith Bool Arith Lia.
From Verif Require Import Str Inlines Pointers.
Import ListNotations.
Local Open Scope list_scope.

Lemma put_eq {A} (f : nat -> A) x v : put f x v x = v.
Proof. unfold put. rewrite Nat.eqb_refl. reflexivity. Qed.
Lemma put_ne {A} (f : nat -> A) x v y : y <> x -> put f x v y = f y.
Proof. unfold put. intros H. destruct (Nat.eqb_spec y x); [contradiction|reflexivity]. Qed.
Lemma oid_eqb_spec (a b : ptr) : oid_eqb a b = true <-> a = b.
Proof.
  destruct a as [x|], b as [y|]; cbn; try (split; congruence).
  rewrite Nat.eqb_eq. split; congruence.
Qed.
Lemma oid_eqb_ne (a b : ptr) : oid_eqb a b = false <-> a <> b.
Proof. rewrite <- oid_eqb_spec. destruct (oid_eqb a b); split; congruence. Qed.

(** [r] orders siblings, [t] orders parents above children. *)
Definition tinv (r t : nat -> nat) (h : heap) : Prop :=
  forall x,
    (forall y, next_of h x = Some y -> y < h_count h /\ r x < r y) /\
    (forall y, prev_of h x = Some y -> y < h_count h /\ r y < r x) /\
    (forall y, parent_of h x = Some y -> y < h_count h /\ t x < t y /\ type_of h y <> NODE_TEXT) /\
    (forall y, first_of h x = Some y -> y < h_count h) /\
    (forall y, last_of h x = Some y -> y < h_count h /\ type_of h x <> NODE_TEXT).

Lemma t_next r t h x y : tinv r t h -> next_of h x = Some y -> y < h_count h /\ r x < r y.
Proof. intros T. apply (proj1 (T x)). Qed.
Lemma t_prev r t h x y : tinv r t h -> prev_of h x = Some y -> y < h_count h /\ r y < r x.
Proof. intros T. apply (proj1 (proj2 (T x))). Qed.
Lemma t_parent r t h x y : tinv r t h -> parent_of h x = Some y -> y < h_count h /\ t x < t y /\ type_of h y <> NODE_TEXT.
Proof. intros T. apply (proj1 (proj2 (proj2 (T x)))). Qed.
Lemma t_first r t h x y : tinv r t h -> first_of h x = Some y -> y < h_count h.
Proof. intros T. apply (proj1 (proj2 (proj2 (proj2 (T x))))). Qed.
Lemma t_last r t h x y : tinv r t h -> last_of h x = Some y -> y < h_count h /\ type_of h x <> NODE_TEXT.
Proof. intros T. apply (proj2 (proj2 (proj2 (proj2 (T x))))). Qed.

Ltac setter :=
  intros T; intros; intros z; destruct (T z) as (A & B & C & D & F);
  unfold set_next, set_prev, set_parent, set_first, set_last, set_link, next_of, prev_of, parent_of, first_of, last_of, type_of in *; cbn [h_link h_count h_info] in *;
  unfold put; match goal with |- context [z =? ?x] => destruct (Nat.eqb_spec z x) as [->|]; cbn [k_next k_prev k_parent k_first k_last] end; auto 10.
Lemma tinv_next r t h x v : tinv r t h -> (forall y, v = Some y -> y < h_count h /\ r x < r y) -> tinv r t (set_next h x v).
Proof. setter. Qed.
Lemma tinv_prev r t h x v : tinv r t h -> (forall y, v = Some y -> y < h_count h /\ r y < r x) -> tinv r t (set_prev h x v).
Proof. setter. Qed.
Lemma tinv_parent r t h x v : tinv r t h -> (forall y, v = Some y -> y < h_count h /\ t x < t y /\ type_of h y <> NODE_TEXT) -> tinv r t (set_parent h x v).
Proof. setter. Qed.
Lemma tinv_first r t h x v : tinv r t h -> (forall y, v = Some y -> y < h_count h) -> tinv r t (set_first h x v).
Proof. setter. Qed.
Lemma tinv_last r t h x v : tinv r t h -> (forall y, v = Some y -> y < h_count h /\ type_of h x <> NODE_TEXT) -> tinv r t (set_last h x v).
Proof. setter. Qed.

(** Same data, same objects: what an operation on links leaves alone. *)
Definition same (h h' : heap) : Prop := h_count h' = h_count h /\ h_info h' = h_info h.
Lemma same_refl h : same h h.
Proof. split; reflexivity. Qed.
Lemma same_trans a b c : same a b -> same b c -> same a c.
Proof. intros (A & B) (C & D). split; congruence. Qed.
Lemma same_link h x l : same h (set_link h x l).
Proof. split; reflexivity. Qed.
Lemma same_type h h' x : same h h' -> type_of h' x = type_of h x.
Proof. intros (_ & E). unfold type_of. rewrite E. reflexivity. Qed.

(** Reading one attribute after writing another. *)
Lemma next_set_next h x v y : next_of (set_next h x v) y = if y =? x then v else next_of h y.
Proof. unfold set_next, set_link, next_of, put. cbn. destruct (y =? x); reflexivity. Qed.
Lemma prev_set_prev h x v y : prev_of (set_prev h x v) y = if y =? x then v else prev_of h y.
Proof. unfold set_prev, set_link, prev_of, put. cbn. destruct (y =? x); reflexivity. Qed.
Lemma parent_set_parent h x v y : parent_of (set_parent h x v) y = if y =? x then v else parent_of h y.
Proof. unfold set_parent, set_link, parent_of, put. cbn. destruct (y =? x); reflexivity. Qed.
Lemma first_set_first h x v y : first_of (set_first h x v) y = if y =? x then v else first_of h y.
Proof. unfold set_first, set_link, first_of, put. cbn. destruct (y =? x); reflexivity. Qed.
Lemma last_set_last h x v y : last_of (set_last h x v) y = if y =? x then v else last_of h y.
Proof. unfold set_last, set_link, last_of, put. cbn. destruct (y =? x); reflexivity. Qed.
Ltac other := unfold set_next, set_prev, set_parent, set_first, set_last, set_link, next_of, prev_of, parent_of, first_of, last_of, put; cbn;
  match goal with |- context [?y =? ?x] => destruct (Nat.eqb_spec y x); subst; reflexivity end.
Lemma prev_set_next h x v y : prev_of (set_next h x v) y = prev_of h y. Proof. other. Qed.
Lemma parent_set_next h x v y : parent_of (set_next h x v) y = parent_of h y. Proof. other. Qed.
Lemma first_set_next h x v y : first_of (set_next h x v) y = first_of h y. Proof. other. Qed.
Lemma last_set_next h x v y : last_of (set_next h x v) y = last_of h y. Proof. other. Qed.
Lemma next_set_prev h x v y : next_of (set_prev h x v) y = next_of h y. Proof. other. Qed.
Lemma parent_set_prev h x v y : parent_of (set_prev h x v) y = parent_of h y. Proof. other. Qed.
Lemma first_set_prev h x v y : first_of (set_prev h x v) y = first_of h y. Proof. other. Qed.
Lemma last_set_prev h x v y : last_of (set_prev h x v) y = last_of h y. Proof. other. Qed.
Lemma next_set_parent h x v y : next_of (set_parent h x v) y = next_of h y. Proof. other. Qed.
Lemma prev_set_parent h x v y : prev_of (set_parent h x v) y = prev_of h y. Proof. other. Qed.
Lemma first_set_parent h x v y : first_of (set_parent h x v) y = first_of h y. Proof. other. Qed.
Lemma last_set_parent h x v y : last_of (set_parent h x v) y = last_of h y. Proof. other. Qed.
Lemma next_set_first h x v y : next_of (set_first h x v) y = next_of h y. Proof. other. Qed.
Lemma prev_set_first h x v y : prev_of (set_first h x v) y = prev_of h y. Proof. other. Qed.
Lemma parent_set_first h x v y : parent_of (set_first h x v) y = parent_of h y. Proof. other. Qed.
Lemma last_set_first h x v y : last_of (set_first h x v) y = last_of h y. Proof. other. Qed.
Lemma next_set_last h x v y : next_of (set_last h x v) y = next_of h y. Proof. other. Qed.
Lemma prev_set_last h x v y : prev_of (set_last h x v) y = prev_of h y. Proof. other. Qed.
Lemma parent_set_last h x v y : parent_of (set_last h x v) y = parent_of h y. Proof. other. Qed.
Lemma first_set_last h x v y : first_of (set_last h x v) y = first_of h y. Proof. other. Qed.
Global Hint Rewrite next_set_next prev_set_prev parent_set_parent first_set_first last_set_last
  prev_set_next parent_set_next first_set_next last_set_next next_set_prev parent_set_prev first_set_prev last_set_prev
  next_set_parent prev_set_parent first_set_parent last_set_parent next_set_first prev_set_first parent_set_first last_set_first
  next_set_last prev_set_last parent_set_last first_set_last : links.

(** ** Unlinking *)
Lemma s_unlink_same h x : same h (s_node_unlink h x).
Proof.
  unfold s_node_unlink.
  repeat match goal with |- context [match ?a with _ => _ end] => destruct a end; split; reflexivity.
Qed.
Lemma s_unlink_tinv r t h x : tinv r t h -> tinv r t (s_node_unlink h x).
Proof.
  intros T. unfold s_node_unlink.
  set (h1 := match prev_of h x with Some p => set_next h p (next_of h x) | None => h end).
  assert (T1 : tinv r t h1).
  { unfold h1. destruct (prev_of h x) as [p|] eqn:P; [|exact T]. apply tinv_next; [exact T|]. intros y Hy.
    destruct (T x) as (A & B & _). destruct (A y Hy), (B p P). split; [assumption|lia]. }
  set (h2 := match next_of h1 x with Some n => set_prev h1 n (prev_of h1 x) | None => h1 end).
  assert (T2 : tinv r t h2).
  { unfold h2. destruct (next_of h1 x) as [n|] eqn:P; [|exact T1]. apply tinv_prev; [exact T1|]. intros y Hy.
    destruct (T1 x) as (A & B & _). destruct (A n P), (B y Hy). split; [assumption|lia]. }
  destruct (parent_of h2 x) as [p|] eqn:P; [|exact T2].
  set (h3 := if oid_eqb (first_of h2 p) (Some x) then set_first h2 p (next_of h2 x) else h2).
  assert (T3 : tinv r t h3).
  { unfold h3. destruct (oid_eqb _ _); [|exact T2]. apply tinv_first; [exact T2|]. intros y Hy. apply (t_next _ _ _ _ _ T2 Hy). }
  destruct (oid_eqb (last_of h3 p) (Some x)) eqn:L; [|exact T3]. apply tinv_last; [exact T3|]. intros y Hy. split; [apply (t_prev _ _ _ _ _ T3 Hy)|].
  apply oid_eqb_spec in L. destruct (T3 p) as (_ & _ & _ & _ & F). destruct (F x L) as (_ & F2). exact F2.
Qed.
Lemma s_unlink_none h x : next_of h x = None -> prev_of h x = None -> parent_of h x = None -> s_node_unlink h x = h.
Proof. intros A B C. unfold s_node_unlink. rewrite B. rewrite A, C. reflexivity. Qed.
Lemma unlink_same h x : same h (node_unlink h x).
Proof. unfold node_unlink. destruct (s_unlink_same h x) as (A & B). split; cbn; assumption. Qed.
Lemma unlink_tinv r t h x : tinv r t h -> tinv r t (node_unlink h x).
Proof.
  intros T. unfold node_unlink. apply tinv_parent; [|discriminate]. apply tinv_prev; [|discriminate]. apply tinv_next; [|discriminate].
  apply s_unlink_tinv. exact T.
Qed.
(** What unlinking leaves as it was. *)
Lemma s_unlink_parent h x y : parent_of (s_node_unlink h x) y = parent_of h y.
Proof.
  unfold s_node_unlink.
  repeat match goal with |- context [match ?a with _ => _ end] => destruct a end; autorewrite with links; reflexivity.
Qed.
Lemma unlink_parent h x y : parent_of (node_unlink h x) y = if y =? x then None else parent_of h y.
Proof. unfold node_unlink. autorewrite with links. rewrite s_unlink_parent. reflexivity. Qed.

(** ** Appending *)
Lemma append_same h n x : same h (append_child h n x).
Proof. unfold append_child. destruct (last_of h n); split; reflexivity. Qed.
Lemma append_tinv r t h n x : tinv r t h -> n < h_count h -> x < h_count h -> type_of h n <> NODE_TEXT -> t x < t n ->
  (forall l, last_of h n = Some l -> r l < r x) -> tinv r t (append_child h n x).
Proof.
  intros T Hn Hx Hy Ht Hl. unfold append_child.
  assert (T4 : tinv r t (set_last (set_parent (set_prev (set_next h x None) x (last_of h n)) x (Some n)) n (Some x))).
  { apply tinv_last; [|intros y E; injection E as <-; split; [exact Hx|exact Hy]]. apply tinv_parent; [|intros y E; injection E as <-; split; [exact Hn|split; [exact Ht|exact Hy]]].
    apply tinv_prev; [|intros y E; split; [|apply Hl; exact E]; destruct (T n) as (_ & _ & _ & _ & F); apply (F y E)]. apply tinv_next; [exact T|discriminate]. }
  destruct (last_of h n) as [l|] eqn:L.
  - apply tinv_next; [exact T4|]. intros y E. injection E as <-. split; [exact Hx|apply Hl; reflexivity].
  - apply tinv_first; [exact T4|]. intros y E. injection E as <-. exact Hx.
Qed.
Lemma append_parent h n x y : parent_of (append_child h n x) y = if y =? x then Some n else parent_of h y.
Proof. unfold append_child. destruct (last_of h n); autorewrite with links; reflexivity. Qed.

(** ** New nodes *)
Definition top (r : nat -> nat) (n : nat) : nat := S (list_max (map r (seq 0 n))).
Lemma top_spec r n x : x < n -> r x < top r n.
Proof.
  intros H. unfold top. apply Nat.lt_succ_r. assert (L := proj1 (list_max_le (map r (seq 0 n)) _) (le_n _)). rewrite Forall_forall in L.
  apply L. apply in_map. apply in_seq. lia.
Qed.
Definition grown (h h' : heap) : Prop := h_count h <= h_count h' /\ forall x, x < h_count h -> h_info h' x = h_info h x.
Lemma grown_refl h : grown h h.
Proof. split; auto. Qed.
Lemma grown_trans a b c : grown a b -> grown b c -> grown a c.
Proof. intros (A & B) (C & D). split; [lia|]. intros x H. rewrite D by lia. apply B. exact H. Qed.
Lemma same_grown a b : same a b -> grown a b.
Proof. intros (A & B). split; [lia|]. intros. rewrite B. reflexivity. Qed.
Lemma alloc_grown h i : grown h (fst (alloc h i)).
Proof. split; cbn; [lia|]. intros x H. apply put_ne. lia. Qed.
Lemma alloc_info h i : h_info (fst (alloc h i)) (h_count h) = i.
Proof. cbn. apply put_eq. Qed.
(** What the links of the heap with a new node are. *)
Lemma alloc_link h i x : h_link (fst (alloc h i)) x = if x =? h_count h then nolink else h_link h x.
Proof. reflexivity. Qed.
Lemma grown_type h h' x : grown h h' -> x < h_count h -> type_of h' x = type_of h x.
Proof. intros (_ & E) H. unfold type_of. rewrite E by exact H. reflexivity. Qed.

Lemma alloc_tinv r t h i r' t' : tinv r t h ->
  (forall x y, r x < r y -> x <> h_count h -> y < h_count h -> r' x < r' y) ->
  (forall x y, r x < r y -> x < h_count h -> y <> h_count h -> r' x < r' y) ->
  (forall x y, t x < t y -> x <> h_count h -> y < h_count h -> t' x < t' y) ->
  tinv r' t' (fst (alloc h i)).
Proof.
  intros T Hr Hr2 Ht x. destruct (T x) as (A & B & C & D & F). destruct (Nat.eq_dec x (h_count h)) as [->|N].
  - unfold next_of, prev_of, parent_of, first_of, last_of. rewrite !alloc_link, Nat.eqb_refl. cbn. repeat split; discriminate.
  - unfold next_of, prev_of, parent_of, first_of, last_of in *. rewrite !alloc_link. destruct (Nat.eqb_spec x (h_count h)) as [|_]; [contradiction|].
    assert (K : h_count h <= h_count (fst (alloc h i))) by (cbn; lia).
    split; [|split; [|split; [|split]]].
    + intros y E. destruct (A y E). split; [lia|auto].
    + intros y E. destruct (B y E). split; [lia|auto].
    + intros y E. destruct (C y E) as (C1 & C2 & C3). split; [lia|split; [auto|]]. rewrite (grown_type h) by (try apply alloc_grown; exact C1). exact C3.
    + intros y E. specialize (D y E). lia.
    + intros y E. destruct (F y E) as (F1 & F2). split; [lia|]. unfold type_of in *. cbn. rewrite put_ne by exact N. exact F2.
Qed.

(** A new node that will be a leaf: last of its siblings, below everything. *)
Definition r_new (r : nat -> nat) (n : nat) : nat -> nat := put r n (top r n).
Definition t_low (t : nat -> nat) (n : nat) : nat -> nat := put (fun x => S (t x)) n 0.
(** A new node that will get children: above everything. *)
Definition t_high (t : nat -> nat) (n : nat) : nat -> nat := put t n (top t n).
Lemma alloc_low r t h i : tinv r t h -> tinv (r_new r (h_count h)) (t_low t (h_count h)) (fst (alloc h i)).
Proof.
  intros T. apply (alloc_tinv r t); [exact T| | |]; intros x y L X Y; unfold r_new, t_low; rewrite ?put_ne by lia; lia.
Qed.
Lemma alloc_high r t h i : tinv r t h -> tinv (r_new r (h_count h)) (t_high t (h_count h)) (fst (alloc h i)).
Proof.
  intros T. apply (alloc_tinv r t); [exact T| | |]; intros x y L X Y; unfold r_new, t_high; rewrite ?put_ne by lia; lia.
Qed.

(** ** Walks end *)
(** The nodes not below [x] in the order [r]. *)
Definition left (r : nat -> nat) (n x : nat) : nat := length (filter (fun y => r x <=? r y) (seq 0 n)).
Lemma filter_le {A} (f g : A -> bool) l : (forall x, In x l -> f x = true -> g x = true) -> length (filter f l) <= length (filter g l).
Proof.
  induction l as [|x l IH]; intros H; cbn; [lia|]. assert (IH' := IH (fun y Hy => H y (or_intror Hy))). specialize (H x (or_introl eq_refl)).
  destruct (f x); [rewrite H by reflexivity; cbn; lia|]. destruct (g x); cbn; lia.
Qed.
Lemma filter_lt {A} (f g : A -> bool) l z : (forall x, In x l -> f x = true -> g x = true) -> In z l -> f z = false -> g z = true -> length (filter f l) < length (filter g l).
Proof.
  induction l as [|x l IH]; intros H Hz Hf Hg; [destruct Hz|]. cbn [filter]. assert (Hx := H x (or_introl eq_refl)). assert (Ht : forall y, In y l -> f y = true -> g y = true) by (intros y Hy; apply H; right; exact Hy).
  destruct Hz as [->|Hz].
  - rewrite Hf, Hg. cbn. assert (P := filter_le f g l Ht). lia.
  - assert (P := IH Ht Hz Hf Hg). destruct (f x); [rewrite Hx by reflexivity; cbn; lia|]. destruct (g x); cbn; lia.
Qed.
Lemma left_lt r n x y : r x < r y -> x < n -> left r n y < left r n x.
Proof.
  intros L X. unfold left. apply (filter_lt _ _ _ x).
  - intros z _ E. apply Nat.leb_le in E. apply Nat.leb_le. lia.
  - apply in_seq. lia.
  - apply Nat.leb_gt. exact L.
  - apply Nat.leb_refl.
Qed.
Lemma left_le r n x : left r n x <= n.
Proof. unfold left. etransitivity; [apply (filter_le _ (fun _ => true)); reflexivity|]. assert (E : forall l : list nat, length (filter (fun _ => true) l) = length l) by (induction l as [|z l IH]; cbn; congruence). rewrite E, seq_length. lia. Qed.

(** ** Ancestors *)
Inductive up (h : heap) (x : nat) : nat -> Prop :=
| up_here : up h x x
| up_more y z : up h x y -> parent_of h y = Some z -> up h x z.
Lemma up_first h x y z : parent_of h x = Some y -> up h y z -> up h x z.
Proof. intros P U. induction U as [|a b U IH Q]; [apply (up_more _ _ x); [constructor|exact P]|]. apply (up_more _ _ a); assumption. Qed.
Lemma up_inv h x z : up h x z -> x = z \/ exists y, parent_of h x = Some y /\ up h y z.
Proof.
  intros U. induction U as [|a b U IH Q]; [left; reflexivity|]. right. destruct IH as [->|(y & P & V)]; [exists b; split; [exact Q|constructor]|].
  exists y. split; [exact P|apply (up_more _ _ a); assumption].
Qed.
Lemma ancestor_ok r t h c : tinv r t h -> forall fuel x, x < h_count h -> left t (h_count h) x <= fuel ->
  exists b, ancestor (S fuel) h (Some x) c = Ok b /\ (b = true <-> up h x c).
Proof.
  intros T. induction fuel as [|fuel IH]; intros x X L.
  - exfalso. assert (left t (h_count h) x <> 0); [|lia]. unfold left. intros Z. apply length_zero_iff_nil in Z.
    assert (I : In x (filter (fun y => t x <=? t y) (seq 0 (h_count h)))) by (apply filter_In; split; [apply in_seq; lia|apply Nat.leb_refl]). rewrite Z in I. destruct I.
  - cbn [ancestor]. destruct (Nat.eqb_spec x c) as [->|N]; [exists true; split; [reflexivity|split; [intros _; constructor|reflexivity]]|].
    destruct (parent_of h x) as [y|] eqn:P.
    + destruct (T x) as (_ & _ & C & _). destruct (C y P) as (C1 & C2 & _).
      destruct (IH y C1) as (b & E & B); [assert (Q := left_lt t (h_count h) x y C2 X); lia|]. exists b. split; [exact E|]. rewrite B. split; [apply up_first; exact P|].
      intros U. apply up_inv in U as [U|(z & Z1 & Z2)]; [contradiction|]. rewrite P in Z1. injection Z1 as <-. exact Z2.
    + exists false. split; [reflexivity|]. split; [discriminate|]. intros U. apply up_inv in U as [U|(z & Z1 & _)]; congruence.
Qed.
Lemma ancestor_full r t h c cur : tinv r t h -> (forall x, cur = Some x -> x < h_count h) ->
  exists b, ancestor (S (h_count h)) h cur c = Ok b /\ (b = true <-> exists x, cur = Some x /\ up h x c).
Proof.
  intros T Hc. destruct cur as [x|].
  - destruct (ancestor_ok r t h c T (h_count h) x (Hc x eq_refl) (left_le _ _ _)) as (b & E & B). exists b. split; [exact E|]. rewrite B. split; [eauto|]. intros (y & Y & U). injection Y as <-. exact U.
  - exists false. split; [reflexivity|]. split; [discriminate|]. intros (x & X & _). discriminate.
Qed.

(** ** Freeing a text node *)
Lemma node_free_ok r t h x : tinv r t h -> type_of h x = NODE_TEXT ->
  exists h', node_free h x = Ok h' /\ tinv r t h' /\ same h h' /\ (forall y, parent_of h' y = parent_of h y).
Proof.
  intros T Tx. unfold node_free. set (h1 := set_next (s_node_unlink h x) x None).
  assert (T1 : tinv r t h1) by (apply tinv_next; [apply s_unlink_tinv; exact T|discriminate]).
  assert (S1 : same h h1) by (eapply same_trans; [apply s_unlink_same|apply same_link]).
  assert (L : last_of h1 x = None).
  { destruct (last_of h1 x) as [l|] eqn:E; [|reflexivity]. exfalso. destruct (T1 x) as (_ & _ & _ & _ & F). destruct (F l E) as (_ & F2). apply F2. rewrite (same_type _ _ _ S1). exact Tx. }
  exists h1. split; [|split; [exact T1|split; [exact S1|]]].
  - cbn [free_nodes]. rewrite L. replace (next_of h1 x) with (@None nat); [destruct (h_count h1); reflexivity|]. unfold h1. rewrite next_set_next, Nat.eqb_refl. reflexivity.
  - intros y. unfold h1. rewrite parent_set_next. apply s_unlink_parent.
Qed.

(** ** Moving nodes under a new node *)
Definition apart (h : heap) (e : nat) : Prop :=
  (forall x, next_of h x <> Some e /\ prev_of h x <> Some e) /\ next_of h e = None /\ prev_of h e = None /\ parent_of h e = None.
Lemma apart_next h e x v : apart h e -> x <> e -> v <> Some e -> apart (set_next h x v) e.
Proof.
  intros (A & B & C & D) X V. split; [|autorewrite with links; destruct (Nat.eqb_spec e x); [congruence|auto]].
  intros y. autorewrite with links. destruct (Nat.eqb_spec y x); [|apply A]. split; [exact V|apply A].
Qed.
Lemma apart_prev h e x v : apart h e -> x <> e -> v <> Some e -> apart (set_prev h x v) e.
Proof.
  intros (A & B & C & D) X V. split; [|autorewrite with links; destruct (Nat.eqb_spec e x); [congruence|auto]].
  intros y. autorewrite with links. destruct (Nat.eqb_spec y x); [|apply A]. split; [apply A|exact V].
Qed.
Lemma apart_parent h e x v : apart h e -> x <> e -> apart (set_parent h x v) e.
Proof.
  intros (A & B & C & D) X. split; [|autorewrite with links; destruct (Nat.eqb_spec e x); [congruence|auto]].
  intros y. autorewrite with links. apply A.
Qed.
Lemma apart_first h e x v : apart h e -> apart (set_first h x v) e.
Proof. intros (A & B & C & D). split; [|autorewrite with links; auto]. intros y. autorewrite with links. apply A. Qed.
Lemma apart_last h e x v : apart h e -> apart (set_last h x v) e.
Proof. intros (A & B & C & D). split; [|autorewrite with links; auto]. intros y. autorewrite with links. apply A. Qed.
Lemma s_unlink_apart h e x : apart h e -> apart (s_node_unlink h x) e.
Proof.
  intros A. unfold s_node_unlink.
  set (h1 := match prev_of h x with Some p => set_next h p (next_of h x) | None => h end).
  assert (A1 : apart h1 e).
  { unfold h1. destruct (prev_of h x) as [p|] eqn:P; [|exact A]. apply apart_next; [exact A| |apply A]. intros ->. apply (proj2 (proj1 A x)). exact P. }
  set (h2 := match next_of h1 x with Some n => set_prev h1 n (prev_of h1 x) | None => h1 end).
  assert (A2 : apart h2 e).
  { unfold h2. destruct (next_of h1 x) as [n|] eqn:P; [|exact A1]. apply apart_prev; [exact A1| |apply A1]. intros ->. apply (proj1 (proj1 A1 x)). exact P. }
  destruct (parent_of h2 x) as [p|]; [|exact A2]. destruct (oid_eqb (first_of h2 p) (Some x)).
  - destruct (oid_eqb _ _); [apply apart_last|]; apply apart_first; exact A2.
  - destruct (oid_eqb _ _); [apply apart_last|]; exact A2.
Qed.
Lemma unlink_apart h e x : apart h e -> x <> e -> apart (node_unlink h x) e.
Proof.
  intros A X. unfold node_unlink. apply apart_parent; [|exact X]. apply apart_prev; [|exact X|discriminate]. apply apart_next; [|exact X|discriminate]. apply s_unlink_apart. exact A.
Qed.
Lemma s_unlink_first_last h x e : parent_of h x <> Some e -> first_of (s_node_unlink h x) e = first_of h e /\ last_of (s_node_unlink h x) e = last_of h e.
Proof.
  intros N. unfold s_node_unlink.
  set (h1 := match prev_of h x with Some p => set_next h p (next_of h x) | None => h end).
  assert (E1 : first_of h1 e = first_of h e /\ last_of h1 e = last_of h e /\ parent_of h1 x = parent_of h x) by (unfold h1; destruct (prev_of h x); autorewrite with links; auto).
  set (h2 := match next_of h1 x with Some n => set_prev h1 n (prev_of h1 x) | None => h1 end).
  assert (E2 : first_of h2 e = first_of h e /\ last_of h2 e = last_of h e /\ parent_of h2 x = parent_of h x) by (unfold h2; destruct (next_of h1 x); autorewrite with links; auto).
  destruct E2 as (E2 & E3 & E4). rewrite E4. destruct (parent_of h x) as [p|]; [|auto]. assert (P : (e =? p) = false) by (apply Nat.eqb_neq; congruence).
  destruct (oid_eqb (first_of h2 p) (Some x)); destruct (oid_eqb _ (Some x)); autorewrite with links; rewrite ?P; auto.
Qed.
Lemma unlink_first_last h x e : parent_of h x <> Some e -> first_of (node_unlink h x) e = first_of h e /\ last_of (node_unlink h x) e = last_of h e.
Proof. intros N. unfold node_unlink. autorewrite with links. apply s_unlink_first_last. exact N. Qed.

Definition movable (r t : nat -> nat) (h : heap) (e w : nat) : Prop :=
  e < h_count h /\ type_of h e <> NODE_TEXT /\ apart h e /\ (forall x, x < h_count h -> x <> e -> t x < t e) /\
  (forall x, parent_of h x = Some e -> r x < w /\ first_of h e <> None) /\ (forall l, last_of h e = Some l -> r l < w /\ l <> e /\ first_of h e <> None).
Lemma move_step r t h e w x : tinv r t h -> movable r t h e w -> x < h_count h -> x <> e -> w <= r x ->
  let h' := append_child (node_unlink h x) e x in
  tinv r t h' /\ movable r t h' e (S (r x)) /\ same h h'.
Proof.
  intros T (M1 & M2 & M3 & M4 & M5 & M6) X XE W h'. set (h1 := node_unlink h x) in *.
  assert (S1 : same h h1) by apply unlink_same. assert (T1 : tinv r t h1) by (apply unlink_tinv; exact T).
  assert (S2 : same h h') by (eapply same_trans; [exact S1|apply append_same]).
  assert (A1 : apart h1 e) by (apply unlink_apart; assumption).
  assert (NP : parent_of h x <> Some e) by (intros P; destruct (M5 x P); lia).
  destruct (unlink_first_last h x e NP) as (F1 & L1). fold h1 in F1, L1.
  assert (T2 : tinv r t h').
  { apply append_tinv; [exact T1| | |rewrite (same_type _ _ _ S1); exact M2|apply M4; assumption|].
    - rewrite (proj1 S1). exact M1.
    - rewrite (proj1 S1). exact X.
    - intros l L. rewrite L1 in L. specialize (M6 l L). lia. }
  split; [exact T2|]. split; [|exact S2]. unfold movable. rewrite (proj1 S2), (same_type _ _ _ S2).
  split; [exact M1|]. split; [exact M2|].
  assert (NE : (e =? x) = false) by (apply Nat.eqb_neq; congruence).
  assert (FN : first_of h' e <> None /\ last_of h' e = Some x).
  { unfold h', append_child. rewrite L1. destruct (last_of h e) as [l|] eqn:L; autorewrite with links; rewrite ?Nat.eqb_refl; [|split; [discriminate|reflexivity]].
    split; [|reflexivity]. rewrite F1. apply (M6 l eq_refl). }
  split; [|split; [exact M4|]].
  { unfold h', append_child. set (h2 := set_last _ _ _).
    assert (A2 : apart h2 e).
    { unfold h2. apply apart_last, apart_parent; [|exact XE]. apply apart_prev; [apply apart_next; [exact A1|exact XE|discriminate]|exact XE|].
      rewrite L1. intros Q. destruct (M6 e Q) as (_ & Q2 & _). congruence. }
    destruct (last_of h1 e) as [l|] eqn:L; [|apply apart_first; exact A2]. apply apart_next; [exact A2| |congruence]. apply (M6 l). congruence. }
  destruct FN as (FN & LN). split.
  - intros y. unfold h' at 1. rewrite append_parent. unfold h1. rewrite unlink_parent. destruct (Nat.eqb_spec y x) as [->|N]; [intros _; split; [lia|exact FN]|].
    intros P. destruct (M5 y P) as (Q & _). split; [lia|exact FN].
  - intros l. rewrite LN. intros Q. injection Q as <-. split; [lia|]. split; [exact XE|exact FN].
Qed.
Lemma move_ok r t e stop : forall fuel h w tmp, tinv r t h -> movable r t h e w ->
  (forall x, tmp = Some x -> x < h_count h /\ x <> e /\ w <= r x /\ left r (h_count h) x <= fuel) ->
  exists h' w', move (S fuel) h tmp stop e = Ok h' /\ tinv r t h' /\ movable r t h' e w' /\ same h h'.
Proof.
  induction fuel as [|fuel IH]; intros h w tmp T M Ht.
  - destruct tmp as [x|]; [|exists h, w; cbn; split; [reflexivity|]; split; [exact T|]; split; [exact M|apply same_refl]]. destruct (Ht x eq_refl) as (X & _ & _ & L). exfalso.
    assert (left r (h_count h) x <> 0); [|lia]. unfold left. intros Z. apply length_zero_iff_nil in Z.
    assert (I : In x (filter (fun y => r x <=? r y) (seq 0 (h_count h)))) by (apply filter_In; split; [apply in_seq; lia|apply Nat.leb_refl]). rewrite Z in I. destruct I.
  - destruct tmp as [x|]; [|exists h, w; cbn; split; [reflexivity|]; split; [exact T|]; split; [exact M|apply same_refl]]. destruct (Ht x eq_refl) as (X & XE & W & L).
    change (move (S (S fuel)) h (Some x) stop e) with (if oid_eqb (Some x) stop then Ok h else move (S fuel) (append_child (node_unlink h x) e x) (next_of h x) stop e).
    destruct (oid_eqb (Some x) stop); [exists h, w; split; [reflexivity|]; split; [exact T|]; split; [exact M|apply same_refl]|].
    destruct (move_step r t h e w x T M X XE W) as (T2 & M2 & S2).
    destruct (IH _ _ (next_of h x) T2 M2) as (h' & w' & E & T3 & M3 & S3).
    + intros y Y. destruct (t_next _ _ _ _ _ T Y) as (Y1 & Y2). rewrite (proj1 S2). split; [exact Y1|]. split; [|split; [lia|]].
      * intros ->. destruct M as (_ & _ & A & _). apply (proj1 (proj1 A x)). exact Y.
      * assert (Q := left_lt r (h_count h) x y Y2 X). lia.
    + exists h', w'. split; [exact E|]. split; [exact T3|]. split; [exact M3|]. eapply same_trans; eassumption.
Qed.
(** A new node can be moved to. *)
Lemma alloc_movable r t h i : tinv r t h -> v_type i <> NODE_TEXT ->
  let h' := fst (alloc h i) in let e := h_count h in
  movable (r_new r e) (t_high t e) h' e 0.
Proof.
  intros T Ti h' e. unfold movable. split; [cbn; lia|]. split; [unfold h', type_of; rewrite alloc_info; exact Ti|].
  assert (K : forall x, h_link h' x = if x =? e then nolink else h_link h x) by reflexivity.
  split; [|split; [|split]].
  - split; [|unfold next_of, prev_of, parent_of; rewrite K, Nat.eqb_refl; auto].
    intros x. unfold next_of, prev_of. rewrite K. destruct (Nat.eqb_spec x e); [cbn; split; discriminate|].
    split; intros Q; [apply (t_next _ _ _ _ _ T) in Q|apply (t_prev _ _ _ _ _ T) in Q]; unfold e in Q; lia.
  - intros x X N. unfold t_high. rewrite put_eq, put_ne by exact N. apply top_spec. cbn in X. lia.
  - intros x. unfold parent_of. rewrite K. destruct (Nat.eqb_spec x e); [discriminate|]. intros Q. apply (t_parent _ _ _ _ _ T) in Q. unfold e in Q. lia.
  - intros l. unfold last_of. rewrite K, Nat.eqb_refl. discriminate.
Qed.

(** ** Inserting *)
Lemma can_contain_ok r t h p e : tinv r t h -> p < h_count h -> exists b, can_contain h p e = Ok b /\
  (b = true -> (forall x, parent_of h x = Some e -> first_of h e <> None) -> ~ up h p e).
Proof.
  intros T P. unfold can_contain. destruct (Nat.eqb_spec p e) as [->|N]; [exists false; split; [reflexivity|discriminate]|].
  assert (G : exists b, match first_of h e with Some _ => ancestor (S (h_count h)) h (parent_of h p) e | None => Ok false end = Ok b /\
              (b = false -> (forall x, parent_of h x = Some e -> first_of h e <> None) -> ~ up h p e)).
  { destruct (first_of h e) as [f|] eqn:F.
    - destruct (ancestor_full r t h e (parent_of h p) T) as (b & E & B); [intros x Q; apply (t_parent _ _ _ _ _ T Q)|]. exists b. split; [exact E|].
      intros -> _ U. apply up_inv in U as [U|(y & Y)]; [contradiction|]. assert (C : false = true) by (apply B; eauto). discriminate.
    - exists false. split; [reflexivity|]. intros _ H U. inversion U as [|y z U' Q]; subst; [contradiction|]. apply (H y Q). reflexivity. }
  destruct G as (b & -> & B). cbn [bind]. destruct b; [exists false; split; [reflexivity|discriminate]|].
  specialize (B eq_refl).
  repeat match goal with |- exists _, (if ?c then _ else _) = _ /\ _ => destruct c end; eexists; (split; [reflexivity|]); auto.
Qed.
Definition upb (h : heap) (p y : nat) : bool :=
  match ancestor (S (h_count h)) h (Some p) y with Ok b => b | Err _ => false end.
Lemma upb_spec r t h p y : tinv r t h -> p < h_count h -> (upb h p y = true <-> up h p y).
Proof.
  intros T P. unfold upb. destruct (ancestor_full r t h y (Some p) T) as (b & -> & B); [intros x Q; injection Q as <-; exact P|].
  rewrite B. split; [intros (x & Q & U); injection Q as <-; exact U|eauto].
Qed.
Lemma insert_after_ok r t h n e w : tinv r t h -> movable r t h e w -> n < h_count h -> n <> e ->
  exists h' r' t', insert_after h n e = Ok h' /\ tinv r' t' h' /\ same h h'.
Proof.
  intros T (M1 & M2 & M3 & M4 & M5 & M6) N NE. unfold insert_after. destruct (parent_of h n) as [p|] eqn:P; [|exists h, r, t; split; [reflexivity|split; [exact T|apply same_refl]]].
  destruct (t_parent _ _ _ _ _ T P) as (P1 & P2 & P3).
  destruct (can_contain_ok r t h p e T P1) as (b & -> & B). cbn [bind]. destruct b; cbn [negb]; [|exists h, r, t; split; [reflexivity|split; [exact T|apply same_refl]]].
  assert (U : ~ up h p e) by (apply B; [reflexivity|intros x Q; apply (M5 x Q)]).
  destruct M3 as (A1 & A2 & A3 & A4). rewrite (s_unlink_none h e A2 A3 A4).
  set (r' := fun x => if x =? e then 2 * r n + 1 else 2 * r x).
  set (t' := fun x => if upb h p x then t x + top t (h_count h) else t x).
  assert (R : forall x, x <> e -> r' x = 2 * r x) by (intros x X; unfold r'; destruct (Nat.eqb_spec x e); [contradiction|reflexivity]).
  assert (Re : r' e = 2 * r n + 1) by (unfold r'; rewrite Nat.eqb_refl; reflexivity).
  assert (Tp : t' p = t p + top t (h_count h)).
  { unfold t'. replace (upb h p p) with true; [reflexivity|]. symmetry. apply (upb_spec r t h p p T P1). constructor. }
  assert (Te : t' e < top t (h_count h)).
  { unfold t'. destruct (upb h p e) eqn:Q; [apply (upb_spec r t h p e T P1) in Q; contradiction|]. apply top_spec. exact M1. }
  assert (T0 : tinv r' t' h).
  { intros x. split; [|split; [|split; [|split]]].
    - intros y Y. destruct (t_next _ _ _ _ _ T Y). split; [assumption|]. rewrite !R; [lia| |]; intros ->; [apply (proj1 (A1 x)); exact Y|congruence].
    - intros y Y. destruct (t_prev _ _ _ _ _ T Y). split; [assumption|]. rewrite !R; [lia| |]; intros ->; [congruence|apply (proj2 (A1 x)); exact Y].
    - intros y Y. destruct (t_parent _ _ _ _ _ T Y) as (Y1 & Y2 & Y3). split; [exact Y1|split; [|exact Y3]]. unfold t'.
      destruct (upb h p x) eqn:Q; [|destruct (upb h p y); lia]. replace (upb h p y) with true; [lia|]. symmetry. apply (upb_spec r t h p y T P1). apply (upb_spec r t h p x T P1) in Q.
      eapply up_more; eassumption.
    - intros y Y. apply (t_first _ _ _ _ _ T Y).
    - intros y Y. apply (t_last _ _ _ _ _ T Y). }
  assert (L : forall o, next_of h n = Some o -> o < h_count h /\ r' e < r' o).
  { intros o O. destruct (t_next _ _ _ _ _ T O). split; [assumption|]. rewrite Re, (R o); [lia|]. intros ->. apply (proj1 (A1 n)). exact O. }
  assert (Ln : r' n < r' e) by (rewrite (R n NE), Re; lia).
  set (h1 := match next_of h n with Some o => set_prev h o (Some e) | None => h end).
  assert (T1 : tinv r' t' h1 /\ same h h1 /\ parent_of h1 n = Some p).
  { unfold h1. destruct (next_of h n) as [o|] eqn:O; [|split; [exact T0|split; [apply same_refl|exact P]]]. split; [|split; [apply same_link|autorewrite with links; exact P]].
    apply tinv_prev; [exact T0|]. intros y Y. injection Y as <-. split; [exact M1|]. apply (L o eq_refl). }
  destruct T1 as (T1 & (S1 & I1) & P4).
  set (h2 := set_next (set_prev (set_next h1 e (next_of h n)) e (Some n)) n (Some e)).
  assert (T2 : tinv r' t' h2).
  { unfold h2. apply tinv_next; [|intros y Y; injection Y as <-; split; [cbn; rewrite S1; exact M1|exact Ln]].
    apply tinv_prev; [|intros y Y; injection Y as <-; split; [cbn; rewrite S1; exact N|exact Ln]].
    apply tinv_next; [exact T1|]. intros y Y. rewrite S1. apply L. exact Y. }
  assert (P5 : parent_of h2 n = Some p) by (unfold h2; autorewrite with links; exact P4). rewrite P5.
  set (h3 := set_parent h2 e (Some p)).
  assert (T3 : tinv r' t' h3).
  { apply tinv_parent; [exact T2|]. intros y Y. injection Y as <-. split; [cbn; rewrite S1; exact P1|]. split; [lia|]. unfold type_of in *. cbn. rewrite I1. exact P3. }
  assert (P6 : parent_of h3 n = Some p) by (unfold h3; autorewrite with links; destruct (Nat.eqb_spec n e); [contradiction|exact P5]). rewrite P6.
  exists (match next_of h n with None => set_last h3 p (Some e) | Some _ => h3 end), r', t'. split; [destruct (next_of h n); reflexivity|].
  split; [|destruct (next_of h n); split; cbn; assumption].
  destruct (next_of h n); [exact T3|]. apply tinv_last; [exact T3|]. intros y Y. injection Y as <-. split; [cbn; rewrite S1; exact M1|]. unfold type_of in *. cbn. rewrite I1. exact P3.
Qed.
(** Under the root, which has type 0, nothing is inserted. *)
Lemma insert_before_root h n e : parent_of h n = Some ROOT -> type_of h ROOT = NODE_NONE -> first_of h e = None -> e <> ROOT -> type_of h e <> NODE_DOCUMENT ->
  insert_before h n e = Ok h.
Proof.
  intros P R F N D. unfold insert_before. rewrite P. unfold can_contain. destruct (Nat.eqb_spec ROOT e); [congruence|]. rewrite F. cbn [bind]. rewrite R.
  destruct (Nat.eqb_spec (type_of h e) NODE_DOCUMENT); [contradiction|]. reflexivity.
Qed.
