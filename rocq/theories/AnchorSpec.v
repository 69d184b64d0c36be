(** Specification vocabulary for anchors. *)
From Coq Require Import String List NArith ZArith Bool Arith.
From Verif Require Import Str Anchor Spec EnvSpec.
Import ListNotations.
Local Open Scope list_scope.

(** Successive calls of build_anchor_link that share one duplicate counter. *)
Fixpoint anchor_calls (E : env) (p : parser) (d : dupcount) (texts : list str)
    : res (list (option str) * dupcount) :=
  match texts with
  | [] => Ok ([], d)
  | t :: ts =>
      match build_anchor_link E p d t with
      | Err e => Err e
      | Ok (a, d1) =>
          match anchor_calls E p d1 ts with
          | Err e => Err e
          | Ok (l, d2) => Ok (a :: l, d2)
          end
      end
  end.

(** The base slug of a text: its anchor in a document of which it is the only heading. *)
Definition base_slug (E : env) (p : parser) (text slug : str) : Prop :=
  exists d, build_anchor_link E p [] text = Ok (Some slug, d).

(** [a] is the anchor of the (k+1)-th heading with base slug [s]. *)
Definition numbered (s : str) (k : nat) (a : str) : Prop :=
  (k = 0 /\ a = s) \/ (0 < k /\ exists num, decimal (N.of_nat k) num /\ a = s ++ [45%N] ++ num).

(** The same as a function. *)
Definition label_number (s : str) (k : nat) : str :=
  if k =? 0 then s else s ++ [45%N] ++ numeral (N.of_nat k).

(** How often a slug occurs in a list. *)
Fixpoint occurrences (s : str) (l : list str) : nat :=
  match l with
  | [] => 0
  | x :: l' => (if list_eq_dec N.eq_dec x s then 1 else 0) + occurrences s l'
  end.

(** SHA-1 does not collide on the given slugs. *)
Definition no_collision (E : env) (slugs : list str) : Prop :=
  forall s t, In s slugs -> In t slugs -> e_sha1 E s = e_sha1 E t -> s = t.

(** Maximal runs of characters satisfying [K]. *)
Inductive runs (K : N -> Prop) : str -> list str -> Prop :=
| runs_end : forall g, Forall (fun c => ~ K c) g -> runs K g []
| runs_word : forall g w s ws,
    Forall (fun c => ~ K c) g -> w <> [] -> Forall K w ->
    (forall c r, s = c :: r -> ~ K c) -> runs K s ws ->
    runs K (g ++ w ++ s) (w :: ws).

(** The characters that survive in a redcarpet anchor: ASCII except for a fixed list. *)
Definition redcarpet_keeps (c : N) : Prop :=
  (c <= 127)%N /\ ~ In c (lit " -&+$,/:;=?@""#{}|^~[]`\*()%.!'<").

(** Lower case of ASCII letters, as a relation. *)
Definition ascii_lowered (c d : N) : Prop :=
  ((65 <= c <= 90)%N /\ d = (c + 32)%N) \/ (~ (65 <= c <= 90)%N /\ d = c).

(** Lower-case hexadecimal numbers. *)
Definition lower_hex (c : N) : Prop := is_digit c \/ (97 <= c <= 102)%N.
Definition hex_digit_value (c : N) : N := if (c <=? 57)%N then (c - 48)%N else (c - 87)%N.
Fixpoint hex_value (acc : N) (s : str) : N :=
  match s with [] => acc | c :: s' => hex_value (acc * 16 + hex_digit_value c) s' end.

(** djb2: the hash used when no character of the text survives. *)
Fixpoint djb2 (h : N) (s : str) : N :=
  match s with [] => h | c :: s' => djb2 (33 * h + c) s' end.
