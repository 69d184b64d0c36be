(** Lines on which no anchor can fail. *)
From Coq Require Import String List NArith ZArith.
From Verif Require Import Str EnvSpec EmphSpec Toc.
Import ListNotations.
Local Open Scope list_scope.

(** What is assumed of Python's tables. *)
Definition python_tables (E : env) : Prop := lower_chars E /\ digit_ascii E /\ e_entities E <> [].
(** No NUL, no decimal digit outside ASCII, no backslash right before '<'. *)
Definition safe_line (E : env) (s : str) : Prop :=
  ~ In 0%N s /\ plain_digits E s /\ forall a b, s <> a ++ 92%N :: 60%N :: b.
(** Ordinary links: no '<', backslash, quote or vertical tab, not both '&' and ';', and no "][". *)
Definition plain_links (s : str) : Prop :=
  (forall c, In c s -> ~ In c [60; 92; 34; 39; 11]%N) /\ (~ In 38%N s \/ ~ In 59%N s) /\ forall a b, s <> a ++ 93%N :: 91%N :: b.
(** When the anchors of a document cannot fail.  With links brackets are escaped before the anchor
    is made; without links they are not, and then a line with a closing bracket must be one with
    ordinary links. *)
Definition anchors_safe (E : env) (p : parser) (nl : bool) (lines : list str) : Prop :=
  p = Redcarpet \/ (python_tables E /\ Forall (safe_line E) lines /\
    (nl = true -> Forall (fun s => ~ In 93%N s \/ (zs_ascii E /\ plain_links s)) lines)).
(** The list marker can be used: any marker in an ordered list, a bullet otherwise. *)
Definition marker_valid (o : opts) : Prop :=
  o_ordered o = true \/ o_constant o = true \/ exists m, o_marker o = Some m /\ In m [lit "-"; lit "+"; lit "*"].
(** The exceptions the documentation announces for documents that cannot be rendered. *)
Definition documented (e : exn) : Prop :=
  In e [GithubEmptyLinkLabel; GithubOverflowCharsLinkLabel; GithubOverflowOrderedListMarker; TocDoesNotRenderAsCoherentList].
