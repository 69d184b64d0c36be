(** Vocabulary for the properties that compare two runs of build_toc. *)
From Coq Require Import String List NArith ZArith Bool Arith.
From Verif Require Import Str Atx Anchor Toc Spec TocSpec.
Import ListNotations.
Local Open Scope list_scope.

(** The same options with another value for one of them. *)
Definition with_skip (o : opts) (n : Z) : opts :=
  mkOpts (o_ordered o) (o_no_links o) (o_no_indentation o) (o_no_list_coherence o) (o_keep o)
    (o_parser o) (o_marker o) n (o_constant o) (o_newline o).
Definition with_keep (o : opts) (k : Z) : opts :=
  mkOpts (o_ordered o) (o_no_links o) (o_no_indentation o) (o_no_list_coherence o) k
    (o_parser o) (o_marker o) (o_skip o) (o_constant o) (o_newline o).
Definition with_marker (o : opts) (m : option str) : opts :=
  mkOpts (o_ordered o) (o_no_links o) (o_no_indentation o) (o_no_list_coherence o) (o_keep o)
    (o_parser o) m (o_skip o) (o_constant o) (o_newline o).
Definition with_ordered (o : opts) (b : bool) : opts :=
  mkOpts b (o_no_links o) (o_no_indentation o) (o_no_list_coherence o) (o_keep o)
    (o_parser o) (o_marker o) (o_skip o) (o_constant o) (o_newline o).
Definition with_no_indentation (o : opts) (b : bool) : opts :=
  mkOpts (o_ordered o) (o_no_links o) b (o_no_list_coherence o) (o_keep o)
    (o_parser o) (o_marker o) (o_skip o) (o_constant o) (o_newline o).
Definition with_no_list_coherence (o : opts) (b : bool) : opts :=
  mkOpts (o_ordered o) (o_no_links o) (o_no_indentation o) b (o_keep o)
    (o_parser o) (o_marker o) (o_skip o) (o_constant o) (o_newline o).

Definition with_newline (o : opts) (nl : str) : opts :=
  mkOpts (o_ordered o) (o_no_links o) (o_no_indentation o) (o_no_list_coherence o) (o_keep o)
    (o_parser o) (o_marker o) (o_skip o) (o_constant o) nl.

(** A line that is neither a heading nor a fence: for redcarpet, a line that does not start
    with a hash. *)
Definition plain_line (p : parser) (line : str) : Prop :=
  match p with
  | Redcarpet => hd_error line <> Some 35%N
  | _ => (forall level rest s, (line = s \/ line = s ++ [10%N]) -> single_line s -> ~ atx_line p s level rest)
         /\ (forall c n, ~ opening_fence_line line c n)
  end.

(** [drops p lines rest]: [rest] is [lines] without some of its plain lines. *)
Inductive drops (p : parser) : list str -> list str -> Prop :=
| drops_nil : drops p [] []
| drops_keep : forall l ls rs, drops p ls rs -> drops p (l :: ls) (l :: rs)
| drops_drop : forall l ls rs, plain_line p l -> drops p ls rs -> drops p (l :: ls) rs.

(** Two results of get_md_header that agree on everything except visibility. *)
Definition same_header (a b : option header) : Prop :=
  match a, b with
  | None, None => True
  | Some x, Some y => hd_level x = hd_level y /\ hd_text x = hd_text y /\ hd_anchor x = hd_anchor y
  | _, _ => False
  end.
