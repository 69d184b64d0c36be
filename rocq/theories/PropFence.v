(** Properties of the code fence functions: C06 and C07. *)
From Coq Require Import String List NArith ZArith Bool Arith Lia.
From Verif Require Import Str Fence Spec StrFacts FenceProof.
Import ListNotations.
Local Open Scope list_scope.

(** C06: a line opens a fence exactly when it has the shape of an opening fence line, and the
    reported fence is the maximal run of fence characters. *)
Theorem C06_opening_fence_exact : forall p line fence,
  commonmark_parser p ->
  (is_opening_code_fence p line = Some fence <->
   exists c n, fence = repeat c n /\ opening_fence_line line c n).
Proof. exact is_opening_iff. Qed.
Print Assumptions C06_opening_fence_exact.
Example C06_opening_fence_exact_ex :
  opening_fence_line (lit "  ~~~~ ruby `x`") 126%N 4
  /\ is_opening_code_fence Cmark (lit "  ~~~~ ruby `x`") = Some (lit "~~~~")
  /\ is_opening_code_fence Cmark (lit "  ```` ruby `x`") = None.
Proof.
  repeat split. exists 2, (lit " ruby `x`"). repeat split; auto. right. split; [reflexivity|discriminate].
Qed.

Theorem C06_no_fence_outside_commonmark : forall p line,
  ~ commonmark_parser p -> is_opening_code_fence p line = None.
Proof. exact is_opening_other. Qed.
Print Assumptions C06_no_fence_outside_commonmark.
Example C06_no_fence_outside_commonmark_ex :
  ~ commonmark_parser Redcarpet /\ is_opening_code_fence Redcarpet (lit "```") = None.
Proof. split; [|reflexivity]. cbn. intuition discriminate. Qed.

(** C07: for a fence returned by the opening function and a line that is not the last one. *)
Theorem C07_closing_fence_exact : forall p opening fence line,
  commonmark_parser p ->
  is_opening_code_fence p opening = Some fence ->
  exists c n, fence = repeat c n /\ opening_fence_line opening c n /\
    (is_closing_code_fence p line fence false = true <-> closing_fence_line p line c n).
Proof.
  intros p opening fence line Hp Ho. apply is_opening_iff in Ho as (c & n & -> & Ho); [|exact Hp].
  exists c, n. split; [reflexivity|]. split; [exact Ho|].
  destruct Ho as (i & info & _ & _ & Hn & Hc). apply is_closing_iff; [exact Hp| |exact Hn]. tauto.
Qed.
Print Assumptions C07_closing_fence_exact.
Example C07_closing_fence_exact_ex :
  is_opening_code_fence Gitlab (lit "```c") = Some (lit "```")
  /\ closing_fence_line Gitlab (lit " ```` ") 96%N 3
  /\ is_closing_code_fence Gitlab (lit " ```` ") (lit "```") false = true
  /\ is_closing_code_fence Gitlab (lit " ```` x") (lit "```") false = false
  /\ is_closing_code_fence Gitlab (lit "``") (lit "```") false = false.
Proof.
  repeat split. exists 1, 4, (lit " "). repeat split; try lia. constructor; [|constructor].
  left. left. reflexivity.
Qed.

(** At the end of a document read from a file every line with at most three spaces of
    indentation ends the block. *)
Theorem C07_document_end : forall p opening fence line,
  commonmark_parser p ->
  is_opening_code_fence p opening = Some fence ->
  (is_closing_code_fence p line fence true = true <->
   exists ind r, line = repeat 32%N ind ++ r /\ ind <= 3 /\ hd_error r <> Some 32%N).
Proof.
  intros p opening fence line Hp Ho. apply is_opening_iff in Ho as (c & n & -> & Ho); [|exact Hp].
  destruct Ho as (i & info & _ & _ & Hn & Hc). apply is_closing_end; [exact Hp| |exact Hn]. tauto.
Qed.
Print Assumptions C07_document_end.
Example C07_document_end_ex :
  is_opening_code_fence Gitlab (lit "```c") = Some (lit "```")
  /\ is_closing_code_fence Gitlab (lit "# x") (lit "```") true = true
  /\ is_closing_code_fence Gitlab (lit "    # x") (lit "```") true = false.
Proof. repeat split. Qed.

Theorem C07_no_closing_outside_commonmark : forall p line fence e,
  ~ commonmark_parser p -> is_closing_code_fence p line fence e = false.
Proof. exact is_closing_other. Qed.
Print Assumptions C07_no_closing_outside_commonmark.
Example C07_no_closing_outside_commonmark_ex :
  is_closing_code_fence Redcarpet (lit "```") (lit "```") false = false.
Proof. reflexivity. Qed.
