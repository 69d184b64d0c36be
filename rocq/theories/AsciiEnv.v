(** A concrete environment, correct on ASCII text, used by the examples. *)
From Coq Require Import String List NArith ZArith Bool Arith.
From Verif Require Import Str.
Import ListNotations.
Local Open Scope list_scope.

(** [e_sha1] is the identity here: any injective function will do. *)
Definition ascii_env : env := mkEnv
  (map (fun c => if N.eqb c 256 then 257%N else ascii_tolower c))
  (fun c => ascii_alnum c || N.eqb c 95)
  ascii_digit
  (fun c => in_range 9 13 c || in_range 28 32 c || N.eqb c 133 || N.eqb c 160)
  (fun c => N.eqb c 32 || N.eqb c 160)
  (fun c => ascii_punct c && negb (cin c (lit "$+<=>^`|~")))
  (fun s => s)
  [(lit "amp", (lit "&" ++ [0%N], 2)); (lit "gt", (lit ">" ++ [0%N], 2));
   (lit "lt", (lit "<" ++ [0%N], 2)); (lit "quot", ([34%N; 0%N], 2))].

(** A line ended by LF. *)
Definition ln (s : string) : str := lit s ++ [cLF].
