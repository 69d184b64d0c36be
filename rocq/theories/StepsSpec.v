(** Several runs at the same time. *)
From Coq Require Import String List NArith ZArith Bool.
From Verif Require Import Str Anchor Toc Cli Disk Program Steps ArgvSpec LineSpec.
Import ListNotations.
Local Open Scope list_scope.

(** Runs that share the files of a disk: at any moment one of them, whichever it is, makes its next access. *)
Inductive moves {A} : list (steps A) * disk -> list (steps A) * disk -> Prop :=
| moves_read : forall before n next after k,
    moves (before ++ Reads n next :: after, k) (before ++ next (disk_get k n) :: after, k)
| moves_write : forall before n s next after k,
    moves (before ++ Writes n s next :: after, k) (before ++ next :: after, disk_set k n s).
(** A schedule: the disks one after the other, the first one included. *)
Inductive schedule {A} : list (steps A) * disk -> list disk -> list (steps A) * disk -> Prop :=
| sch_none : forall c, schedule c [snd c] c
| sch_move : forall c c1 ds c2, moves c c1 -> schedule c1 ds c2 -> schedule c (snd c :: ds) c2.

(** A command line and its standard input. *)
Definition job : Type := list str * stdin_state.
Definition begin (E : env) (num : str -> option Z) (js : list job) : list (steps (str * Z)) :=
  map (fun j => program_steps E num (fst j) (snd j)) js.

(** The command line names the file; it may change it. *)
Definition touches (E : env) (num : str -> option Z) (j : job) (n : str) : Prop :=
  exists gs p ls names, accepted_line num (e_digit E) (fst j) gs p ls names /\ ~ clash gs ls /\ In n names.
Definition changes (E : env) (num : str -> option Z) (j : job) (n : str) : Prop :=
  exists gs p ls names, accepted_line num (e_digit E) (fst j) gs p ls names /\ ~ clash gs ls /\ In n names /\ turned InPlace gs = true.

(** No other run of the list may change a file that this one names. *)
Definition undisturbed (E : env) (num : str -> option Z) (before after : list job) (j : job) : Prop :=
  forall other n, In other (before ++ after) -> touches E num j n -> ~ changes E num other n.
(** No run of the list may change a file that another one names. *)
Definition separate (E : env) (num : str -> option Z) (js : list job) : Prop :=
  forall before j after, js = before ++ j :: after -> undisturbed E num before after j.
(** The runs one after the other: what each printed and its status, and the files in the end. *)
Fixpoint in_turn (E : env) (num : str -> option Z) (js : list job) (k : disk) : list (str * Z) * disk :=
  match js with
  | [] => ([], k)
  | j :: js' =>
      let y := program E num (fst j) k (snd j) in
      let '(rs, k') := in_turn E num js' (y_disk y) in ((y_out y, y_status y) :: rs, k')
  end.
