(** A run while other programs (editors, version control, ...) work on the same files. *)
From Coq Require Import String List NArith ZArith Bool.
From Verif Require Import Str Spec Disk Steps WriteSpec DiskSpec.
Import ListNotations.
Local Open Scope list_scope.

(** What a run does to files: it sees what a file holds ([None]: there is no such file), or it writes one. *)
Inductive access := Saw (n : str) (s : option stored) | Wrote (n : str) (s : stored).

(** [amid may (m, k) l (m', k')]: a run gets from [m] to [m'] by the accesses [l].  Before each of them and after
    the last one, others create, change and delete files in any way that [may] allows, any number of times. *)
Inductive amid {A} (may : disk -> disk -> Prop) : steps A * disk -> list access -> steps A * disk -> Prop :=
| amid_end : forall c, amid may c [] c
| amid_read : forall n next k l c, amid may (next (disk_get k n), k) l c -> amid may (Reads n next, k) (Saw n (disk_get k n) :: l) c
| amid_write : forall n s next k l c, amid may (next, disk_set k n s) l c -> amid may (Writes n s next, k) (Wrote n s :: l) c
| amid_others : forall m k k1 l c, may k k1 -> amid may (m, k1) l c -> amid may (m, k) l c.

(** Others may do anything; others do anything, but not to these files. *)
Definition anything (k k' : disk) : Prop := True.
Definition except (files : str -> Prop) (k k' : disk) : Prop := forall n, files n -> disk_get k' n = disk_get k n.

(** What one write makes of the text that the run saw last: it takes out some consecutive lines, or puts in a block
    before one of the lines or after the last one; if that place is past the end, empty lines fill the gap. *)
Inductive rewritten (nl : str) (block : str -> Prop) (text : str) : str -> Prop :=
| rw_out : forall before gone after, reads_as text (before ++ gone ++ after) -> gone <> [] ->
    rewritten nl block text (concat before ++ concat after)
| rw_in : forall before after b, reads_as text (before ++ after) -> block b ->
    rewritten nl block text (concat before ++ b ++ concat after)
| rw_past : forall lines gap b, reads_as text lines -> block b ->
    rewritten nl block text (concat lines ++ concat (repeat nl gap) ++ b).
