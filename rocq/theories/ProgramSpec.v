(** Vocabulary for the whole program: stored files, standard input and the tables that belong to them. *)
From Coq Require Import String List NArith ZArith Bool.
From Verif Require Import Str Spec Toc Cli WriteSpec CliSpec Disk DiskSpec BookSpec TableSpec CommandSpec.
Import ListNotations.
Local Open Scope list_scope.

(** The lines of a name: those of standard input for '-', otherwise those of the stored file, whatever its
    line ends are. *)
Definition content (k : disk) (input : stdin_state) (n : str) (lines : list str) : Prop :=
  (n = lit "-" /\ input = Fresh (mkDoc lines false))
  \/ (n <> lit "-" /\ exists text, disk_get k n = Some (Stored text false) /\ reads_as text lines).
(** The table of these lines with these options. *)
Definition its_table (E : env) (o : opts) (k : disk) (input : stdin_state) (n t : str) : Prop :=
  exists lines hs, content k input n lines /\ titled E o lines hs /\ table_of_titles o hs t.
(** A file that does not show its table. *)
Definition stale (E : env) (o : opts) (marker : str) (k : disk) (input : stdin_state) (n : str) : Prop :=
  n <> lit "-" /\ exists lines t t0, content k input n lines /\ its_table E o k input n t
    /\ table_there E marker lines t0 /\ trim (e_space E) t <> t0.
