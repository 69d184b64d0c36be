(** A stored file that is kept up to date with command lines. *)
From Coq Require Import String List NArith ZArith Bool.
From Verif Require Import Str Spec Atx Anchor Toc Cli Disk Program AnchorSpec TableSpec WriteSpec RerunSpec CliSpec CallSpec ArgvSpec LineSpec DiskSpec BookSpec HistorySpec.
Import ListNotations.
Local Open Scope list_scope.

(** The stored file [n] reads as these lines, whatever its line ends are. *)
Definition keeps (k : disk) (n : str) (lines : list str) : Prop := exists text, disk_get k n = Some (Stored text false) /\ reads_as text lines.

(** The options and names of a command line are such that the table of the file [n] is known: its users'
    lines [above] and [below] the table have the titles [hs]. *)
Record suits (E : env) (n marker : str) (k : disk) (above below : list str)
    (gs : list global) (p : parser) (ls : list local) (names : list str) (o : opts) (hs : list heading) : Prop := {
  su_options : let a := asks gs p ls names in selects a o /\ (0 <= a_skip a <= Z.of_nat (length above))%Z /\ a_toc_marker a = marker /\ line_end (o_newline o);
  su_names : In n names /\ NoDup names;
  su_titles : exists hs1 hs2, hs = hs1 ++ hs2
    /\ document E (o_parser o) (negb (o_no_links o)) None (skipn (Z.to_nat (o_skip o)) above) hs1
    /\ document E (o_parser o) (negb (o_no_links o)) None below hs2;
  su_size : (o_parser o <> Redcarpet -> no_collision E (map b_name hs)) /\ (Z.of_nat (length hs) <= 999999999)%Z;
  su_start : clear_start E o hs;
  su_others : forall m, In m names -> m <> n -> m <> lit "-"
    /\ exists lines hs', keeps k m lines /\ titled E o lines hs' /\ exists t, table_of_titles o hs' t
}.

(** [kept E num n marker k above below last]: with the files [k], the users' lines of file [n] are [above]
    and [below]; [last] are the options and the table of the last update, [None] before the first. *)
Inductive kept (E : env) (num : str -> option Z) (n marker : str) : disk -> list str -> list str -> option (opts * str) -> Prop :=
| k_new : forall k above m below,                                  (* a file with one marker *)
    n <> lit "-" -> keeps k n (above ++ [m] ++ below) -> is_marker E marker m ->
    no_marker E marker above -> no_marker E marker below ->
    kept E num n marker k above below None
| k_edit : forall k above below last k' shown above' below',       (* anything happens, but not to what is shown *)
    kept E num n marker k above below last -> keeps k n (above ++ shown ++ below) ->
    keeps k' n (above' ++ shown ++ below') ->
    no_marker E marker above' -> no_marker E marker below' ->
    kept E num n marker k' above' below' last
| k_update : forall k above below last ws gs p ls names o hs t input,   (* a command line with --in-place and the name *)
    kept E num n marker k above below last ->
    accepted_line num (e_digit E) ws gs p ls names -> ~ clash gs ls -> turned InPlace gs = true ->
    suits E n marker k above below gs p ls names o hs -> table_of_titles o hs t ->
    kept E num n marker (y_disk (program E num ws k input)) above below (Some (o, t))
| k_refused : forall k above below last ws gs p ls names o hs input,    (* the same, but a level is skipped *)
    kept E num n marker k above below last ->
    accepted_line num (e_digit E) ws gs p ls names -> ~ clash gs ls ->
    suits E n marker k above below gs p ls names o hs -> unrenderable o hs ->
    kept E num n marker (y_disk (program E num ws k input)) above below last
| k_other : forall k above below last ws input,                    (* any other words *)
    kept E num n marker k above below last ->
    (forall gs p ls names, accepted_line num (e_digit E) ws gs p ls names -> ~ clash gs ls -> turned InPlace gs = true -> ~ In n names) ->
    kept E num n marker (y_disk (program E num ws k input)) above below last.
