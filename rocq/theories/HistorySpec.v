(** A file that is looked after by the tool: written by its users, updated by the command, again and
    again. *)
From Coq Require Import String List NArith ZArith Bool.
From Verif Require Import Str Spec Atx Toc Write Cli TableSpec TocSpec AnchorSpec WriteSpec RerunSpec CliSpec Args PropArgs BookSpec CommandSpec.
Import ListNotations.
Local Open Scope list_scope.

Definition holds (w : world) (n : str) (lines : list str) : Prop := fs_get (w_fs w) n = Some (mkDoc lines false).

(** The first row of the table starts where a reader looks for a list: redcarpet would indent a title of a
    deeper level, and without links the text of the title comes first. *)
Definition clear_start (E : env) (o : opts) (hs : list heading) : Prop :=
  forall l h r, hs = l ++ h :: r -> listed (o_parser o) (o_keep o) (b_level h) = true ->
    (forall x, In x l -> listed (o_parser o) (o_keep o) (b_level x) = false) ->
    (o_parser o = Redcarpet -> o_no_indentation o = false -> b_level h <= 1)
    /\ (o_no_links o = true -> exists c s, b_label h = c :: s /\ e_space E c = false).

(** Arguments that are accepted and name the file, perhaps among others; the users' lines [above] and
    [below] the table have the titles [hs]. *)
Record fits (E : env) (n marker : str) (w : world) (above below : list str) (a : cli_args) (o : opts) (hs : list heading) : Prop := {
  fit_args : offered a /\ selects a o /\ (0 <= a_skip a)%Z /\ a_toc_marker a = marker /\ line_end (o_newline o);
  fit_names : In n (inputs a) /\ NoDup (inputs a);
  fit_skip : (a_skip a <= Z.of_nat (length above))%Z;
  fit_titles : exists hs1 hs2, hs = hs1 ++ hs2
    /\ document E (o_parser o) (negb (o_no_links o)) None (skipn (Z.to_nat (a_skip a)) above) hs1
    /\ document E (o_parser o) (negb (o_no_links o)) None below hs2;
  fit_size : (o_parser o <> Redcarpet -> no_collision E (map b_name hs)) /\ (Z.of_nat (length hs) <= 999999999)%Z;
  fit_start : clear_start E o hs;
  fit_others : forall m, In m (inputs a) -> m <> n -> m <> lit "-"
    /\ exists lines hs', holds w m lines /\ text_lines lines /\ titled E o lines hs' /\ exists t, table_of_titles o hs' t
}.

(** [maintained E n marker w above below last]: in the world [w] the users' lines of file [n] are [above]
    and [below]; [last] are the options and the table of the last update, [None] before the first. *)
Inductive maintained (E : env) (n marker : str) : world -> list str -> list str -> option (opts * str) -> Prop :=
| h_new : forall w above m below,                                  (* a file with one marker *)
    n <> lit "-" -> holds w n (above ++ [m] ++ below) -> is_marker E marker m ->
    no_marker E marker above -> no_marker E marker below -> text_lines (above ++ [m] ++ below) ->
    maintained E n marker w above below None
| h_edit : forall w above below last w' shown above' below',       (* anything happens, but not to what is shown *)
    maintained E n marker w above below last -> holds w n (above ++ shown ++ below) ->
    holds w' n (above' ++ shown ++ below') ->
    no_marker E marker above' -> no_marker E marker below' -> text_lines (above' ++ shown ++ below') ->
    maintained E n marker w' above' below' last
| h_update : forall w above below last a o hs t w',                (* a run in place, as far as this file is concerned *)
    maintained E n marker w above below last -> fits E n marker w above below a o hs -> a_in_place a = true ->
    table_of_titles o hs t -> fs_get (w_fs w') n = fs_get (f_fs (cli_write_toc E a w)) n ->
    maintained E n marker w' above below (Some (o, t))
| h_refused : forall w above below last a o hs input,              (* a run that fails: a level is skipped *)
    maintained E n marker w above below last -> fits E n marker w above below a o hs -> unrenderable o hs ->
    maintained E n marker (mkWorld (f_fs (cli_write_toc E a w)) input) above below last
| h_look : forall w above below last a input,                      (* a run that prints *)
    maintained E n marker w above below last -> a_in_place a = false ->
    maintained E n marker (mkWorld (f_fs (cli_write_toc E a w)) input) above below last.

(** What the file shows between the users' lines. *)
Definition shows (E : env) (marker : str) (last : option (opts * str)) (shown : list str) : Prop :=
  match last with
  | None => exists m, shown = [m] /\ is_marker E marker m
  | Some (o, t) => exists text, normalized (block_text E (o_newline o) marker t) text /\ lines_text shown text
  end.
