(** Vocabulary for redcarpet headings and for strings of several lines.  32 is the space, 35 the
    hash. *)
From Coq Require Import List NArith ZArith.
From Verif Require Import Str Spec Atx.
Import ListNotations.

(** A redcarpet heading line: it begins with one to six hashes and at least one space; spaces and
    hashes at its end do not count, and something must be left. *)
Definition redcarpet_line (line : str) (level : nat) (text : str) : Prop :=
  exists k j m,
    line = repeat 35%N level ++ repeat 32%N (S k) ++ text ++ repeat 32%N j ++ repeat 35%N m
    /\ 1 <= level <= 6 /\ text <> []
    /\ hd 0%N text <> 32%N /\ last text 0%N <> 32%N
    /\ (j = 0 -> last text 0%N <> 35%N).

(** A line that hides all the headings of the lines after it in the same string: for the parsers
    that follow CommonMark, one with too many hashes at its start, heading or not; for redcarpet,
    one that would be a heading if there were something left. *)
Definition hides (p : parser) (keep : Z) (line : str) : Prop :=
  match p with
  | Redcarpet =>
      exists level k m, line = repeat 35%N level ++ repeat 32%N k ++ repeat 35%N m
        /\ 1 <= level <= 6 /\ (k = 0 -> m = 0)
  | _ =>
      exists ind level rest, line = repeat 32%N ind ++ repeat 35%N level ++ rest
        /\ ind <= 3 /\ 1 <= level <= 6 /\ hd 0%N rest <> 35%N /\ (keep < Z.of_nat level)%Z
  end.

(** The heading [h] of a line, alone, compared with what is reported for the line when [before] are
    the lines in front of it. *)
Definition reported_after (p : parser) (keep : Z) (before : list str) (h h' : option heading) : Prop :=
  match h, h' with
  | None, None => True
  | Some a, Some b =>
      h_level b = h_level a /\ h_text b = h_text a
      /\ (h_visible b = true <-> h_visible a = true /\ forall l, In l before -> ~ hides p keep l)
  | _, _ => False
  end.
