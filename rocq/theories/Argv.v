(** Model of md_toc/cli.py:107-386 and md_toc/__main__.py:28-48 from the words of the command line on:
    the options that create_parser declares, and argparse as it reads words with such declarations.
    argparse is not part of /repo; what is modelled is parse_args of Python 3.11 (argparse.py, cited by
    function names) for parsers with flags, options with one or at most one argument, one positional
    argument '*', and subparsers.  Not modelled: the texts of help, usage and error messages; names of
    programs; words that are not valid Unicode. *)
From Coq Require Import String List NArith ZArith Bool.
From Verif Require Import Str Anchor Toc Cli Args.
Import ListNotations.
Local Open Scope list_scope.

(** ** The declarations *)
Inductive key :=
| KHelp | KVersion
| KNoCoherence | KNoIndentation | KDiff | KNoLinks | KMarker | KNewline | KInPlace | KSkip
| KUnordered | KOrdered | KConstant | KLevels.
(** nargs: none for store_true, help and version; None; '?' *)
Inductive kind := Flag | One | Maybe.
(** cli.py:126-172, 259-304 and 311-384: the actions and nargs *)
Definition kind_of (k : key) : kind :=
  match k with
  | KMarker | KNewline | KSkip => One
  | KUnordered | KOrdered | KLevels => Maybe
  | _ => Flag
  end.
(** The option strings of a parser and their actions. *)
Definition table := list (str * key).
(** cli.py:311-384, and -h of argparse *)
Definition main_table : table :=
  [(lit "-h", KHelp); (lit "--help", KHelp);
   (lit "-c", KNoCoherence); (lit "--no-list-coherence", KNoCoherence);
   (lit "-i", KNoIndentation); (lit "--no-indentation", KNoIndentation);
   (lit "-d", KDiff); (lit "--diff", KDiff);
   (lit "-l", KNoLinks); (lit "--no-links", KNoLinks);
   (lit "-m", KMarker); (lit "--toc-marker", KMarker);
   (lit "-n", KNewline); (lit "--newline-string", KNewline);
   (lit "-p", KInPlace); (lit "--in-place", KInPlace);
   (lit "-s", KSkip); (lit "--skip-lines", KSkip);
   (lit "-v", KVersion); (lit "--version", KVersion)].
(** cli.py:126-172, 259-304 (the same for every subparser), and -h *)
Definition sub_table : table :=
  [(lit "-h", KHelp); (lit "--help", KHelp);
   (lit "-u", KUnordered); (lit "--unordered-list-marker", KUnordered);
   (lit "-o", KOrdered); (lit "--ordered-list-marker", KOrdered);
   (lit "-c", KConstant); (lit "--constant-ordered-list", KConstant);
   (lit "-l", KLevels); (lit "--header-levels", KLevels)].
(** cli.py:193-196, 212-213, 230-232, 248-249: the names of the subparsers and their aliases *)
Definition subparsers : list (str * parser) :=
  [(lit "github", Github); (lit "commonmarker", Commonmarker); (lit "gitlab", Gitlab);
   (lit "cmark", Cmark); (lit "goldmark", Goldmark); (lit "redcarpet", Redcarpet)].
(** Lookup of a string. *)
Fixpoint find_str {A} (l : list (str * A)) (s : str) : option A :=
  match l with
  | [] => None
  | (n, x) :: l' => if seqb n s then Some x else find_str l' s
  end.

(** ** Words *)
(** What argparse takes a word for: an argument, '--', or an option with the option string, whether
    '=' separates the explicit argument, and the explicit argument; [ask] = None for an option that
    the parser does not know. *)
Inductive mark := Arg | Dashes | Opt (ask : option key) (name : str) (sep : bool) (explicit : option str).
(** str.partition('=') *)
Fixpoint partition_eq (s : str) : str * option str :=
  match s with
  | [] => ([], None)
  | c :: s' => if N.eqb c 61 then ([], Some s') else let '(a, b) := partition_eq s' in (c :: a, b)
  end.
(** argparse.py _negative_number_matcher: ^-\d+$|^-\d*\.\d+$; $ also matches before a final LF *)
Definition looks_negative (E : env) (s : str) : bool :=
  match s with
  | c :: t =>
      N.eqb c cDASH &&
      (let t := match rev t with 10%N :: r => rev r | _ => t end in
       let rest := lstrip (e_digit E) t in
       match rest with
       | [] => negb (match t with [] => true | _ => false end)
       | d :: u => N.eqb d 46 && forallb (e_digit E) u && negb (match u with [] => true | _ => false end)
       end)
  | [] => false
  end.
(** argparse.py _get_option_tuples, for a word of two characters or more that begins with '-' *)
Definition option_tuples (tbl : table) (s : str) : list mark :=
  match s with
  | _ :: c :: rest =>
      if N.eqb c cDASH then
        let '(prefix, explicit) := partition_eq s in
        map (fun '(n, k) => Opt (Some k) n (match explicit with Some _ => true | None => false end) explicit)
            (filter (fun '(n, _) => startswith prefix n) tbl)
      else
        flat_map (fun '(n, k) =>
          if seqb n [cDASH; c] then [Opt (Some k) n false (Some rest)]
          else if startswith s n then [Opt (Some k) n false None]
          else []) tbl
  | _ => []
  end.
(** argparse.py _parse_optional; None is the error for an ambiguous abbreviation *)
Definition parse_optional (E : env) (tbl : table) (s : str) : option mark :=
  match s with
  | [] => Some Arg
  | c :: s' =>
      if negb (N.eqb c cDASH) then Some Arg
      else match find_str tbl s with
           | Some k => Some (Opt (Some k) s false None)
           | None =>
               match s' with
               | [] => Some Arg
               | _ =>
                   let '(name, explicit) := partition_eq s in
                   match explicit, find_str tbl name with
                   | Some e, Some k => Some (Opt (Some k) name true (Some e))
                   | _, _ =>
                       match option_tuples tbl s with
                       | [m] => Some m
                       | _ :: _ :: _ => None
                       | [] => if looks_negative E s then Some Arg
                               else if cin cSP s then Some Arg
                               else Some (Opt None s false None)
                       end
                   end
               end
           end
  end.
(** argparse.py _parse_known_args, the first loop: every word gets its mark; all words after '--'
    are arguments *)
Fixpoint marks (E : env) (tbl : table) (ws : list str) : option (list (str * mark)) :=
  match ws with
  | [] => Some []
  | w :: ws' =>
      if seqb w (lit "--") then Some ((w, Dashes) :: map (fun x => (x, Arg)) ws')
      else match parse_optional E tbl w, marks E tbl ws' with
           | Some m, Some ms => Some ((w, m) :: ms)
           | _, _ => None
           end
  end.

(** ** Reading *)
(** What becomes of a command line: a value; the usage message and exit status 2; a help or version
    text and exit status 0. *)
Inductive got (A : Type) := Got (a : A) | Usage | Shown.
Arguments Got {A} a. Arguments Usage {A}. Arguments Shown {A}.
(** Sequence. *)
Definition then_ {A B} (g : got A) (f : A -> got B) : got B :=
  match g with Got a => f a | Usage => Usage | Shown => Shown end.

(** argparse.py _parse_known_args, consume_optional, the branch without an explicit argument: the
    actions to be taken with their arguments, whether the word is added to the extras, and whether the
    next word was taken.  [next] is the next word, if it is an argument. *)
Definition no_explicit (k : key) (next : option str) : got (list (key * option str) * bool * bool) :=
  match kind_of k, next with
  | Flag, _ => Got ([(k, None)], false, false)
  | One, Some x => Got ([(k, Some x)], false, true)
  | One, None => Usage
  | Maybe, Some x => Got ([(k, Some x)], false, true)
  | Maybe, None => Got ([(k, None)], false, false)
  end.
(** One more action in front. *)
Definition before (k : key) (g : got (list (key * option str) * bool * bool)) : got (list (key * option str) * bool * bool) :=
  then_ g (fun '(l, x, t) => Got ((k, None) :: l, x, t)).
(** argparse.py _parse_known_args, consume_optional, the branch with an explicit argument: flags
    behind one dash share a word *)
Fixpoint cluster (tbl : table) (k : key) (sep : bool) (explicit : str) (next : option str)
    : got (list (key * option str) * bool * bool) :=
  match kind_of k with
  | Flag =>
      match explicit with
      | [] => Usage
      | c :: t =>
          if sep || N.eqb c cDASH then Usage
          else match find_str tbl [cDASH; c] with
               | None => Got ([(k, None)], true, false)
               | Some k' =>
                   match t with
                   | [] => before k (no_explicit k' next)
                   | d :: t2 => if N.eqb d 61 then before k (cluster tbl k' true t2 next)
                                else before k (cluster tbl k' false t next)
                   end
               end
      end
  | _ => Got ([(k, Some explicit)], false, false)
  end.
(** argparse.py _parse_known_args, consume_optional *)
Definition consume_optional (tbl : table) (ask : option key) (name : str) (sep : bool) (explicit : option str) (next : option str)
    : got (list (key * option str) * bool * bool) :=
  match ask with
  | None => Got ([], true, false)
  | Some k =>
      match explicit with
      | None => no_explicit k next
      | Some e =>
          match kind_of k, name with
          | Flag, _ :: c :: _ => if N.eqb c cDASH then Usage else cluster tbl k sep e next
          | _, _ => cluster tbl k sep e next
          end
      end
  end.

(** The namespace and the actions of the exclusive groups seen with another value than the default:
    -u, -o, --no-list-coherence, --no-indentation. *)
Record reading := Reading { r_args : cli_args; r_u : bool; r_o : bool; r_c : bool; r_i : bool }.
(** cli.py:186, 204-208, 340-377 and the store_true actions: the defaults; os.linesep is taken to be LF *)
Definition defaults : reading :=
  Reading (mkArgs [] None (lit "-") false false false 6 OtherParser 0 false false false (lit "<!--TOC-->") [cLF]) false false false false.
(** Update of the namespace. *)
Definition on_args (f : cli_args -> cli_args) (r : reading) : reading := Reading (f (r_args r)) (r_u r) (r_o r) (r_c r) (r_i r).
(** [setattr] for each destination *)
Definition set_names (v : list str) (a : cli_args) : cli_args :=
  mkArgs v (a_ordered_marker a) (a_unordered_marker a) (a_no_links a) (a_no_indentation a) (a_no_list_coherence a) (a_levels a) (a_parser a) (a_skip a) (a_constant a) (a_in_place a) (a_diff a) (a_toc_marker a) (a_newline a).
(** -o *)
Definition set_ordered (v : option str) (a : cli_args) : cli_args :=
  mkArgs (a_names a) v (a_unordered_marker a) (a_no_links a) (a_no_indentation a) (a_no_list_coherence a) (a_levels a) (a_parser a) (a_skip a) (a_constant a) (a_in_place a) (a_diff a) (a_toc_marker a) (a_newline a).
(** -u *)
Definition set_unordered (v : str) (a : cli_args) : cli_args :=
  mkArgs (a_names a) (a_ordered_marker a) v (a_no_links a) (a_no_indentation a) (a_no_list_coherence a) (a_levels a) (a_parser a) (a_skip a) (a_constant a) (a_in_place a) (a_diff a) (a_toc_marker a) (a_newline a).
(** --no-links *)
Definition set_no_links (v : bool) (a : cli_args) : cli_args :=
  mkArgs (a_names a) (a_ordered_marker a) (a_unordered_marker a) v (a_no_indentation a) (a_no_list_coherence a) (a_levels a) (a_parser a) (a_skip a) (a_constant a) (a_in_place a) (a_diff a) (a_toc_marker a) (a_newline a).
(** --no-indentation *)
Definition set_no_indentation (v : bool) (a : cli_args) : cli_args :=
  mkArgs (a_names a) (a_ordered_marker a) (a_unordered_marker a) (a_no_links a) v (a_no_list_coherence a) (a_levels a) (a_parser a) (a_skip a) (a_constant a) (a_in_place a) (a_diff a) (a_toc_marker a) (a_newline a).
(** --no-list-coherence *)
Definition set_no_list_coherence (v : bool) (a : cli_args) : cli_args :=
  mkArgs (a_names a) (a_ordered_marker a) (a_unordered_marker a) (a_no_links a) (a_no_indentation a) v (a_levels a) (a_parser a) (a_skip a) (a_constant a) (a_in_place a) (a_diff a) (a_toc_marker a) (a_newline a).
(** --header-levels *)
Definition set_levels (v : Z) (a : cli_args) : cli_args :=
  mkArgs (a_names a) (a_ordered_marker a) (a_unordered_marker a) (a_no_links a) (a_no_indentation a) (a_no_list_coherence a) v (a_parser a) (a_skip a) (a_constant a) (a_in_place a) (a_diff a) (a_toc_marker a) (a_newline a).
(** the markdown parser *)
Definition set_parser (v : parser) (a : cli_args) : cli_args :=
  mkArgs (a_names a) (a_ordered_marker a) (a_unordered_marker a) (a_no_links a) (a_no_indentation a) (a_no_list_coherence a) (a_levels a) v (a_skip a) (a_constant a) (a_in_place a) (a_diff a) (a_toc_marker a) (a_newline a).
(** --skip-lines *)
Definition set_skip (v : Z) (a : cli_args) : cli_args :=
  mkArgs (a_names a) (a_ordered_marker a) (a_unordered_marker a) (a_no_links a) (a_no_indentation a) (a_no_list_coherence a) (a_levels a) (a_parser a) v (a_constant a) (a_in_place a) (a_diff a) (a_toc_marker a) (a_newline a).
(** --constant-ordered-list *)
Definition set_constant (v : bool) (a : cli_args) : cli_args :=
  mkArgs (a_names a) (a_ordered_marker a) (a_unordered_marker a) (a_no_links a) (a_no_indentation a) (a_no_list_coherence a) (a_levels a) (a_parser a) (a_skip a) v (a_in_place a) (a_diff a) (a_toc_marker a) (a_newline a).
(** --in-place *)
Definition set_in_place (v : bool) (a : cli_args) : cli_args :=
  mkArgs (a_names a) (a_ordered_marker a) (a_unordered_marker a) (a_no_links a) (a_no_indentation a) (a_no_list_coherence a) (a_levels a) (a_parser a) (a_skip a) (a_constant a) v (a_diff a) (a_toc_marker a) (a_newline a).
(** --diff *)
Definition set_diff (v : bool) (a : cli_args) : cli_args :=
  mkArgs (a_names a) (a_ordered_marker a) (a_unordered_marker a) (a_no_links a) (a_no_indentation a) (a_no_list_coherence a) (a_levels a) (a_parser a) (a_skip a) (a_constant a) (a_in_place a) v (a_toc_marker a) (a_newline a).
(** --toc-marker *)
Definition set_toc_marker (v : str) (a : cli_args) : cli_args :=
  mkArgs (a_names a) (a_ordered_marker a) (a_unordered_marker a) (a_no_links a) (a_no_indentation a) (a_no_list_coherence a) (a_levels a) (a_parser a) (a_skip a) (a_constant a) (a_in_place a) (a_diff a) v (a_newline a).
(** --newline-string *)
Definition set_newline (v : str) (a : cli_args) : cli_args :=
  mkArgs (a_names a) (a_ordered_marker a) (a_unordered_marker a) (a_no_links a) (a_no_indentation a) (a_no_list_coherence a) (a_levels a) (a_parser a) (a_skip a) (a_constant a) (a_in_place a) (a_diff a) (a_toc_marker a) v.

(** argparse.py _get_values, _check_value and take_action, with the declarations cli.py:126-172,
    259-304 and 311-384.  [num] is Python's int on strings (None is ValueError).  An argument is only
    counted in an exclusive group if its value is not the default; the default of -u is '-', and
    CPython has one object for each string of one character, so "is" is equality there. *)
Definition take (num : str -> option Z) (p : parser) (k : key) (v : option str) (r : reading) : got reading :=
  match k, v with
  | KHelp, _ | KVersion, _ => Shown
  | KNoCoherence, _ =>
      if r_i r then Usage else Got (Reading (set_no_list_coherence true (r_args r)) (r_u r) (r_o r) true (r_i r))
  | KNoIndentation, _ =>
      if r_c r then Usage else Got (Reading (set_no_indentation true (r_args r)) (r_u r) (r_o r) (r_c r) true)
  | KDiff, _ => Got (on_args (set_diff true) r)
  | KNoLinks, _ => Got (on_args (set_no_links true) r)
  | KInPlace, _ => Got (on_args (set_in_place true) r)
  | KMarker, Some x => Got (on_args (set_toc_marker x) r)
  | KNewline, Some x => if sin x [lit "\n"; lit "\r"; lit "\r\n"] then Got (on_args (set_newline x) r) else Usage
  | KSkip, Some x => match num x with Some n => Got (on_args (set_skip n) r) | None => Usage end
  | KUnordered, _ =>
      let x := match v with Some x => x | None => lit "-" end in
      if negb (sin x (bullet_markers p)) then Usage
      else if seqb x (lit "-") then Got (on_args (set_unordered x) r)
      else if r_o r then Usage
      else Got (Reading (set_unordered x (r_args r)) true (r_o r) (r_c r) (r_i r))
  | KOrdered, _ =>
      let x := match v with Some x => x | None => lit "." end in
      if negb (sin x (closing_markers p)) then Usage
      else if r_u r then Usage
      else Got (Reading (set_ordered (Some x) (r_args r)) (r_u r) true (r_c r) (r_i r))
  | KConstant, _ => Got (on_args (set_constant true) r)
  | KLevels, None => Got (on_args (set_levels 6) r)
  | KLevels, Some x =>
      match num x with
      | Some n => if cli_levels n then Got (on_args (set_levels n) r) else Usage
      | None => Usage
      end
  | _, None => Usage
  end.
(** argparse.py consume_optional: the actions one after the other *)
Fixpoint take_all (num : str -> option Z) (p : parser) (l : list (key * option str)) (r : reading) : got reading :=
  match l with
  | [] => Got r
  | (k, v) :: l' => then_ (take num p k v r) (take_all num p l')
  end.
(** The next word, if it is an argument. *)
Definition next_arg (ms : list (str * mark)) : option str :=
  match ms with (w, Arg) :: _ => Some w | _ => None end.

(** The words up to the next option. *)
Fixpoint run (ms : list (str * mark)) : list str :=
  match ms with
  | (_, Opt _ _ _ _) :: _ => []
  | (w, _) :: ms' => w :: run ms'
  | [] => []
  end.
(** [arg_strings.remove('--')] *)
Fixpoint remove_dashes (l : list str) : list str :=
  match l with
  | [] => []
  | x :: l' => if seqb x (lit "--") then l' else x :: remove_dashes l'
  end.
(** argparse.py _parse_known_args of a subparser: [filename] (cli.py:114-123, nargs='*') takes the
    first run of words that are no options ([inside] = it is being taken, so the words of the run are
    passed over); any other run is left over (extras).  [named] = filename has been taken. *)
Fixpoint sub_loop (num : str -> option Z) (p : parser) (ms : list (str * mark)) (r : reading) (named inside extra : bool)
    : got (reading * bool) :=
  match ms with
  | [] => Got (r, extra)
  | (w, Opt ask name sep explicit) :: ms' =>
      then_ (consume_optional sub_table ask name sep explicit (next_arg ms')) (fun '(l, x, took) =>
      then_ (take_all num p l r) (fun r =>
      if took then match ms' with
                   | [] => Usage
                   | _ :: ms2 => sub_loop num p ms2 r named false (extra || x)
                   end
      else sub_loop num p ms' r named false (extra || x)))
  | _ :: ms' =>
      if inside then sub_loop num p ms' r named true extra
      else if named then sub_loop num p ms' r named false true
      else sub_loop num p ms' (on_args (set_names (remove_dashes (run ms))) r) true true extra
  end.
(** argparse.py _SubParsersAction.__call__: the rest of the words goes to the subparser *)
Definition sub_command (E : env) (num : str -> option Z) (name : str) (ws : list str) (r : reading) : got (reading * bool) :=
  match find_str subparsers name with
  | None => Usage
  | Some p =>
      match marks E sub_table ws with
      | None => Usage
      | Some ms => sub_loop num p ms (on_args (set_parser p) r) false false false
      end
  end.
(** argparse.py _parse_known_args of the main parser: options up to the first argument, which names
    the subparser (required, cli.py:187) *)
Fixpoint main_loop (E : env) (num : str -> option Z) (ms : list (str * mark)) (r : reading) (extra : bool) : got (reading * bool) :=
  match ms with
  | [] => Usage
  | (w, Opt ask name sep explicit) :: ms' =>
      then_ (consume_optional main_table ask name sep explicit (next_arg ms')) (fun '(l, x, took) =>
      then_ (take_all num OtherParser l r) (fun r =>
      if took then match ms' with
                   | [] => Usage
                   | _ :: ms2 => main_loop E num ms2 r (extra || x)
                   end
      else main_loop E num ms' r (extra || x)))
  | (w, Dashes) :: _ => Usage
  | (w, Arg) :: ms' =>
      then_ (sub_command E num w (map fst ms') r) (fun '(r, x) => Got (r, extra || x))
  end.
(** argparse.py parse_args: left over words are an error *)
Definition parse_args (E : env) (num : str -> option Z) (ws : list str) : got cli_args :=
  match marks E main_table ws with
  | None => Usage
  | Some ms => then_ (main_loop E num ms defaults false) (fun '(r, x) => if x then Usage else Got (r_args r))
  end.

(** __main__.py:28-48 main: the output, the files and the exit status.  The exits of argparse are not
    caught (SystemExit is no Exception).  The texts for help, version and usage are left out. *)
Record run_result := RunResult { x_out : str; x_fs : fs; x_status : Z }.
Definition main (E : env) (num : str -> option Z) (ws : list str) (w : world) : run_result :=
  match parse_args E num ws with
  | Usage => RunResult [] (w_fs w) 2
  | Shown => RunResult [] (w_fs w) 0
  | Got a => let e := cli_write_toc E a w in RunResult (f_out e) (f_fs e) (exit_status (f_result e))
  end.
