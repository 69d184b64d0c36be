# Formal model of md-toc in Rocq/Coq 8.16.1

`/repo` is the Python code; `/verif/rocq/theories` contains a shallow Gallina model of it
(function by function, exceptions as values), small separate specifications, proofs and the
property theorems. `properties.jsonl` lists the properties, `MANIFEST.json` maps each property
to theorems, `seeded/LOG.jsonl` records the mutation experiments.

## Conventions

* A Python `str` is a list of code points (`list N`). A Python `int` that a caller controls is
  a `Z`; lengths and positions are `nat`.
* Exceptions are values: `res A = Ok a | Err e`. `Err OutOfFuel` is a model artefact; C27 and C47
  show that it is never returned.
* The Unicode database, SHA-1 and the HTML5 entity table are fields of a record `env` on which
  every model function depends. Theorems quantify over every `env`; those that need facts about
  ASCII characters say so with small predicates of `EnvSpec.v` (`word_ascii`, `space_ascii`, ...),
  and `ascii_env` (`AsciiEnv.v`) is an instance.
* Python `re` patterns are transcribed as terms of a regular-expression syntax (`Regex.v`) and run by
  a total backtracking matcher with Python's priorities.
* A file is its decoded text as a list of lines (universal newlines), plus a flag saying that
  reading on raises `UnicodeDecodeError`.
* Names: a theorem `C##_...` belongs to property C##. `..._refuted` proves that the unrestricted
  claim is false of the model (and so of the code); the restricted claim is proved beside it.
  Each property theorem is followed by `Print Assumptions` and by an `Example` in which its
  hypotheses hold for a concrete, non-trivial case.

## Layers

| files | contents |
|---|---|
| Str, Regex | the Python runtime that the code uses |
| HtmlRe, Fence, Atx, Entity, Inlines, Anchor, Toc, Write, Cli, Args, Argv, Disk, Program, Steps, Pointers, Buffer, Bytes | the model |
| AsciiEnv, UpstreamTests | an instance of the environment; expectations of upstream's unit tests, checked by computation |
| Spec, AnchorSpec, ArgvSpec, BookSpec, BufferSpec, BytesSpec, CallSpec, CliSpec, CommandSpec, DelimSpec, DiskSpec, DocSpec, EmphSpec, EnvSpec, HeadSpec, HelpSpec, HelperSpec, HistorySpec, HtmlSpec, IntervalSpec, KeptSpec, LineSpec, LinkSpec, OpenSpec, PlainSpec, ProgramSpec, RegexSpec, RerunSpec, SafeSpec, StepsSpec, TableSpec, TameSpec, TocSpec, WorldSpec, WriteSpec | specifications: what the statements of the theorems are written in |
| *Proof, *Facts, *Loop, *Run, *Total, Inert, WriteTwice, Inline* | lemmas |
| Prop* | the property theorems |

## Properties: what is modelled, how it is proved

| property | modelled | proof |
|---|---|---|
| C01-C05 | `get_atx_heading` (all branches, both families) | loop lemmas; equivalence with a declarative grammar of heading lines and with a relation for CommonMark closing sequences; induction on the text for escaping |
| C06-C07 | `is_opening_code_fence`, `is_closing_code_fence`, `is_valid_code_fence_indent` | equivalence with declarative predicates |
| C08, C15, C20-C23, C41 | the `build_toc` loop with all its state, `build_multiple_tocs` | the loop refines "select the lines outside fenced blocks (`outside`), take their headings (`headings`), render them (`table`)" by induction on the lines |
| C16, C18, C19, C24, C25 | numbering, indentation log, coherence check | invariant relating counters and log to the history of levels (`nums_of`, `cols_of`), then induction over coherent level sequences |
| C17 | `increase_index_ordered_list` | case analysis; exact condition for the overflow |
| C09-C14 | `build_anchor_link`, `anchor_link_punctuation_filter`, `get_md_header` | induction on call histories with the duplicate counter; character-class invariants |
| C26-C30, C45, C46 | `remove_emphasis` and the inline parser of `cmark/inlines_c.py` | invariants of the delimiter stack (removed ranges lie inside runs, positions increase), a decreasing measure for the emphasis loop, simulation of the scanner on nested emphasis, code spans and escapes; every lookup of the link scanner succeeds on tame texts (`TameSpec.v`, `LinkTotal.v`) |
| C31 | regular expressions of `constants.py`, `remove_html_tags` | soundness/completeness of the matcher against a big-step relation, then uniqueness of tag matches; every match of each expression is raw HTML as `HtmlSpec.v` lays it down (`HtmlRaw.v`) |
| C32, C33, C44 | helpers of `generic.py` and `api.py` | induction |
| C34-C37, C39 | `_get_existing_toc`, `write_string_on_file_between_markers` as the list of its successive file contents | decomposition of the lines around the target block (`target`), explicit operation traces for crash points |
| C38, C40 | file system, `write_strings_on_files_between_markers`, `CliToApi.write_toc`, `main` | induction over the list of files; case analysis |
| C42, C43 | composition of the above | rows are neither headings nor fences nor markers; the second run sees the same kept lines |
| C47 | every exception of the above | totality of the inline parser, decoder and matchers for ASCII-digit entities; classification by cases; the options each exception needs by a walk through every function that can raise (`PropFirst.v`, also C19: the first problem decides) |
| C49 | `CliInterface` as a predicate on parsed arguments (`accepted`), the whole command | the options selected by accepted arguments meet the hypotheses of C47; writes and comparisons are total on text files |
| C50 | `build_toc` with two limits | the history of entries filtered by level stays coherent, and numbers and columns of the kept entries only depend on it |
| C51 | `build_toc` on a prefix of a document | the loop as a fold over the examined lines; the list of rows only grows |
| C52 | the command in its printing and in-place modes | both loops side by side; C36 for each file, C43 for the second run |
| C53 | the successive file systems of a batch (`write_states`) | induction over the files; C39 for the one that is being written |
| C54 | `get_atx_heading`, redcarpet branch | the strips at the end of a line as a unique decomposition |
| C55 | `get_atx_heading` on several lines | induction over the lines; visibility is only passed on |
| C56 | `build_anchor_link` | C26, C28, C29 and C31 for the stages of the pipeline; for tags and emphasis as CommonMark reads them (C31, C59) the anchor is that of CommonMark's text: if no underscore run is used both ways; stars do not show in an anchor |
| C57 | `build_toc` end to end | C01, C02, C04 for the lines, C56 for the anchors, C18 and C19 for the rows |
| C58 | `remove_emphasis` on pieces of text (`DelimSpec.v`) | simulation of the delimiter stack by the plain search of the standard; the remembered lower bounds never hide a run that fits; the removed ranges as a function of how often each run was used |
| C59 | `remove_emphasis` on tokens with brackets, links, raw HTML of every kind, mail addresses, code, entities (`LinkSpec.v`) | one lemma per token for what the scanners consume; whatever the scanner takes for a target matches a grammar, so text that does not is none; in the same way whatever it takes for a tag, section, comment or address is raw HTML or an autolink, or one of two mistaken shapes; the delimiter and bracket stacks together stand for one stack of runs and brackets; the loop above a stack bottom simulates the pairing of the label alone if the label is settled; permutation of the runs for what is left |
| C60 | `build_toc` on whole documents with every kind of title C13, C31, C56, C59 speak of, code blocks, every option (`BookSpec.v`) | each title line gives the expected heading (C01, C02, C54) and anchor (C31, C56, C59, C13); then the composition of C15, C17, C18, C20, C47: induction over the headings, relating the numbers and columns the program keeps to the path of open entries; for tables that are not coherent (a check is off) the rows are those of `loose_rows` (`PropMore.v`); documents that end inside a block that is never closed: `OpenSpec.v`, `PropOpen.v` |
| C61 | `cli_write_toc` (the command after argparse) on documents as in C60 (incoherent ones too where a check is off), files and standard input (`CommandSpec.v`) | composition of C60, C22, C34, C36, C37, C38, C40, C49 |
| C62 | the objects of `inlines_c.py` and `node_c.py` with their links: delimiters, nodes, the brackets' references to them (`Pointers.v`) | two ranks that grow along siblings and towards parents are kept by every link and unlink; so is the agreement of the five references of every node in use with those of its neighbours (`PointersForest.v`), where freed text nodes are out of use; the linked delimiters stand for the list of `Inlines.v`; step-by-step refinement of the whole parser |
| C63 | histories of worlds: edits, updates, prints, refused and killed runs of `cli_write_toc` (`HistorySpec.v`, `Killed.v`) | invariant on the shown lines (a lone marker, or markers around a recognised table; no line is a heading or fence for any parser) kept by every step; C61, C34, C42, C48, C53 |
| C64 | a caller's loop over the modelled functions (`CallSpec.v`) | invariant on the open levels only (log entries and counts from the first level to the present one); induction on the rows, then on the tables |
| C65 | the declarations of `create_parser` and argparse's reading of words (`Argv.v`); command lines as one writes them as inductive relations (`ArgvSpec.v`; all of them: `LineSpec.v`) | classification of each word by both parsers (finite tables, arbitrary tails); induction on the words; exclusive groups by induction on the options; C65_exactly: inversion of the loops over the words into groups of options; C65_help, C65_refused: the same inversion for lines that end in the help or the version (`HelpSpec.v`), the rest is refused |
| C66 | the writing functions on stored characters (`Disk.v`), beside the models on lines; what a stored text reads as and what it becomes (`DiskSpec.v`) | simulation of each step by the model on lines (C66_run_as_seen), then the characters of each step; C43 and the target of the second run; a CR LF file as counterexample |
| C67 | the string buffers with their sizes, chunks, entity decoding and the clean-up of code spans, targets and titles in place (`Buffer.v`) | each function writes what `Entity.v` says and at most 8 counts per character read, so that sizes stay below 2^30; in-place loops write behind the reading index; refinement of the whole parser. Symbolic run on a code span of 2^30 characters for the exit |
| C68 | `program`: `parse_args`, then `disk_cli`, then the exit status, on stored files (`Program.v`, `ProgramSpec.v`) | composition of C65_exactly, C61 and C66; induction over the files for those that are not named |
| C69 | histories of edits and lists of words on stored files (`Program.v`, `KeptSpec.v`) | simulation: what the stored files read as is a history of C63; C65 and C68 for the words, C66 for the characters and the killed runs |
| C70 | the program as a sequence of single file accesses (`Steps.v`: both reads of `_get_existing_toc`, the read and the rewrite of each `fpyutils` call), several runs on one disk and all their interleavings (`StepsSpec.v`) | the run alone is `program`; a run only depends on the files that it names, and an invariant over the schedule ties it to its state alone; well-founded order of the remaining accesses; a run that prints sees each file at one moment, and C69_killed says what the moments are; a computed schedule for the refutation |
| C71 | the codec of `open()` in text mode and the writing functions, `program` and its moments on byte files (`Bytes.v`); UTF-8 by the numbers of characters (`BytesSpec.v`) | decoder and encoder are equivalent to the relation; every character of a table comes from the file, from `\w` or from a fixed set, and the marker stands in the file, so that all that is written can be encoded; simulation of each step by `Disk.v` |
| C72 | the accesses of one run (`Steps.v`), with any changes of the files by others before each of them (`WorldSpec.v`) | the invariant of C70 for one run; a predicate on what remains of a run, given its accesses so far, holds for every function of the program and is kept by accesses and by others; a computed run for the refutation |
| C48 | `newline_string` through `build_toc` | the loop commutes with the choice of the row terminator |

Later additions are listed in `properties.jsonl` and described in the header comment of the
`Prop*.v` file that proves them.

Not expressible in the model: the text printed by `argparse`, terminal encoding errors of `print`,
performance and memory use, permissions, symbolic links (two names are two files), and what a reader sees of a
file while another process is writing it (an access is one step, C70).

## Trusted base

* Coq's kernel (8.16.1) and `vm_compute` (used for `Example`s and for the witnesses of
  refutations).
* `Print Assumptions` gives "Closed under the global context" for every property theorem: no axiom
  is used, neither of the standard library nor our own. (vcheck also lists the opaque constants of
  `Coq.ssr.ssrunder`, which come with the standard library's module loading; no theorem depends on
  them.)
* The correspondence between the Python text and the model, by reading; every definition cites its
  lines. `UpstreamTests.v` replays upstream's expectations (several hundred assertions of
  `/repo/md_toc/tests`) on the model by computation, as a check on the transcription.
* Assumptions about code outside the repository:
  * CPython semantics of `str`, `dict`, `list`, `open(newline=None)` and `re`; the files are opened without
    an encoding, and the locale's is taken to be UTF-8, with strict errors (C71);
  * `fpyutils.filelines` 4.0.1 (`get_line_matches` with loose matching, `remove_line_interval`,
    `insert_string_at_line`), modelled from its documented contract in `Write.v` and, with the stored
    characters, in `Disk.v`: text mode for reading and writing, on a system whose `os.linesep` is LF;
    the `newline_character` it is given (api.py:129) only fills missing lines, of which there are none unless another process shortens the file meanwhile (C70);
  * `hashlib.sha1`: an arbitrary function; where it matters the theorem has the hypothesis
    `no_collision` for the slugs of the document;
  * `str.lower`, `\w`, `\d`, `str.isspace`, `unicodedata.category`, `string.punctuation`,
    `html.entities.html5`: fields of `env`.

## What is modelled, file by file

| file | modelled | not modelled |
|---|---|---|
| `api.py` | every function | other encodings than UTF-8 (`Bytes.v`); in the models on texts a file either decodes or has a first undecodable position |
| `generic.py` | every function except `_ctoi` | - |
| `cli.py` | `CliToApi.write_toc`; the options declared by `CliInterface`, as a predicate on parsed namespaces and as tables that `argparse` reads words with | the texts of help, usage and errors. `argparse` is not part of the repository: `Argv.v` models `parse_args` of Python 3.11 for the declarations used here |
| `__main__.py` | `main`, from the words of the command line to output, files and exit status | the traceback that is printed |
| `constants.py` | all patterns, list and header limits, entity table as an environment field | `version` |
| `exceptions.py`, `types.py` | all | - |
| `cmark/inlines_c.py` | every function that influences the removed ranges or can raise; special-character table; the delimiters and nodes as linked objects (`Pointers.v`, C62) | texts and line numbers of nodes, smart punctuation (switched off by the caller) |
| `cmark/scanners_c.py`, `scanners_h.py` | all scanners | - |
| `cmark/houdini_html_u_c.py` | all | - |
| `cmark/buffer_c.py` | `init`, `grow`, `clear`, `set`, `put`, `putc`, `puts`, `detach`, `truncate`, `drop`, `unescape` with all fields and the exit for buffers over 2^30 (`Buffer.v`, C67); by their text only in `Entity.v` | `strchr`, `rtrim`, `trim`, `normalize_whitespace`, `free` (only reached with reference definitions, or never called) |
| `cmark/utf8_c.py` | `iterate`, `encode_char`, `is_space`, `is_punctuation` | `case_fold` (only reached with reference definitions, which md-toc never has) |
| `cmark/references_c.py` | lookup in the empty map, which is all md-toc does | sorting, `labelcmp` |
| `cmark/node_c.py`, `node_h.py` | unlink, free, append, insert before and after, containment (`Pointers.v`) | the texts of nodes (`set_literal`, `set_cstr`), user data |
| `cmark/chunk_h.py` | `chunk_rtrim`, `chunk_trim`, `chunk_dup` | - |

## Findings

What the proofs brought to light about the code at this commit (each is either a `_refuted` theorem
or visible in the hypotheses of a theorem).

1. A heading whose content is only hashes gets an empty text (C02_text_refuted). The limit
   `keep_header_levels` stays in force for the rest of a multi-line string
   (C03_several_lines_refuted, exactly: C55_each_line_alone) and is ignored for redcarpet (C03_redcarpet_refuted).
2. The check for blank link labels misses labels such as TAB SPACE TAB (C04_blank_labels_refuted);
   redcarpet labels are not escaped (C05_redcarpet_refuted), and a final backslash is only protected
   if nothing follows it on the line (C54_backslash_refuted).
3. In a file that ends inside an unclosed fenced block, the last line is looked at for a heading; on
   standard input it is not (C08_unclosed_block_refuted, C23_unclosed_block_refuted; exactly:
   C08_unclosed_block, C60_unclosed_block).
4. Anchors can collide: headings `a`, `a`, `a-1` (C10_distinct_refuted). GitLab anchors can contain
   `--` after numbering (C12_numbered_anchors_refuted).
5. Without the coherence check numbering and nesting are wrong (C16_incoherent_numbering_refuted,
   C18_incoherent_nesting_refuted).
6. Removed emphasis delimiters are not balanced: `*a***b**` gives `a*b` (C26_balanced_refuted).
   `__a._.b__` keeps its underscores although CommonMark pairs them: one lower bound is remembered for
   all underscore runs, whatever their length (C58_underscores_refuted). Looking backwards from a run the
   program passes over U+0080 to U+00BF, so after a letter and a no-break space `_b_` keeps its
   underscores (C58_no_break_space_refuted).
   In a link label the search for an opener may go below the label: after a closing star that
   finds none, `*x [_a b* c_ d*](u)` loses its outer stars (C59_label_refuted).  Images are taken
   for links, so a link around an image is not seen: `[![a](u)](*v*)` loses the stars of its
   address (C59_images_refuted).  After stray backticks the second of two code
   spans with as many backticks goes unseen (C59_backticks_refuted); the pattern for autolinks lacks the scheme (C59_autolink_refuted), so `<:*a*>` keeps its stars
   (C59_scheme_refuted), as `<i x= y="*c*">` does, which is no tag (C59_hollow_refuted); a tag
   with an attribute without value is not seen (C59_attribute_refuted); an instruction that ends with `??>`
   or a section that ends with `]]]>` is not seen to end (C59_sections_refuted); a title in parentheses must
   end with a quote, a title may not have escaped quotes (C59_titles_refuted); an address that ends
   with a backslash raises `IndexError` (C59_backslash_refuted).  `*[a*](b (c')` counts as a link
   (C59_quote_refuted), and so does an address after a vertical tab (C59_vertical_tab_refuted); `[a][b]`, `[a](b "c"` and `[a](b "c\")` raise (C59_brackets_refuted).
   `remove_emphasis` can raise `IndexError`, for example for `[x](u "t"` (C28_all_text_refuted), and
   `build_toc` for a heading such as `# \<b>[x\<b>](u "t"`
   (C47_only_documented_errors_refuted): HTML removal unescapes the brackets.
   Other crashing texts: `[x](a\ )`, `[x](<u\ >)`, `[x](u "a\")`; `&#x` followed by a non-ASCII digit
   raises `ValueError`; `[x][y` raises `KeyError` when links are off; U+0100 raises `IndexError`.
7. HTML removal is not idempotent: `<<b>i>` (C31_idempotent_refuted). Comments of one character, empty
   ones and those with a `>` inside are not removed (C31_comments_refuted). With github a closing tag
   with two blanks, `</b  >`, is kept, and so is a custom element such as `<style-guide>` (both in
   C31_gfm_tags_removed). Anchors are lower-cased before
   the HTML removal, so declarations and CDATA never match there. The GFM attribute overrides have no
   effect (they are defined after use), and the inline scanner requires `=` in attributes.
8. Writing a text that is not recognised as a list twice duplicates the block
   (C35_any_text_refuted). With `newline_string` CR every write loses a blank line after the block
   (C34_cr_refuted, C34_cr_eats_a_blank_line, C35_cr_refuted); with CRLF a table of several rows never compares equal to
   itself, so `--diff` always reports a difference (C35_crlf_equal_refuted).
9. A crash between the two file operations of a write can leave the file without markers, so that
   running again does not repair it (C39_rerun_after_crash_refuted).
10. Tables of redcarpet whose first heading is deep, and tables without links that start with a tab,
    are not recognised as tables (C42_redcarpet_refuted, C42_no_links_refuted), so the next run
    inserts a second table.
11. If the skipped lines reach past the marker, the second run sees different lines
    (C43_skip_past_marker_refuted).
12. Decoding errors while skipping lines are not caught (C21_undecodable_while_skipping); on the
    command line `--diff` with `-` opens a file called `-`.
13. If there are two markers or more but no recognised table between the first two, a new block is put
    before the first marker.  The optional arguments of `-o` and `-u` swallow a file name that
    follows them.
14. `md_toc github -u README.md` is refused, because the file name is taken for the value of `-u`
    (C65_swallowed); the same holds for `-o` and `-l`. `md_toc github README.md -p` is refused too
    (C65_misplaced). `-c` and `-l` are accepted on both sides of the parser's name, with different
    meanings.
15. The help text of `--newline-string` says that in place all line ends of the file are replaced with
    this value. They are replaced with LF; only the table and its markers get the value
    (C66_newline_option_refuted). So a file with CR LF line ends loses them in the first run, except for
    the table if the option says CR LF. (This rests on what is assumed above about `newline_character`.)
16. A heading with a code span of 2^30 characters or more ends the program with `sys.exit(1)`, in the
    middle of a run (C67_huge_code_span_exits). `_cmark_encode_unknown` writes one character and counts
    three, and `_cmark_cmark_strbuf_drop` drops nothing; neither can be noticed (C67_same_result).
17. Two updates of the same file at the same time can both end without an error and lose a line of the
    users: both find the marker in some line and both delete that line (C70_two_updates_refuted).
18. A byte order mark is not skipped: it hides a heading in the first line (C71_bom_refuted). A table or
    newline string with a surrogate (Python makes them of arguments that are not UTF-8; the command line does
    not let them through to a file, C71_stays_utf8) makes a call of the API raise after the
    old block was deleted (C71_surrogate_refuted).
19. An update reads the file and then rewrites it from what it read, once to delete and once to insert. A line that an editor saves in
    between is lost, and the exit status does not tell (C72_edit_kept_refuted).
20. `_read_line_interval` counts CR and then CR LF as three line ends (C44_mixed_ends_refuted) and keeps only
    one of several LF CR pairs in a row (C44_pairs_refuted).
