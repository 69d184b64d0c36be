{"id": "C01", "title": "ATX heading recognition is exact", "statement": "For the CommonMark-family parsers, get_atx_heading reports a heading of level L for a single line exactly when the line is at most three spaces, then exactly L hash characters with 1<=L<=6, then either the end of the line or a space (also a tab, except for github/commonmarker). Every other line yields a 'no heading' element and never raises.", "quantifier": "every line without newline characters, every CommonMark-family parser, every keep_header_levels >= 1", "why_tests_cant": "the set of lines is infinite; tests sample a few dozen spec examples", "anchors": ["md_toc/api.py:get_atx_heading"]}
{"id": "C02", "title": "Heading text is the CommonMark heading content", "statement": "With links disabled the text reported for a heading is the content after the opening sequence, without leading and trailing blanks and without an optional closing sequence of hashes that is preceded by a blank. (Found false for contents made only of hashes, such as the '#' of '# # #': there the reported text is empty. Proved everywhere else; with links enabled the reported text is the escaped form of the same content, see C05.)", "quantifier": "every heading line and every CommonMark-family parser", "why_tests_cant": "the trimming loop walks the reversed line with several counters; tests pin a few shapes only", "anchors": ["md_toc/api.py:get_atx_heading"]}
{"id": "C03", "title": "keep_header_levels hides exactly the deeper headings", "statement": "A heading is visible in the table of contents if and only if its level does not exceed keep_header_levels (CommonMark family). For redcarpet the option has no effect, so the same claim is refuted there.", "quantifier": "every line, every level limit >= 1, every parser", "why_tests_cant": "unbounded inputs and limits", "anchors": ["md_toc/api.py:get_atx_heading", "md_toc/api.py:build_toc"]}
{"id": "C04", "title": "Empty and overlong link labels are rejected, and nothing else is", "statement": "With links enabled get_atx_heading raises GithubEmptyLinkLabel exactly for headings whose text is removed by the code's one-pass strips of space, tab, LF, VT, FF, CR, raises GithubOverflowCharsLinkLabel exactly when the text (with the blank that protects a final backslash) is longer than 999 characters, and raises nothing otherwise; with links disabled no heading raises. The documented claim that every whitespace-only label is rejected is refuted (a label 'tab space tab' passes).", "quantifier": "every heading line, every CommonMark-family parser", "why_tests_cant": "boundary at 999 and arbitrary whitespace mixes", "anchors": ["md_toc/api.py:get_atx_heading"]}
{"id": "C05", "title": "Square brackets in link labels are escaped exactly once", "statement": "With links enabled every '[' and ']' in a reported heading text is preceded by an odd number of backslashes, the text never ends with a backslash, and removing the inserted backslashes gives back the heading text; brackets that were already escaped are left alone.", "quantifier": "every heading text", "why_tests_cant": "parity of arbitrarily long backslash runs", "anchors": ["md_toc/api.py:get_atx_heading"]}
{"id": "C06", "title": "Opening code fences are recognised exactly", "statement": "is_opening_code_fence returns a fence exactly for lines made of at most three spaces, a maximal run of at least three backticks or tildes, and a rest that contains no backtick when the run is made of backticks; the returned value is that maximal run. redcarpet never reports a fence.", "quantifier": "every line (with or without final newline), every parser", "why_tests_cant": "infinite set of lines and run lengths", "anchors": ["md_toc/api.py:is_opening_code_fence", "md_toc/api.py:is_valid_code_fence_indent"]}
{"id": "C07", "title": "Closing code fences are recognised exactly", "statement": "For a fence returned by is_opening_code_fence, is_closing_code_fence (not at document end) is true exactly for lines made of at most three spaces, a run of the same character at least as long as the fence, and then only spaces (or tabs, except github/commonmarker) and newlines.", "quantifier": "every line, every fence length >= 3, every CommonMark-family parser", "why_tests_cant": "infinite set of lines and run lengths", "anchors": ["md_toc/api.py:is_closing_code_fence"]}
{"id": "C08", "title": "Headings inside fenced code blocks are never listed", "statement": "The table of contents depends only on the lines outside fenced code blocks: lines between an opening fence and its closing fence contribute nothing. This holds for every document read from standard input and for every file whose last line is not inside an unclosed fence; for a file that ends inside an unclosed fence the last line is (wrongly) read as if it stood outside, unless it is indented by more than three spaces, and nothing else of the block is: proved for all such files, and exhibited as a refutation of the plain claim.", "quantifier": "every document, every option set, every parser", "why_tests_cant": "needs an invariant over the whole line history", "anchors": ["md_toc/api.py:build_toc", "md_toc/api.py:is_closing_code_fence"]}
{"id": "C09", "title": "Repeated anchors are numbered in order", "statement": "Within one document the k-th heading (k = 0, 1, ...) having a given base slug gets the anchor 'slug' for k = 0 and 'slug-k' for k > 0, whatever other headings occur in between.", "quantifier": "every sequence of heading texts, CommonMark-family parsers, assuming SHA-1 does not collide on the slugs of the document", "why_tests_cant": "property of unbounded call histories sharing a mutable counter", "anchors": ["md_toc/api.py:build_anchor_link", "md_toc/api.py:get_md_header"]}
{"id": "C10", "title": "Anchors are pairwise distinct unless a slug mimics a numbered one", "statement": "If no base slug of the document equals another base slug followed by '-' and a positive decimal number, all anchors of the document are pairwise distinct. Without that proviso uniqueness fails (headings a, a, a-1), as for GitHub's own algorithm; redcarpet never disambiguates.", "quantifier": "every sequence of heading texts", "why_tests_cant": "unbounded histories", "anchors": ["md_toc/api.py:build_anchor_link"]}
{"id": "C11", "title": "Anchor alphabet", "statement": "An anchor built for a CommonMark-family parser contains only word characters and hyphens: no space, no punctuation other than '-' and '_', no bracket or parenthesis that could end the link early.", "quantifier": "every heading text without newlines", "why_tests_cant": "all Unicode strings", "anchors": ["md_toc/api.py:build_anchor_link", "md_toc/api.py:anchor_link_punctuation_filter"]}
{"id": "C12", "title": "GitLab anchors have no doubled hyphens", "statement": "For gitlab the first anchor of every slug never contains two consecutive hyphens. For a repeated heading the numeric suffix can create one (slug ending in '-'), which is refuted by witness.", "quantifier": "every heading text", "why_tests_cant": "all strings", "anchors": ["md_toc/api.py:build_anchor_link"]}
{"id": "C13", "title": "Redcarpet anchors are well formed", "statement": "For redcarpet the anchor of a non-empty text is either 'part-' followed by lowercase hexadecimal digits (when nothing of the text survives) or a non-empty ASCII string without any of the stripped characters other than single hyphens strictly between surviving characters; it equals the fold of the surviving characters with one '-' per gap.", "quantifier": "every heading text", "why_tests_cant": "all strings; character-by-character state machine", "anchors": ["md_toc/api.py:build_anchor_link", "md_toc/generic.py:_isascii"]}
{"id": "C14", "title": "Anchors do not depend on keep_header_levels", "statement": "Changing keep_header_levels never changes the anchor (or text) of a heading that stays visible: hidden headings still take part in duplicate numbering.", "quantifier": "every document, every pair of limits", "why_tests_cant": "relational property over whole documents", "anchors": ["md_toc/api.py:get_md_header", "md_toc/api.py:build_toc"]}
{"id": "C15", "title": "One line per visible heading, in document order", "statement": "build_toc returns exactly one list line per visible heading outside fenced code, in document order, each made of indentation spaces, the list marker (preceded by the index for ordered lists), a space and the label: '[text](#anchor)' or, with no_links, the bare text, followed by the newline string.", "quantifier": "every document, every option set", "why_tests_cant": "whole-loop functional correctness", "anchors": ["md_toc/api.py:build_toc", "md_toc/api.py:build_toc_line", "md_toc/api.py:build_toc_line_without_indentation"]}
{"id": "C16", "title": "Ordered lists are numbered 1, 2, 3, ... within each sublist", "statement": "In a coherent ordered table of contents the number of an entry is one plus the number of earlier entries of the same level that come after the last entry of a smaller level. Without the coherence check the claim is refuted (levels 1 2 1 3 2).", "quantifier": "every sequence of heading levels accepted by the coherence check", "why_tests_cant": "counter state over unbounded histories", "anchors": ["md_toc/api.py:increase_index_ordered_list", "md_toc/api.py:build_toc"]}
{"id": "C17", "title": "Ordered list index overflow is reported", "statement": "increase_index_ordered_list raises GithubOverflowOrderedListMarker exactly when the new index exceeds 999999999 for github, cmark, gitlab and commonmarker and never for goldmark or redcarpet; ValueError exactly for invalid levels.", "quantifier": "every counter state and every pair of levels", "why_tests_cant": "nine-digit boundary cannot be reached by feeding headings in a test", "anchors": ["md_toc/api.py:increase_index_ordered_list"]}
{"id": "C18", "title": "Indentation nests entries correctly", "statement": "In a coherent table of contents for a CommonMark-family parser an entry of level L is indented by the sum, over the levels below it that are open, of the width of the parent marker (digits of its index plus one, or one for bullets) plus one; so every entry starts exactly at the content column of its parent entry. For bullets this is 2*(L - first level). For redcarpet it is 4*(L-1).", "quantifier": "every sequence of heading levels accepted by the coherence check", "why_tests_cant": "mutable log over unbounded histories", "anchors": ["md_toc/api.py:compute_toc_line_indentation_spaces", "md_toc/api.py:init_indentation_log", "md_toc/api.py:build_toc"]}
{"id": "C19", "title": "Incoherent tables of contents are rejected exactly when required", "statement": "With indentation and the coherence check enabled build_toc raises TocDoesNotRenderAsCoherentList exactly when some visible heading has a level smaller than the first one or more than one greater than the previous one (and no earlier line raised something else); with no_list_coherence or no_indentation it never does. The first problem of a document decides: what follows an incoherent heading does not matter, and an exception of a line is raised if the headings before it are coherent.", "quantifier": "every document", "why_tests_cant": "whole history", "anchors": ["md_toc/api.py:build_toc"]}
{"id": "C20", "title": "skip_lines drops exactly the first lines", "statement": "build_toc with skip_lines = n >= 0 returns what build_toc without skipping returns for the document without its first n lines (so skipping more lines than present gives an empty table); a negative value raises ValueError.", "quantifier": "every document, every integer n", "why_tests_cant": "unbounded", "anchors": ["md_toc/api.py:build_toc"]}
{"id": "C21", "title": "Undecodable input yields the warning comment, never a partial table", "statement": "If decoding fails at some line read by the main loop, build_toc returns exactly the '<!--stop reading FILE: probably a binary file-->' comment, unless one of the lines before it raises, and then that error is raised. If decoding fails while the first lines are being skipped, UnicodeDecodeError escapes.", "quantifier": "every document prefix and failure point", "why_tests_cant": "failure can occur at any read", "anchors": ["md_toc/api.py:build_toc"]}
{"id": "C22", "title": "Multiple files are processed independently", "statement": "build_multiple_tocs returns, for each file, the table build_toc returns for that file alone; duplicate counters, indices and indentation do not leak between files; an empty list means standard input.", "quantifier": "every list of files and contents", "why_tests_cant": "state leakage between calls is a history property", "anchors": ["md_toc/api.py:build_multiple_tocs"]}
{"id": "C23", "title": "Standard input and files agree", "statement": "A document piped through '-' gives the same table as the same document in a file, except when the document ends inside an unclosed fence (refutation exhibited).", "quantifier": "every document", "why_tests_cant": "all inputs", "anchors": ["md_toc/api.py:build_toc"]}
{"id": "C24", "title": "Presentation options do not change the entries", "statement": "no_indentation only removes the leading spaces of each line; no_list_coherence does not change the output of documents accepted with the check.", "quantifier": "every document", "why_tests_cant": "relational property between two runs", "anchors": ["md_toc/api.py:build_toc"]}
{"id": "C25", "title": "List markers are normalised and validated", "statement": "Ordered tables with a marker that is not a valid closing marker use '.', constant_ordered_list implies ordered and numbers every entry 1, and an unordered table with an invalid bullet raises ValueError as soon as there is a visible heading.", "quantifier": "every marker string, every option set", "why_tests_cant": "all strings", "anchors": ["md_toc/api.py:build_toc", "md_toc/api.py:build_toc_line_without_indentation"]}
{"id": "C26", "title": "Emphasis removal only deletes delimiter characters", "statement": "When remove_emphasis returns, its result is the input with all NUL characters and some '*' and '_' characters deleted; every other character stays, in order. (That the deleted delimiters are balanced is refuted: '*a***b**' loses five of six stars.)", "quantifier": "every string", "why_tests_cant": "delimiter stack algorithm over all strings", "anchors": ["md_toc/api.py:remove_emphasis", "md_toc/cmark/inlines_c.py:_cmark_process_emphasis", "md_toc/cmark/inlines_c.py:_cmark_S_insert_emph"]}
{"id": "C27", "title": "Emphasis removal terminates", "statement": "remove_emphasis terminates on every string: it returns or raises IndexError, KeyError or ValueError, and nothing else.", "quantifier": "every string", "why_tests_cant": "termination for every input", "anchors": ["md_toc/cmark/inlines_c.py:_cmark_process_emphasis", "md_toc/cmark/inlines_c.py:_cmark_cmark_parse_inlines"]}
{"id": "C28", "title": "When emphasis removal does not raise", "statement": "For text without NUL, CR, U+0100 and non-ASCII decimal digits remove_emphasis never raises, provided that an unescaped '][' is followed by another bracket, and that what follows an unescaped '](' has no backslash, not both '&' and ';', and does not end (white space aside) in a quote or vertical tab; this includes all texts in which every '](' and '][' is escaped, whatever else is in them. For other texts it can raise: '[a][b' raises KeyError, '[a](b \"c\"' and 'aU+0100' and a code span that ends with CR raise IndexError, so do an address or a title that ends in a backslash, '&#x' followed by an Arabic digit and ';' raises ValueError (refutations).", "quantifier": "every string", "why_tests_cant": "all strings", "anchors": ["md_toc/api.py:remove_emphasis", "md_toc/cmark/inlines_c.py:_cmark_handle_close_bracket", "md_toc/cmark/inlines_c.py:_cmark_link_label", "md_toc/cmark/inlines_c.py:_cmark_subject_find_special_char"]}
{"id": "C29", "title": "Delimiters without meaning survive", "statement": "Text in which no other inline construct can begin and in which every run of '*' or '_' is either a run of underscores between word characters or a run between white space (or the ends of the text) is returned unchanged by remove_emphasis. In particular text made of ASCII letters, digits and underscores that starts and ends with a letter or digit is unchanged, so snake_case headings keep their underscores in anchors.", "quantifier": "every such string", "why_tests_cant": "all lengths and placements", "anchors": ["md_toc/api.py:remove_emphasis", "md_toc/cmark/inlines_c.py:_cmark_scan_delims"]}
{"id": "C30", "title": "Nested emphasis is removed", "statement": "For text made of properly nested '*' and '_' emphasis of any strength and depth around texts that begin and end with word characters, remove_emphasis returns the same text without the delimiters. In particular a word between k delimiters on either side becomes the word.", "quantifier": "every such text, every nesting depth and delimiter count", "why_tests_cant": "all nestings and lengths; the delimiter stack grows with the input", "anchors": ["md_toc/api.py:remove_emphasis"]}
{"id": "C31", "title": "HTML removal deletes tags and nothing else", "statement": "Everything that remove_html_tags removes begins with '<' and ends with '>', so text without '<' or without '>' is unchanged; moreover every piece removed is raw HTML in CommonMark's sense (an opening or closing tag, a comment, a processing instruction, a declaration or a CDATA section), with github and commonmarker never a tag whose name GFM disallows, so a text in which none occurs, for one a text where no '<' comes before a letter, '/', '!' or '?', is unchanged; redcarpet is the identity. From a text with opening tags (attributes without value, unquoted, in single or in double quotes, blanks around the equals sign), closing tags, comments, processing instructions, declarations and CDATA sections cmark, gitlab and goldmark remove exactly those; github and commonmarker remove exactly those whose name is not on the GFM list of disallowed names (also when the name continues with a hyphen), and keep closing tags with two blanks before the '>'. Comments of one character and comments with a '>' inside are not removed (refutation). Removal is not idempotent (refutation: '<<b>i>').", "quantifier": "every string, every parser, every sequence of texts, tags, comments, instructions, declarations and CDATA sections", "why_tests_cant": "regular-expression engine over all strings", "anchors": ["md_toc/api.py:remove_html_tags", "md_toc/constants.py:parser"]}
{"id": "C32", "title": "filter_indices_from_line removes exactly the given indices", "statement": "The result keeps, in order, exactly the characters whose index is in none of the ranges.", "quantifier": "every line and every list of ranges", "why_tests_cant": "all inputs", "anchors": ["md_toc/api.py:filter_indices_from_line"]}
{"id": "C33", "title": "Newline splitting", "statement": "replace_and_split_newlines yields pieces without CR or LF; joining them with LF gives the input with CRLF and CR turned into LF and without leading and trailing newlines; at least one piece is returned.", "quantifier": "every string", "why_tests_cant": "all strings", "anchors": ["md_toc/api.py:replace_and_split_newlines"]}
{"id": "C34", "title": "Writing preserves everything outside the replaced region", "statement": "For the newline strings LF and CRLF, write_string_on_file_between_markers keeps every line before the insertion point and every line after the replaced markers character for character (the text as decoded, newlines read as LF), in order; only the block 'marker, blank, text, blank, marker' changes. With a lone CR this is refuted: a blank line after the block is lost.", "quantifier": "every file content, marker, text, both newline strings", "why_tests_cant": "all file contents and marker placements", "anchors": ["md_toc/api.py:write_string_on_file_between_markers", "md_toc/generic.py:_get_existing_toc", "md_toc/generic.py:_remove_line_intervals"]}
{"id": "C35", "title": "Writing is idempotent", "statement": "For a file with at least one marker line, newline string LF or CRLF, and a text that contains no marker line and is blank or begins with a list item that md-toc recognises, writing the text a second time leaves the file unchanged, and with LF it reports equality. For other texts the claim is refuted (the block is inserted again); with CRLF a table of several rows is never reported as equal; with a lone CR every write loses one more blank line.", "quantifier": "every file content with at least one marker, every such text", "why_tests_cant": "two-run history over all contents", "anchors": ["md_toc/api.py:write_string_on_file_between_markers", "md_toc/generic.py:_get_existing_toc", "md_toc/generic.py:_detect_toc_list"]}
{"id": "C36", "title": "The diff verdict agrees with the write verdict and with the file", "statement": "tocs_equal and write_string_on_file_between_markers return the same verdict on the same file; the verdict is true exactly when the stripped text equals the stripped text between the recognised markers (or is the marker line itself when there is a single marker, or is empty when there is none). On undecodable files both raise UnicodeDecodeError.", "quantifier": "every file content, marker, text", "why_tests_cant": "all contents", "anchors": ["md_toc/api.py:tocs_equal", "md_toc/api.py:write_string_on_file_between_markers", "md_toc/generic.py:_get_existing_toc"]}
{"id": "C37", "title": "Files without markers are left alone, standard input is refused", "statement": "With no marker line the file content is unchanged; for '-' StdinIsNotAFileToBeWritten is raised and no file changes.", "quantifier": "every file content, marker and text", "why_tests_cant": "all contents", "anchors": ["md_toc/api.py:write_string_on_file_between_markers"]}
{"id": "C38", "title": "Batch writes", "statement": "write_strings_on_files_between_markers raises ValueError without touching any file when the lists differ in length; otherwise it processes files in order, files not listed are untouched, and the verdict is the conjunction of the single verdicts. A file named more than once is written once per occurrence, each time as the earlier writes left it.", "quantifier": "every list of files and texts, every file system", "why_tests_cant": "all histories", "anchors": ["md_toc/api.py:write_strings_on_files_between_markers"]}
{"id": "C39", "title": "Crash points never lose user lines", "statement": "At every point between two file operations of a write, the file contains every line outside the replaced region, in order; only the table block itself can be missing. (That the write can then simply be repeated is refuted: the markers can be missing too.)", "quantifier": "every file content, every crash point between file operations", "why_tests_cant": "crash points", "anchors": ["md_toc/api.py:write_string_on_file_between_markers", "md_toc/generic.py:_remove_line_intervals"]}
{"id": "C40", "title": "CLI: arguments, exit status and no write on failed build", "statement": "Every argument selects the corresponding option of the API (the ordered marker wins over the unordered one, the newline spelled with backslashes is translated); the command prints the tables, or writes each table into its own file when in place; it exits 128 exactly when a diff was requested and some table differs, 1 on any exception, 0 otherwise; if building any table fails no file has been modified. With a diff and without writing in place the tables are printed too, up to and including the one whose comparison fails.", "quantifier": "every file system, every option set", "why_tests_cant": "all histories and failure points", "anchors": ["md_toc/cli.py:CliToApi.write_toc", "md_toc/__main__.py:main"]}
{"id": "C41", "title": "Non-heading lines do not matter", "statement": "Inserting or deleting lines that are neither headings nor fence lines, outside fenced blocks, never changes the table of contents (for files: provided that all fenced blocks are closed).", "quantifier": "every document and every such edit", "why_tests_cant": "relational property", "anchors": ["md_toc/api.py:build_toc"]}
{"id": "C42", "title": "The generated table is recognised as a table and is inert", "statement": "With LF newlines no line of a generated table is a heading or a code fence, so inserting the table in the document does not change the next generated table. With links enabled and a CommonMark-family parser every non-empty generated table starts with a line that md-toc recognises as a list item; for redcarpet with indentation and for tables without links this is refuted, and proved under an explicit condition on the first row.", "quantifier": "every document and option set", "why_tests_cant": "composition of build, write and rebuild", "anchors": ["md_toc/api.py:build_toc", "md_toc/generic.py:_detect_toc_list"]}
{"id": "C43", "title": "Running the tool twice in place is a no-op", "statement": "For a document with a marker line, all fenced blocks closed, LF newlines, a marker that is itself neither heading, fence nor list item, a recognisable table (C42), newline string LF or CRLF and skipped lines that end before the marker: building and writing the table, then building and writing again, leaves the file unchanged the second time, and with LF it reports equality. The same holds for two runs of the command on several files. When the skipped lines reach past the marker this is refuted.", "quantifier": "every such document", "why_tests_cant": "end-to-end two-run history", "anchors": ["md_toc/api.py:build_toc", "md_toc/api.py:write_string_on_file_between_markers", "md_toc/cli.py:CliToApi.write_toc"]}
{"id": "C44", "title": "Line interval helpers", "statement": "_extract_lines returns exactly lines start..end; _read_line_interval returns the same interval without newlines, for texts whose lines all end with LF, all with CR or all with CR LF (refuted for mixed ends: CR and CR LF count as three), where LF CR between two characters is no line end and is kept (of two such pairs in a row one is lost); _replace_substring replaces exactly the inclusive index interval; _strncmp compares length-limited prefixes, shorter first; _string_empty accepts exactly strings of blanks and newlines with no LF CR pair (at a token boundary); _remove_line_intervals takes out exactly the lines of the intervals, one after the other, raises ValueError for what is no interval of positive numbers and the error of fpyutils for one past the end.", "quantifier": "all strings and indices", "why_tests_cant": "all inputs", "anchors": ["md_toc/generic.py:_extract_lines", "md_toc/generic.py:_read_line_interval", "md_toc/generic.py:_replace_substring", "md_toc/generic.py:_strncmp", "md_toc/generic.py:_string_empty", "md_toc/generic.py:_remove_line_intervals"]}
{"id": "C45", "title": "Escaped delimiters are never removed", "statement": "A '*' or '_' that follows an odd number of backslashes is never deleted by remove_emphasis (texts without NUL): it stays in the result, and everything before it and after it only loses delimiters.", "quantifier": "every text without NUL, every position in it", "why_tests_cant": "all contexts around the escape", "anchors": ["md_toc/api.py:remove_emphasis", "md_toc/cmark/inlines_c.py:_cmark_handle_backslash"]}
{"id": "C46", "title": "Code spans are opaque", "statement": "Nothing is removed from a code span: for a span delimited by n backticks (1 <= n <= 1000) after text without other constructs, remove_emphasis keeps the span with its backticks and content, whatever it contains and whatever follows.", "quantifier": "every content, every backtick count up to 1000, every text before and after", "why_tests_cant": "all contents", "anchors": ["md_toc/api.py:remove_emphasis", "md_toc/cmark/inlines_c.py:_cmark_handle_backticks", "md_toc/cmark/inlines_c.py:_cmark_scan_to_closing_backticks"]}
{"id": "C47", "title": "Which exceptions building a table can raise", "statement": "For a known parser, build_toc on any text file always terminates; if it raises, the exception is one of the documented ones (GithubEmptyLinkLabel, GithubOverflowCharsLinkLabel, GithubOverflowOrderedListMarker, TocDoesNotRenderAsCoherentList), UnicodeDecodeError, ValueError, IndexError or KeyError - never TypeError, UnboundLocalError, StringCannotContainNewlines or an endless loop. With a positive header limit, a non-negative number of skipped lines, a usable list marker and a decodable file, only the documented exceptions remain, provided anchors are those of Redcarpet or no line contains NUL, a non-ASCII decimal digit or a backslash right before '<' (and, when links are off, a line with a closing bracket has no '<', backslash, quote, vertical tab or '][' and not both '&' and ';'). Without the proviso about '\\\\<' it is false: a heading can make build_toc raise IndexError. Each documented exception needs its options: the coherence exception needs both indentation and the coherence check, the overflow of the list marker a numbered (not constant) list of github, cmark, gitlab or commonmarker, and the link label exceptions need links and a parser other than redcarpet.", "quantifier": "every document, option record with a known parser, file name", "why_tests_cant": "it is a statement about the absence of crashes over all documents; the crashing headings are unusual and were found by trying to prove it", "anchors": ["md_toc/api.py:build_toc", "md_toc/api.py:get_md_header", "md_toc/api.py:build_anchor_link", "md_toc/cmark/inlines_c.py", "md_toc/exceptions.py"]}
{"id": "C48", "title": "The newline string only ends the rows", "statement": "Changing newline_string changes nothing about a table except how its rows end: build_toc raises the same exception, reports the same binary file, or gives the same rows, each followed by the newline string; and no row contains a line end of its own.", "quantifier": "every document, option record, file name and every two newline strings", "why_tests_cant": "all documents and newline strings", "anchors": ["md_toc/api.py:build_toc", "md_toc/cli.py:CliToApi.write_toc"]}
{"id": "C49", "title": "What the command line lets through, and how a run can end", "statement": "The command accepts exactly: a known parser, -u with one of - + *, or -o with a closing marker of that parser, 1 to 6 header levels, not both --no-list-coherence and --no-indentation, and a newline string \\n, \\r or \\r\\n; these always select options that build_toc can use. Whatever the files, an accepted run ends with success or with a documented exception, FileNotFoundError, UnicodeDecodeError, StdinIsNotAFileToBeWritten, ValueError, IndexError or KeyError. If moreover no negative number of lines is skipped, every input exists, can be decoded and has safe anchors, and '-' is named at most once and neither written nor compared, the run is all or nothing: it succeeds, or it raises one of the documented exceptions, prints nothing and leaves every file as it was.", "quantifier": "every combination of accepted arguments, every list of file names, every content of the files and of standard input", "why_tests_cant": "all argument combinations and file contents", "anchors": ["md_toc/cli.py:CliInterface", "md_toc/cli.py:CliToApi.write_toc", "md_toc/__main__.py:main"]}
{"id": "C50", "title": "Lowering the number of levels only deletes rows", "statement": "For the CommonMark family, building the table of the same document with a smaller keep_header_levels gives the rows of the larger table whose level is within the new limit, character for character: neither numbers nor indentation nor anchors of the remaining rows change. It needs the larger table to be coherent, which the coherence check guarantees; without the check a row can move.", "quantifier": "every document, option record and pair of limits", "why_tests_cant": "all documents and level sequences; deleting rows in the middle could renumber or reindent the rest", "anchors": ["md_toc/api.py:build_toc", "md_toc/api.py:increase_index_ordered_list", "md_toc/api.py:compute_toc_line_indentation_spaces"]}
{"id": "C51", "title": "Appending lines only appends rows", "statement": "If lines are added at the end of a document, the new table starts with the old table, character for character; if the old table could not be built, the same exception is still raised. For files the old document must not end inside an unclosed code block.", "quantifier": "every document, every list of added lines, every option record, file or standard input", "why_tests_cant": "all documents and continuations", "anchors": ["md_toc/api.py:build_toc"]}
{"id": "C52", "title": "Checking and writing agree; a check after a write succeeds", "statement": "On the same files, the command with --diff reports the same status (and the same exception) whether it prints or writes in place. After a run in place that succeeds with LF line ends, the same command with --diff and without --in-place exits with 0 and changes nothing.", "quantifier": "every list of distinct file names, every content, every combination of the other arguments", "why_tests_cant": "two-run histories over all file contents", "anchors": ["md_toc/cli.py:CliToApi.write_toc", "md_toc/api.py:tocs_equal", "md_toc/api.py:write_strings_on_files_between_markers"]}
{"id": "C53", "title": "A batch that is killed damages at most one file", "statement": "Wherever write_strings_on_files_between_markers is killed between two rewrites, the files of some first names are written completely, the next file is as before or has lost exactly its old block (all other lines are there), and every other file is as before.", "quantifier": "every crash point, every list of distinct names, every content", "why_tests_cant": "all crash points", "anchors": ["md_toc/api.py:write_strings_on_files_between_markers", "md_toc/api.py:write_string_on_file_between_markers"]}
{"id": "C54", "title": "Redcarpet headings are exactly the documented lines", "statement": "With redcarpet a line is a heading of level n exactly if it begins with one to six hashes followed by at least one space and something is left when the hashes and then the spaces at its end are dropped; that rest is the text, whatever the level limit. With links a space is added if the line ends with a backslash. Refuted: the label never ends with a backslash.", "quantifier": "every line, every limit of at least 1, with and without links", "why_tests_cant": "all lines", "anchors": ["md_toc/api.py:get_atx_heading"]}
{"id": "C55", "title": "A string of several lines is treated line by line", "statement": "get_atx_heading on a string of several lines gives, for each line, the heading the line has alone; only visibility depends on earlier lines: a heading is visible exactly if it is visible alone and no earlier line begins with more hashes than the limit allows (for redcarpet: no earlier line is an empty heading). An exception is raised exactly if some line raises it alone, and the first such line decides.", "quantifier": "every non-empty string, every parser, limit and link mode", "why_tests_cant": "strings of any number of lines", "anchors": ["md_toc/api.py:get_atx_heading", "md_toc/api.py:replace_and_split_newlines"]}
{"id": "C56", "title": "The anchor as a function of the text", "statement": "The first anchor of a text is what is left of the lower-cased text, without HTML tags and emphasis, when everything but word characters, hyphens and spaces is dropped and spaces become hyphens; GitLab squeezes runs of hyphens. For text without tags, stars and underscores, code spans and entities included, or with underscores that do not count, it is exactly that of the lower-cased text. For text with tags and emphasis as in C31 and C59 the tags and delimiters dropped are those of CommonMark, provided no underscore run is used both to close and to open.", "quantifier": "every heading text, every CommonMark-like parser", "why_tests_cant": "all texts, all Unicode tables that agree with Python's on ASCII", "anchors": ["md_toc/api.py:build_anchor_link", "md_toc/api.py:anchor_link_punctuation_filter", "md_toc/api.py:remove_emphasis", "md_toc/api.py:remove_html_tags"]}
{"id": "C57", "title": "Ordinary documents get the expected table", "statement": "For a document of ATX titles in plain text and lines of prose, build_toc with the default list options returns exactly one row per title within the limit: two spaces per level below the first row, '- [', the title, '](#', the slug of the title with -n for the n-th repetition, ')'. If a level is skipped or a row would be above the first one it raises TocDoesNotRenderAsCoherentList.", "quantifier": "every such document, file or standard input, every limit, every CommonMark-like parser", "why_tests_cant": "documents of any length with any titles", "anchors": ["md_toc/api.py:build_toc"]}
{"id": "C58", "title": "Emphasis is paired as CommonMark prescribes", "statement": "For text made of ordinary words, backslash escapes, code spans and runs of stars and underscores, remove_emphasis removes exactly the delimiters that the CommonMark rules pair: from left to right each closing run takes the nearest earlier opening run of its character that the multiple-of-three rule allows, two delimiters at a time if both have two, and runs in between can no longer be used. Provided the multiple-of-three rule keeps no underscore run from opening for another (always so if no underscore run can both open and close, or all have one character), and no run is used both ways; for runs used both ways the delimiters left over are given exactly. Before a run U+0080 to U+00BF are passed over; the claim covers every text in which this does not change what the run may do, and it can: after a letter and a no-break space an underscore does not open emphasis, although CommonMark lets it (refutation).", "quantifier": "every such text of any length, any number and length of runs, every parser", "why_tests_cant": "the outcome depends on the whole sequence of runs; the program replaces the search of the standard by remembered lower bounds", "anchors": ["md_toc/api.py:remove_emphasis", "md_toc/cmark/inlines_c.py:_cmark_process_emphasis", "md_toc/cmark/inlines_c.py:_cmark_remove_emph", "md_toc/cmark/inlines_c.py:_cmark_scan_delims"]}
{"id": "C59", "title": "Emphasis around links, HTML, autolinks, entities and code", "statement": "For text with brackets, inline links and images (addresses plain or in angle brackets, with or without a title), raw HTML (tags, comments, instructions, declarations, CDATA sections), mail addresses in angle brackets, code spans, stray backticks, backslashes, ampersands and angle brackets, remove_emphasis follows the procedure of CommonMark: the runs of a link label are paired among themselves and do not meet those outside; delimiters in the address and title of a link, in raw HTML, mail addresses and code stay; brackets around a link are no link, so delimiters after them are emphasis; a closing bracket after which no target of a link comes (the address has a blank, its parentheses are not balanced, nothing closes it), an angle bracket with which neither raw HTML nor an autolink of CommonMark begins, whatever comes after it (raw HTML that follows is found all the same), a stray ampersand, backslash or run of backticks changes nothing. Provided a label leaves no closing run without its opener while another opener waits (or no run stands before the label), no image or link stands in brackets of an image, titles are in quotes and have no escaped ones, code spans after stray backticks have different numbers of backticks and none of a later span's number inside, every attribute has a value, no instruction ends with two question marks and no CDATA section with three brackets, no address with a scheme stands in angle brackets, no lone angle bracket begins an address that starts with a colon or a tag with an equals sign and no value, and after brackets that are no link there is neither a title closed in a way CommonMark does not know, nor a title at the end of the text, nor another label in brackets, nor a vertical tab; without each of these the claim is refuted. Left out, and not refuted: links whose address or title has both an ampersand and a semicolon, instructions with both an at sign and a closing angle bracket inside. Runs of delimiters are as in C58.", "quantifier": "every such text of any length, any nesting of brackets, any number of links, tags and runs, every parser", "why_tests_cant": "brackets, links and runs interact through two stacks whose content depends on the whole text before", "anchors": ["md_toc/api.py:remove_emphasis", "md_toc/cmark/inlines_c.py:_cmark_handle_close_bracket", "md_toc/cmark/inlines_c.py:_cmark_manual_scan_link_url", "md_toc/cmark/inlines_c.py:_cmark_process_emphasis", "md_toc/cmark/inlines_c.py:_cmark_push_bracket", "md_toc/cmark/inlines_c.py:_cmark_handle_pointy_brace", "md_toc/cmark/inlines_c.py:_cmark_handle_entity", "md_toc/cmark/inlines_c.py:_cmark_handle_backticks", "md_toc/cmark/inlines_c.py:_cmark_handle_backslash", "md_toc/cmark/scanners_c.py:_cmark__scan_at"]}
{"id": "C60", "title": "Whole documents get the expected table", "statement": "For a document of titles (plain, or with tags, emphasis, links and code in them), text, and closed code blocks, build_toc returns exactly the table one expects, whatever the options: one row per title within the limit, none for lines in code blocks or among the skipped lines; each row starts where the text of the row around it starts (redcarpet: four columns per level), carries the bullet or the next number at its level, and the title with its brackets escaped as a link to the anchor of the title, with -n for the n-th repetition, hidden titles counted. If a level is skipped or a row would be above the first one, and neither check is off, it raises TocDoesNotRenderAsCoherentList. If a check is off and the levels are not coherent, the numbers go on from the last entry of the level unless the row before is less deep, and a row starts below the text of the row before it if that is less deep, else where the last row of its level started (0 if there is none since a less deep one). A document that ends inside a code block that is never closed gets the table of the titles before the block; if it is a file and the last line of the block is a title, that title too.", "quantifier": "every such document of any length, every parser, every list marker, every combination of options, every limit and number of skipped lines", "why_tests_cant": "documents of any length with any mixture of titles, code blocks and options; the row depends on all titles before it", "anchors": ["md_toc/api.py:build_toc", "md_toc/api.py:get_atx_heading", "md_toc/api.py:build_anchor_link", "md_toc/api.py:build_toc_line", "md_toc/api.py:is_opening_code_fence", "md_toc/api.py:is_closing_code_fence"]}
{"id": "C61", "title": "The command does what the documents call for", "statement": "For arguments the command accepts and documents as in C60 (coherent ones, or any if one of the checks is off), the command prints exactly the expected tables in the order of the names and touches no file; or, with --in-place, prints nothing, puts each table between the markers of its file (marker, blank line, table, blank line, marker), leaves files without markers and all other lines and files alone. The exit status is 128 exactly if --diff is given and some file did not show its expected table, else 0. If one of the documents has no coherent table (and the checks are on), nothing at all is printed or written and the status is 1.", "quantifier": "every list of distinct names, every content of the files and standard input, every accepted combination of arguments with a number of skipped lines that is not negative", "why_tests_cant": "joins all parts of the program, from the lines of each document to the bytes of each file, for any number of files", "anchors": ["md_toc/cli.py:CliToApi.write_toc", "md_toc/__main__.py:main", "md_toc/api.py:build_multiple_tocs", "md_toc/api.py:write_strings_on_files_between_markers", "md_toc/api.py:tocs_equal"]}
{"id": "C62", "title": "The linked objects of the inline parser stay sound", "statement": "While remove_emphasis reads a text it links delimiters and nodes to each other. At every moment the delimiters form one doubly linked list without repetition, siblings and parents of nodes never form a cycle, and no reference leads to an object that does not exist; the nodes that are in use form trees: the children of a node can be walked in both directions through the same nodes, which are exactly those that have it as their parent, and a node without parent has no siblings; so every walk along the links ends, the internal check of the delimiter list never fails, and the result is exactly the one given by a plain stack of delimiters (for which C26 to C30, C45, C46, C58 and C59 are proved).", "quantifier": "every text, every parser, every moment of the run", "why_tests_cant": "nodes are moved, freed and unlinked in an order that depends on the whole text; a wrong link shows only as an endless loop or a lost delimiter on some texts", "anchors": ["md_toc/cmark/inlines_c.py:_cmark_process_emphasis", "md_toc/cmark/inlines_c.py:_cmark_remove_emph", "md_toc/cmark/inlines_c.py:_cmark_remove_delimiter", "md_toc/cmark/inlines_c.py:_cmark_push_delimiter", "md_toc/cmark/inlines_c.py:_cmark_handle_close_bracket", "md_toc/cmark/node_c.py:_cmark_S_node_unlink", "md_toc/cmark/node_c.py:_cmark_cmark_node_insert_after", "md_toc/cmark/node_c.py:_cmark_S_can_contain", "md_toc/cmark/node_c.py:_cmark_cmark_node_free"]}
{"id": "C63", "title": "A file kept up to date, through any history", "statement": "A file starts with one marker. Then edits of the users' lines (anywhere above and below the marker or the table, in this and other files), updates in place with any accepted options, runs that only print, and runs that are refused because a level is skipped follow each other in any order and number. At every moment the file consists of exactly the users' lines with, between them, the marker (before the first update) or exactly marker, blank line, the expected table of the last update (C60; with a check switched off also that of titles whose levels are not those of a list), blank line, marker; nothing accumulates and nothing is lost. A run with --diff reports status 128 at any moment if and only if the table of the present titles is not the one shown, else 0. If an update is killed at any moment, the file is as it was, or the update is complete, or exactly the shown block is missing and no line of the users; putting one marker line back is then enough to go on.", "quantifier": "every finite history of edits, updates, prints, refused and killed runs, with different options, parsers and line ends (LF or CR LF) from run to run, on any number of files", "why_tests_cant": "the input of every run is the output of the runs before it; no finite set of histories covers the combinations of parsers, options and edits", "anchors": ["md_toc/cli.py:CliToApi.write_toc", "md_toc/api.py:write_string_on_file_between_markers", "md_toc/api.py:build_toc", "md_toc/api.py:tocs_equal", "md_toc/generic.py:_detect_toc_list"]}
{"id": "C64", "title": "Tables built row by row with the library's functions", "statement": "A caller may build a table without build_toc: for each heading they call increase_index_ordered_list (numbered lists), compute_toc_line_indentation_spaces, build_toc_line_without_indentation and build_toc_line, passing the level of the previous row (0 before the first). If the levels are between 1 and 6 and coherent, the marker is one of the parser's and the count dictionary is empty at the start of a table, every row is the expected one: the number of the entry within its list, the marker, the link or the bare text, starting below the text of the entry around it (redcarpet: four columns per level). The contents of the indentation log at the start do not matter, so one log of six entries can serve any number of tables of different parsers, markers and kinds of lists. (With levels that are not coherent, what an earlier table left in the log does show; with counts that are not empty, numbers go on.)", "quantifier": "every sequence of tables, every list of levels, texts and anchors, every initial content of the log, every parser, list kind, marker and choice of links", "why_tests_cant": "the functions communicate through dictionaries that they modify in place; the rows could depend on any of the calls made before", "anchors": ["md_toc/api.py:increase_index_ordered_list", "md_toc/api.py:compute_toc_line_indentation_spaces", "md_toc/api.py:build_toc_line_without_indentation", "md_toc/api.py:build_toc_line", "md_toc/api.py:init_indentation_log"]}
{"id": "C65", "title": "The command line, word by word", "statement": "Options before the name of the parser (-c -i -d -l -p alone or joined behind one dash; -m, -n, -s with their value in the next word, in the same word, or after an equals sign; long names and their unambiguous abbreviations), then the name of the parser, then -u, -o, -c, -l with or without values, file names, more options, or two dashes and file names of any form: such a line is read as exactly the settings it asks for, the last value of an option counting, and the command then does what it does with these settings. The line is refused with status 2, and nothing is read or written, if and only if it combines --no-list-coherence with --no-indentation, or a numbered list with a bullet other than '-'. Whatever the words are, the settings that get through are among those the command offers, and all of these can be asked for. A file name directly behind -u, -o or -l is taken for the value and refused. Options of the first group that the second group does not have are refused behind the name of the parser. Refused, too: a line without a parser or with an unknown one, a wrong value in whatever way it is written, an abbreviation of more than one name, file names in two groups with options between them, and an option that does not exist: an unknown letter (also behind known ones), an unknown name, a value for an option that takes none. Altogether, the lines that are read are exactly these: groups of letters behind one dash or long names, the values joined, after an equals sign or in the next word (which has no dash in front, or is a dash alone, or cannot be an option and is a negative number or contains a space); a parser's name; such groups, one row of file names, such groups again or, after two dashes, file names of any form; and no word behind the parser's name that abbreviates two of the options in front of it. The help or the version is shown, and nothing is read or written, exactly for the lines in which -h, --help (or, before the parser's name, -v, --version), also abbreviated or among other letters, follows words that are options with proper values and no contradiction, or look like options that do not exist, or (behind the parser's name) file names, as long as no word before two dashes abbreviates two options. All other lines that are not read are refused with status 2.", "quantifier": "every sequence of words whatsoever for the characterization of what is read; every reading of numbers, every state of the files", "why_tests_cant": "the number of ways to write options, values, abbreviations and their order is unbounded, and a word can be an option, a value or a file name depending on the words around it", "anchors": ["md_toc/cli.py:CliInterface.create_parser", "md_toc/cli.py:CliInterface._add_filename_argument", "md_toc/cli.py:CliInterface._add_cmark_like_megroup_arguments", "md_toc/cli.py:CliInterface._add_cmark_like_arguments", "md_toc/__main__.py:main"]}
{"id": "C66", "title": "Files as stored: what happens to line ends", "statement": "A write reads the file with CR LF and CR taken for line ends like LF. If the file has no marker, not one of its characters changes. Otherwise the stored file afterwards has the lines before the target with LF ends, the block with the given newline string, whichever it is, and the lines after the target with LF ends: in a file with LF ends all characters outside the target stay as they are, and files that differ in line ends only give the same table and end up the same. Output, exit status and what reading the files gives are those of the earlier properties, also for killed runs. On the command line each named file changes in this way and no other file changes; run again under the conditions of C43, the command leaves every character of every file as it is. The help text's claim that in place all line ends of the file are replaced with the newline option is false (with fpyutils using the newline character it is given only to fill missing lines, as its documentation says): a file with CR LF ends, with that option CR LF, does not keep them.", "quantifier": "every stored text with any mixture of line ends, every newline string, table and marker, every accepted command line, every number of files", "why_tests_cant": "line ends can be mixed in any way in a file of any length; a test on one file says nothing about a stray CR elsewhere, and equality of all characters after a second run is a claim about every file", "anchors": ["md_toc/api.py:write_string_on_file_between_markers", "md_toc/api.py:write_strings_on_files_between_markers", "md_toc/api.py:build_toc", "md_toc/generic.py:_remove_line_intervals", "md_toc/cli.py:CliToApi.write_toc", "md_toc/cli.py:CliInterface.create_parser"]}
{"id": "C67", "title": "String buffers never get in the way", "statement": "While remove_emphasis reads a text it copies code spans, link targets, titles and entities to buffers that keep a size and an allocated size, are overwritten in place, raise ValueError for a bad size and end the program with sys.exit beyond 2^30 characters. For every text of less than 2^27 characters none of this can be noticed: the result, or the exception, is the one obtained by just appending texts (for which C26 to C30, C45, C46, C58 and C59 are proved), and the program is never ended. Some bound is needed: a heading with a code span of 2^30 or more characters ends the program instead of raising an exception.", "quantifier": "every text of less than 2^27 characters, every parser, every table of entities of at most 8 bytes each; for the last sentence every code span of 2^30 to 2^31-1 characters", "why_tests_cant": "sizes and allocated sizes depend on every piece written before, and texts near the limits are too long for a test", "anchors": ["md_toc/cmark/buffer_c.py:_cmark_cmark_strbuf_grow", "md_toc/cmark/buffer_c.py:_cmark_cmark_strbuf_put", "md_toc/cmark/buffer_c.py:_cmark_cmark_strbuf_set", "md_toc/cmark/buffer_c.py:_cmark_cmark_strbuf_unescape", "md_toc/cmark/houdini_html_u_c.py:_cmark_houdini_unescape_html", "md_toc/cmark/chunk_h.py:_cmark_cmark_chunk_trim", "md_toc/cmark/inlines_c.py:_cmark_S_normalize_code", "md_toc/cmark/inlines_c.py:_cmark_cmark_clean_autolink", "md_toc/cmark/inlines_c.py:_cmark_make_str_with_entities", "md_toc/cmark/utf8_c.py:_cmark_encode_unknown"]}
{"id": "C68", "title": "The whole program, from words to stored characters", "statement": "For a command line of an accepted form (C65) on files whose tables one knows (C60), whatever their line ends: without --in-place exactly the tables are printed, in the order of the names, and no file changes; with it nothing is printed, each named file has its table between its markers with all other lines as they read, and every other file keeps every character. The exit status is 128 exactly if --diff is given and some file did not show its table, else 0. If a document cannot be rendered nothing is printed, no file changes and the status is 1. A line that asks for the help or the version (C65) changes no file, whatever else it says, and the status is 0; any other line that is not accepted changes no file and the status is 2. Whatever the words and files are, the status is 0, 1, 2 or 128, and a file whose characters differ afterwards was named on an accepted line with --in-place.", "quantifier": "every list of words, every set of stored files with any characters, every standard input", "why_tests_cant": "all command lines together with all contents of all files", "anchors": ["md_toc/__main__.py:main", "md_toc/cli.py:CliInterface", "md_toc/cli.py:CliToApi.write_toc", "md_toc/api.py:build_multiple_tocs", "md_toc/api.py:write_strings_on_files_between_markers"]}
{"id": "C69", "title": "Stored files and command lines, through any history", "statement": "A stored file, with any line ends, starts with one marker line. Then edits that leave what is shown alone, command lines with --in-place that name it (perhaps among other files), such lines on documents that cannot be rendered, and any other words whatever (refused, asking for help, printing, naming other files) follow each other in any order and number. At every moment the stored file reads as exactly the users' lines with, between them, the marker or exactly the block of the table of the last update. Right after an update its characters are exactly the lines above, the block with the chosen line ends, and the lines below, so updating twice leaves every character. A line with --diff ends with status 128 at any moment if and only if the table of the present titles is not the one shown, else 0. If a command line is killed at any moment, the file is as it was, or updated, or exactly the block is missing, and one marker line put back is enough to go on.", "quantifier": "every finite history of edits and command lines (any list of words), every moment a run may be killed, every stored text", "why_tests_cant": "the words and files of every run depend on all runs before; no finite set of histories covers them", "anchors": ["md_toc/__main__.py:main", "md_toc/cli.py:CliInterface", "md_toc/cli.py:CliToApi.write_toc", "md_toc/api.py:write_strings_on_files_between_markers", "md_toc/generic.py:_remove_line_intervals"]}
{"id": "C70", "title": "Runs at the same time", "statement": "Several command lines run at the same time on the same disk, with any schedule of their single accesses to files. A run is undisturbed if no other one may change a file that it names: then at every moment its files are as at some moment of that run alone, and when it has ended its output, exit status and files are exactly those of the run alone. Files that no command line may change keep every character. Runs none of which changes a file another one names (parallel updates of different files) give, in every schedule, the output, statuses and files of running them one after the other. Every schedule comes to an end, with no run waiting for another. A run that only prints, among any other processes, prints what it would print if each of its files had stayed as it was at some moment of the schedule; while another run updates a file kept up to date as in C69, a run that prints that file prints exactly the table of the titles of its users at whatever moment it reads, with status 0. Two updates of the same file at the same time do not keep the users' lines (refuted).", "quantifier": "every list of command lines with any words, every stored file and standard input, every interleaving of their file accesses", "why_tests_cant": "the number of interleavings grows exponentially with the accesses, and which one happens is up to the operating system; tests run one schedule", "anchors": ["md_toc/__main__.py:main", "md_toc/cli.py:CliToApi.write_toc", "md_toc/api.py:build_multiple_tocs", "md_toc/api.py:write_string_on_file_between_markers", "md_toc/api.py:tocs_equal", "md_toc/generic.py:_get_existing_toc", "md_toc/generic.py:_extract_lines", "md_toc/generic.py:_remove_line_intervals"]}
{"id": "C71", "title": "Files are bytes: UTF-8", "statement": "Files are bytes, read and written as UTF-8. Bytes are read as the text whose UTF-8 (RFC 3629) they are, and exactly the bytes that are the UTF-8 of no text are a decoding error, however reading is divided into chunks. For any command line and any files, the run on the bytes prints, returns and leaves, at every moment, what the run on the texts does. A file that is not UTF-8 keeps every byte at every moment of every run, whatever the words are, also if it is named with --in-place. A file that is UTF-8 is UTF-8 at every moment of every run: no run ends with an encoding error. In a file without CR the bytes before and after the replaced lines stay exactly as they are. Refuted: a byte order mark is ignored (it hides a heading in the first line); a call of the API that raises leaves the file as it was (a string with a surrogate is noticed when the marker has been deleted).", "quantifier": "every byte sequence, every list of words, every set of files, every division into chunks, every moment a run may be killed", "why_tests_cant": "the byte sequences and command lines are unbounded, and invalid sequences have many forms (overlong, surrogates, cut off); tests use a few files", "anchors": ["md_toc/api.py:build_toc", "md_toc/api.py:write_string_on_file_between_markers", "md_toc/generic.py:_get_existing_toc", "md_toc/generic.py:_extract_lines", "md_toc/generic.py:_remove_line_intervals", "md_toc/__main__.py:main"]}
{"id": "C72", "title": "A run amid other programs", "statement": "While a command line runs, other programs (editors, version control) may create, change and delete files between any two of its accesses, any number of times. If they leave the named files, and a file called \"-\", alone, the run is the same as without them: at every moment the named files are as at some moment of the run alone, and when it has ended its output, exit status and files are those of the run alone. Whatever they do, also to the named files: the run looks only at files that are named (or called \"-\"), writes a file only if it is named with --in-place, ends with one of the statuses 0, 1, 2 and 128, and with --in-place prints nothing; every write comes right after the run has seen that file, is made only if all of it could be decoded, and consists of the lines that the run just saw without some consecutive ones, or with one block put in: the markers around the table of that file as the run saw it. That a line which a user adds in the middle of a run is kept if the run ends without an error is refuted.", "quantifier": "every list of words, every stored file and standard input, every sequence of changes by others between the accesses, every moment a run may be killed", "why_tests_cant": "what other programs do and when is unbounded; a test fixes one interleaving with one change", "anchors": ["md_toc/__main__.py:main", "md_toc/cli.py:CliToApi.write_toc", "md_toc/api.py:build_multiple_tocs", "md_toc/api.py:write_string_on_file_between_markers", "md_toc/generic.py:_get_existing_toc", "md_toc/generic.py:_extract_lines", "md_toc/generic.py:_remove_line_intervals"]}
