(** Regular expressions of md_toc/constants.py and md_toc/cmark/scanners_c.py, and
    md_toc/api.py:remove_html_tags. *)
From Coq Require Import String List NArith Bool Arith.
From Verif Require Import Str Regex.
Import ListNotations.
Local Open Scope list_scope.

(** Concatenation of patterns. *)
Definition RSeqs (l : list re) : re := fold_right RSeq REps l.
(** Alternation of patterns. *)
Fixpoint RAlts (l : list re) : re :=
  match l with
  | [] => RSet (fun _ => false)
  | [a] => a
  | a :: l' => RAlt a (RAlts l')
  end.

(** constants.py:51, first class *)
Definition tag_first (c : N) : bool := ascii_alpha c.
(** constants.py:51, second class *)
Definition tag_rest (c : N) : bool := (ascii_alnum c || N.eqb c 45)%bool.
(** constants.py:52, first class *)
Definition attr_first (c : N) : bool := (ascii_alpha c || cin c (lit "_:"))%bool.
(** constants.py:52, second class *)
Definition attr_rest (c : N) : bool := (ascii_alnum c || cin c (lit ":._-"))%bool.

(** constants.py:50 *)
Definition space6 : str := [32%N; 9%N; 11%N; 12%N; 13%N; 10%N].
(** constants.py:50 *)
Definition re_spacechar : re := ROneOf space6.
(** constants.py:51 *)
Definition re_tagname : re := RSeq (RSet tag_first) (RStar (RSet tag_rest)).
(** constants.py:52 *)
Definition re_attrname : re := RSeq (RSet attr_first) (RStar (RSet attr_rest)).
(** constants.py:53 *)
Definition re_unquoted : re :=
  RPlus (RNotIn ([32%N; 9%N; 13%N; 10%N; 11%N; 12%N] ++ [34%N; 39%N] ++ lit "=<>`" ++ [0%N])).
(** constants.py:54-55 *)
Definition re_squoted : re := RSeqs [RChr 39; RStar (RNotIn [39%N; 0%N]); RChr 39].
(** constants.py:55 *)
Definition re_dquoted : re := RSeqs [RChr 34; RStar (RNotIn [34%N; 0%N]); RChr 34].
(** constants.py:56 *)
Definition re_attrvalue : re := RAlts [re_unquoted; re_squoted; re_dquoted].
(** constants.py:57 *)
Definition re_attrvaluespec : re :=
  RSeqs [RStar re_spacechar; RChr 61; RStar re_spacechar; re_attrvalue].

(** ** remove_html_tags *)

(** constants.py:107-109 (SPACETAB, LE) *)
Definition re_spacetab : re := ROneOf [9%N; 32%N].
(** constants.py:107-109 (SPACETAB, LE) *)
Definition re_le : re := RAlts [RChr 10; RChr 13; RSeq (RChr 13) (RChr 10)].
(** constants.py:190-193 (cmark AT) *)
Definition re_AT_cmark : re :=
  RSeqs [RAlt (RPlus re_spacetab) re_le; re_attrname; ROpt re_attrvaluespec].
(** constants.py:198-201 (cmark OT) *)
Definition re_OT_cmark : re :=
  RSeqs [RChr 60; re_tagname; RStar re_AT_cmark;
         RAlt (RStar re_spacetab) (ROpt re_le); ROpt (RChr 47); RChr 62].
(** constants.py:203-205 (cmark CT) *)
Definition re_CT_cmark : re :=
  RSeqs [RLit (lit "</"); re_tagname; RAlt (RStar re_spacetab) (ROpt re_le); RChr 62].
(** constants.py:122-124, 208-210 (CO) *)
Definition re_CO : re :=
  RSeqs [RLit (lit "<!--");
         RPlus (RSeq (RNot (RAlt (RChr 62) (RLit (lit "->"))))
                     (RSeq (RNot (RLit (lit "--"))) RAny));
         RNot (RChr 45); ROpt RAny;
         RLit (lit "-->")].
(** constants.py:127-129, 213-215 (PI) *)
Definition re_PI : re :=
  RSeqs [RLit (lit "<?"); RStar (RSeq (RNot (RLit (lit "?>"))) RAny); RLit (lit "?>")].
(** constants.py:132-135, 218-220 (cmark DE) *)
Definition re_DE_cmark : re :=
  RSeqs [RLit (lit "<!"); RPlus (RSet ascii_upper);
         RPlus (RSeq (RNot (RChr 62)) RAny); RChr 62].
(** constants.py:139-143, 223-225 (CD) *)
Definition re_CD : re :=
  RSeqs [RLit (lit "<![CDATA["); RPlus (RSeq (RNot (RLit (lit "]]>"))) RAny); RLit (lit "]]>")].

(** constants.py:238-239 (github WS) *)
Definition re_WS : re := ROneOf space6.

(** A word, case-insensitively: [tT][iI]... *)
Fixpoint RWordCI (s : str) : re :=
  match s with
  | [] => REps
  | c :: s' => RSeq (ROneOf [c; (c - 32)%N]) (RWordCI s')
  end.
(** constants.py:258-259 (GDRH) *)
Definition disallowed_tags : list str :=
  [lit "title"; lit "textarea"; lit "style"; lit "xmp"; lit "iframe"; lit "noembed";
   lit "noframes"; lit "script"; lit "plaintext"].
(** constants.py:258-259 *)
Definition re_GDRH (E : env) : re :=
  RAlts (map (fun w => RSeqs [RWordB (e_word E); RWordCI w; RWordB (e_word E)]) disallowed_tags).
(** constants.py:264-267 (github TN) *)
Definition re_TN_github (E : env) : re := RSeq (RNot (re_GDRH E)) re_tagname.
(** constants.py:250-251 (github AT; the overridden AVS of line 246 is not the one used
    here, because the dictionary literal is evaluated before the update takes effect) *)
Definition re_AT_github : re := RSeqs [RPlus re_WS; re_attrname; ROpt re_attrvaluespec].
(** constants.py:271-273 (github OT) *)
Definition re_OT_github (E : env) : re :=
  RSeqs [RChr 60; re_TN_github E; RStar re_AT_github; RStar re_WS; ROpt (RChr 47); RChr 62].
(** constants.py:275-276 (github CT) *)
Definition re_CT_github (E : env) : re :=
  RSeqs [RLit (lit "</"); re_TN_github E; ROpt re_WS; RChr 62].
(** constants.py:278-280 (github DE) *)
Definition re_DE_github : re :=
  RSeqs [RLit (lit "<!"); RPlus (RSet ascii_upper); RPlus re_WS;
         RPlus (RSeq (RNot (RChr 62)) RAny); RChr 62].

(** constants.py:228, 289-291: gitlab and goldmark copy cmark, commonmarker copies github. *)
Definition html_regexes (E : env) (p : parser) : list re :=
  if gfm p then [re_OT_github E; re_CT_github E; re_CO; re_PI; re_DE_github; re_CD]
  else [re_OT_cmark; re_CT_cmark; re_CO; re_PI; re_DE_cmark; re_CD].

(** api.py:806-830 remove_html_tags *)
Definition remove_html_tags (E : env) (p : parser) (line : str) : str :=
  if cm_family p then fold_left (fun l r => re_delete r l) (html_regexes E p) line else line.

(** ** Scanners of the inline parser (scanners_c.py, constants.py:151-161) *)

(** constants.py:58: the final '?' applies to the attribute value only, so this
    expression requires an '=' sign. *)
Definition re_scan_attribute : re :=
  RSeqs [RPlus re_spacechar; re_attrname; RStar re_spacechar; RChr 61;
         RStar re_spacechar; ROpt re_attrvalue].
(** constants.py:59-60, 157 *)
Definition re_scan_htmltag : re :=
  RAlt (RSeqs [re_tagname; RStar re_scan_attribute; RStar re_spacechar; ROpt (RChr 47); RChr 62])
       (RSeqs [RChr 47; re_tagname; RStar re_spacechar; RChr 62]).
(** constants.py:158 *)
Definition re_scan_htmlcomment : re :=
  RAlt (RLit (lit "--->"))
       (RSeqs [RChr 45;
               RSeq (ROpt (RChr 45)) (RNotIn (0%N :: lit ">-"));
               RStar (RSeq (ROpt (RChr 45)) (RNotIn (0%N :: lit "-")));
               RLit (lit "-->")]).
(** constants.py:156 *)
Definition re_scan_cdata : re :=
  RSeq (RLit (lit "CDATA["))
       (RStar (RAlts [RPlus (RNotIn [93%N; 0%N]);
                      RSeq (RChr 93) (RNotIn [93%N; 0%N]);
                      RSeqs [RChr 93; RChr 93; RNotIn [62%N; 0%N]]])).
(** constants.py:159 *)
Definition re_scan_declaration : re :=
  RSeqs [RPlus (RSet ascii_upper); RPlus re_spacechar; RStar (RNotIn [62%N; 0%N])].
(** constants.py:160 *)
Definition re_scan_pi : re :=
  RPlus (RAlts [RPlus (RNotIn [63%N; 62%N; 0%N]);
                RSeq (RChr 63) (RNotIn [62%N; 0%N]);
                RChr 62]).
(** scanners_c.py:108-111 *)
Definition re_scan_spacechars : re := RPlus re_spacechar.
(** scanners_c.py:114-116 *)
Definition re_scan_autolink_uri : re :=
  RSeqs [RChr 58;
         RStar (RSet (fun c => negb (N.leb c 32 || N.eqb c 60 || N.eqb c 62)));
         RChr 62].
(** scanners_c.py:120-123: a label of the domain *)
Definition re_email_label : re :=
  RSeq (RSet ascii_alnum)
       (ROpt (RSeq (RUpTo 61 (RSet (fun c => ascii_alnum c || N.eqb c 45)%bool)) (RSet ascii_alnum))).
(** scanners_c.py:120-123 *)
Definition re_scan_autolink_email : re :=
  RSeqs [RPlus (RSet (fun c => ascii_alnum c || cin c (lit ".!#$%&'*+/=?^_`{|}~-"))%bool);
         RChr 64; re_email_label;
         RStar (RSeq (RChr 46) re_email_label);
         RChr 62].
(** constants.py:155: as written the expression is a group of two alternatives.  The
    first one is a character class followed by the anchor '^', which cannot match after
    a character; the second one is the literal "}~-]".  Only the second is kept. *)
Definition re_escaped_char : re := RLit (lit "}~-]").
(** scanners_c.py:97-105 *)
Definition re_scan_link_title : re :=
  RAlts [RSeqs [RChr 34; RStar (RAlt re_escaped_char (RNotIn [34%N; 0%N])); RChr 34];
         RSeqs [RChr 39; RStar (RAlt re_escaped_char (RNotIn [39%N; 0%N])); RChr 39];
         RSeqs [RChr 40; RStar (RAlt re_escaped_char (RNotIn [40%N; 41%N; 0%N])); RChr 39]].
