(** Validation of the model, not a proof: the literal assertions of md_toc/tests/tests.py
    evaluated on the model.  The number in front of each entry is the line of the assertion. *)
From Coq Require Import String List NArith ZArith Bool Arith Ascii.
From Verif Require Import Str Regex HtmlRe Fence Atx Entity Inlines Anchor Toc Write Cli AsciiEnv.
Import ListNotations.
Local Notation E := ascii_env (only parsing).
Definition same_heading (a b : option heading) :=
  match a, b with
  | None, None => true
  | Some x, Some y => (h_level x =? h_level y) && seqb (h_text x) (h_text y) && Bool.eqb (h_visible x) (h_visible y)
  | _, _ => false
  end.
Fixpoint same_headings a b :=
  match a, b with
  | [], [] => true
  | x :: a, y :: b => same_heading x y && same_headings a b
  | _, _ => false
  end.
Definition heq (r : res (list (option heading))) l :=
  match r with Ok a => same_headings a l | _ => false end.
Definition upstream_tests : list (N * bool) := [
(262%N, match replace_substring [] [] 0 0 with Ok r => seqb r [] | _ => false end);
(263%N, match replace_substring [] [] 1024 1024 with Ok r => seqb r [] | _ => false end);
(265%N, match replace_substring [] (lit "foo") 0 0 with Ok r => seqb r [] | _ => false end);
(267%N, match replace_substring (lit "foo") [] 0 0 with Ok r => seqb r (lit "oo") | _ => false end);
(269%N, match replace_substring [] (lit "foo") 0 0 with Ok r => seqb r [] | _ => false end);
(273%N, match replace_substring (lit "foo") (lit "foo") 0 0 with Ok r => seqb r (lit "foooo") | _ => false end);
(277%N, match replace_substring (lit "foo") (lit "foo") 1 1 with Ok r => seqb r (lit "ffooo") | _ => false end);
(281%N, match replace_substring (lit "foo") (lit "foo") 2 2 with Ok r => seqb r (lit "fofoo") | _ => false end);
(285%N, match replace_substring (lit "foo") (lit "foo") 1 2 with Ok r => seqb r (lit "ffoo") | _ => false end);
(289%N, match replace_substring (lit "foo") (lit "foo") 0 2 with Ok r => seqb r (lit "foo") | _ => false end);
(295%N, match replace_substring (lit "foofoofoofoo") (lit "a") 4 8 with Ok r => seqb r (lit "foofafoo") | _ => false end);
(299%N, match replace_substring (lit "b") (lit "a") 0 0 with Ok r => seqb r (lit "a") | _ => false end);
(300%N, match replace_substring (lit "b") (lit "a") 0 1 with Ok r => seqb r (lit "a") | _ => false end);
(301%N, match replace_substring (lit "b") (lit "a") 1 1 with Ok r => seqb r (lit "b") | _ => false end);
(303%N, match replace_substring (lit "bcdef") (lit "a") 4 4 with Ok r => seqb r (lit "bcdea") | _ => false end);
(305%N, match replace_substring (lit "bcdef") (lit "a") 0 0 with Ok r => seqb r (lit "acdef") | _ => false end);
(308%N, match replace_substring (lit "bcdef") (lit "a") 1 4 with Ok r => seqb r (lit "ba") | _ => false end);
(310%N, match replace_substring (lit "bcdef") (lit "a") 1 999999999999 with Ok r => seqb r (lit "ba") | _ => false end);
(311%N, match replace_substring (lit "bcdef") (lit "a") 0 2 with Ok r => seqb r (lit "aef") | _ => false end);
(313%N, match replace_substring (lit "bcdef") (lit "a") 0 999999999999 with Ok r => seqb r (lit "a") | _ => false end);
(329%N, Bool.eqb (string_empty []) true);
(330%N, Bool.eqb (string_empty [10%N]) true);
(331%N, Bool.eqb (string_empty [13%N]) true);
(332%N, Bool.eqb (string_empty [11%N]) true);
(333%N, Bool.eqb (string_empty [9%N]) true);
(334%N, Bool.eqb (string_empty (lit " ")) true);
(335%N, Bool.eqb (string_empty [13%N; 10%N]) true);
(336%N, Bool.eqb (string_empty [32%N; 13%N; 10%N]) true);
(338%N, Bool.eqb (string_empty [32%N; 13%N; 13%N; 10%N; 13%N]) true);
(340%N, Bool.eqb (string_empty [32%N; 13%N; 10%N; 10%N; 13%N]) false);
(343%N, Bool.eqb (string_empty [10%N; 13%N]) false);
(345%N, Bool.eqb (string_empty [32%N; 13%N; 97%N; 13%N]) false);
(346%N, Bool.eqb (string_empty [32%N; 13%N; 32%N; 13%N]) true);
(347%N, Bool.eqb (string_empty (lit " abcd ")) false);
(351%N, Bool.eqb (detect_toc_list E []) false);
(354%N, Bool.eqb (detect_toc_list E (lit "- list")) true);
(355%N, Bool.eqb (detect_toc_list E (lit "+ list")) true);
(356%N, Bool.eqb (detect_toc_list E (lit "* list")) true);
(357%N, Bool.eqb (detect_toc_list E (lit "- [list")) true);
(358%N, Bool.eqb (detect_toc_list E (lit "+ [list")) true);
(359%N, Bool.eqb (detect_toc_list E (lit "* [list")) true);
(361%N, Bool.eqb (detect_toc_list E (lit "-  list")) false);
(362%N, Bool.eqb (detect_toc_list E (lit "+  list")) false);
(363%N, Bool.eqb (detect_toc_list E (lit "*  list")) false);
(364%N, Bool.eqb (detect_toc_list E [45%N; 32%N; 9%N; 108%N; 105%N; 115%N; 116%N]) false);
(365%N, Bool.eqb (detect_toc_list E [43%N; 32%N; 9%N; 108%N; 105%N; 115%N; 116%N]) false);
(366%N, Bool.eqb (detect_toc_list E [42%N; 32%N; 9%N; 108%N; 105%N; 115%N; 116%N]) false);
(367%N, Bool.eqb (detect_toc_list E [45%N; 32%N; 9%N; 91%N; 108%N; 105%N; 115%N; 116%N]) false);
(368%N, Bool.eqb (detect_toc_list E [43%N; 32%N; 9%N; 91%N; 108%N; 105%N; 115%N; 116%N]) false);
(369%N, Bool.eqb (detect_toc_list E [42%N; 32%N; 9%N; 91%N; 108%N; 105%N; 115%N; 116%N]) false);
(371%N, Bool.eqb (detect_toc_list E (lit " - list")) true);
(372%N, Bool.eqb (detect_toc_list E (lit " + list")) true);
(373%N, Bool.eqb (detect_toc_list E (lit " * list")) true);
(374%N, Bool.eqb (detect_toc_list E (lit "  - list")) true);
(375%N, Bool.eqb (detect_toc_list E (lit "  + list")) true);
(376%N, Bool.eqb (detect_toc_list E (lit "  * list")) true);
(377%N, Bool.eqb (detect_toc_list E (lit "   - list")) true);
(378%N, Bool.eqb (detect_toc_list E (lit "   + list")) true);
(379%N, Bool.eqb (detect_toc_list E (lit "   * list")) true);
(380%N, Bool.eqb (detect_toc_list E (lit "    - list")) false);
(381%N, Bool.eqb (detect_toc_list E (lit "    + list")) false);
(382%N, Bool.eqb (detect_toc_list E (lit "    * list")) false);
(384%N, Bool.eqb (detect_toc_list E (lit " - [list")) true);
(385%N, Bool.eqb (detect_toc_list E (lit " + [list")) true);
(386%N, Bool.eqb (detect_toc_list E (lit " * [list")) true);
(387%N, Bool.eqb (detect_toc_list E (lit "  - [list")) true);
(388%N, Bool.eqb (detect_toc_list E (lit "  + [list")) true);
(389%N, Bool.eqb (detect_toc_list E (lit "  * [list")) true);
(390%N, Bool.eqb (detect_toc_list E (lit "   - [list")) true);
(391%N, Bool.eqb (detect_toc_list E (lit "   + [list")) true);
(392%N, Bool.eqb (detect_toc_list E (lit "   * [list")) true);
(394%N, Bool.eqb (detect_toc_list E [32%N; 45%N; 32%N; 9%N; 108%N; 105%N; 115%N; 116%N]) false);
(395%N, Bool.eqb (detect_toc_list E [32%N; 43%N; 32%N; 9%N; 108%N; 105%N; 115%N; 116%N]) false);
(396%N, Bool.eqb (detect_toc_list E [32%N; 42%N; 32%N; 9%N; 108%N; 105%N; 115%N; 116%N]) false);
(397%N, Bool.eqb (detect_toc_list E [32%N; 45%N; 32%N; 9%N; 91%N; 108%N; 105%N; 115%N; 116%N]) false);
(398%N, Bool.eqb (detect_toc_list E [32%N; 43%N; 32%N; 9%N; 91%N; 108%N; 105%N; 115%N; 116%N]) false);
(399%N, Bool.eqb (detect_toc_list E [32%N; 42%N; 32%N; 9%N; 91%N; 108%N; 105%N; 115%N; 116%N]) false);
(402%N, Bool.eqb (detect_toc_list E (lit "1. list")) true);
(403%N, Bool.eqb (detect_toc_list E (lit "9999. list")) true);
(404%N, Bool.eqb (detect_toc_list E (lit "1) list")) true);
(405%N, Bool.eqb (detect_toc_list E (lit "9999) list")) true);
(406%N, Bool.eqb (detect_toc_list E (lit "1) [list")) true);
(407%N, Bool.eqb (detect_toc_list E (lit "9999) [list")) true);
(408%N, Bool.eqb (detect_toc_list E (lit "1.  list")) false);
(409%N, Bool.eqb (detect_toc_list E (lit "9999.  list")) false);
(410%N, Bool.eqb (detect_toc_list E (lit "1)  list")) false);
(411%N, Bool.eqb (detect_toc_list E (lit "9999)  list")) false);
(412%N, Bool.eqb (detect_toc_list E (lit "1)  [list")) false);
(413%N, Bool.eqb (detect_toc_list E (lit "9999)  [list")) false);
(415%N, Bool.eqb (detect_toc_list E (lit " 1. list")) true);
(416%N, Bool.eqb (detect_toc_list E (lit " 9999. list")) true);
(417%N, Bool.eqb (detect_toc_list E (lit " 1) list")) true);
(418%N, Bool.eqb (detect_toc_list E (lit " 9999) list")) true);
(419%N, Bool.eqb (detect_toc_list E (lit " 1) [list")) true);
(420%N, Bool.eqb (detect_toc_list E (lit " 9999) [list")) true);
(421%N, Bool.eqb (detect_toc_list E (lit " 1.  list")) false);
(422%N, Bool.eqb (detect_toc_list E (lit " 9999.  list")) false);
(423%N, Bool.eqb (detect_toc_list E (lit " 1)  list")) false);
(424%N, Bool.eqb (detect_toc_list E (lit " 9999)  list")) false);
(425%N, Bool.eqb (detect_toc_list E (lit " 1)  [list")) false);
(426%N, Bool.eqb (detect_toc_list E (lit " 9999)  [list")) false);
(428%N, Bool.eqb (detect_toc_list E (lit "  1. list")) true);
(429%N, Bool.eqb (detect_toc_list E (lit "  9999. list")) true);
(430%N, Bool.eqb (detect_toc_list E (lit "  1) list")) true);
(431%N, Bool.eqb (detect_toc_list E (lit "  9999) list")) true);
(432%N, Bool.eqb (detect_toc_list E (lit "  1) [list")) true);
(433%N, Bool.eqb (detect_toc_list E (lit "  9999) [list")) true);
(434%N, Bool.eqb (detect_toc_list E (lit "  1.  list")) false);
(435%N, Bool.eqb (detect_toc_list E (lit "  9999.  list")) false);
(436%N, Bool.eqb (detect_toc_list E (lit "  1)  list")) false);
(437%N, Bool.eqb (detect_toc_list E (lit "  9999)  list")) false);
(438%N, Bool.eqb (detect_toc_list E (lit "  1)  [list")) false);
(439%N, Bool.eqb (detect_toc_list E (lit "  9999)  [list")) false);
(441%N, Bool.eqb (detect_toc_list E (lit "   1. list")) true);
(442%N, Bool.eqb (detect_toc_list E (lit "   9999. list")) true);
(443%N, Bool.eqb (detect_toc_list E (lit "   1) list")) true);
(444%N, Bool.eqb (detect_toc_list E (lit "   9999) list")) true);
(445%N, Bool.eqb (detect_toc_list E (lit "   1) [list")) true);
(446%N, Bool.eqb (detect_toc_list E (lit "   9999) [list")) true);
(447%N, Bool.eqb (detect_toc_list E (lit "   1.  list")) false);
(448%N, Bool.eqb (detect_toc_list E (lit "   9999.  list")) false);
(449%N, Bool.eqb (detect_toc_list E (lit "   1)  list")) false);
(450%N, Bool.eqb (detect_toc_list E (lit "   9999)  list")) false);
(451%N, Bool.eqb (detect_toc_list E (lit "   1)  [list")) false);
(452%N, Bool.eqb (detect_toc_list E (lit "   9999)  [list")) false);
(454%N, Bool.eqb (detect_toc_list E (lit "    1. list")) false);
(455%N, Bool.eqb (detect_toc_list E (lit "    9999. list")) false);
(456%N, Bool.eqb (detect_toc_list E (lit "    1) list")) false);
(457%N, Bool.eqb (detect_toc_list E (lit "    9999) list")) false);
(458%N, Bool.eqb (detect_toc_list E (lit "    1) [list")) false);
(459%N, Bool.eqb (detect_toc_list E (lit "    9999) [list")) false);
(460%N, Bool.eqb (detect_toc_list E (lit "    1.  list")) false);
(461%N, Bool.eqb (detect_toc_list E (lit "    9999.  list")) false);
(462%N, Bool.eqb (detect_toc_list E (lit "    1)  list")) false);
(463%N, Bool.eqb (detect_toc_list E (lit "    9999)  list")) false);
(464%N, Bool.eqb (detect_toc_list E (lit "    1)  [list")) false);
(465%N, Bool.eqb (detect_toc_list E (lit "    9999)  [list")) false);
(469%N, seqb (read_line_interval [] 1 1) []);
(470%N, seqb (read_line_interval [] 0 1) []);
(471%N, seqb (read_line_interval [] 1 0) []);
(472%N, seqb (read_line_interval [] 0 0) []);
(473%N, seqb (read_line_interval (lit "a") 1 1) (lit "a"));
(474%N, seqb (read_line_interval (lit "a") 0 1) []);
(475%N, seqb (read_line_interval (lit "a") 1 0) []);
(476%N, seqb (read_line_interval (lit "a") 0 0) []);
(477%N, seqb (read_line_interval [97%N; 13%N; 97%N] 1 1) (lit "a"));
(478%N, seqb (read_line_interval [97%N; 13%N; 97%N] 1 2) (lit "aa"));
(479%N, seqb (read_line_interval [97%N; 13%N; 97%N] 2 2) (lit "a"));
(480%N, seqb (read_line_interval [97%N; 13%N; 10%N; 97%N] 2 2) (lit "a"));
(482%N, seqb (read_line_interval [97%N; 10%N; 13%N; 98%N] 1 1) [97%N; 10%N; 13%N; 98%N]);
(485%N, seqb (read_line_interval [97%N; 10%N; 13%N; 98%N; 13%N; 10%N; 99%N] 1 2) [97%N; 10%N; 13%N; 98%N; 99%N]);
(487%N, seqb (read_line_interval [97%N; 98%N; 13%N; 10%N; 99%N] 1 2) (lit "abc"));
(489%N, seqb (read_line_interval [97%N; 98%N; 13%N; 10%N; 99%N] 2 2) (lit "c"));
(492%N, seqb (read_line_interval [97%N; 98%N; 13%N; 10%N; 10%N; 99%N] 2 2) []);
(494%N, seqb (read_line_interval [97%N; 98%N; 13%N; 10%N; 10%N; 99%N] 2 3) (lit "c"));
(1354%N, match remove_emphasis E Github (lit "*foo bar*") with Ok r => seqb r (lit "foo bar") | _ => false end);
(1359%N, match remove_emphasis E Github (lit "a * foo bar*") with Ok r => seqb r (lit "a * foo bar*") | _ => false end);
(1364%N, match remove_emphasis E Github (lit "a*""foo""*") with Ok r => seqb r (lit "a*""foo""*") | _ => false end);
(1369%N, match remove_emphasis E Github (lit "* a *") with Ok r => seqb r (lit "* a *") | _ => false end);
(1374%N, match remove_emphasis E Github (lit "foo*bar*") with Ok r => seqb r (lit "foobar") | _ => false end);
(1379%N, match remove_emphasis E Github (lit "5*6*78") with Ok r => seqb r (lit "5678") | _ => false end);
(1384%N, match remove_emphasis E Github (lit "_foo bar_") with Ok r => seqb r (lit "foo bar") | _ => false end);
(1389%N, match remove_emphasis E Github (lit "_ foo bar_") with Ok r => seqb r (lit "_ foo bar_") | _ => false end);
(1394%N, match remove_emphasis E Github (lit "a_""foo""_") with Ok r => seqb r (lit "a_""foo""_") | _ => false end);
(1399%N, match remove_emphasis E Github (lit "foo_bar_") with Ok r => seqb r (lit "foo_bar_") | _ => false end);
(1404%N, match remove_emphasis E Github (lit "5_6_78") with Ok r => seqb r (lit "5_6_78") | _ => false end);
(1409%N, match remove_emphasis E Github [1087%N; 1088%N; 1080%N; 1089%N; 1090%N; 1072%N; 1085%N; 1103%N; 1084%N; 95%N; 1089%N; 1090%N; 1088%N; 1077%N; 1084%N; 1103%N; 1090%N; 1089%N; 1103%N; 95%N] with Ok r => seqb r [1087%N; 1088%N; 1080%N; 1089%N; 1090%N; 1072%N; 1085%N; 1103%N; 1084%N; 95%N; 1089%N; 1090%N; 1088%N; 1077%N; 1084%N; 1103%N; 1090%N; 1089%N; 1103%N; 95%N] | _ => false end);
(1415%N, match remove_emphasis E Github (lit "aa_""bb""_cc") with Ok r => seqb r (lit "aa_""bb""_cc") | _ => false end);
(1420%N, match remove_emphasis E Github (lit "foo-_(bar)_") with Ok r => seqb r (lit "foo-(bar)") | _ => false end);
(1425%N, match remove_emphasis E Github (lit "_foo*") with Ok r => seqb r (lit "_foo*") | _ => false end);
(1430%N, match remove_emphasis E Github (lit "*foo bar *") with Ok r => seqb r (lit "*foo bar *") | _ => false end);
(1435%N, match remove_emphasis E Github [42%N; 102%N; 111%N; 111%N; 32%N; 98%N; 97%N; 114%N; 10%N; 42%N] with Ok r => seqb r [42%N; 102%N; 111%N; 111%N; 32%N; 98%N; 97%N; 114%N; 10%N; 42%N] | _ => false end);
(1440%N, match remove_emphasis E Github (lit "*(*foo)") with Ok r => seqb r (lit "*(*foo)") | _ => false end);
(1445%N, match remove_emphasis E Github (lit "*(*foo*)*") with Ok r => seqb r (lit "(foo)") | _ => false end);
(1450%N, match remove_emphasis E Github (lit "*foo*bar") with Ok r => seqb r (lit "foobar") | _ => false end);
(1455%N, match remove_emphasis E Github (lit "_foo bar _") with Ok r => seqb r (lit "_foo bar _") | _ => false end);
(1460%N, match remove_emphasis E Github (lit "_(_foo)") with Ok r => seqb r (lit "_(_foo)") | _ => false end);
(1465%N, match remove_emphasis E Github (lit "_(_foo_)_") with Ok r => seqb r (lit "(foo)") | _ => false end);
(1470%N, match remove_emphasis E Github (lit "_foo_bar") with Ok r => seqb r (lit "_foo_bar") | _ => false end);
(1475%N, match remove_emphasis E Github [95%N; 1087%N; 1088%N; 1080%N; 1089%N; 1090%N; 1072%N; 1085%N; 1103%N; 1084%N; 95%N; 1089%N; 1090%N; 1088%N; 1077%N; 1084%N; 1103%N; 1090%N; 1089%N; 1103%N] with Ok r => seqb r [95%N; 1087%N; 1088%N; 1080%N; 1089%N; 1090%N; 1072%N; 1085%N; 1103%N; 1084%N; 95%N; 1089%N; 1090%N; 1088%N; 1077%N; 1084%N; 1103%N; 1090%N; 1089%N; 1103%N] | _ => false end);
(1481%N, match remove_emphasis E Github (lit "_foo_bar_baz_") with Ok r => seqb r (lit "foo_bar_baz") | _ => false end);
(1486%N, match remove_emphasis E Github (lit "_(bar)_.") with Ok r => seqb r (lit "(bar).") | _ => false end);
(1491%N, match remove_emphasis E Github (lit "**foo bar**") with Ok r => seqb r (lit "foo bar") | _ => false end);
(1496%N, match remove_emphasis E Github (lit "** foo bar**") with Ok r => seqb r (lit "** foo bar**") | _ => false end);
(1501%N, match remove_emphasis E Github (lit "a**""foo""**") with Ok r => seqb r (lit "a**""foo""**") | _ => false end);
(1506%N, match remove_emphasis E Github (lit "foo**bar**") with Ok r => seqb r (lit "foobar") | _ => false end);
(1511%N, match remove_emphasis E Github (lit "__foo bar__") with Ok r => seqb r (lit "foo bar") | _ => false end);
(1516%N, match remove_emphasis E Github (lit "__ foo bar__") with Ok r => seqb r (lit "__ foo bar__") | _ => false end);
(1521%N, match remove_emphasis E Github [95%N; 95%N; 10%N; 102%N; 111%N; 111%N; 32%N; 98%N; 97%N; 114%N; 95%N; 95%N] with Ok r => seqb r [95%N; 95%N; 10%N; 102%N; 111%N; 111%N; 32%N; 98%N; 97%N; 114%N; 95%N; 95%N] | _ => false end);
(1526%N, match remove_emphasis E Github (lit "a__""foo""__") with Ok r => seqb r (lit "a__""foo""__") | _ => false end);
(1531%N, match remove_emphasis E Github (lit "foo__bar__") with Ok r => seqb r (lit "foo__bar__") | _ => false end);
(1536%N, match remove_emphasis E Github (lit "5__6__78") with Ok r => seqb r (lit "5__6__78") | _ => false end);
(1541%N, match remove_emphasis E Github [1087%N; 1088%N; 1080%N; 1089%N; 1090%N; 1072%N; 1085%N; 1103%N; 1084%N; 95%N; 95%N; 1089%N; 1090%N; 1088%N; 1077%N; 1084%N; 1103%N; 1090%N; 1089%N; 1103%N; 95%N; 95%N] with Ok r => seqb r [1087%N; 1088%N; 1080%N; 1089%N; 1090%N; 1072%N; 1085%N; 1103%N; 1084%N; 95%N; 95%N; 1089%N; 1090%N; 1088%N; 1077%N; 1084%N; 1103%N; 1090%N; 1089%N; 1103%N; 95%N; 95%N] | _ => false end);
(1547%N, match remove_emphasis E Github (lit "__foo, __bar__, baz__") with Ok r => seqb r (lit "foo, bar, baz") | _ => false end);
(1553%N, match remove_emphasis E Github (lit "foo-__(bar)__") with Ok r => seqb r (lit "foo-(bar)") | _ => false end);
(1558%N, match remove_emphasis E Github (lit "**foo bar **") with Ok r => seqb r (lit "**foo bar **") | _ => false end);
(1563%N, match remove_emphasis E Github (lit "**(**foo)") with Ok r => seqb r (lit "**(**foo)") | _ => false end);
(1568%N, match remove_emphasis E Github (lit "*(**foo**)*") with Ok r => seqb r (lit "(foo)") | _ => false end);
(1574%N, match remove_emphasis E Github [42%N; 42%N; 71%N; 111%N; 109%N; 112%N; 104%N; 111%N; 99%N; 97%N; 114%N; 112%N; 117%N; 115%N; 32%N; 40%N; 42%N; 71%N; 111%N; 109%N; 112%N; 104%N; 111%N; 99%N; 97%N; 114%N; 112%N; 117%N; 115%N; 32%N; 112%N; 104%N; 121%N; 115%N; 111%N; 99%N; 97%N; 114%N; 112%N; 117%N; 115%N; 42%N; 44%N; 32%N; 115%N; 121%N; 110%N; 46%N; 10%N; 42%N; 65%N; 115%N; 99%N; 108%N; 101%N; 112%N; 105%N; 97%N; 115%N; 32%N; 112%N; 104%N; 121%N; 115%N; 111%N; 99%N; 97%N; 114%N; 112%N; 97%N; 42%N; 41%N; 42%N; 42%N] with Ok r => seqb r [71%N; 111%N; 109%N; 112%N; 104%N; 111%N; 99%N; 97%N; 114%N; 112%N; 117%N; 115%N; 32%N; 40%N; 71%N; 111%N; 109%N; 112%N; 104%N; 111%N; 99%N; 97%N; 114%N; 112%N; 117%N; 115%N; 32%N; 112%N; 104%N; 121%N; 115%N; 111%N; 99%N; 97%N; 114%N; 112%N; 117%N; 115%N; 44%N; 32%N; 115%N; 121%N; 110%N; 46%N; 10%N; 65%N; 115%N; 99%N; 108%N; 101%N; 112%N; 105%N; 97%N; 115%N; 32%N; 112%N; 104%N; 121%N; 115%N; 111%N; 99%N; 97%N; 114%N; 112%N; 97%N; 41%N] | _ => false end);
(1583%N, match remove_emphasis E Github (lit "**foo ""*bar*"" foo**") with Ok r => seqb r (lit "foo ""bar"" foo") | _ => false end);
(1589%N, match remove_emphasis E Github (lit "**foo**bar") with Ok r => seqb r (lit "foobar") | _ => false end);
(1594%N, match remove_emphasis E Github (lit "__foo bar __") with Ok r => seqb r (lit "__foo bar __") | _ => false end);
(1599%N, match remove_emphasis E Github (lit "__(__foo)") with Ok r => seqb r (lit "__(__foo)") | _ => false end);
(1604%N, match remove_emphasis E Github (lit "_(__foo__)_") with Ok r => seqb r (lit "(foo)") | _ => false end);
(1609%N, match remove_emphasis E Github (lit "__foo__bar") with Ok r => seqb r (lit "__foo__bar") | _ => false end);
(1614%N, match remove_emphasis E Github [95%N; 95%N; 1087%N; 1088%N; 1080%N; 1089%N; 1090%N; 1072%N; 1085%N; 1103%N; 1084%N; 95%N; 95%N; 1089%N; 1090%N; 1088%N; 1077%N; 1084%N; 1103%N; 1090%N; 1089%N; 1103%N] with Ok r => seqb r [95%N; 95%N; 1087%N; 1088%N; 1080%N; 1089%N; 1090%N; 1072%N; 1085%N; 1103%N; 1084%N; 95%N; 95%N; 1089%N; 1090%N; 1088%N; 1077%N; 1084%N; 1103%N; 1090%N; 1089%N; 1103%N] | _ => false end);
(1620%N, match remove_emphasis E Github (lit "__foo__bar__baz__") with Ok r => seqb r (lit "foo__bar__baz") | _ => false end);
(1626%N, match remove_emphasis E Github (lit "__(bar)__.") with Ok r => seqb r (lit "(bar).") | _ => false end);
(1631%N, match remove_emphasis E Github (lit "*foo [bar](/url)*") with Ok r => seqb r (lit "foo [bar](/url)") | _ => false end);
(1637%N, match remove_emphasis E Github [42%N; 102%N; 111%N; 111%N; 10%N; 98%N; 97%N; 114%N; 42%N] with Ok r => seqb r [102%N; 111%N; 111%N; 10%N; 98%N; 97%N; 114%N] | _ => false end);
(1642%N, match remove_emphasis E Github (lit "_foo __bar__ baz_") with Ok r => seqb r (lit "foo bar baz") | _ => false end);
(1648%N, match remove_emphasis E Github (lit "_foo _bar_ baz_") with Ok r => seqb r (lit "foo bar baz") | _ => false end);
(1653%N, match remove_emphasis E Github (lit "__foo_ bar_") with Ok r => seqb r (lit "foo bar") | _ => false end);
(1658%N, match remove_emphasis E Github (lit "*foo *bar**") with Ok r => seqb r (lit "foo bar") | _ => false end);
(1663%N, match remove_emphasis E Github (lit "*foo **bar** baz*") with Ok r => seqb r (lit "foo bar baz") | _ => false end);
(1669%N, match remove_emphasis E Github (lit "*foo**bar**baz*") with Ok r => seqb r (lit "foobarbaz") | _ => false end);
(1673%N, match remove_emphasis E Github (lit "*foo**bar*") with Ok r => seqb r (lit "foo**bar") | _ => false end);
(1678%N, match remove_emphasis E Github (lit "***foo** bar*") with Ok r => seqb r (lit "foo bar") | _ => false end);
(1683%N, match remove_emphasis E Github (lit "*foo **bar***") with Ok r => seqb r (lit "foo bar") | _ => false end);
(1688%N, match remove_emphasis E Github (lit "*foo**bar***") with Ok r => seqb r (lit "foobar") | _ => false end);
(1692%N, match remove_emphasis E Github (lit "foo***bar***baz") with Ok r => seqb r (lit "foobarbaz") | _ => false end);
(1696%N, match remove_emphasis E Github (lit "foo******bar*********baz") with Ok r => seqb r (lit "foobar***baz") | _ => false end);
(1702%N, match remove_emphasis E Github (lit "*foo **bar *baz* bim** bop*") with Ok r => seqb r (lit "foo bar baz bim bop") | _ => false end);
(1708%N, match remove_emphasis E Github (lit "*foo [*bar*](/url)*") with Ok r => seqb r (lit "foo [bar](/url)") | _ => false end);
(1714%N, match remove_emphasis E Github (lit "** is not an empty emphasis") with Ok r => seqb r (lit "** is not an empty emphasis") | _ => false end);
(1721%N, match remove_emphasis E Github (lit "**** is not an empty strong emphasis") with Ok r => seqb r (lit "**** is not an empty strong emphasis") | _ => false end);
(1727%N, match remove_emphasis E Github (lit "**foo [bar](/url)**") with Ok r => seqb r (lit "foo [bar](/url)") | _ => false end);
(1733%N, match remove_emphasis E Github [42%N; 42%N; 102%N; 111%N; 111%N; 10%N; 98%N; 97%N; 114%N; 42%N; 42%N] with Ok r => seqb r [102%N; 111%N; 111%N; 10%N; 98%N; 97%N; 114%N] | _ => false end);
(1738%N, match remove_emphasis E Github (lit "__foo _bar_ baz__") with Ok r => seqb r (lit "foo bar baz") | _ => false end);
(1744%N, match remove_emphasis E Github (lit "__foo __bar__ baz__") with Ok r => seqb r (lit "foo bar baz") | _ => false end);
(1750%N, match remove_emphasis E Github (lit "____foo__ bar__") with Ok r => seqb r (lit "foo bar") | _ => false end);
(1755%N, match remove_emphasis E Github (lit "**foo **bar****") with Ok r => seqb r (lit "foo bar") | _ => false end);
(1760%N, match remove_emphasis E Github (lit "**foo *bar* baz**") with Ok r => seqb r (lit "foo bar baz") | _ => false end);
(1766%N, match remove_emphasis E Github (lit "**foo*bar*baz**") with Ok r => seqb r (lit "foobarbaz") | _ => false end);
(1771%N, match remove_emphasis E Github (lit "***foo* bar**") with Ok r => seqb r (lit "foo bar") | _ => false end);
(1775%N, match remove_emphasis E Github (lit "**foo *bar***") with Ok r => seqb r (lit "foo bar") | _ => false end);
(1780%N, match remove_emphasis E Github [42%N; 42%N; 102%N; 111%N; 111%N; 32%N; 42%N; 98%N; 97%N; 114%N; 32%N; 42%N; 42%N; 98%N; 97%N; 122%N; 42%N; 42%N; 10%N; 98%N; 105%N; 109%N; 42%N; 32%N; 98%N; 111%N; 112%N; 42%N; 42%N] with Ok r => seqb r [102%N; 111%N; 111%N; 32%N; 98%N; 97%N; 114%N; 32%N; 98%N; 97%N; 122%N; 10%N; 98%N; 105%N; 109%N; 32%N; 98%N; 111%N; 112%N] | _ => false end);
(1786%N, match remove_emphasis E Github (lit "**foo [*bar*](/url)**") with Ok r => seqb r (lit "foo [bar](/url)") | _ => false end);
(1792%N, match remove_emphasis E Github (lit "__ is not an empty emphasis") with Ok r => seqb r (lit "__ is not an empty emphasis") | _ => false end);
(1799%N, match remove_emphasis E Github (lit "____ is not an empty strong emphasis") with Ok r => seqb r (lit "____ is not an empty strong emphasis") | _ => false end);
(1805%N, match remove_emphasis E Github (lit "foo ***") with Ok r => seqb r (lit "foo ***") | _ => false end);
(1815%N, match remove_emphasis E Github (lit "foo *\**") with Ok r => seqb r (lit "foo \*") | _ => false end);
(1821%N, match remove_emphasis E Github (lit "foo *_*") with Ok r => seqb r (lit "foo _") | _ => false end);
(1826%N, match remove_emphasis E Github (lit "foo ****") with Ok r => seqb r (lit "foo ****") | _ => false end);
(1834%N, match remove_emphasis E Github (lit "foo **\***") with Ok r => seqb r (lit "foo \*") | _ => false end);
(1840%N, match remove_emphasis E Github (lit "foo **_**") with Ok r => seqb r (lit "foo _") | _ => false end);
(1845%N, match remove_emphasis E Github (lit "**foo*") with Ok r => seqb r (lit "*foo") | _ => false end);
(1850%N, match remove_emphasis E Github (lit "*foo**") with Ok r => seqb r (lit "foo*") | _ => false end);
(1855%N, match remove_emphasis E Github (lit "***foo**") with Ok r => seqb r (lit "*foo") | _ => false end);
(1860%N, match remove_emphasis E Github (lit "****foo*") with Ok r => seqb r (lit "***foo") | _ => false end);
(1865%N, match remove_emphasis E Github (lit "**foo***") with Ok r => seqb r (lit "foo*") | _ => false end);
(1870%N, match remove_emphasis E Github (lit "*foo****") with Ok r => seqb r (lit "foo***") | _ => false end);
(1875%N, match remove_emphasis E Github (lit "foo ___") with Ok r => seqb r (lit "foo ___") | _ => false end);
(1883%N, match remove_emphasis E Github (lit "foo _\__") with Ok r => seqb r (lit "foo \_") | _ => false end);
(1889%N, match remove_emphasis E Github (lit "foo _*_") with Ok r => seqb r (lit "foo *") | _ => false end);
(1894%N, match remove_emphasis E Github (lit "foo _____") with Ok r => seqb r (lit "foo _____") | _ => false end);
(1902%N, match remove_emphasis E Github (lit "foo __\___") with Ok r => seqb r (lit "foo \_") | _ => false end);
(1908%N, match remove_emphasis E Github (lit "foo __*__") with Ok r => seqb r (lit "foo *") | _ => false end);
(1913%N, match remove_emphasis E Github (lit "__foo_") with Ok r => seqb r (lit "_foo") | _ => false end);
(1918%N, match remove_emphasis E Github (lit "_foo__") with Ok r => seqb r (lit "foo_") | _ => false end);
(1923%N, match remove_emphasis E Github (lit "___foo__") with Ok r => seqb r (lit "_foo") | _ => false end);
(1928%N, match remove_emphasis E Github (lit "____foo_") with Ok r => seqb r (lit "___foo") | _ => false end);
(1933%N, match remove_emphasis E Github (lit "__foo___") with Ok r => seqb r (lit "foo_") | _ => false end);
(1938%N, match remove_emphasis E Github (lit "_foo____") with Ok r => seqb r (lit "foo___") | _ => false end);
(1943%N, match remove_emphasis E Github (lit "**foo**") with Ok r => seqb r (lit "foo") | _ => false end);
(1948%N, match remove_emphasis E Github (lit "*_foo_*") with Ok r => seqb r (lit "foo") | _ => false end);
(1953%N, match remove_emphasis E Github (lit "__foo__") with Ok r => seqb r (lit "foo") | _ => false end);
(1958%N, match remove_emphasis E Github (lit "_*foo*_") with Ok r => seqb r (lit "foo") | _ => false end);
(1963%N, match remove_emphasis E Github (lit "****foo****") with Ok r => seqb r (lit "foo") | _ => false end);
(1968%N, match remove_emphasis E Github (lit "____foo____") with Ok r => seqb r (lit "foo") | _ => false end);
(1973%N, match remove_emphasis E Github (lit "******foo******") with Ok r => seqb r (lit "foo") | _ => false end);
(1978%N, match remove_emphasis E Github (lit "***foo***") with Ok r => seqb r (lit "foo") | _ => false end);
(1983%N, match remove_emphasis E Github (lit "_____foo_____") with Ok r => seqb r (lit "foo") | _ => false end);
(1988%N, match remove_emphasis E Github (lit "*foo _bar* baz_") with Ok r => seqb r (lit "foo _bar baz_") | _ => false end);
(1994%N, match remove_emphasis E Github (lit "*foo __bar *baz bim__ bam*") with Ok r => seqb r (lit "foo bar *baz bim bam") | _ => false end);
(2000%N, match remove_emphasis E Github (lit "**foo **bar baz**") with Ok r => seqb r (lit "**foo bar baz") | _ => false end);
(2006%N, match remove_emphasis E Github (lit "*foo *bar baz*") with Ok r => seqb r (lit "*foo bar baz") | _ => false end);
(2011%N, match remove_emphasis E Github (lit "*[bar*](/url)") with Ok r => seqb r (lit "*[bar*](/url)") | _ => false end);
(2014%N, match remove_emphasis E Github (lit "*[*bar](/url)") with Ok r => seqb r (lit "*[*bar](/url)") | _ => false end);
(2015%N, match remove_emphasis E Github (lit "*[*bar](*/url*)") with Ok r => seqb r (lit "*[*bar](*/url*)") | _ => false end);
(2017%N, match remove_emphasis E Github (lit "*[bar](/url)*") with Ok r => seqb r (lit "[bar](/url)") | _ => false end);
(2018%N, match remove_emphasis E Github (lit "*[bar*] (/url)") with Ok r => seqb r (lit "[bar] (/url)") | _ => false end);
(2019%N, match remove_emphasis E Github (lit "[bar](/url*)*") with Ok r => seqb r (lit "[bar](/url*)*") | _ => false end);
(2020%N, match remove_emphasis E Github (lit "[bar](/url**)**") with Ok r => seqb r (lit "[bar](/url**)**") | _ => false end);
(2026%N, match remove_emphasis E Github (lit "_foo [bar_](/url)") with Ok r => seqb r (lit "_foo [bar_](/url)") | _ => false end);
(2032%N, match remove_emphasis E Github (lit "*<img src=""foo"" title=""*""/>") with Ok r => seqb r (lit "*<img src=""foo"" title=""*""/>") | _ => false end);
(2038%N, match remove_emphasis E Github (lit "**<a href=""**"">") with Ok r => seqb r (lit "**<a href=""**"">") | _ => false end);
(2044%N, match remove_emphasis E Github (lit "__<a href=""__"">") with Ok r => seqb r (lit "__<a href=""__"">") | _ => false end);
(2050%N, match remove_emphasis E Github (lit "*a `*`*") with Ok r => seqb r (lit "a `*`") | _ => false end);
(2053%N, match remove_emphasis E Github (lit "*a `****`*") with Ok r => seqb r (lit "a `****`") | _ => false end);
(2054%N, match remove_emphasis E Github (lit "*a `** **`*") with Ok r => seqb r (lit "a `** **`") | _ => false end);
(2055%N, match remove_emphasis E Github (lit "*a `**** `*") with Ok r => seqb r (lit "a `**** `") | _ => false end);
(2060%N, match remove_emphasis E Github (lit "_a `_`_") with Ok r => seqb r (lit "a `_`") | _ => false end);
(2063%N, match remove_emphasis E Github (lit "_a `____`_") with Ok r => seqb r (lit "a `____`") | _ => false end);
(2064%N, match remove_emphasis E Github (lit "_a `__ __`_") with Ok r => seqb r (lit "a `__ __`") | _ => false end);
(2065%N, match remove_emphasis E Github (lit "_a `____ `_") with Ok r => seqb r (lit "a `____ `") | _ => false end);
(2082%N, match remove_emphasis E Github (lit "*[bar*](/uri ""title"")") with Ok r => seqb r (lit "*[bar*](/uri ""title"")") | _ => false end);
(2085%N, match remove_emphasis E Github (lit "_[bar_](/uri ""title"")") with Ok r => seqb r (lit "_[bar_](/uri ""title"")") | _ => false end);
(2093%N, match remove_emphasis E Github (lit "*[*](./target.md)") with Ok r => seqb r (lit "*[*](./target.md)") | _ => false end);
(2095%N, match remove_emphasis E Github (lit "[](*./target.md)*") with Ok r => seqb r (lit "[](*./target.md)*") | _ => false end);
(2097%N, match remove_emphasis E Github (lit "_[_](./target.md)") with Ok r => seqb r (lit "_[_](./target.md)") | _ => false end);
(2099%N, match remove_emphasis E Github (lit "[](_./target.md)_") with Ok r => seqb r (lit "[](_./target.md)_") | _ => false end);
(2103%N, match remove_emphasis E Github (lit "*[link*]()") with Ok r => seqb r (lit "*[link*]()") | _ => false end);
(2104%N, match remove_emphasis E Github (lit "[link](*)*") with Ok r => seqb r (lit "[link](*)*") | _ => false end);
(2105%N, match remove_emphasis E Github (lit "_[link_]()") with Ok r => seqb r (lit "_[link_]()") | _ => false end);
(2106%N, match remove_emphasis E Github (lit "[link](_)_") with Ok r => seqb r (lit "[link](_)_") | _ => false end);
(2109%N, match remove_emphasis E Github (lit "*[link*](<>)") with Ok r => seqb r (lit "*[link*](<>)") | _ => false end);
(2110%N, match remove_emphasis E Github (lit "[link](*<>)*") with Ok r => seqb r (lit "[link](*<>)*") | _ => false end);
(2111%N, match remove_emphasis E Github (lit "_[link_](<>)") with Ok r => seqb r (lit "_[link_](<>)") | _ => false end);
(2112%N, match remove_emphasis E Github (lit "[link](_<>)_") with Ok r => seqb r (lit "[link](_<>)_") | _ => false end);
(2115%N, match remove_emphasis E Github (lit "*[*]()") with Ok r => seqb r (lit "*[*]()") | _ => false end);
(2116%N, match remove_emphasis E Github (lit "[](*)*") with Ok r => seqb r (lit "[](*)*") | _ => false end);
(2117%N, match remove_emphasis E Github (lit "_[_]()") with Ok r => seqb r (lit "_[_]()") | _ => false end);
(2118%N, match remove_emphasis E Github (lit "[](_)_") with Ok r => seqb r (lit "[](_)_") | _ => false end);
(2121%N, match remove_emphasis E Github (lit "*[link*](/my uri)") with Ok r => seqb r (lit "[link](/my uri)") | _ => false end);
(2123%N, match remove_emphasis E Github (lit "[link](*/my uri)*") with Ok r => seqb r (lit "[link](/my uri)") | _ => false end);
(2126%N, match remove_emphasis E Github (lit "[link](_/my uri)_") with Ok r => seqb r (lit "[link](/my uri)") | _ => false end);
(2130%N, match remove_emphasis E Github (lit "*[link*](</my uri>)") with Ok r => seqb r (lit "*[link*](</my uri>)") | _ => false end);
(2132%N, match remove_emphasis E Github (lit "[link](</my *uri>)*") with Ok r => seqb r (lit "[link](</my *uri>)*") | _ => false end);
(2134%N, match remove_emphasis E Github (lit "_[link_](</my uri>)") with Ok r => seqb r (lit "_[link_](</my uri>)") | _ => false end);
(2136%N, match remove_emphasis E Github (lit "[link](</my _uri>)_") with Ok r => seqb r (lit "[link](</my _uri>)_") | _ => false end);
(2140%N, match remove_emphasis E Github [42%N; 91%N; 108%N; 105%N; 110%N; 107%N; 42%N; 93%N; 40%N; 102%N; 111%N; 111%N; 10%N; 98%N; 97%N; 114%N; 41%N] with Ok r => seqb r [91%N; 108%N; 105%N; 110%N; 107%N; 93%N; 40%N; 102%N; 111%N; 111%N; 10%N; 98%N; 97%N; 114%N; 41%N] | _ => false end);
(2142%N, match remove_emphasis E Github [91%N; 108%N; 105%N; 110%N; 107%N; 93%N; 40%N; 42%N; 102%N; 111%N; 111%N; 10%N; 98%N; 97%N; 114%N; 41%N; 42%N] with Ok r => seqb r [91%N; 108%N; 105%N; 110%N; 107%N; 93%N; 40%N; 102%N; 111%N; 111%N; 10%N; 98%N; 97%N; 114%N; 41%N] | _ => false end);
(2145%N, match remove_emphasis E Github [91%N; 108%N; 105%N; 110%N; 107%N; 93%N; 40%N; 95%N; 102%N; 111%N; 111%N; 10%N; 98%N; 97%N; 114%N; 41%N; 95%N] with Ok r => seqb r [91%N; 108%N; 105%N; 110%N; 107%N; 93%N; 40%N; 102%N; 111%N; 111%N; 10%N; 98%N; 97%N; 114%N; 41%N] | _ => false end);
(2149%N, match remove_emphasis E Github [42%N; 91%N; 108%N; 105%N; 110%N; 107%N; 42%N; 93%N; 40%N; 60%N; 102%N; 111%N; 111%N; 10%N; 98%N; 97%N; 114%N; 62%N; 41%N] with Ok r => seqb r [91%N; 108%N; 105%N; 110%N; 107%N; 93%N; 40%N; 60%N; 102%N; 111%N; 111%N; 10%N; 98%N; 97%N; 114%N; 62%N; 41%N] | _ => false end);
(2151%N, match remove_emphasis E Github [91%N; 108%N; 105%N; 110%N; 107%N; 93%N; 40%N; 42%N; 60%N; 102%N; 111%N; 111%N; 10%N; 98%N; 97%N; 114%N; 62%N; 41%N; 42%N] with Ok r => seqb r [91%N; 108%N; 105%N; 110%N; 107%N; 93%N; 40%N; 60%N; 102%N; 111%N; 111%N; 10%N; 98%N; 97%N; 114%N; 62%N; 41%N] | _ => false end);
(2154%N, match remove_emphasis E Github [91%N; 108%N; 105%N; 110%N; 107%N; 93%N; 40%N; 95%N; 60%N; 102%N; 111%N; 111%N; 10%N; 98%N; 97%N; 114%N; 62%N; 41%N; 95%N] with Ok r => seqb r [91%N; 108%N; 105%N; 110%N; 107%N; 93%N; 40%N; 60%N; 102%N; 111%N; 111%N; 10%N; 98%N; 97%N; 114%N; 62%N; 41%N] | _ => false end);
(2158%N, match remove_emphasis E Github (lit "*[a*](<b)c>)") with Ok r => seqb r (lit "*[a*](<b)c>)") | _ => false end);
(2159%N, match remove_emphasis E Github (lit "[a](*<b)c>)*") with Ok r => seqb r (lit "[a](*<b)c>)*") | _ => false end);
(2160%N, match remove_emphasis E Github (lit "_[a_](<b)c>)") with Ok r => seqb r (lit "_[a_](<b)c>)") | _ => false end);
(2161%N, match remove_emphasis E Github (lit "[a](_<b)c>)_") with Ok r => seqb r (lit "[a](_<b)c>)_") | _ => false end);
(2164%N, match remove_emphasis E Github (lit "*[link*](<foo\>)") with Ok r => seqb r (lit "[link](<foo\>)") | _ => false end);
(2167%N, match remove_emphasis E Github (lit "_[link_](<foo\>)") with Ok r => seqb r (lit "[link](<foo\>)") | _ => false end);
(2172%N, match remove_emphasis E Github (lit "*[a*](<b)c") with Ok r => seqb r (lit "[a](<b)c") | _ => false end);
(2174%N, match remove_emphasis E Github (lit "_[a_](<b)c") with Ok r => seqb r (lit "[a](<b)c") | _ => false end);
(2177%N, match remove_emphasis E Github (lit "*[a*](<b)c>") with Ok r => seqb r (lit "[a](<b)c>") | _ => false end);
(2179%N, match remove_emphasis E Github (lit "_[a_](<b)c>") with Ok r => seqb r (lit "[a](<b)c>") | _ => false end);
(2182%N, match remove_emphasis E Github (lit "*[a*](<b>c)") with Ok r => seqb r (lit "[a](<b>c)") | _ => false end);
(2184%N, match remove_emphasis E Github (lit "_[a_](<b>c)") with Ok r => seqb r (lit "[a](<b>c)") | _ => false end);
(2188%N, match remove_emphasis E Github (lit "*[link*](\(foo\))") with Ok r => seqb r (lit "*[link*](\(foo\))") | _ => false end);
(2190%N, match remove_emphasis E Github (lit "[link](*\(foo\))*") with Ok r => seqb r (lit "[link](*\(foo\))*") | _ => false end);
(2192%N, match remove_emphasis E Github (lit "_[link_](\(foo\))") with Ok r => seqb r (lit "_[link_](\(foo\))") | _ => false end);
(2194%N, match remove_emphasis E Github (lit "[link](_\(foo\))_") with Ok r => seqb r (lit "[link](_\(foo\))_") | _ => false end);
(2198%N, match remove_emphasis E Github (lit "*[link*](foo(and(bar)))") with Ok r => seqb r (lit "*[link*](foo(and(bar)))") | _ => false end);
(2200%N, match remove_emphasis E Github (lit "[link](*foo(and(bar)))*") with Ok r => seqb r (lit "[link](*foo(and(bar)))*") | _ => false end);
(2202%N, match remove_emphasis E Github (lit "_[link_](foo(and(bar)))") with Ok r => seqb r (lit "_[link_](foo(and(bar)))") | _ => false end);
(2204%N, match remove_emphasis E Github (lit "[link](_foo(and(bar)))_") with Ok r => seqb r (lit "[link](_foo(and(bar)))_") | _ => false end);
(2208%N, match remove_emphasis E Github (lit "*[link*](foo(and(bar))") with Ok r => seqb r (lit "[link](foo(and(bar))") | _ => false end);
(2210%N, match remove_emphasis E Github (lit "[link](*foo(and(bar))*") with Ok r => seqb r (lit "[link](foo(and(bar))") | _ => false end);
(2213%N, match remove_emphasis E Github (lit "[link](_foo(and(bar))_") with Ok r => seqb r (lit "[link](foo(and(bar))") | _ => false end);
(2217%N, match remove_emphasis E Github (lit "*[link*](foo\(and\(bar\))") with Ok r => seqb r (lit "*[link*](foo\(and\(bar\))") | _ => false end);
(2219%N, match remove_emphasis E Github (lit "[link](*foo\(and\(bar\))*") with Ok r => seqb r (lit "[link](*foo\(and\(bar\))*") | _ => false end);
(2221%N, match remove_emphasis E Github (lit "_[link_](foo\(and\(bar\))") with Ok r => seqb r (lit "_[link_](foo\(and\(bar\))") | _ => false end);
(2223%N, match remove_emphasis E Github (lit "[link](_foo\(and\(bar\))_") with Ok r => seqb r (lit "[link](_foo\(and\(bar\))_") | _ => false end);
(2227%N, match remove_emphasis E Github (lit "*[link*](<foo(and(bar)>)") with Ok r => seqb r (lit "*[link*](<foo(and(bar)>)") | _ => false end);
(2230%N, match remove_emphasis E Github (lit "_[link_](<foo(and(bar)>)") with Ok r => seqb r (lit "_[link_](<foo(and(bar)>)") | _ => false end);
(2235%N, match remove_emphasis E Github (lit "*[link*](foo\)\:)") with Ok r => seqb r (lit "*[link*](foo\)\:)") | _ => false end);
(2237%N, match remove_emphasis E Github (lit "[link](*foo\)\:)*") with Ok r => seqb r (lit "[link](*foo\)\:)*") | _ => false end);
(2239%N, match remove_emphasis E Github (lit "_[link_](foo\)\:)") with Ok r => seqb r (lit "_[link_](foo\)\:)") | _ => false end);
(2241%N, match remove_emphasis E Github (lit "[link](_foo\)\:)_") with Ok r => seqb r (lit "[link](_foo\)\:)_") | _ => false end);
(2245%N, match remove_emphasis E Github (lit "*[*link](#fragment)") with Ok r => seqb r (lit "*[*link](#fragment)") | _ => false end);
(2247%N, match remove_emphasis E Github (lit "[link](#fragment*)*") with Ok r => seqb r (lit "[link](#fragment*)*") | _ => false end);
(2249%N, match remove_emphasis E Github (lit "_[_link](#fragment)") with Ok r => seqb r (lit "_[_link](#fragment)") | _ => false end);
(2251%N, match remove_emphasis E Github (lit "[link](#fragment_)_") with Ok r => seqb r (lit "[link](#fragment_)_") | _ => false end);
(2255%N, match remove_emphasis E Github (lit "*[*link](http://example.com#fragment)") with Ok r => seqb r (lit "*[*link](http://example.com#fragment)") | _ => false end);
(2258%N, match remove_emphasis E Github (lit "[link](http://example.com#fragment*)*") with Ok r => seqb r (lit "[link](http://example.com#fragment*)*") | _ => false end);
(2261%N, match remove_emphasis E Github (lit "_[_link](http://example.com#fragment)") with Ok r => seqb r (lit "_[_link](http://example.com#fragment)") | _ => false end);
(2264%N, match remove_emphasis E Github (lit "[link](http://example.com#fragment_)_") with Ok r => seqb r (lit "[link](http://example.com#fragment_)_") | _ => false end);
(2268%N, match remove_emphasis E Github (lit "*[*link](http://example.com?foo=3#frag)") with Ok r => seqb r (lit "*[*link](http://example.com?foo=3#frag)") | _ => false end);
(2271%N, match remove_emphasis E Github (lit "[link](http://example.com?foo=3#frag*)*") with Ok r => seqb r (lit "[link](http://example.com?foo=3#frag*)*") | _ => false end);
(2274%N, match remove_emphasis E Github (lit "_[_link](http://example.com?foo=3#frag)") with Ok r => seqb r (lit "_[_link](http://example.com?foo=3#frag)") | _ => false end);
(2277%N, match remove_emphasis E Github (lit "[link](http://example.com?foo=3#frag_)_") with Ok r => seqb r (lit "[link](http://example.com?foo=3#frag_)_") | _ => false end);
(2281%N, match remove_emphasis E Github (lit "*[link*](foo\bar)") with Ok r => seqb r (lit "*[link*](foo\bar)") | _ => false end);
(2283%N, match remove_emphasis E Github (lit "[link](*foo\bar)*") with Ok r => seqb r (lit "[link](*foo\bar)*") | _ => false end);
(2285%N, match remove_emphasis E Github (lit "_[link_](foo\bar)") with Ok r => seqb r (lit "_[link_](foo\bar)") | _ => false end);
(2287%N, match remove_emphasis E Github (lit "[link](_foo\bar)_") with Ok r => seqb r (lit "[link](_foo\bar)_") | _ => false end);
(2291%N, match remove_emphasis E Github (lit "*[link*](foo%20b&auml;)") with Ok r => seqb r (lit "*[link*](foo%20b&auml;)") | _ => false end);
(2293%N, match remove_emphasis E Github (lit "[link](*foo%20b&auml;)*") with Ok r => seqb r (lit "[link](*foo%20b&auml;)*") | _ => false end);
(2295%N, match remove_emphasis E Github (lit "_[link_](foo%20b&auml;)") with Ok r => seqb r (lit "_[link_](foo%20b&auml;)") | _ => false end);
(2297%N, match remove_emphasis E Github (lit "[link](_foo%20b&auml;)_") with Ok r => seqb r (lit "[link](_foo%20b&auml;)_") | _ => false end);
(2301%N, match remove_emphasis E Github (lit "*[link*](""title"")") with Ok r => seqb r (lit "*[link*](""title"")") | _ => false end);
(2303%N, match remove_emphasis E Github (lit "[link](*""title"")*") with Ok r => seqb r (lit "[link](*""title"")*") | _ => false end);
(2305%N, match remove_emphasis E Github (lit "_[link_](""title"")") with Ok r => seqb r (lit "_[link_](""title"")") | _ => false end);
(2307%N, match remove_emphasis E Github (lit "[link](_""title"")_") with Ok r => seqb r (lit "[link](_""title"")_") | _ => false end);
(2311%N, match remove_emphasis E Github (lit "*[link*](/url ""title"")") with Ok r => seqb r (lit "*[link*](/url ""title"")") | _ => false end);
(2314%N, match remove_emphasis E Github (lit "*[link*](/url 'title')") with Ok r => seqb r (lit "*[link*](/url 'title')") | _ => false end);
(2323%N, match remove_emphasis E Github (lit "*[link*](/url ""title"")") with Ok r => seqb r (lit "*[link*](/url ""title"")") | _ => false end);
(2328%N, match remove_emphasis E Github (lit "*[link*](/url ""title ""and"" title"")") with Ok r => seqb r (lit "[link](/url ""title ""and"" title"")") | _ => false end);
(2333%N, match remove_emphasis E Github (lit "*[link*](/url 'title ""and"" title')") with Ok r => seqb r (lit "*[link*](/url 'title ""and"" title')") | _ => false end);
(2337%N, match remove_emphasis E Github [42%N; 91%N; 108%N; 105%N; 110%N; 107%N; 42%N; 93%N; 40%N; 32%N; 32%N; 32%N; 47%N; 117%N; 114%N; 105%N; 10%N; 32%N; 32%N; 34%N; 116%N; 105%N; 116%N; 108%N; 101%N; 34%N; 32%N; 32%N; 41%N] with Ok r => seqb r [42%N; 91%N; 108%N; 105%N; 110%N; 107%N; 42%N; 93%N; 40%N; 32%N; 32%N; 32%N; 47%N; 117%N; 114%N; 105%N; 10%N; 32%N; 32%N; 34%N; 116%N; 105%N; 116%N; 108%N; 101%N; 34%N; 32%N; 32%N; 41%N] | _ => false end);
(2341%N, match remove_emphasis E Github (lit "*[link*] (uri)") with Ok r => seqb r (lit "[link] (uri)") | _ => false end);
(2343%N, match remove_emphasis E Github (lit "[link] (*uri)*") with Ok r => seqb r (lit "[link] (uri)") | _ => false end);
(2346%N, match remove_emphasis E Github (lit "[link] (_uri)_") with Ok r => seqb r (lit "[link] (uri)") | _ => false end);
(2350%N, match remove_emphasis E Github (lit "*[link* [foo [bar]]](/uri)") with Ok r => seqb r (lit "*[link* [foo [bar]]](/uri)") | _ => false end);
(2354%N, match remove_emphasis E Github (lit "*[link*] (uri)") with Ok r => seqb r (lit "[link] (uri)") | _ => false end);
(2358%N, match remove_emphasis E Github (lit "*[link* *[bar*](/uri)") with Ok r => seqb r (lit "[link *[bar*](/uri)") | _ => false end);
(2362%N, match remove_emphasis E Github (lit "*[link* *\[bar*](/uri)") with Ok r => seqb r (lit "*[link* \[bar](/uri)") | _ => false end);
(2367%N, match remove_emphasis E Github (lit "[link *foo **bar** `#`*](/uri)") with Ok r => seqb r (lit "[link foo bar `#`](/uri)") | _ => false end);
(2371%N, match remove_emphasis E Github (lit "[![moon](moon.jpg)](/uri)") with Ok r => seqb r (lit "[![moon](moon.jpg)](/uri)") | _ => false end);
(2375%N, match remove_emphasis E Github (lit "*[foo* [bar](/uri)](/uri)") with Ok r => seqb r (lit "[foo [bar](/uri)](/uri)") | _ => false end);
(2380%N, match remove_emphasis E Github (lit "[foo *[bar [baz](/uri)](/uri)*](/uri)") with Ok r => seqb r (lit "[foo [bar [baz](/uri)](/uri)](/uri)") | _ => false end);
(2384%N, match remove_emphasis E Github (lit "![[[foo](uri1)](uri2)](uri3)") with Ok r => seqb r (lit "![[[foo](uri1)](uri2)](uri3)") | _ => false end);
(2388%N, match remove_emphasis E Github (lit "*[foo*](/uri)") with Ok r => seqb r (lit "*[foo*](/uri)") | _ => false end);
(2392%N, match remove_emphasis E Github (lit "[foo *bar](baz*)") with Ok r => seqb r (lit "[foo *bar](baz*)") | _ => false end);
(2396%N, match remove_emphasis E Github (lit "*foo [bar* baz]") with Ok r => seqb r (lit "foo [bar baz]") | _ => false end);
(2400%N, match remove_emphasis E Github (lit "[foo <bar attr=""](baz)"">") with Ok r => seqb r (lit "[foo <bar attr=""](baz)"">") | _ => false end);
(2404%N, match remove_emphasis E Github (lit "[foo`](/uri)`") with Ok r => seqb r (lit "[foo`](/uri)`") | _ => false end);
(2409%N, match remove_emphasis E Github (lit "[foo<http://example.com/?search=](uri)>") with Ok r => seqb r (lit "[foo<http://example.com/?search=](uri)>") | _ => false end);
(2415%N, match remove_emphasis E Github (lit "_j\_") with Ok r => seqb r (lit "_j\_") | _ => false end);
(2425%N, seqb (remove_html_tags E Github (lit "<a><bab><c2c>")) []);
(2429%N, seqb (remove_html_tags E Cmark (lit "<a><bab><c2c>")) []);
(2438%N, seqb (remove_html_tags E Github (lit "<a/><b2/>")) []);
(2442%N, seqb (remove_html_tags E Cmark (lit "<a/><b2/>")) []);
(2452%N, seqb (remove_html_tags E Github [60%N; 97%N; 32%N; 32%N; 47%N; 62%N; 60%N; 98%N; 50%N; 10%N; 100%N; 97%N; 116%N; 97%N; 61%N; 34%N; 102%N; 111%N; 111%N; 34%N; 32%N; 62%N]) []);
(2456%N, seqb (remove_html_tags E Github [60%N; 97%N; 32%N; 32%N; 47%N; 62%N; 60%N; 98%N; 50%N; 13%N; 10%N; 100%N; 97%N; 116%N; 97%N; 61%N; 34%N; 102%N; 111%N; 111%N; 34%N; 32%N; 62%N]) []);
(2460%N, seqb (remove_html_tags E Github [60%N; 97%N; 32%N; 32%N; 47%N; 62%N; 60%N; 98%N; 50%N; 13%N; 100%N; 97%N; 116%N; 97%N; 61%N; 34%N; 102%N; 111%N; 111%N; 34%N; 32%N; 62%N]) []);
(2464%N, seqb (remove_html_tags E Github [60%N; 97%N; 32%N; 32%N; 47%N; 62%N; 60%N; 98%N; 50%N; 10%N; 13%N; 100%N; 97%N; 116%N; 97%N; 61%N; 34%N; 102%N; 111%N; 111%N; 34%N; 32%N; 62%N]) []);
(2468%N, seqb (remove_html_tags E Github [60%N; 97%N; 9%N; 47%N; 62%N; 60%N; 98%N; 50%N; 10%N; 100%N; 97%N; 116%N; 97%N; 61%N; 34%N; 102%N; 111%N; 111%N; 34%N; 32%N; 62%N]) []);
(2473%N, seqb (remove_html_tags E Github [60%N; 97%N; 9%N; 9%N; 32%N; 32%N; 47%N; 62%N; 60%N; 98%N; 50%N; 10%N; 10%N; 100%N; 97%N; 116%N; 97%N; 61%N; 34%N; 102%N; 111%N; 111%N; 34%N; 32%N; 62%N]) []);
(2478%N, seqb (remove_html_tags E Cmark [60%N; 97%N; 32%N; 32%N; 47%N; 62%N; 60%N; 98%N; 50%N; 10%N; 100%N; 97%N; 116%N; 97%N; 61%N; 34%N; 102%N; 111%N; 111%N; 34%N; 32%N; 62%N]) []);
(2482%N, seqb (remove_html_tags E Cmark [60%N; 97%N; 32%N; 32%N; 47%N; 62%N; 60%N; 98%N; 50%N; 13%N; 10%N; 100%N; 97%N; 116%N; 97%N; 61%N; 34%N; 102%N; 111%N; 111%N; 34%N; 32%N; 62%N]) []);
(2486%N, seqb (remove_html_tags E Cmark [60%N; 97%N; 32%N; 32%N; 47%N; 62%N; 60%N; 98%N; 50%N; 13%N; 100%N; 97%N; 116%N; 97%N; 61%N; 34%N; 102%N; 111%N; 111%N; 34%N; 32%N; 62%N]) []);
(2490%N, seqb (remove_html_tags E Cmark [60%N; 97%N; 32%N; 32%N; 47%N; 62%N; 60%N; 98%N; 50%N; 10%N; 13%N; 100%N; 97%N; 116%N; 97%N; 61%N; 34%N; 102%N; 111%N; 111%N; 34%N; 32%N; 62%N]) [60%N; 98%N; 50%N; 10%N; 13%N; 100%N; 97%N; 116%N; 97%N; 61%N; 34%N; 102%N; 111%N; 111%N; 34%N; 32%N; 62%N]);
(2494%N, seqb (remove_html_tags E Cmark [60%N; 97%N; 9%N; 9%N; 32%N; 32%N; 47%N; 62%N; 60%N; 98%N; 50%N; 10%N; 100%N; 97%N; 116%N; 97%N; 61%N; 34%N; 102%N; 111%N; 111%N; 34%N; 32%N; 62%N]) []);
(2499%N, seqb (remove_html_tags E Cmark [60%N; 97%N; 9%N; 47%N; 62%N; 60%N; 98%N; 50%N; 10%N; 10%N; 100%N; 97%N; 116%N; 97%N; 61%N; 34%N; 102%N; 111%N; 111%N; 34%N; 32%N; 62%N]) [60%N; 98%N; 50%N; 10%N; 10%N; 100%N; 97%N; 116%N; 97%N; 61%N; 34%N; 102%N; 111%N; 111%N; 34%N; 32%N; 62%N]);
(2508%N, seqb (remove_html_tags E Github [60%N; 97%N; 32%N; 102%N; 111%N; 111%N; 61%N; 34%N; 98%N; 97%N; 114%N; 34%N; 32%N; 98%N; 97%N; 109%N; 32%N; 61%N; 32%N; 39%N; 98%N; 97%N; 122%N; 32%N; 60%N; 101%N; 109%N; 62%N; 34%N; 60%N; 47%N; 101%N; 109%N; 62%N; 39%N; 10%N; 95%N; 98%N; 111%N; 111%N; 108%N; 101%N; 97%N; 110%N; 32%N; 122%N; 111%N; 111%N; 112%N; 58%N; 51%N; 51%N; 61%N; 122%N; 111%N; 111%N; 112%N; 58%N; 51%N; 51%N; 32%N; 47%N; 62%N]) []);
(2514%N, seqb (remove_html_tags E Cmark [60%N; 97%N; 32%N; 102%N; 111%N; 111%N; 61%N; 34%N; 98%N; 97%N; 114%N; 34%N; 32%N; 98%N; 97%N; 109%N; 32%N; 61%N; 32%N; 39%N; 98%N; 97%N; 122%N; 32%N; 60%N; 101%N; 109%N; 62%N; 34%N; 60%N; 47%N; 101%N; 109%N; 62%N; 39%N; 10%N; 95%N; 98%N; 111%N; 111%N; 108%N; 101%N; 97%N; 110%N; 32%N; 122%N; 111%N; 111%N; 112%N; 58%N; 51%N; 51%N; 61%N; 122%N; 111%N; 111%N; 112%N; 58%N; 51%N; 51%N; 32%N; 47%N; 62%N]) []);
(2525%N, seqb (remove_html_tags E Github (lit "Foo <responsive-image src=""foo.jpg"" />")) (lit "Foo "));
(2530%N, seqb (remove_html_tags E Cmark (lit "Foo <responsive-image src=""foo.jpg"" />")) (lit "Foo "));
(2540%N, seqb (remove_html_tags E Github (lit "<33> <__>")) (lit "<33> <__>"));
(2544%N, seqb (remove_html_tags E Cmark (lit "<33> <__>")) (lit "<33> <__>"));
(2553%N, seqb (remove_html_tags E Github (lit "<a h*#ref=""hi"">")) (lit "<a h*#ref=""hi"">"));
(2557%N, seqb (remove_html_tags E Cmark (lit "<a h*#ref=""hi"">")) (lit "<a h*#ref=""hi"">"));
(2566%N, seqb (remove_html_tags E Github (lit "<a href=""hi'> <a href=hi'>")) (lit "<a href=""hi'> <a href=hi'>"));
(2570%N, seqb (remove_html_tags E Cmark (lit "<a href=""hi'> <a href=hi'>")) (lit "<a href=""hi'> <a href=hi'>"));
(2579%N, seqb (remove_html_tags E Github [60%N; 32%N; 97%N; 62%N; 60%N; 10%N; 102%N; 111%N; 111%N; 62%N; 60%N; 98%N; 97%N; 114%N; 47%N; 32%N; 62%N]) [60%N; 32%N; 97%N; 62%N; 60%N; 10%N; 102%N; 111%N; 111%N; 62%N; 60%N; 98%N; 97%N; 114%N; 47%N; 32%N; 62%N]);
(2583%N, seqb (remove_html_tags E Cmark [60%N; 32%N; 97%N; 62%N; 60%N; 10%N; 102%N; 111%N; 111%N; 62%N; 60%N; 98%N; 97%N; 114%N; 47%N; 32%N; 62%N]) [60%N; 32%N; 97%N; 62%N; 60%N; 10%N; 102%N; 111%N; 111%N; 62%N; 60%N; 98%N; 97%N; 114%N; 47%N; 32%N; 62%N]);
(2592%N, seqb (remove_html_tags E Github (lit "<a href='bar'title=title>")) (lit "<a href='bar'title=title>"));
(2596%N, seqb (remove_html_tags E Cmark (lit "<a href='bar'title=title>")) (lit "<a href='bar'title=title>"));
(2605%N, seqb (remove_html_tags E Github (lit "</a></foo >")) []);
(2609%N, seqb (remove_html_tags E Cmark (lit "</a></foo >")) []);
(2618%N, seqb (remove_html_tags E Github (lit "</a href=""foo"">")) (lit "</a href=""foo"">"));
(2622%N, seqb (remove_html_tags E Cmark (lit "</a href=""foo"">")) (lit "</a href=""foo"">"));
(2631%N, seqb (remove_html_tags E Github [102%N; 111%N; 111%N; 32%N; 60%N; 33%N; 45%N; 45%N; 32%N; 116%N; 104%N; 105%N; 115%N; 32%N; 105%N; 115%N; 32%N; 97%N; 10%N; 99%N; 111%N; 109%N; 109%N; 101%N; 110%N; 116%N; 32%N; 45%N; 32%N; 119%N; 105%N; 116%N; 104%N; 32%N; 104%N; 121%N; 112%N; 104%N; 101%N; 110%N; 32%N; 45%N; 45%N; 62%N]) (lit "foo "));
(2636%N, seqb (remove_html_tags E Cmark [102%N; 111%N; 111%N; 32%N; 60%N; 33%N; 45%N; 45%N; 32%N; 116%N; 104%N; 105%N; 115%N; 32%N; 105%N; 115%N; 32%N; 97%N; 10%N; 99%N; 111%N; 109%N; 109%N; 101%N; 110%N; 116%N; 32%N; 45%N; 32%N; 119%N; 105%N; 116%N; 104%N; 32%N; 104%N; 121%N; 112%N; 104%N; 101%N; 110%N; 32%N; 45%N; 45%N; 62%N]) (lit "foo "));
(2646%N, seqb (remove_html_tags E Github (lit "foo <!-- not a comment -- two hyphens -->")) (lit "foo <!-- not a comment -- two hyphens -->"));
(2651%N, seqb (remove_html_tags E Cmark (lit "foo <!-- not a comment -- two hyphens -->")) (lit "foo <!-- not a comment -- two hyphens -->"));
(2661%N, seqb (remove_html_tags E Cmark (lit "foo <!--> foo -->")) (lit "foo <!--> foo -->"));
(2665%N, seqb (remove_html_tags E Cmark (lit "foo <!-- foo--->")) (lit "foo <!-- foo--->"));
(2669%N, seqb (remove_html_tags E Cmark (lit "foo <!--> foo -->")) (lit "foo <!--> foo -->"));
(2673%N, seqb (remove_html_tags E Cmark (lit "foo <!-- foo--->")) (lit "foo <!-- foo--->"));
(2682%N, seqb (remove_html_tags E Github (lit "foo <?php echo $a; ?>")) (lit "foo "));
(2686%N, seqb (remove_html_tags E Cmark (lit "foo <?php echo $a; ?>")) (lit "foo "));
(2695%N, seqb (remove_html_tags E Github (lit "foo <!ELEMENT br EMPTY>")) (lit "foo "));
(2699%N, seqb (remove_html_tags E Cmark (lit "foo <!ELEMENT br EMPTY>")) (lit "foo "));
(2708%N, seqb (remove_html_tags E Github (lit "foo <![CDATA[>&<]]>")) (lit "foo "));
(2712%N, seqb (remove_html_tags E Cmark (lit "foo <![CDATA[>&<]]>")) (lit "foo "));
(2721%N, seqb (remove_html_tags E Github (lit "foo <a href=""&ouml;"">")) (lit "foo "));
(2725%N, seqb (remove_html_tags E Cmark (lit "foo <a href=""&ouml;"">")) (lit "foo "));
(2734%N, seqb (remove_html_tags E Github (lit "foo <a href=""\*"">")) (lit "foo "));
(2738%N, seqb (remove_html_tags E Cmark (lit "foo <a href=""\*"">")) (lit "foo "));
(2747%N, seqb (remove_html_tags E Github (lit "<a href="""""">")) (lit "<a href="""""">"));
(2751%N, seqb (remove_html_tags E Cmark (lit "<a href="""""">")) (lit "<a href="""""">"));
(2758%N, seqb (remove_html_tags E Github (lit "<title>")) (lit "<title>"));
(2759%N, seqb (remove_html_tags E Github (lit "<textarea>")) (lit "<textarea>"));
(2761%N, seqb (remove_html_tags E Github (lit "<style>")) (lit "<style>"));
(2762%N, seqb (remove_html_tags E Github (lit "<xmp>")) (lit "<xmp>"));
(2763%N, seqb (remove_html_tags E Github (lit "<iframe>")) (lit "<iframe>"));
(2765%N, seqb (remove_html_tags E Github (lit "<noembed>")) (lit "<noembed>"));
(2767%N, seqb (remove_html_tags E Github (lit "<noembed>")) (lit "<noembed>"));
(2769%N, seqb (remove_html_tags E Github (lit "<noframes>")) (lit "<noframes>"));
(2771%N, seqb (remove_html_tags E Github (lit "<script>")) (lit "<script>"));
(2773%N, seqb (remove_html_tags E Github (lit "<plaintext>")) (lit "<plaintext>"));
(2787%N, match anchor_link_punctuation_filter E Github [83%N; 101%N; 112%N; 116%N; 101%N; 109%N; 98%N; 101%N; 114%N; 8211%N; 79%N; 99%N; 116%N; 111%N; 98%N; 101%N; 114%N] with Ok r => seqb r (lit "SeptemberOctober") | _ => false end);
(2791%N, match anchor_link_punctuation_filter E Github [50%N; 58%N; 48%N; 48%N; 8211%N; 51%N; 58%N; 48%N; 48%N] with Ok r => seqb r (lit "200300") | _ => false end);
(2794%N, match anchor_link_punctuation_filter E Github [80%N; 97%N; 103%N; 101%N; 115%N; 32%N; 49%N; 49%N; 51%N; 8211%N; 49%N; 49%N; 55%N] with Ok r => seqb r (lit "Pages 113117") | _ => false end);
(2787%N, match anchor_link_punctuation_filter E Github [83%N; 101%N; 112%N; 116%N; 101%N; 109%N; 98%N; 101%N; 114%N; 8208%N; 79%N; 99%N; 116%N; 111%N; 98%N; 101%N; 114%N] with Ok r => seqb r (lit "SeptemberOctober") | _ => false end);
(2791%N, match anchor_link_punctuation_filter E Github [50%N; 58%N; 48%N; 48%N; 8208%N; 51%N; 58%N; 48%N; 48%N] with Ok r => seqb r (lit "200300") | _ => false end);
(2794%N, match anchor_link_punctuation_filter E Github [80%N; 97%N; 103%N; 101%N; 115%N; 32%N; 49%N; 49%N; 51%N; 8208%N; 49%N; 49%N; 55%N] with Ok r => seqb r (lit "Pages 113117") | _ => false end);
(2787%N, match anchor_link_punctuation_filter E Github [83%N; 101%N; 112%N; 116%N; 101%N; 109%N; 98%N; 101%N; 114%N; 8722%N; 79%N; 99%N; 116%N; 111%N; 98%N; 101%N; 114%N] with Ok r => seqb r (lit "SeptemberOctober") | _ => false end);
(2791%N, match anchor_link_punctuation_filter E Github [50%N; 58%N; 48%N; 48%N; 8722%N; 51%N; 58%N; 48%N; 48%N] with Ok r => seqb r (lit "200300") | _ => false end);
(2794%N, match anchor_link_punctuation_filter E Github [80%N; 97%N; 103%N; 101%N; 115%N; 32%N; 49%N; 49%N; 51%N; 8722%N; 49%N; 49%N; 55%N] with Ok r => seqb r (lit "Pages 113117") | _ => false end);
(2787%N, match anchor_link_punctuation_filter E Github [83%N; 101%N; 112%N; 116%N; 101%N; 109%N; 98%N; 101%N; 114%N; 8212%N; 79%N; 99%N; 116%N; 111%N; 98%N; 101%N; 114%N] with Ok r => seqb r (lit "SeptemberOctober") | _ => false end);
(2791%N, match anchor_link_punctuation_filter E Github [50%N; 58%N; 48%N; 48%N; 8212%N; 51%N; 58%N; 48%N; 48%N] with Ok r => seqb r (lit "200300") | _ => false end);
(2794%N, match anchor_link_punctuation_filter E Github [80%N; 97%N; 103%N; 101%N; 115%N; 32%N; 49%N; 49%N; 51%N; 8212%N; 49%N; 49%N; 55%N] with Ok r => seqb r (lit "Pages 113117") | _ => false end);
(2787%N, match anchor_link_punctuation_filter E Github [83%N; 101%N; 112%N; 116%N; 101%N; 109%N; 98%N; 101%N; 114%N; 9%N; 79%N; 99%N; 116%N; 111%N; 98%N; 101%N; 114%N] with Ok r => seqb r (lit "SeptemberOctober") | _ => false end);
(2791%N, match anchor_link_punctuation_filter E Github [50%N; 58%N; 48%N; 48%N; 9%N; 51%N; 58%N; 48%N; 48%N] with Ok r => seqb r (lit "200300") | _ => false end);
(2794%N, match anchor_link_punctuation_filter E Github [80%N; 97%N; 103%N; 101%N; 115%N; 32%N; 49%N; 49%N; 51%N; 9%N; 49%N; 49%N; 55%N] with Ok r => seqb r (lit "Pages 113117") | _ => false end);
(2787%N, match anchor_link_punctuation_filter E Github [83%N; 101%N; 112%N; 116%N; 101%N; 109%N; 98%N; 101%N; 114%N; 11%N; 79%N; 99%N; 116%N; 111%N; 98%N; 101%N; 114%N] with Ok r => seqb r (lit "SeptemberOctober") | _ => false end);
(2791%N, match anchor_link_punctuation_filter E Github [50%N; 58%N; 48%N; 48%N; 11%N; 51%N; 58%N; 48%N; 48%N] with Ok r => seqb r (lit "200300") | _ => false end);
(2794%N, match anchor_link_punctuation_filter E Github [80%N; 97%N; 103%N; 101%N; 115%N; 32%N; 49%N; 49%N; 51%N; 11%N; 49%N; 49%N; 55%N] with Ok r => seqb r (lit "Pages 113117") | _ => false end);
(2800%N, match anchor_link_punctuation_filter E Github (lit "SeptemberfooOctober") with Ok r => seqb r (lit "SeptemberfooOctober") | _ => false end);
(2804%N, match anchor_link_punctuation_filter E Github (lit "2:00foo3:00") with Ok r => seqb r (lit "200foo300") | _ => false end);
(2807%N, match anchor_link_punctuation_filter E Github (lit "Pages 113foo117") with Ok r => seqb r (lit "Pages 113foo117") | _ => false end);
(2800%N, match anchor_link_punctuation_filter E Github (lit "September-October") with Ok r => seqb r (lit "September-October") | _ => false end);
(2804%N, match anchor_link_punctuation_filter E Github (lit "2:00-3:00") with Ok r => seqb r (lit "200-300") | _ => false end);
(2807%N, match anchor_link_punctuation_filter E Github (lit "Pages 113-117") with Ok r => seqb r (lit "Pages 113-117") | _ => false end);
(2800%N, match anchor_link_punctuation_filter E Github (lit "September October") with Ok r => seqb r (lit "September October") | _ => false end);
(2804%N, match anchor_link_punctuation_filter E Github (lit "2:00 3:00") with Ok r => seqb r (lit "200 300") | _ => false end);
(2807%N, match anchor_link_punctuation_filter E Github (lit "Pages 113 117") with Ok r => seqb r (lit "Pages 113 117") | _ => false end);
(2835%N, match build_anchor_link E Gitlab [] (lit "foo   foo") with Ok (Some r,_) => seqb r (lit "foo-foo") | _ => false end);
(2841%N, match build_anchor_link E Gitlab [] (lit "foo------foo") with Ok (Some r,_) => seqb r (lit "foo-foo") | _ => false end);
(2846%N, match build_anchor_link E Gitlab [] (lit "foo------") with Ok (Some r,_) => seqb r (lit "foo-") | _ => false end);
(2850%N, match build_anchor_link E Gitlab [] (lit "------foo") with Ok (Some r,_) => seqb r (lit "-foo") | _ => false end);
(2857%N, seqb (join [0%N] (replace_and_split_newlines [10%N; 102%N; 111%N; 111%N; 10%N])) (lit "foo"));
(2860%N, seqb (join [0%N] (replace_and_split_newlines [10%N; 13%N; 102%N; 111%N; 111%N; 10%N])) (lit "foo"));
(2865%N, seqb (join [0%N] (replace_and_split_newlines [98%N; 97%N; 114%N; 13%N; 10%N; 102%N; 111%N; 111%N; 10%N])) [98%N; 97%N; 114%N; 0%N; 102%N; 111%N; 111%N]);
(2871%N, seqb (join [0%N] (replace_and_split_newlines [13%N; 10%N; 10%N; 10%N; 98%N; 97%N; 114%N])) (lit "bar"));
(2876%N, seqb (join [0%N] (replace_and_split_newlines [10%N; 10%N; 10%N; 98%N; 97%N; 114%N])) (lit "bar"));
(2880%N, seqb (join [0%N] (replace_and_split_newlines [10%N; 102%N; 111%N; 111%N; 10%N; 10%N; 13%N; 10%N; 98%N; 97%N; 114%N])) [102%N; 111%N; 111%N; 0%N; 0%N; 0%N; 98%N; 97%N; 114%N]);
(2904%N, heq (get_atx_heading Github 6 false (lit "# foo")) [Some (mkHeading 1 (lit "foo") true)]);
(2912%N, heq (get_atx_heading Github 6 false [35%N; 9%N; 102%N; 111%N; 111%N]) [None]);
(2920%N, heq (get_atx_heading Cmark 6 false [35%N; 9%N; 102%N; 111%N; 111%N]) [Some (mkHeading 1 (lit "foo") true)]);
(2929%N, heq (get_atx_heading Github 6 false (lit "## foo")) [Some (mkHeading 2 (lit "foo") true)]);
(2937%N, heq (get_atx_heading Github 6 false [35%N; 35%N; 9%N; 102%N; 111%N; 111%N]) [None]);
(2945%N, heq (get_atx_heading Cmark 6 false [35%N; 35%N; 9%N; 102%N; 111%N; 111%N]) [Some (mkHeading 2 (lit "foo") true)]);
(2954%N, heq (get_atx_heading Github 6 false (lit "### foo")) [Some (mkHeading 3 (lit "foo") true)]);
(2962%N, heq (get_atx_heading Github 6 false [35%N; 35%N; 35%N; 9%N; 102%N; 111%N; 111%N]) [None]);
(2970%N, heq (get_atx_heading Cmark 6 false [35%N; 35%N; 35%N; 9%N; 102%N; 111%N; 111%N]) [Some (mkHeading 3 (lit "foo") true)]);
(2979%N, heq (get_atx_heading Github 6 false (lit "#### foo")) [Some (mkHeading 4 (lit "foo") true)]);
(2987%N, heq (get_atx_heading Github 6 false [35%N; 35%N; 35%N; 35%N; 9%N; 102%N; 111%N; 111%N]) [None]);
(2995%N, heq (get_atx_heading Cmark 6 false [35%N; 35%N; 35%N; 35%N; 9%N; 102%N; 111%N; 111%N]) [Some (mkHeading 4 (lit "foo") true)]);
(3004%N, heq (get_atx_heading Github 6 false (lit "##### foo")) [Some (mkHeading 5 (lit "foo") true)]);
(3012%N, heq (get_atx_heading Github 6 false [35%N; 35%N; 35%N; 35%N; 35%N; 9%N; 102%N; 111%N; 111%N]) [None]);
(3020%N, heq (get_atx_heading Cmark 6 false [35%N; 35%N; 35%N; 35%N; 35%N; 9%N; 102%N; 111%N; 111%N]) [Some (mkHeading 5 (lit "foo") true)]);
(3029%N, heq (get_atx_heading Github 6 false (lit "###### foo")) [Some (mkHeading 6 (lit "foo") true)]);
(3037%N, heq (get_atx_heading Github 6 false [35%N; 35%N; 35%N; 35%N; 35%N; 35%N; 9%N; 102%N; 111%N; 111%N]) [None]);
(3045%N, heq (get_atx_heading Cmark 6 false [35%N; 35%N; 35%N; 35%N; 35%N; 35%N; 9%N; 102%N; 111%N; 111%N]) [Some (mkHeading 6 (lit "foo") true)]);
(3057%N, heq (get_atx_heading Github 7 false (lit "####### foo")) [None]);
(3069%N, heq (get_atx_heading Github 6 false [35%N; 53%N; 32%N; 98%N; 111%N; 108%N; 116%N; 10%N; 10%N; 35%N; 104%N; 97%N; 115%N; 104%N; 116%N; 97%N; 103%N]) [None; None; None]);
(3090%N, heq (get_atx_heading Github 6 false (lit "\# foo")) [None]);
(3104%N, heq (get_atx_heading Github 6 false (lit "\## foo")) [None]);
(3119%N, heq (get_atx_heading Github 6 false (lit "# foo *bar* \*baz\*")) [Some (mkHeading 1 (lit "foo *bar* \*baz\*") true)]);
(3139%N, heq (get_atx_heading Github 3 false (lit "# foo *bar* \*baz\*")) [Some (mkHeading 1 (lit "foo *bar* \*baz\*") true)]);
(3156%N, heq (get_atx_heading Github 6 false (lit "#                  foo                     ")) [Some (mkHeading 1 (lit "foo") true)]);
(3168%N, heq (get_atx_heading Github 6 false [35%N; 9%N; 9%N; 9%N; 9%N; 9%N; 9%N; 9%N; 9%N; 9%N; 9%N; 9%N; 9%N; 9%N; 9%N; 9%N; 9%N; 9%N; 9%N; 102%N; 111%N; 111%N; 9%N; 9%N; 9%N; 9%N; 9%N; 9%N; 9%N; 9%N; 9%N; 9%N; 9%N; 9%N; 9%N; 9%N; 9%N; 9%N; 9%N; 9%N; 9%N; 9%N; 9%N]) [None]);
(3180%N, heq (get_atx_heading Cmark 6 false [35%N; 9%N; 9%N; 9%N; 9%N; 9%N; 9%N; 9%N; 9%N; 9%N; 9%N; 9%N; 9%N; 9%N; 9%N; 9%N; 9%N; 9%N; 9%N; 102%N; 111%N; 111%N; 9%N; 9%N; 9%N; 9%N; 9%N; 9%N; 9%N; 9%N; 9%N; 9%N; 9%N; 9%N; 9%N; 9%N; 9%N; 9%N; 9%N; 9%N; 9%N; 9%N; 9%N]) [Some (mkHeading 1 (lit "foo") true)]);
(3196%N, heq (get_atx_heading Github 6 false (lit " ### foo")) [Some (mkHeading 3 (lit "foo") true)]);
(3208%N, heq (get_atx_heading Github 6 false (lit "  ## foo")) [Some (mkHeading 2 (lit "foo") true)]);
(3220%N, heq (get_atx_heading Github 6 false (lit "   # foo")) [Some (mkHeading 1 (lit "foo") true)]);
(3236%N, heq (get_atx_heading Github 6 false (lit "    # foo")) [None]);
(3252%N, heq (get_atx_heading Github 6 false [102%N; 111%N; 111%N; 10%N; 32%N; 32%N; 32%N; 32%N; 35%N; 32%N; 98%N; 97%N; 114%N]) [None; None]);
(3273%N, heq (get_atx_heading Github 6 false (lit "## foo ##")) [Some (mkHeading 2 (lit "foo") true)]);
(3285%N, heq (get_atx_heading Github 6 false (lit "  ###   bar    ###")) [Some (mkHeading 3 (lit "bar") true)]);
(3301%N, heq (get_atx_heading Github 6 false (lit "# foo ##################################")) [Some (mkHeading 1 (lit "foo") true)]);
(3314%N, heq (get_atx_heading Github 6 false (lit "##### foo ##")) [Some (mkHeading 5 (lit "foo") true)]);
(3328%N, heq (get_atx_heading Github 6 false (lit "###################################")) [None]);
(3340%N, heq (get_atx_heading Github 6 false (lit "### foo ###     ")) [Some (mkHeading 3 (lit "foo") true)]);
(3352%N, heq (get_atx_heading Github 6 false [35%N; 35%N; 35%N; 32%N; 102%N; 111%N; 111%N; 32%N; 35%N; 35%N; 35%N; 9%N; 9%N; 9%N; 9%N; 9%N]) [Some (mkHeading 3 [102%N; 111%N; 111%N; 32%N; 35%N; 35%N; 35%N; 9%N; 9%N; 9%N; 9%N; 9%N] true)]);
(3364%N, heq (get_atx_heading Cmark 6 false [35%N; 35%N; 35%N; 32%N; 102%N; 111%N; 111%N; 32%N; 35%N; 35%N; 35%N; 9%N; 9%N; 9%N; 9%N; 9%N]) [Some (mkHeading 3 (lit "foo") true)]);
(3380%N, heq (get_atx_heading Github 6 false (lit "### foo ### b")) [Some (mkHeading 3 (lit "foo ### b") true)]);
(3397%N, heq (get_atx_heading Github 6 false (lit "# foo#")) [Some (mkHeading 1 (lit "foo#") true)]);
(3409%N, heq (get_atx_heading Github 6 false (lit "# foo #")) [Some (mkHeading 1 (lit "foo") true)]);
(3421%N, heq (get_atx_heading Github 6 false [35%N; 32%N; 102%N; 111%N; 111%N; 9%N; 35%N]) [Some (mkHeading 1 [102%N; 111%N; 111%N; 9%N; 35%N] true)]);
(3433%N, heq (get_atx_heading Cmark 6 false [35%N; 32%N; 102%N; 111%N; 111%N; 9%N; 35%N]) [Some (mkHeading 1 (lit "foo") true)]);
(3457%N, heq (get_atx_heading Github 6 false (lit "### foo \###")) [Some (mkHeading 3 (lit "foo \###") true)]);
(3469%N, heq (get_atx_heading Github 6 false (lit "## foo #\##")) [Some (mkHeading 2 (lit "foo #\##") true)]);
(3482%N, heq (get_atx_heading Github 6 false (lit "# foo \#")) [Some (mkHeading 1 (lit "foo \#") true)]);
(3498%N, heq (get_atx_heading Github 6 false [42%N; 42%N; 42%N; 42%N; 10%N; 35%N; 35%N; 32%N; 102%N; 111%N; 111%N; 10%N; 42%N; 42%N; 42%N; 42%N]) [None; Some (mkHeading 2 (lit "foo") true); None]);
(3523%N, heq (get_atx_heading Github 6 false [70%N; 111%N; 111%N; 32%N; 98%N; 97%N; 114%N; 10%N; 35%N; 32%N; 98%N; 97%N; 122%N; 10%N; 66%N; 97%N; 114%N; 32%N; 102%N; 111%N; 111%N]) [None; Some (mkHeading 1 (lit "baz") true); None]);
(3548%N, heq (get_atx_heading Github 6 true (lit "## ")) [Some (mkHeading 2 [] true)]);
(3556%N, heq (get_atx_heading Github 6 true (lit "#")) [Some (mkHeading 1 [] true)]);
(3564%N, heq (get_atx_heading Github 6 true (lit "### ###")) [Some (mkHeading 3 [] true)]);
(3586%N, heq (get_atx_heading Github 6 false (lit "# [ foo [bar]]")) [Some (mkHeading 1 (lit "\[ foo \[bar\]\]") true)]);
(3606%N, heq (get_atx_heading Github 6 false (lit "# \\[ foo")) [Some (mkHeading 1 (lit "\\\[ foo") true)]);
(3625%N, heq (get_atx_heading Github 6 false (lit "## foo\")) [Some (mkHeading 2 (lit "foo\ ") true)]);
(3647%N, heq (get_atx_heading Github 6 false []) [None]);
(3657%N, heq (get_atx_heading Github 6 false [35%N; 32%N; 102%N; 111%N; 111%N; 10%N; 10%N; 35%N; 32%N; 102%N; 111%N; 111%N; 10%N]) [Some (mkHeading 1 (lit "foo") true); None; Some (mkHeading 1 (lit "foo") true)]);
(3684%N, heq (get_atx_heading Github 6 true [35%N; 10%N]) [Some (mkHeading 1 [] true)]);
(3692%N, heq (get_atx_heading Github 6 true [35%N; 13%N]) [Some (mkHeading 1 [] true)]);
(3707%N, heq (get_atx_heading Github 6 false [35%N; 32%N; 102%N; 111%N; 111%N; 10%N; 102%N; 111%N; 111%N]) [Some (mkHeading 1 (lit "foo") true); None]);
(3724%N, heq (get_atx_heading Github 6 false [35%N; 32%N; 102%N; 111%N; 111%N; 13%N; 102%N; 111%N; 111%N]) [Some (mkHeading 1 (lit "foo") true); None]);
(3756%N, heq (get_atx_heading Github 1 false (lit "## foo")) [Some (mkHeading 2 (lit "foo") false)]);
(3768%N, heq (get_atx_heading Github 1 false (lit "### foo")) [Some (mkHeading 3 (lit "foo") false)]);
(3780%N, heq (get_atx_heading Github 2 false (lit "##### foo")) [Some (mkHeading 5 (lit "foo") false)]);
(3792%N, heq (get_atx_heading Github 5 false (lit "###### foo")) [Some (mkHeading 6 (lit "foo") false)]);
(3811%N, heq (get_atx_heading Redcarpet 6 false (lit " # foo")) [None]);
(3824%N, heq (get_atx_heading Redcarpet 6 false (lit "# foo")) [Some (mkHeading 1 (lit "foo") true)]);
(3837%N, heq (get_atx_heading Redcarpet 6 false (lit "# foo #")) [Some (mkHeading 1 (lit "foo") true)]);
(3850%N, heq (get_atx_heading Redcarpet 6 false (lit "# foo ###")) [Some (mkHeading 1 (lit "foo") true)]);
(3863%N, heq (get_atx_heading Redcarpet 6 false [35%N; 35%N; 35%N; 32%N; 102%N; 111%N; 111%N; 32%N; 35%N; 35%N; 35%N; 10%N]) [Some (mkHeading 3 (lit "foo") true)]);
(3876%N, heq (get_atx_heading Redcarpet 6 false (lit "# foo ### ")) [Some (mkHeading 1 (lit "foo ###") true)]);
(3889%N, heq (get_atx_heading Redcarpet 6 false (lit "# foo #\\##")) [Some (mkHeading 1 (lit "foo #\\") true)]);
(3906%N, heq (get_atx_heading Redcarpet 6 false (lit "# foo#\# #")) [Some (mkHeading 1 (lit "foo#\#") true)]);
(3921%N, heq (get_atx_heading Redcarpet 6 false (lit "# foo \")) [Some (mkHeading 1 (lit "foo \ ") true)]);
(3936%N, heq (get_atx_heading Redcarpet 6 false []) [None]);
(3946%N, heq (get_atx_heading Redcarpet 6 false [35%N; 10%N]) [None]);
(3955%N, heq (get_atx_heading Redcarpet 6 false [35%N; 32%N; 102%N; 111%N; 111%N; 10%N; 102%N; 111%N; 111%N]) [Some (mkHeading 1 (lit "foo") true); None]);
(3972%N, heq (get_atx_heading Redcarpet 6 false [35%N; 13%N]) [None]);
(3984%N, heq (get_atx_heading Redcarpet 6 false [35%N; 32%N; 102%N; 111%N; 111%N; 13%N; 102%N; 111%N; 111%N]) [Some (mkHeading 1 (lit "foo") true); None]);
(4071%N, match is_opening_code_fence Github (lit "This is a static line") with Some r => false | None => true end);
(4072%N, match is_opening_code_fence Github [] with Some r => false | None => true end);
(4073%N, match is_opening_code_fence Github (lit "foo") with Some r => false | None => true end);
(4075%N, match is_opening_code_fence Github [102%N; 111%N; 111%N; 10%N] with Some r => false | None => true end);
(4077%N, match is_opening_code_fence Github (lit " ") with Some r => false | None => true end);
(4078%N, match is_opening_code_fence Github (lit "  ") with Some r => false | None => true end);
(4079%N, match is_opening_code_fence Github (lit "   ") with Some r => false | None => true end);
(4080%N, match is_opening_code_fence Github (lit "    ") with Some r => false | None => true end);
(4081%N, match is_opening_code_fence Github (lit "          ") with Some r => false | None => true end);
(4083%N, match is_opening_code_fence Github (lit "#") with Some r => false | None => true end);
(4084%N, match is_opening_code_fence Github (lit "##") with Some r => false | None => true end);
(4086%N, match is_opening_code_fence Github (lit "###") with Some r => false | None => true end);
(4087%N, match is_opening_code_fence Github (lit "####") with Some r => false | None => true end);
(4088%N, match is_opening_code_fence Github (lit "#####") with Some r => false | None => true end);
(4089%N, match is_opening_code_fence Github (lit "######") with Some r => false | None => true end);
(4090%N, match is_opening_code_fence Github (lit "#######") with Some r => false | None => true end);
(4096%N, match is_opening_code_fence Github (lit "```") with Some r => seqb r (lit "```") | None => false end);
(4097%N, match is_opening_code_fence Github (lit "````") with Some r => seqb r (lit "````") | None => false end);
(4098%N, match is_opening_code_fence Github (lit "``````````") with Some r => seqb r (lit "``````````") | None => false end);
(4103%N, match is_opening_code_fence Github (lit "~~~") with Some r => seqb r (lit "~~~") | None => false end);
(4104%N, match is_opening_code_fence Github (lit "~~~~") with Some r => seqb r (lit "~~~~") | None => false end);
(4105%N, match is_opening_code_fence Github (lit "~~~~~~~~~~") with Some r => seqb r (lit "~~~~~~~~~~") | None => false end);
(4111%N, match is_opening_code_fence Github (lit "`") with Some r => false | None => true end);
(4112%N, match is_opening_code_fence Github (lit "``") with Some r => false | None => true end);
(4114%N, match is_opening_code_fence Github (lit "``foo") with Some r => false | None => true end);
(4116%N, match is_opening_code_fence Github [96%N; 96%N; 10%N; 96%N] with Some r => false | None => true end);
(4119%N, match is_opening_code_fence Github (lit "~") with Some r => false | None => true end);
(4120%N, match is_opening_code_fence Github (lit "~~") with Some r => false | None => true end);
(4121%N, match is_opening_code_fence Github (lit "~~foo") with Some r => false | None => true end);
(4123%N, match is_opening_code_fence Github [126%N; 126%N; 10%N; 126%N] with Some r => false | None => true end);
(4134%N, match is_opening_code_fence Github [96%N; 96%N; 96%N; 10%N; 10%N; 32%N; 32%N] with Some r => seqb r (lit "```") | None => false end);
(4140%N, match is_opening_code_fence Github [126%N; 126%N; 126%N; 10%N; 10%N; 32%N; 32%N] with Some r => seqb r (lit "~~~") | None => false end);
(4154%N, match is_opening_code_fence Github (lit " ```") with Some r => seqb r (lit "```") | None => false end);
(4156%N, match is_opening_code_fence Github (lit " ~~~") with Some r => seqb r (lit "~~~") | None => false end);
(4161%N, match is_opening_code_fence Github (lit "  ```") with Some r => seqb r (lit "```") | None => false end);
(4163%N, match is_opening_code_fence Github (lit "  ~~~") with Some r => seqb r (lit "~~~") | None => false end);
(4168%N, match is_opening_code_fence Github (lit "   ```") with Some r => seqb r (lit "```") | None => false end);
(4170%N, match is_opening_code_fence Github (lit "   ~~~") with Some r => seqb r (lit "~~~") | None => false end);
(4175%N, match is_opening_code_fence Github (lit "    ```") with Some r => false | None => true end);
(4177%N, match is_opening_code_fence Github (lit "    ~~~") with Some r => false | None => true end);
(4181%N, match is_opening_code_fence Github (lit "   ```") with Some r => seqb r (lit "```") | None => false end);
(4182%N, match is_opening_code_fence Github (lit "   ````") with Some r => seqb r (lit "````") | None => false end);
(4184%N, match is_opening_code_fence Github (lit "   ``````````") with Some r => seqb r (lit "``````````") | None => false end);
(4188%N, match is_opening_code_fence Github (lit "   ~~~") with Some r => seqb r (lit "~~~") | None => false end);
(4189%N, match is_opening_code_fence Github (lit "   ~~~~") with Some r => seqb r (lit "~~~~") | None => false end);
(4190%N, match is_opening_code_fence Github (lit "   ~~~~~~~~~~") with Some r => seqb r (lit "~~~~~~~~~~") | None => false end);
(4201%N, match is_opening_code_fence Github (lit "``` ```") with Some r => false | None => true end);
(4204%N, match is_opening_code_fence Github (lit "~~~ ~~~") with Some r => seqb r (lit "~~~") | None => false end);
(4220%N, match is_opening_code_fence Github (lit "``` foo\bar") with Some r => seqb r (lit "```") | None => false end);
(4229%N, match is_opening_code_fence Github (lit "```ruby") with Some r => seqb r (lit "```") | None => false end);
(4234%N, match is_opening_code_fence Github (lit "~~~ruby") with Some r => seqb r (lit "~~~") | None => false end);
(4244%N, match is_opening_code_fence Github (lit "```ruby") with Some r => seqb r (lit "```") | None => false end);
(4248%N, match is_opening_code_fence Github (lit "````ruby") with Some r => seqb r (lit "````") | None => false end);
(4252%N, match is_opening_code_fence Github (lit "``````````ruby") with Some r => seqb r (lit "``````````") | None => false end);
(4256%N, match is_opening_code_fence Github (lit "```   ruby") with Some r => seqb r (lit "```") | None => false end);
(4260%N, match is_opening_code_fence Cmark (lit "```   ruby") with Some r => seqb r (lit "```") | None => false end);
(4265%N, match is_opening_code_fence Github [96%N; 96%N; 96%N; 9%N; 9%N; 9%N; 114%N; 117%N; 98%N; 121%N] with Some r => seqb r (lit "```") | None => false end);
(4269%N, match is_opening_code_fence Cmark [96%N; 96%N; 96%N; 9%N; 9%N; 9%N; 114%N; 117%N; 98%N; 121%N] with Some r => seqb r (lit "```") | None => false end);
(4275%N, match is_opening_code_fence Github (lit "~~~ruby") with Some r => seqb r (lit "~~~") | None => false end);
(4279%N, match is_opening_code_fence Github (lit "~~~~ruby") with Some r => seqb r (lit "~~~~") | None => false end);
(4283%N, match is_opening_code_fence Github (lit "~~~~~~~~~~ruby") with Some r => seqb r (lit "~~~~~~~~~~") | None => false end);
(4287%N, match is_opening_code_fence Github (lit "~~~   ruby") with Some r => seqb r (lit "~~~") | None => false end);
(4291%N, match is_opening_code_fence Cmark (lit "~~~   ruby") with Some r => seqb r (lit "~~~") | None => false end);
(4296%N, match is_opening_code_fence Github [126%N; 126%N; 126%N; 9%N; 9%N; 9%N; 114%N; 117%N; 98%N; 121%N] with Some r => seqb r (lit "~~~") | None => false end);
(4300%N, match is_opening_code_fence Cmark [126%N; 126%N; 126%N; 9%N; 9%N; 9%N; 114%N; 117%N; 98%N; 121%N] with Some r => seqb r (lit "~~~") | None => false end);
(4310%N, match is_opening_code_fence Github (lit "````    ruby startline=3 $%@#$") with Some r => seqb r (lit "````") | None => false end);
(4317%N, match is_opening_code_fence Github (lit "~~~~    ruby startline=3 $%@#$") with Some r => seqb r (lit "~~~~") | None => false end);
(4326%N, match is_opening_code_fence Github (lit "````;") with Some r => seqb r (lit "````") | None => false end);
(4328%N, match is_opening_code_fence Github (lit "~~~~;") with Some r => seqb r (lit "~~~~") | None => false end);
(4334%N, match is_opening_code_fence Github (lit "``` aa ```") with Some r => false | None => true end);
(4338%N, match is_opening_code_fence Github (lit "~~~ aa ~~~") with Some r => seqb r (lit "~~~") | None => false end);
(4345%N, match is_opening_code_fence Github (lit "~~~ aa ``` ~~~") with Some r => seqb r (lit "~~~") | None => false end);
(4353%N, match is_opening_code_fence Github (lit "``` aa ~~~ ```") with Some r => false | None => true end);
(4367%N, Bool.eqb (is_closing_code_fence Github (lit "```") (lit "~~~") false) false);
(4372%N, Bool.eqb (is_closing_code_fence Github (lit "~~~") (lit "```") false) false);
(4377%N, Bool.eqb (is_closing_code_fence Github (lit "```") (lit "````") false) false);
(4382%N, Bool.eqb (is_closing_code_fence Github (lit "~~~") (lit "~~~~") false) false);
(4387%N, Bool.eqb (is_closing_code_fence Github [] (lit "```") true) true);
(4389%N, Bool.eqb (is_closing_code_fence Github [] (lit "~~~") true) true);
(4396%N, Bool.eqb (is_closing_code_fence Github [10%N; 96%N; 96%N; 96%N; 10%N; 97%N; 97%N; 97%N] (lit "`````") true) true);
(4403%N, Bool.eqb (is_closing_code_fence Github [10%N; 126%N; 126%N; 126%N; 10%N; 97%N; 97%N; 97%N] (lit "~~~~~") true) true);
(4420%N, Bool.eqb (is_closing_code_fence Github (lit "  ```") (lit "```") false) true);
(4422%N, Bool.eqb (is_closing_code_fence Github (lit "  ~~~") (lit "~~~") false) true);
(4428%N, Bool.eqb (is_closing_code_fence Github (lit "  ```") (lit "   ```") false) true);
(4430%N, Bool.eqb (is_closing_code_fence Github (lit "  ~~~") (lit "   ~~~") false) true);
(4435%N, Bool.eqb (is_closing_code_fence Github (lit "    ```") (lit "```") false) false);
(4437%N, Bool.eqb (is_closing_code_fence Github (lit "    ~~~") (lit "~~~") false) false);
(4440%N, Bool.eqb (is_closing_code_fence Github (lit " ```") (lit "```") false) true);
(4446%N, Bool.eqb (is_closing_code_fence Github (lit "~~~ ~~") (lit "~~~~~~") false) false);
(4449%N, Bool.eqb (is_closing_code_fence Github (lit "``` ``") (lit "``````") false) false);
(4458%N, Bool.eqb (is_closing_code_fence Github (lit "``` aaa") (lit "```") false) false);
(4461%N, Bool.eqb (is_closing_code_fence Github (lit "~~~ aaa") (lit "~~~") false) false);
(4465%N, Bool.eqb (is_closing_code_fence Github [96%N; 96%N; 96%N; 9%N] (lit "```") true) true);
(4466%N, Bool.eqb (is_closing_code_fence Github [96%N; 96%N; 96%N; 9%N] (lit "```") false) false);
(4469%N, Bool.eqb (is_closing_code_fence Github [96%N; 96%N; 96%N; 9%N; 9%N; 9%N; 9%N; 32%N; 32%N; 32%N; 32%N] (lit "```") true) true);
(4472%N, Bool.eqb (is_closing_code_fence Github [96%N; 96%N; 96%N; 9%N; 9%N; 9%N; 9%N; 32%N; 32%N; 32%N; 32%N] (lit "```") false) false);
(4475%N, Bool.eqb (is_closing_code_fence Github [126%N; 126%N; 126%N; 9%N] (lit "~~~") true) true);
(4476%N, Bool.eqb (is_closing_code_fence Github [126%N; 126%N; 126%N; 9%N; 9%N; 9%N; 9%N; 32%N; 32%N; 32%N; 32%N] (lit "~~~") false) false);
(4478%N, Bool.eqb (is_closing_code_fence Github [126%N; 126%N; 126%N; 9%N] (lit "~~~") true) true);
(4479%N, Bool.eqb (is_closing_code_fence Github [126%N; 126%N; 126%N; 9%N; 9%N; 9%N; 9%N; 32%N; 32%N; 32%N; 32%N] (lit "~~~") false) false)].
Example upstream_tests_pass : forallb snd upstream_tests = true.
Proof. vm_compute. reflexivity. Qed.
