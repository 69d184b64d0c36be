(** C59: emphasis in text with links, code spans, raw HTML, e-mail addresses and entities. *)
From Coq Require Import String List NArith ZArith Bool Arith Lia.
From Verif Require Import Str StrFacts Spec EnvSpec AsciiEnv Regex HtmlRe Fence Atx Entity Inlines HelperSpec EmphSpec DelimSpec LinkSpec InlineProof InlineRun InlineEmph InlinePair InlineRead InlineSettle InlineTarget InlineLink PropEmphasis PropPairs.
From Verif Require HtmlSpec PropHtml InlineAngle InlineLone InlineHollow HtmlProof.
Import ListNotations.
Local Open Scope list_scope.

(** A text in CommonMark: nothing is asked of its links, its backticks and its HTML. *)
Definition commonmark (E : env) (ts : list token) (out : list run) : Prop := scans E (fun _ => True) [] [] ts out.

(** ** The tokens determine the pairing *)
Lemma run_inj rs rs' : map Run rs = map Run rs' -> rs = rs'.
Proof. revert rs'. induction rs as [|r rs IH]; intros [|r' rs'] H; cbn in H; try discriminate; [reflexivity|]. injection H as -> H. f_equal. apply IH. exact H. Qed.
Lemma run_bracket rs rs' i act it : map Run rs <> map Run rs' ++ Bracket i act :: it.
Proof. revert rs'. induction rs as [|r rs IH]; intros [|r' rs'] H; cbn in H; try discriminate. injection H as -> H. exact (IH _ H). Qed.
Lemma bracket_inj rs rs' i i' act act' it it' : map Run rs ++ Bracket i act :: it = map Run rs' ++ Bracket i' act' :: it' -> rs = rs' /\ i = i' /\ act = act' /\ it = it'.
Proof.
  revert rs'. induction rs as [|r rs IH]; intros [|r' rs'] H; cbn in H; try discriminate.
  - injection H as -> -> ->. auto.
  - injection H as -> H. destruct (IH _ H) as (-> & -> & -> & ->). auto.
Qed.
Lemma scans_unique E g g' a it ts out : scans E g a it ts out -> forall out', scans E g' a it ts out' -> out = out'.
Proof.
  induction 1 as [a it out Hp|a it w ts out Hw1 Hw2 Hnw Hex Hr IH|a it c ts out Hc Hr IH|a it n w ts out Hn Hw1 Hw2 Hw4 Hw3 Hp Hr IH|a it c n o cl ts out Hc Hn Hhd Ho Hcl How Hr IH|a it ts out Hr IH|a it ts out Hr IH|a rs ts out Hr IH|a rs image active it ts out Hact Hr IH|a rs image it d ts inner out Hd Hg Hpi Hr IH|a it n ts out Hn Hp Hno Hg Hr IH|a it ts out Hp Hr IH|a it w ts out Hw2 Hpd Hnw Hex Hr IH|a it ts out Hlo Hmi Hr IH|a it x ts out Hgx Hg Hr IH];
    intros out' H'; inversion H'; subst; try (apply IH; assumption).
  - symmetry. eapply paired_unique; [|eassumption]. first [eassumption|idtac].
  - apply IH. match goal with K : scans E g' _ (Run (mkRun _ _ _ ?o' ?cl' _ _) :: _) _ _ |- _ => replace o with o'; [replace cl with cl'; [exact K|]|] end; eapply bool_iff_eq; eassumption.
  - match goal with K : map Run _ = map Run _ |- _ => apply run_inj in K; subst end. apply IH. assumption.
  - exfalso. match goal with K : _ = _ |- _ => symmetry in K; apply run_bracket in K; exact K | K : _ = _ |- _ => apply run_bracket in K; exact K end.
  - exfalso. match goal with K : _ = _ |- _ => apply run_bracket in K; exact K | K : _ = _ |- _ => symmetry in K; apply run_bracket in K; exact K end.
  - match goal with K : _ ++ _ = _ ++ _ |- _ => apply bracket_inj in K as (-> & -> & -> & ->) end. apply IH. assumption.
  - match goal with K : _ ++ _ = _ ++ _ |- _ => apply bracket_inj in K as (-> & -> & _ & ->) end. f_equal.
    + first [eapply paired_unique; eassumption|symmetry; eapply paired_unique; eassumption].
    + apply IH. assumption.
Qed.
Theorem C59_one_reading : forall E ts out out', commonmark E ts out -> commonmark E ts out' -> out = out'.
Proof. intros E ts out out' H H'. exact (scans_unique _ _ _ _ _ _ _ H _ H'). Qed.
Print Assumptions C59_one_reading.

(** ** What the program does *)
Theorem C59_links_exact : forall E p ts out, p <> OtherParser -> zs_ascii E -> entity_tables E -> ~ In 0%N (text_of ts) ->
  scans E (calm E) [] [] ts out -> remove_emphasis E p (text_of ts) = Ok (without leaves out 0 ts).
Proof.
  intros E p ts out Hp Hz Het H0 H. destruct (links_read E ts out Hz Het H0 H) as (ign & I1 & I2). rewrite <- I2. unfold remove_emphasis. rewrite (delete_nul (text_of ts)) by exact H0.
  rewrite I1. destruct p; try reflexivity. contradiction.
Qed.
Print Assumptions C59_links_exact.
Lemma without_ext k k' out : (forall r, In r out -> k r = k' r) -> forall ts p, without k out p ts = without k' out p ts.
Proof.
  intros H. induction ts as [|t ts IH]; intros p; [reflexivity|].
  destruct t as [[w|c|n w|c n]| | | |d|n| |w| |x]; cbn [without]; rewrite IH; try reflexivity. f_equal. f_equal. unfold kept. destruct (find _ out) eqn:F; [|reflexivity]. apply List.find_some in F as (F & _). apply H. exact F.
Qed.
(** No run is used both to close and to open: the program gives what CommonMark prescribes; brackets, the
    addresses and titles of links, code spans, tags and entities stay as they are. *)
Theorem C59_links_as_commonmark : forall E p ts out, p <> OtherParser -> zs_ascii E -> entity_tables E -> ~ In 0%N (text_of ts) ->
  scans E (calm E) [] [] ts out -> (forall r, In r out -> r_closed r = 0 \/ r_opened r = 0) ->
  remove_emphasis E p (text_of ts) = Ok (without r_left out 0 ts).
Proof.
  intros E p ts out Hp Hz Het H0 H Hu. rewrite (C59_links_exact E p ts out Hp Hz Het H0 H). f_equal. apply without_ext. intros r Hr. apply leaves_left; [|apply Hu; exact Hr].
  destruct (scans_shape _ _ _ _ _ _ H) as (_ & So). specialize (So ltac:(constructor)). rewrite Forall_forall in So. apply So. exact Hr.
Qed.
Print Assumptions C59_links_as_commonmark.

(** ** Cases *)
Lemma scans_weaken E (g g' : event -> Prop) a it ts out : (forall e, g e -> g' e) -> scans E g a it ts out -> scans E g' a it ts out.
Proof. intros Hg. induction 1; econstructor; eauto. intuition auto. Qed.
Local Ltac flag := first [rewrite <- opens_iff | rewrite <- closes_iff]; vm_compute; tauto.
Local Ltac no_fit := let x := fresh in let H := fresh in intros x H; cbn [In] in H;
  repeat match type of H with _ \/ _ => destruct H as [H|H] | False => destruct H end; try (subst x; rewrite <- fitsb_iff; vm_compute; discriminate).
Local Ltac pass := apply paired_pass; [no_fit|].
Local Ltac pair m o b := apply (paired_pair m o b); [apply fitsb_iff; vm_compute; reflexivity|no_fit|]; cbv [map app shut open_with close_with strength r_left r_size r_closed r_opened Nat.sub Nat.leb andb Nat.add r_start r_char r_opens r_closes].
Local Ltac less_ := match goal with |- scans _ _ _ _ (Less :: ?ts) _ => let X := fresh in enough (X : InlineAngle.broken (text_of ts)); [apply scans_less; [apply InlineLone.broken_alone; exact X|first [exact I|apply InlineLone.broken_alone; exact X]|]; clear X|] end; cycle 1.
Local Ltac words := apply scans_words; [discriminate|apply inert_b; vm_compute; reflexivity|exact I|vm_compute; intros; discriminate|].
Local Ltac marks o cl := apply (scans_marks _ _ _ _ _ _ o cl);
  [unfold delimiter; auto|lia|vm_compute; discriminate|flag|flag|first [exact I|split; [apply not_tail_unmistaken; vm_compute; intros (? & ?); congruence|intros X; first [discriminate X|let A := fresh in let B := fresh in intros ? ? A B; cbn in A, B; intuition (subst; cbn in *; congruence)]]]|].
Local Ltac visible_ := split; [split; vm_compute; discriminate|rewrite <- space_iff; vm_compute; discriminate].
Local Ltac addr := match goal with |- address ?E ?k ?d => let d' := eval vm_compute in d in change (address E k d') end; repeat first [apply address_end|apply address_char; [visible_|vm_compute; intuition discriminate|]].
Local Ltac spread := unfold HtmlSpec.blanks; match goal with |- Forall ?P ?w => let w' := eval vm_compute in w in change (Forall P w') end.
Local Ltac blank_ := spread; repeat first [apply Forall_nil|apply Forall_cons; [cbv; auto|]].
Local Ltac titled := match goal with |- title_text ?q ?w => let w' := eval vm_compute in w in change (title_text q w') end; repeat first [apply title_end|apply title_char; [discriminate|discriminate|discriminate|discriminate|]].
Local Ltac target_ := cbv [well_formed to t_before t_place t_between t_title t_after]; split; [blank_|split; [blank_|split; [blank_|split]]].
Local Ltac simple := target_; [split; [addr|split; [vm_compute; discriminate|intros X; first [discriminate X|auto]]]|reflexivity].
Local Ltac no_ent_ := left; vm_compute; intuition discriminate.
Local Ltac plain_link := split; [no_ent_|exact I].
Lemma ascii_entities : entity_tables ascii_env.
Proof.
  split; [|split; [discriminate|]].
  - intros c Hc. change (e_digit ascii_env c) with (ascii_digit c). unfold ascii_digit, is_digit. rewrite in_range_iff. reflexivity.
  - cbv [e_entities ascii_env lit map list_ascii_of_string String.list_ascii_of_string]. repeat apply Forall_cons; try apply Forall_nil; cbn [fst]; repeat apply Forall_cons; try apply Forall_nil; unfold is_letter; vm_compute; intuition discriminate.
Qed.
(** Emphasis around a link, inside its label and in its address; brackets around a link are not a link, so the
    stars after them are emphasis. *)
Example C59_ex :
  let text := lit "*d [*e*](*w*) f* [a [b](u) c](*v*)" in
  let ts := [Piece (Marks 42 1); Piece (Words (lit "d ")); LeftBracket; Piece (Marks 42 1); Piece (Words (lit "e")); Piece (Marks 42 1); LinkTo (to (lit "*w*")); Piece (Words (lit " f")); Piece (Marks 42 1); Piece (Words (lit " "));
             LeftBracket; Piece (Words (lit "a ")); LeftBracket; Piece (Words (lit "b")); LinkTo (to (lit "u")); Piece (Words (lit " c")); RightBracket; Piece (Words (lit "(")); Piece (Marks 42 1); Piece (Words (lit "v")); Piece (Marks 42 1); Piece (Words (lit ")"))] in
  let out := [mkRun 4 42 1 true false 0 1; mkRun 6 42 1 false true 1 0; mkRun 0 42 1 true false 0 1; mkRun 15 42 1 false true 1 0; mkRun 30 42 1 true false 0 1; mkRun 32 42 1 false true 1 0] in
  text_of ts = text /\ scans ascii_env (calm ascii_env) [] [] ts out /\ (forall r, In r out -> r_closed r = 0 \/ r_opened r = 0) /\
  without r_left out 0 ts = lit "d [e](*w*) f [a [b](u) c](v)" /\ remove_emphasis ascii_env Github text = Ok (lit "d [e](*w*) f [a [b](u) c](v)").
Proof.
  cbv zeta. split; [vm_compute; reflexivity|]. split; [|split; [intros r Hr; cbn in Hr; intuition (subst r; cbn; auto)|split; vm_compute; reflexivity]].
  marks true false. words. apply scans_left. marks true false. words. marks false true.
  apply (scans_link _ _ _ [mkRun 6 42 1 false true 0 0; mkRun 4 42 1 true false 0 0] false [Run (mkRun 0 42 1 true false 0 0)] (to (lit "*w*")) _ [mkRun 4 42 1 true false 0 1; mkRun 6 42 1 false true 1 0]).
  - simple.
  - split; [right|split; [intros i [X|[]]; discriminate|plain_link]]. cbn [rev app]. apply settled_pass; [left; reflexivity|].
    apply (settled_pair [] (mkRun 4 42 1 true false 0 0) []); [apply fitsb_iff; vm_compute; reflexivity|intros x []|]. apply settled_pass; [right; left; reflexivity|]. apply settled_end.
  - cbn [rev app]. pass. pair (@nil run) (mkRun 4 42 1 true false 0 0) (@nil run). pass. apply paired_end.
  - words. marks false true. words. apply scans_left. words. apply scans_left. words.
    apply (scans_link _ _ _ [] false [Bracket false true; Run (mkRun 15 42 1 false true 0 0); Run (mkRun 0 42 1 true false 0 0)] (to (lit "u")) _ []).
    + simple.
    + split; [right; apply settled_end|]. split; [|plain_link]. intros i [X|[X|[X|[]]]]; try discriminate. injection X as <-. auto.
    + apply paired_end.
    + words. apply (scans_close _ _ _ [] false false [Run (mkRun 15 42 1 false true 0 0); Run (mkRun 0 42 1 true false 0 0)]); [left; reflexivity|].
      words. marks true false. words. marks false true. words. apply scans_end. cbn [runs_of flat_map app rev].
      pass. pair (@nil run) (mkRun 0 42 1 true false 0 0) (@nil run). pass. pass.
      pair (@nil run) (mkRun 30 42 1 true false 0 0) [mkRun 15 42 1 false true 1 0; mkRun 0 42 1 true false 0 1]. pass. apply paired_end.
Qed.
(** Underscores that can both open and close in a label. *)
Example C59_underscores_ex :
  let text := lit "x_y [(_a._.b_)](u)" in
  let ts := [Piece (Words (lit "x")); Piece (Marks 95 1); Piece (Words (lit "y ")); LeftBracket; Piece (Words (lit "(")); Piece (Marks 95 1); Piece (Words (lit "a.")); Piece (Marks 95 1); Piece (Words (lit ".b")); Piece (Marks 95 1); Piece (Words (lit ")")); LinkTo (to (lit "u"))] in
  let out := [mkRun 6 95 1 true false 0 1; mkRun 9 95 1 true true 1 0; mkRun 12 95 1 false true 0 0; mkRun 1 95 1 false false 0 0] in
  text_of ts = text /\ scans ascii_env (calm ascii_env) [] [] ts out /\ (forall r, In r out -> r_closed r = 0 \/ r_opened r = 0) /\
  without r_left out 0 ts = lit "x_y [(a..b_)](u)" /\ remove_emphasis ascii_env Github text = Ok (lit "x_y [(a..b_)](u)").
Proof.
  cbv zeta. split; [vm_compute; reflexivity|]. split; [|split; [intros r Hr; cbn in Hr; intuition (subst r; cbn; auto)|split; vm_compute; reflexivity]].
  words. marks false false. words. apply scans_left. words. marks true false. words. marks true true. words. marks false true. words.
  apply (scans_link _ _ _ [mkRun 12 95 1 false true 0 0; mkRun 9 95 1 true true 0 0; mkRun 6 95 1 true false 0 0] false [Run (mkRun 1 95 1 false false 0 0)] (to (lit "u")) _ [mkRun 6 95 1 true false 0 1; mkRun 9 95 1 true true 1 0; mkRun 12 95 1 false true 0 0]).
  - simple.
  - split; [right|split; [intros i [X|[]]; discriminate|plain_link]]. cbn [rev app]. apply settled_pass; [left; reflexivity|].
    apply (settled_pair [] (mkRun 6 95 1 true false 0 0) []); [apply fitsb_iff; vm_compute; reflexivity|intros x []|]. apply settled_pass; [right; left; reflexivity|].
    apply settled_pass; [right; right; intros o [<-|[<-|[]]]; right; reflexivity|]. apply settled_end.
  - cbn [rev app]. pass. pair (@nil run) (mkRun 6 95 1 true false 0 0) (@nil run). pass. pass. apply paired_end.
  - apply scans_end. cbn [runs_of flat_map asleep map app rev]. pass. apply paired_end.
Qed.
(** A closing run in a label that finds nothing to close there: the search may afterwards go below the label, and
    the emphasis ends in another place. *)
Theorem C59_label_refuted : exists ts out, text_of ts = lit "*x [_a b* c_ d*](u)" /\ commonmark ascii_env ts out /\ (forall r, In r out -> r_closed r = 0 \/ r_opened r = 0) /\
  without r_left out 0 ts = lit "*x [a b* c d*](u)" /\ remove_emphasis ascii_env Github (text_of ts) = Ok (lit "x [a b* c d](u)").
Proof.
  exists [Piece (Marks 42 1); Piece (Words (lit "x ")); LeftBracket; Piece (Marks 95 1); Piece (Words (lit "a b")); Piece (Marks 42 1); Piece (Words (lit " c")); Piece (Marks 95 1); Piece (Words (lit " d")); Piece (Marks 42 1); LinkTo (to (lit "u"))],
    [mkRun 4 95 1 true false 0 1; mkRun 8 42 1 false false 0 0; mkRun 11 95 1 false true 1 0; mkRun 14 42 1 false true 0 0; mkRun 0 42 1 true false 0 0].
  split; [vm_compute; reflexivity|]. split; [|split; [intros r Hr; cbn in Hr; intuition (subst r; cbn; auto)|split; vm_compute; reflexivity]].
  marks true false. words. apply scans_left. marks true false. words. marks false true. words. marks false true. words. marks false true.
  apply (scans_link _ _ _ [mkRun 14 42 1 false true 0 0; mkRun 11 95 1 false true 0 0; mkRun 8 42 1 false true 0 0; mkRun 4 95 1 true false 0 0] false [Run (mkRun 0 42 1 true false 0 0)] (to (lit "u")) _
    [mkRun 4 95 1 true false 0 1; mkRun 8 42 1 false false 0 0; mkRun 11 95 1 false true 1 0; mkRun 14 42 1 false true 0 0]).
  - simple.
  - exact I.
  - cbn [rev app]. pass. pass. pair [mkRun 8 42 1 false true 0 0] (mkRun 4 95 1 true false 0 0) (@nil run). pass. pass. apply paired_end.
  - apply scans_end. cbn. pass. apply paired_end.
Qed.
Print Assumptions C59_label_refuted.
(** Images are taken for links: a link around an image is not seen as a link, and stars in its address go. *)
Theorem C59_images_refuted : exists ts out, text_of ts = lit "[![a](u)](*v*)" /\ commonmark ascii_env ts out /\ (forall r, In r out -> r_closed r = 0 \/ r_opened r = 0) /\
  without r_left out 0 ts = text_of ts /\ remove_emphasis ascii_env Github (text_of ts) = Ok (lit "[![a](u)](v)").
Proof.
  exists [LeftBracket; ImageBracket; Piece (Words (lit "a")); LinkTo (to (lit "u")); LinkTo (to (lit "*v*"))], [].
  split; [vm_compute; reflexivity|]. split; [|split; [intros r []|split; vm_compute; reflexivity]].
  apply scans_left. apply scans_image. words. apply (scans_link _ _ _ [] true [Bracket false true] (to (lit "u")) _ [] []); [simple|exact I|apply paired_end|].
  apply (scans_link _ _ _ [] false [] (to (lit "*v*")) _ [] []); [simple|exact I|apply paired_end|]. apply scans_end. apply paired_end.
Qed.
Print Assumptions C59_images_refuted.
(** A link with a title, tags, a comment, an e-mail address, entities, stray backslashes, angle brackets and
    backticks: only the emphasis of the text itself goes. *)
Local Ltac amp := apply scans_amp; [apply inert_b; vm_compute; reflexivity|let c := fresh in let H := fresh in intros c _ H; apply in_range_iff in H; exact H|exact I|vm_compute; intros; discriminate|].
Local Ltac letter := unfold is_letter, is_digit; lia.
Example C59_mixed_ex :
  let text := lit "*a* [*b*](<*u*> '*t*') <i title=""*x*"">*c*</i> &amp; &#42;d \d <!-- *e* --> <*f*@g.h> a < b *g* ``" in
  let g := Target [] (Pointed (lit "*u*")) (lit " ") (Some (39%N, lit "*t*")) [] in
  let tag := HtmlSpec.Open (lit "i") [HtmlSpec.Attr (lit " ") (lit "title") (Some ([], [], HtmlSpec.Double (lit "*x*")))] [] false in
  let ts := [Piece (Marks 42 1); Piece (Words (lit "a")); Piece (Marks 42 1); Piece (Words (lit " ")); LeftBracket; Piece (Marks 42 1); Piece (Words (lit "b")); Piece (Marks 42 1); LinkTo g; Piece (Words (lit " "));
             Angle (Tag tag); Piece (Marks 42 1); Piece (Words (lit "c")); Piece (Marks 42 1); Angle (Tag (HtmlSpec.Close (lit "i") [])); Piece (Words (lit " ")); Amp (lit "amp; "); Amp (lit "#42;d "); Slash; Piece (Words (lit "d "));
             Angle (Tag (HtmlSpec.Comment (lit " *e* "))); Piece (Words (lit " ")); Angle (Mail (lit "*f*") (lit "g", [lit "h"])); Piece (Words (lit " a ")); Less; Piece (Words (lit " b ")); Piece (Marks 42 1); Piece (Words (lit "g")); Piece (Marks 42 1); Piece (Words (lit " ")); Ticks 2] in
  let out := [mkRun 5 42 1 true false 0 1; mkRun 7 42 1 false true 1 0; mkRun 0 42 1 true false 0 1; mkRun 2 42 1 false true 1 0; mkRun 38 42 1 true false 0 1; mkRun 40 42 1 false true 1 0; mkRun 91 42 1 true false 0 1; mkRun 93 42 1 false true 1 0] in
  text_of ts = text /\ scans ascii_env (calm ascii_env) [] [] ts out /\ entity_tables ascii_env /\ (forall r, In r out -> r_closed r = 0 \/ r_opened r = 0) /\
  without r_left out 0 ts = lit "a [b](<*u*> '*t*') <i title=""*x*"">c</i> &amp; &#42;d \d <!-- *e* --> <*f*@g.h> a < b g ``" /\
  remove_emphasis ascii_env Github text = Ok (lit "a [b](<*u*> '*t*') <i title=""*x*"">c</i> &amp; &#42;d \d <!-- *e* --> <*f*@g.h> a < b g ``").
Proof.
  cbv zeta. split; [vm_compute; reflexivity|]. split; [|split; [exact ascii_entities|split; [intros r Hr; cbn in Hr; intuition (subst r; cbn; auto)|split; vm_compute; reflexivity]]].
  marks true false. words. marks false true. words. apply scans_left. marks true false. words. marks false true.
  apply (scans_link _ _ _ [mkRun 7 42 1 false true 0 0; mkRun 5 42 1 true false 0 0] false [Run (mkRun 2 42 1 false true 0 0); Run (mkRun 0 42 1 true false 0 0)] (Target [] (Pointed (lit "*u*")) (lit " ") (Some (39%N, lit "*t*")) []) _ [mkRun 5 42 1 true false 0 1; mkRun 7 42 1 false true 1 0]).
  - target_; [spread; repeat first [apply Forall_nil|apply Forall_cons; [vm_compute; intuition discriminate|]]|]. split; [discriminate|]. split; [right; left; reflexivity|titled].
  - split; [right|split; [intros i [X|[X|[]]]; discriminate|split; [no_ent_|split; [discriminate|split; [vm_compute; intuition discriminate|no_ent_]]]]]. cbn [rev app]. apply settled_pass; [left; reflexivity|].
    apply (settled_pair [] (mkRun 5 42 1 true false 0 0) []); [apply fitsb_iff; vm_compute; reflexivity|intros x []|]. apply settled_pass; [right; left; reflexivity|]. apply settled_end.
  - cbn [rev app]. pass. pair (@nil run) (mkRun 5 42 1 true false 0 0) (@nil run). pass. apply paired_end.
  - words. apply scans_angle.
    { split; [|discriminate]. split; [exists 105%N, []; split; [reflexivity|split; [letter|constructor]]|]. split; [|constructor]. constructor; [|constructor]. split; [discriminate|]. split; [blank_|].
      split; [exists 116%N, (lit "itle"); split; [reflexivity|split; [left; letter|spread; repeat first [apply Forall_nil|apply Forall_cons; [left; letter|]]]]|]. cbn [HtmlSpec.a_value]. split; [constructor|]. split; [constructor|]. split; vm_compute; intuition discriminate. }
    { intros y [<-|[]]. discriminate. }
    marks true false. words. marks false true. apply scans_angle; [split; [|discriminate]; split; [exists 105%N, []; split; [reflexivity|split; [letter|constructor]]|constructor]|exact I|].
    words. amp. amp. apply scans_slash; [unfold punctuation; vm_compute; intuition discriminate|]. words.
    apply scans_angle; [split; [|discriminate]; split; [vm_compute; lia|split; [vm_compute; intuition discriminate|split; [vm_compute; intuition discriminate|split; [apply PropHtml.occurs_without; vm_compute; reflexivity|vm_compute; discriminate]]]]|exact I|].
    words. apply scans_angle; [|exact I|].
    { split; [discriminate|]. split; [|repeat apply Forall_cons; try apply Forall_nil; (split; [vm_compute; lia|split; [spread; repeat first [apply Forall_nil|apply Forall_cons; [left; letter|]]|split; vm_compute; discriminate]])].
      spread; repeat first [apply Forall_nil|apply Forall_cons; [first [left; letter|right; right; vm_compute; tauto]|]]. }
    words. less_; [left; vm_compute; intuition discriminate|]. words. marks true false. words. marks false true. words.
    apply scans_ticks; [lia|vm_compute; discriminate|right|intros u n w v m x H; destruct u; discriminate|].
    { intros a b H. apply (f_equal (@length N)) in H. rewrite !app_length in H. cbn in H. lia. }
    apply scans_end. cbn [runs_of flat_map app rev].
    pass. pair (@nil run) (mkRun 0 42 1 true false 0 0) (@nil run). pass. pass.
    pair (@nil run) (mkRun 38 42 1 true false 0 0) [mkRun 2 42 1 false true 1 0; mkRun 0 42 1 true false 0 1]. pass. pass.
    pair (@nil run) (mkRun 91 42 1 true false 0 0) [mkRun 40 42 1 false true 1 0; mkRun 38 42 1 true false 0 1; mkRun 2 42 1 false true 1 0; mkRun 0 42 1 true false 0 1]. pass. apply paired_end.
Qed.
(** Instructions, declarations and sections. *)
Example C59_sections_ex :
  let text := lit "*a* <?p *b* > ?q?> <!DOC *c*> <![CDATA[*d*] ]]> *e*" in
  let ts := [Piece (Marks 42 1); Piece (Words (lit "a")); Piece (Marks 42 1); Piece (Words (lit " ")); Angle (Tag (HtmlSpec.Instruction (lit "p *b* > ?q"))); Piece (Words (lit " "));
             Angle (Tag (HtmlSpec.Declaration (lit "DOC") (lit " ") (lit "*c*"))); Piece (Words (lit " ")); Angle (Tag (HtmlSpec.Cdata (lit "*d*] "))); Piece (Words (lit " ")); Piece (Marks 42 1); Piece (Words (lit "e")); Piece (Marks 42 1)] in
  let out := [mkRun 0 42 1 true false 0 1; mkRun 2 42 1 false true 1 0; mkRun 48 42 1 true false 0 1; mkRun 50 42 1 false true 1 0] in
  text_of ts = text /\ scans ascii_env (calm ascii_env) [] [] ts out /\ (forall r, In r out -> r_closed r = 0 \/ r_opened r = 0) /\
  without r_left out 0 ts = lit "a <?p *b* > ?q?> <!DOC *c*> <![CDATA[*d*] ]]> e" /\ remove_emphasis ascii_env Github text = Ok (lit "a <?p *b* > ?q?> <!DOC *c*> <![CDATA[*d*] ]]> e").
Proof.
  cbv zeta. split; [vm_compute; reflexivity|]. split; [|split; [intros r Hr; cbn in Hr; intuition (subst r; cbn; auto)|split; vm_compute; reflexivity]].
  marks true false. words. marks false true. words.
  apply scans_angle; [split; [|discriminate]; split; [vm_compute; intuition discriminate|apply PropHtml.occurs_without; vm_compute; reflexivity]|split; [vm_compute; discriminate|right; vm_compute; intuition discriminate]|]. words.
  apply scans_angle; [split; [|discriminate]; split; [discriminate|split; [spread; repeat first [apply Forall_nil|apply Forall_cons; [lia|]]|split; [discriminate|split; [blank_|split; [discriminate|split; vm_compute; intuition discriminate]]]]]|exact I|]. words.
  apply scans_angle; [split; [|discriminate]; split; [discriminate|split; [vm_compute; intuition discriminate|apply PropHtml.occurs_without; vm_compute; reflexivity]]|vm_compute; discriminate|]. words.
  marks true false. words. marks false true. apply scans_end. cbn [runs_of flat_map app rev].
  pass. pair (@nil run) (mkRun 0 42 1 true false 0 0) (@nil run). pass. pass.
  pair (@nil run) (mkRun 48 42 1 true false 0 0) [mkRun 2 42 1 false true 1 0; mkRun 0 42 1 true false 0 1]. pass. apply paired_end.
Qed.
Local Ltac broken := less_; [right; right; split; [|vm_compute; intuition discriminate]|].
(** Angle brackets with what breaks off: the declaration after them is still found. *)
Example C59_unfinished_ex :
  let text := lit "*a* <?p> <b*c*> </ > <!-> <![CDATA[x <!DOC *d*> *e*" in
  let ts := [Piece (Marks 42 1); Piece (Words (lit "a")); Piece (Marks 42 1); Piece (Words (lit " ")); Less; Piece (Words (lit "?p> ")); Less; Piece (Words (lit "b")); Piece (Marks 42 1); Piece (Words (lit "c")); Piece (Marks 42 1); Piece (Words (lit "> ")); Less; Piece (Words (lit "/ > ")); Less; Piece (Words (lit "!-> ")); Less; ImageBracket; Piece (Words (lit "CDATA")); LeftBracket; Piece (Words (lit "x ")); Angle (Tag (HtmlSpec.Declaration (lit "DOC") (lit " ") (lit "*d*"))); Piece (Words (lit " ")); Piece (Marks 42 1); Piece (Words (lit "e")); Piece (Marks 42 1)] in
  let out := [mkRun 0 42 1 true false 0 1; mkRun 2 42 1 false true 1 0; mkRun 11 42 1 true true 0 1; mkRun 13 42 1 false true 1 0; mkRun 48 42 1 true false 0 1; mkRun 50 42 1 false true 1 0] in
  text_of ts = text /\ scans ascii_env (calm ascii_env) [] [] ts out /\ (forall r, In r out -> r_closed r = 0 \/ r_opened r = 0) /\
  without r_left out 0 ts = lit "a <?p> <bc> </ > <!-> <![CDATA[x <!DOC *d*> e" /\ remove_emphasis ascii_env Github text = Ok (lit "a <?p> <bc> </ > <!-> <![CDATA[x <!DOC *d*> e").
Proof.
  cbv zeta. split; [vm_compute; reflexivity|]. split; [|split; [intros r Hr; cbn in Hr; intuition (subst r; cbn; auto)|split; vm_compute; reflexivity]].
  marks true false. words. marks false true. words.
  broken; [right; right; left; eexists; split; [reflexivity|apply PropHtml.occurs_without; vm_compute; reflexivity]|]. words.
  broken; [right; left; exists (lit "b"), 42%N; eexists; split; [reflexivity|]; split; [exists 98%N, []; split; [reflexivity|split; [letter|constructor]]|unfold is_letter, is_digit; cbn; intuition (lia || discriminate)]|].
  words. marks true true. words. marks false true. words.
  broken; [left; eexists; split; [reflexivity|unfold is_letter; cbn; lia]|]. words.
  broken; [right; right; right; right; left; eexists; split; [reflexivity|left; discriminate]|]. words.
  broken; [right; right; right; right; right; eexists; split; [reflexivity|right; apply PropHtml.occurs_without; vm_compute; reflexivity]|]. apply scans_image. words. apply scans_left. words.
  apply scans_angle; [split; [|discriminate]; split; [discriminate|split; [spread; repeat first [apply Forall_nil|apply Forall_cons; [lia|]]|split; [discriminate|split; [blank_|split; [discriminate|split; vm_compute; intuition discriminate]]]]]|exact I|]. words.
  marks true false. words. marks false true. apply scans_end. cbn [runs_of flat_map app rev].
  pass. pair (@nil run) (mkRun 0 42 1 true false 0 0) (@nil run). pass. pass. pair (@nil run) (mkRun 11 42 1 true true 0 0) [mkRun 2 42 1 false true 1 0; mkRun 0 42 1 true false 0 1]. pass. pass.
  pair (@nil run) (mkRun 48 42 1 true false 0 0) [mkRun 13 42 1 false true 1 0; mkRun 11 42 1 true true 0 1; mkRun 2 42 1 false true 1 0; mkRun 0 42 1 true false 0 1]. pass. apply paired_end.
Qed.
(** What looks like a tag but is none is text, whatever follows: here a quote where an attribute should begin, and an
    at sign later. *)
Example C59_lone_ex :
  let text := lit "*a* <b ""c *d*> e@f.g *h*" in
  let ts := [Piece (Marks 42 1); Piece (Words (lit "a")); Piece (Marks 42 1); Piece (Words (lit " ")); Less; Piece (Words (lit "b ""c ")); Piece (Marks 42 1); Piece (Words (lit "d")); Piece (Marks 42 1); Piece (Words (lit "> e@f.g ")); Piece (Marks 42 1); Piece (Words (lit "h")); Piece (Marks 42 1)] in
  let out := [mkRun 0 42 1 true false 0 1; mkRun 2 42 1 false true 1 0; mkRun 10 42 1 true false 0 1; mkRun 12 42 1 false true 1 0; mkRun 21 42 1 true false 0 1; mkRun 23 42 1 false true 1 0] in
  text_of ts = text /\ scans ascii_env (calm ascii_env) [] [] ts out /\ (forall r, In r out -> r_closed r = 0 \/ r_opened r = 0) /\
  without r_left out 0 ts = lit "a <b ""c d> e@f.g h" /\ remove_emphasis ascii_env Github text = Ok (lit "a <b ""c d> e@f.g h").
Proof.
  cbv zeta. split; [vm_compute; reflexivity|]. split; [|split; [intros r Hr; cbn in Hr; intuition (subst r; cbn; auto)|split; vm_compute; reflexivity]].
  marks true false. words. marks false true. words.
  assert (Al : forall v, ~ angle_ahead (lit "b" ++ lit " " ++ 34%N :: v) /\ ~ mistaken (lit "b" ++ lit " " ++ 34%N :: v)).
  { intros v. apply InlineLone.no_attribute; [exists 98%N, []; split; [reflexivity|split; [letter|constructor]]|discriminate|constructor; [cbn; tauto|constructor]|unfold is_letter; cbn; lia]. }
  apply scans_less; [exact (proj1 (Al _))|exact (proj2 (Al _))|]. words. marks true false. words. marks false true. words. marks true false. words. marks false true.
  apply scans_end. cbn [runs_of flat_map app rev]. pass. pair (@nil run) (mkRun 0 42 1 true false 0 0) (@nil run). pass. pass. pair (@nil run) (mkRun 10 42 1 true false 0 0) [mkRun 2 42 1 false true 1 0; mkRun 0 42 1 true false 0 1]. pass. pass.
  pair (@nil run) (mkRun 21 42 1 true false 0 0) [mkRun 12 42 1 false true 1 0; mkRun 10 42 1 true false 0 1; mkRun 2 42 1 false true 1 0; mkRun 0 42 1 true false 0 1]. pass. apply paired_end.
Qed.
(** A colon after an angle bracket is enough for an autolink: the emphasis in it stays. *)
Theorem C59_scheme_refuted : exists ts out, text_of ts = lit "<:*a*>" /\ commonmark ascii_env ts out /\ (forall r, In r out -> r_closed r = 0 \/ r_opened r = 0) /\
  without r_left out 0 ts = lit "<:a>" /\ remove_emphasis ascii_env Github (text_of ts) = Ok (text_of ts).
Proof.
  exists [Less; Piece (Words (lit ":")); Piece (Marks 42 1); Piece (Words (lit "a")); Piece (Marks 42 1); Piece (Words (lit ">"))], [mkRun 2 42 1 true false 0 1; mkRun 4 42 1 false true 1 0].
  split; [vm_compute; reflexivity|]. split; [|split; [intros r Hr; cbn in Hr; intuition (subst r; cbn; auto)|split; vm_compute; reflexivity]].
  apply scans_less; [apply InlineLone.no_scheme|exact I|]. words. marks true false. words. marks false true. words.
  apply scans_end. cbn [runs_of flat_map app rev]. pass. pair (@nil run) (mkRun 2 42 1 true false 0 0) (@nil run). pass. apply paired_end.
Qed.
Print Assumptions C59_scheme_refuted.
(** An equals sign without a value does not keep the program from seeing a tag: the emphasis in it stays. *)
Theorem C59_hollow_refuted : exists ts out, text_of ts = lit "<i x= y=""*c*"">" /\ commonmark ascii_env ts out /\ (forall r, In r out -> r_closed r = 0 \/ r_opened r = 0) /\
  without r_left out 0 ts = lit "<i x= y=""c"">" /\ remove_emphasis ascii_env Github (text_of ts) = Ok (text_of ts).
Proof.
  exists [Less; Piece (Words (lit "i x= y=""")); Piece (Marks 42 1); Piece (Words (lit "c")); Piece (Marks 42 1); Piece (Words (lit """>"))], [mkRun 9 42 1 true false 0 1; mkRun 11 42 1 false true 1 0].
  split; [vm_compute; reflexivity|]. split; [|split; [intros r Hr; cbn in Hr; intuition (subst r; cbn; auto)|split; vm_compute; reflexivity]].
  apply scans_less; [apply InlineHollow.no_value|exact I|]. words. marks true false. words. marks false true. words.
  apply scans_end. cbn [runs_of flat_map app rev]. pass. pair (@nil run) (mkRun 9 42 1 true false 0 0) (@nil run). pass. apply paired_end.
Qed.
Print Assumptions C59_hollow_refuted.
Fixpoint occursb (w s : str) : bool := startswith w s || match s with [] => false | _ :: s' => occursb w s' end.
Lemma occursb_app w a b : occursb w (a ++ w ++ b) = true.
Proof.
  assert (P : startswith w (w ++ b) = true) by (induction w as [|x w IH]; [reflexivity|cbn; rewrite N.eqb_refl; exact IH]).
  induction a as [|x a IH]; cbn [app].
  - destruct (w ++ b); cbn [occursb]; rewrite P; reflexivity.
  - cbn [occursb]. rewrite IH. apply orb_true_r.
Qed.
(** Whether a given text begins with the target of a link: all ways to cut it. *)
Fixpoint cuts (s : str) : list (str * str) := ([], s) :: match s with [] => [] | c :: s' => map (fun x => (c :: fst x, snd x)) (cuts s') end.
Lemma cuts_all u v : In (u, v) (cuts (u ++ v)).
Proof. induction u as [|c u IH]; cbn [app]; [destruct v; left; reflexivity|]. right. apply (in_map (fun x => (c :: fst x, snd x)) _ _ IH). Qed.
Fixpoint pointed_b (d : str) : bool :=
  match d with
  | [] => true
  | c :: d' => if N.eqb c 92 then match d' with [] => false | _ :: d'' => pointed_b d'' end else negb (cin c (lit "<>\") || N.eqb c 10) && pointed_b d'
  end.
Lemma pointed_yes d : pointed d -> pointed_b d = true.
Proof.
  induction 1 as [|c d Hc H10 H IH|c d H IH]; cbn [pointed_b]; [reflexivity| |exact IH]. destruct (N.eqb_spec c 92) as [->|_]; [exfalso; apply Hc; cbn; tauto|].
  destruct (cin c (lit "<>\")) eqn:Q; [apply cin_In in Q; contradiction|]. destruct (N.eqb_spec c 10); [contradiction|exact IH].
Qed.
Fixpoint balanced_b (char : N -> bool) (n : nat) (d : str) : bool :=
  match d with
  | [] => n =? 0
  | c :: d' =>
      if N.eqb c 92 then match d' with [] => n =? 0 | x :: d'' => if ascii_punct x then balanced_b char n d'' else balanced_b char n d' end
      else if N.eqb c 40 then (n <? 32) && balanced_b char (S n) d'
      else if N.eqb c 41 then match n with 0 => false | S n' => balanced_b char n' d' end
      else char c && balanced_b char n d'
  end.
Lemma balanced_yes (char : N -> Prop) charb n d : (forall c, char c -> charb c = true) -> balanced char n d -> balanced_b charb n d = true.
Proof.
  intros Hc. induction 1 as [|n c d Hch Hn H IH|n c d Hp H IH|n d Hp H IH|n d Hn H IH|n d H IH]; cbn [balanced_b].
  - reflexivity.
  - destruct (N.eqb_spec c 92) as [->|_]; [exfalso; apply Hn; cbn; tauto|]. destruct (N.eqb_spec c 40) as [->|_]; [exfalso; apply Hn; cbn; tauto|]. destruct (N.eqb_spec c 41) as [->|_]; [exfalso; apply Hn; cbn; tauto|]. rewrite (Hc c Hch), IH. reflexivity.
  - change (N.eqb 92 92) with true. cbn match. apply punctuation_iff in Hp. rewrite Hp. exact IH.
  - change (N.eqb 92 92) with true. cbn match. destruct d as [|x d]; [exact IH|]. cbn [hd] in Hp. destruct (ascii_punct x) eqn:Q; [apply punctuation_iff in Q; contradiction|exact IH].
  - change (N.eqb 40 92) with false. change (N.eqb 40 40) with true. cbn match. destruct (Nat.ltb_spec n 32); [exact IH|lia].
  - change (N.eqb 41 92) with false. change (N.eqb 41 40) with false. change (N.eqb 41 41) with true. exact IH.
Qed.
Fixpoint title_b (q : N) (w : str) : bool :=
  match w with
  | [] => true
  | c :: w' => if N.eqb c 92 then match w' with [] => false | _ :: w'' => title_b q w'' end else negb (N.eqb c q || (N.eqb q 40 && N.eqb c 41)) && title_b q w'
  end.
Lemma title_yes q w : title_text q w -> title_b q w = true.
Proof.
  induction 1 as [|c w H0 H1 H2 H3 H IH|c w H0 H IH]; cbn [title_b]; [reflexivity| |exact IH]. destruct (N.eqb_spec c 92); [contradiction|]. destruct (N.eqb_spec c q); [contradiction|].
  destruct (N.eqb_spec q 40) as [Hq|_]; [destruct (N.eqb_spec c 41); [exfalso; apply (H3 Hq); assumption|]|]; exact IH.
Qed.
(** The title between its first and last character. *)
Definition middle (f : N -> str -> N -> bool) (t : str) : bool := match t with [] => false | q :: w => f q (removelast w) (last w 0%N) end.
Lemma middle_at f q w e : middle f (q :: w ++ [e]) = f q w e.
Proof. unfold middle. rewrite removelast_last, last_last. reflexivity. Qed.
Definition titled_b : str -> bool := middle (fun q w e => (cin q [34; 39]%N && N.eqb e q || N.eqb q 40 && N.eqb e 41) && title_b q w).
Definition quoted_b : str -> bool := middle (fun q w e => cin q [34; 39]%N && N.eqb e q && negb (cin q w) || N.eqb q 40 && N.eqb e 39 && negb (cin 40 w) && negb (cin 41 w)).
Lemma not_cin c w : ~ In c w -> cin c w = false.
Proof. intros H. destruct (cin c w) eqn:Q; [apply cin_In in Q; contradiction|reflexivity]. Qed.
Lemma titled_yes t : (exists q x, t = show_title (Some (q, x)) /\ In q [34; 39; 40]%N /\ title_text q x) -> titled_b t = true.
Proof. intros (q & x & -> & Hq & Hx). unfold titled_b. cbn [show_title]. rewrite middle_at, (title_yes q x Hx). destruct Hq as [<-|[<-|[<-|[]]]]; reflexivity. Qed.
Lemma quoted_yes t : quoted t -> quoted_b t = true.
Proof.
  intros (q & w & [(Hq & -> & Hw)|(-> & H1 & H2)]); unfold quoted_b; rewrite middle_at; [|rewrite (not_cin _ w H1), (not_cin _ w H2); reflexivity]. rewrite (not_cin q w Hw). destruct Hq as [<-|[<-|[]]]; reflexivity.
Qed.
Definition begins_b (blank char : N -> bool) (title : str -> bool) (w : str) (ok : str -> str -> bool) : bool :=
  N.eqb (hd 0%N w) 40 &&
  existsb (fun x1 => forallb blank (fst x1) &&
    existsb (fun x2 => (match fst x2 with 60%N :: _ => N.eqb (last (fst x2) 0%N) 62 && pointed_b (removelast (tl (fst x2))) | _ => balanced_b char 0 (fst x2) end) &&
      existsb (fun x3 => forallb blank (fst x3) &&
        existsb (fun x4 => match fst x4 with [] => true | _ => negb (seqb (fst x3) []) && title (fst x4) end &&
          existsb (fun x5 => forallb blank (fst x5) && ok (fst x4) (snd x5)) (cuts (snd x4))) (cuts (snd x3))) (cuts (snd x2))) (cuts (snd x1))) (cuts (tl w)).
Lemma begins_yes (blank char : N -> Prop) (title : str -> Prop) blankb charb titleb ok w t rest :
  (forall c, blank c -> blankb c = true) -> (forall c, char c -> charb c = true) -> (forall t, title t -> titleb t = true) ->
  begins blank char title w t rest -> ok t rest = true -> begins_b blankb charb titleb w ok = true.
Proof.
  intros Hb Hc Ht (b1 & p & b2 & b3 & -> & F1 & F2 & F3 & Hp & Htt) Hok. unfold begins_b. cbn [hd tl]. change (N.eqb 40 40) with true. cbn [andb].
  assert (Fb : forall b, Forall blank b -> forallb blankb b = true) by (intros b F; apply forallb_forall; rewrite Forall_forall in F; intros c X; apply Hb; apply F; exact X).
  apply existsb_exists. exists (b1, p ++ b2 ++ t ++ b3 ++ rest). split; [apply cuts_all|]. cbn [fst snd]. rewrite (Fb b1 F1). cbn [andb].
  apply existsb_exists. exists (p, b2 ++ t ++ b3 ++ rest). split; [apply cuts_all|]. cbn [fst snd]. apply andb_true_iff. split.
  - destruct Hp as [(d & -> & Hd)|(Hp1 & Hp2 & _)].
    + cbn [tl]. change (60%N :: d ++ [62%N]) with ((60%N :: d) ++ [62%N]) at 1. rewrite last_last, removelast_last, (pointed_yes d Hd). reflexivity.
    + pose proof (balanced_yes char charb 0 p Hc Hp2) as B. destruct p as [|c p]; [exact B|]. cbn [hd] in Hp1. destruct c as [|c]; [exact B|]. repeat (destruct c as [c|c|]; try exact B). contradiction.
  - apply existsb_exists. exists (b2, t ++ b3 ++ rest). split; [apply cuts_all|]. cbn [fst snd]. rewrite (Fb b2 F2). cbn [andb].
    apply existsb_exists. exists (t, b3 ++ rest). split; [apply cuts_all|]. cbn [fst snd]. apply andb_true_iff. split.
    + destruct t as [|c t]; [reflexivity|]. destruct Htt as [X|(X & Y)]; [discriminate|]. rewrite (Ht _ Y), andb_true_r. destruct b2; [contradiction|reflexivity].
    + apply existsb_exists. exists (b3, rest). split; [apply cuts_all|]. cbn [fst snd]. rewrite (Fb b3 F3), Hok. reflexivity.
Qed.
(** The two ways to read a closing bracket exclude each other: after the target of a link comes a link. *)
Lemma address_balanced E n d : address E n d -> balanced (fun c => (33 <= c)%N /\ c <> 127%N) n d.
Proof.
  induction 1 as [|n c d (Hv1 & Hv2) Hc H IH|n c d Hp H IH|n c d Hp H IH|n d Hn H IH|n d H IH].
  - constructor.
  - apply balanced_char; assumption.
  - apply balanced_escape; assumption.
  - apply balanced_slash; assumption.
  - apply balanced_open; assumption.
  - apply balanced_close; assumption.
Qed.
Theorem C59_links_are_links : forall E g rest, well_formed E g -> link_ahead (40%N :: show_target g ++ 41%N :: rest).
Proof.
  intros E g rest (B1 & B2 & B3 & Hp & Ht). destruct g as [b1 p b2 t b3]. unfold show_target. cbn [t_before t_place t_between t_title t_after] in *. exists (show_title t), rest, b1, (show_place p), b2, b3.
  assert (Fb : forall b, HtmlSpec.blanks b -> Forall (fun c => In c [9; 10; 13; 32]%N) b) by (intros b F; eapply Forall_impl; [|exact F]; intros c [->| ->]; cbn; tauto).
  split; [rewrite <- !app_assoc; reflexivity|]. split; [apply Fb; exact B1|]. split; [apply Fb; exact B2|]. split; [apply Fb; exact B3|]. split.
  - destruct p as [d|d]; cbn [show_place].
    + right. destruct Hp as (Ha & Hh & He). split; [exact Hh|]. split; [eapply address_balanced; exact Ha|]. intros X. destruct (He X) as (-> & _). reflexivity.
    + left. exists d. split; [reflexivity|]. clear - Hp. induction Hp as [|c d (H1 & H2 & H3) H IH]; [constructor|apply pointed_char; assumption].
  - destruct t as [(q & w)|]; [|left; reflexivity]. right. destruct Ht as (Hb & Hq & Hw). split; [exact Hb|]. exists q, w. auto.
Qed.
Print Assumptions C59_links_are_links.
Example C59_links_are_links_ex : well_formed ascii_env (to (lit "*u*")).
Proof. simple. Qed.
Definition closes_here (_ rest : str) : bool := N.eqb (hd 0%N rest) 41.
Definition ends_here (t rest : str) : bool := negb (seqb t []) && seqb rest [].
Definition link_ahead_b (w : str) : bool := begins_b (fun c => cin c [9; 10; 13; 32]%N) (fun c => N.leb 33 c) titled_b w closes_here.
Definition resembles_b (w : str) : bool :=
  begins_b (fun c => cin c [9; 10; 12; 13; 32]%N) (fun c => negb (cin c [9; 10; 12; 13; 32]%N)) quoted_b w (fun t rest => closes_here t rest || ends_here t rest)%bool.
Lemma no_link_ahead w : link_ahead_b w = false -> ~ link_ahead w.
Proof.
  intros H (t & rest & B). unfold link_ahead_b in H. erewrite begins_yes in H; [discriminate| | | |exact B|reflexivity].
  - intros c Hc. apply cin_In. exact Hc.
  - intros c (Hc & _). apply N.leb_le. exact Hc.
  - apply titled_yes.
Qed.
Lemma calm_bare w : cin 11 w = false -> resembles_b w = false -> (N.eqb (hd 0%N w) 91 = false \/ cin (nth 1 w 0%N) [91; 93]%N = true) -> calm ascii_env (Bare w).
Proof.
  intros H11 H H91. assert (G : forall t rest, (closes_here t rest || ends_here t rest)%bool = true -> ~ resembles w t rest).
  { intros t rest Hok B. unfold resembles_b in H. erewrite begins_yes in H; [discriminate| | | |exact B|exact Hok].
    - intros c Hc. apply cin_In. exact Hc.
    - intros c Hc. rewrite (not_cin _ _ Hc). reflexivity.
    - apply quoted_yes. }
  split; [intros X; apply cin_In in X; congruence|]. split; [intros t rest; apply G; reflexivity|]. split.
  - intros t Ht. apply G. destruct t; [contradiction|]. reflexivity.
  - intros X. destruct H91 as [Y|Y]; [apply N.eqb_neq in Y; contradiction|]. apply cin_In. exact Y.
Qed.
Local Ltac bare rs i st := apply (scans_close _ _ _ rs i true st); [right; split; [apply no_link_ahead; vm_compute; reflexivity|first [exact I|apply calm_bare; [vm_compute; reflexivity|vm_compute; reflexivity|vm_compute; auto]]]|].
(** Brackets and parentheses that are no links: the address has a blank after an unclosed parenthesis, nothing is
    between the second brackets.  The stars are emphasis, which they would not be around the end of a link. *)
Example C59_bare_ex :
  let text := lit "*[a*]((b c) *[d*][]" in
  let ts := [Piece (Marks 42 1); LeftBracket; Piece (Words (lit "a")); Piece (Marks 42 1); RightBracket; Piece (Words (lit "((b c) ")); Piece (Marks 42 1); LeftBracket; Piece (Words (lit "d")); Piece (Marks 42 1); RightBracket; LeftBracket; RightBracket] in
  let out := [mkRun 0 42 1 true false 0 1; mkRun 3 42 1 false true 1 0; mkRun 12 42 1 true false 0 1; mkRun 15 42 1 false true 1 0] in
  text_of ts = text /\ scans ascii_env (calm ascii_env) [] [] ts out /\ (forall r, In r out -> r_closed r = 0 \/ r_opened r = 0) /\
  without r_left out 0 ts = lit "[a]((b c) [d][]" /\ remove_emphasis ascii_env Github text = Ok (lit "[a]((b c) [d][]").
Proof.
  cbv zeta. split; [vm_compute; reflexivity|]. split; [|split; [intros r Hr; cbn in Hr; intuition (subst r; cbn; auto)|split; vm_compute; reflexivity]].
  marks true false. apply scans_left. words. marks false true. bare [mkRun 3 42 1 false true 0 0] false [Run (mkRun 0 42 1 true false 0 0)].
  words. marks true false. apply scans_left. words. marks false true. bare [mkRun 15 42 1 false true 0 0] false [Run (mkRun 12 42 1 true false 0 0); Run (mkRun 3 42 1 false true 0 0); Run (mkRun 0 42 1 true false 0 0)].
  apply scans_left. bare (@nil run) false [Run (mkRun 15 42 1 false true 0 0); Run (mkRun 12 42 1 true false 0 0); Run (mkRun 3 42 1 false true 0 0); Run (mkRun 0 42 1 true false 0 0)].
  apply scans_end. cbn [runs_of flat_map map app rev]. pass. pair (@nil run) (mkRun 0 42 1 true false 0 0) (@nil run). pass. pass. pair (@nil run) (mkRun 12 42 1 true false 0 0) [mkRun 3 42 1 false true 1 0; mkRun 0 42 1 true false 0 1]. pass. apply paired_end.
Qed.
(** A title that begins with a parenthesis and ends with a quote is none; the program takes it for one, sees a
    link and keeps the stars. *)
Theorem C59_quote_refuted : exists ts out,
  text_of ts = lit "*[a*](b (c')" /\ commonmark ascii_env ts out /\ (forall r, In r out -> r_closed r = 0 \/ r_opened r = 0) /\
  without r_left out 0 ts = lit "[a](b (c')" /\ remove_emphasis ascii_env Github (text_of ts) = Ok (text_of ts).
Proof.
  exists [Piece (Marks 42 1); LeftBracket; Piece (Words (lit "a")); Piece (Marks 42 1); RightBracket; Piece (Words (lit "(b (c')"))], [mkRun 0 42 1 true false 0 1; mkRun 3 42 1 false true 1 0].
  split; [vm_compute; reflexivity|]. split; [|split; [intros r Hr; cbn in Hr; intuition (subst r; cbn; auto)|split; vm_compute; reflexivity]].
  marks true false. apply scans_left. words. marks false true. bare [mkRun 3 42 1 false true 0 0] false [Run (mkRun 0 42 1 true false 0 0)]. words.
  apply scans_end. cbn [runs_of flat_map map app rev]. pass. pair (@nil run) (mkRun 0 42 1 true false 0 0) (@nil run). pass. apply paired_end.
Qed.
Print Assumptions C59_quote_refuted.
(** A vertical tab is no white space and in no address; to the program it is white space. *)
Theorem C59_vertical_tab_refuted : exists ts out,
  text_of ts = lit "*[a*](" ++ [11%N] ++ lit "b)" /\ commonmark ascii_env ts out /\ (forall r, In r out -> r_closed r = 0 \/ r_opened r = 0) /\
  without r_left out 0 ts = lit "[a](" ++ [11%N] ++ lit "b)" /\ remove_emphasis ascii_env Github (text_of ts) = Ok (text_of ts).
Proof.
  exists [Piece (Marks 42 1); LeftBracket; Piece (Words (lit "a")); Piece (Marks 42 1); RightBracket; Piece (Words (lit "(" ++ [11%N] ++ lit "b)"))], [mkRun 0 42 1 true false 0 1; mkRun 3 42 1 false true 1 0].
  split; [vm_compute; reflexivity|]. split; [|split; [intros r Hr; cbn in Hr; intuition (subst r; cbn; auto)|split; vm_compute; reflexivity]].
  marks true false. apply scans_left. words. marks false true. bare [mkRun 3 42 1 false true 0 0] false [Run (mkRun 0 42 1 true false 0 0)]. words.
  apply scans_end. cbn [runs_of flat_map map app rev]. pass. pair (@nil run) (mkRun 0 42 1 true false 0 0) (@nil run). pass. apply paired_end.
Qed.
Print Assumptions C59_vertical_tab_refuted.
(** Brackets after brackets are text, as no reference is defined, and so are a title after which the text ends and
    one whose last quote is escaped: the program fails. *)
Theorem C59_brackets_refuted : forall ts e,
  In (ts, e) [([LeftBracket; Piece (Words (lit "b")); RightBracket], KeyError); ([Piece (Words (lit "(b ""c"""))], IndexError); ([Piece (Words (lit "(b ""c")); Piece (Escape 34); Piece (Words (lit ")"))], IndexError)] ->
  let ts := [LeftBracket; Piece (Words (lit "a")); RightBracket] ++ ts in
  commonmark ascii_env ts [] /\ without r_left [] 0 ts = text_of ts /\ remove_emphasis ascii_env Github (text_of ts) = Err e.
Proof.
  intros ts e H. destruct H as [H|[H|[H|[]]]]; injection H as <- <-; (split; [|split; vm_compute; reflexivity]); cbn [app]; apply scans_left; words; bare (@nil run) false (@nil item).
  - apply scans_left. words. bare (@nil run) false (@nil item). apply scans_end. apply paired_end.
  - words. apply scans_end. apply paired_end.
  - words. apply scans_escape; [unfold punctuation; lia|]. words. apply scans_end. apply paired_end.
Qed.
Print Assumptions C59_brackets_refuted.

(** Code spans after stray backticks: their backticks are in different numbers, so both are seen. *)
Example C59_code_after_ex :
  let text := lit "``` `*a*` *b* ``*c*``" in
  let ts := [Ticks 3; Piece (Words (lit " ")); Piece (Code 1 (lit "*a*")); Piece (Words (lit " ")); Piece (Marks 42 1); Piece (Words (lit "b")); Piece (Marks 42 1); Piece (Words (lit " ")); Piece (Code 2 (lit "*c*"))] in
  let out := [mkRun 10 42 1 true false 0 1; mkRun 12 42 1 false true 1 0] in
  text_of ts = text /\ scans ascii_env (calm ascii_env) [] [] ts out /\ (forall r, In r out -> r_closed r = 0 \/ r_opened r = 0) /\
  without r_left out 0 ts = lit "``` `*a*` b ``*c*``" /\ remove_emphasis ascii_env Github text = Ok (lit "``` `*a*` b ``*c*``").
Proof.
  cbv zeta. split; [vm_compute; reflexivity|]. split; [|split; [intros r Hr; cbn in Hr; intuition (subst r; cbn; auto)|split; vm_compute; reflexivity]].
  assert (T : forall n w, occursb (repeat 96%N n) w = false -> no_ticks_of n w) by (intros n w H a b ->; exfalso; rewrite occursb_app in H; discriminate).
  apply scans_ticks; [lia|vm_compute; discriminate|right; apply T; vm_compute; reflexivity| |].
  - intros u n w v m x H X. repeat (destruct u as [|? u]; [first [discriminate H|injection H; intros; subst; cbn in X; intuition (try discriminate); match goal with K : Piece _ = Piece _ |- _ => injection K; intros; subst end; first [discriminate|apply T; vm_compute; reflexivity]]|first [discriminate H|injection H as _ H]]).
  - words. apply scans_code; [lia|vm_compute; discriminate|vm_compute; discriminate|vm_compute; discriminate|apply T; vm_compute; reflexivity|vm_compute; discriminate|]. words. marks true false. words. marks false true. words.
    apply scans_code; [lia|vm_compute; discriminate|vm_compute; discriminate|vm_compute; discriminate|apply T; vm_compute; reflexivity|vm_compute; discriminate|]. apply scans_end. cbn [runs_of flat_map app rev].
    pass. pair (@nil run) (mkRun 10 42 1 true false 0 0) (@nil run). pass. apply paired_end.
Qed.
(** Backticks that start no code span make the program forget some of the code spans after them: the
    emphasis marks in the second of two code spans with as many backticks go. *)
Theorem C59_backticks_refuted : exists ts, text_of ts = lit "``` `a` `*b*`" /\ commonmark ascii_env ts [] /\ without r_left [] 0 ts = text_of ts /\
  remove_emphasis ascii_env Github (text_of ts) = Ok (lit "``` `a` `b`").
Proof.
  exists [Ticks 3; Piece (Words (lit " ")); Piece (Code 1 (lit "a")); Piece (Words (lit " ")); Piece (Code 1 (lit "*b*"))]. split; [vm_compute; reflexivity|]. split; [|split; vm_compute; reflexivity].
  assert (T : forall n w, occursb (repeat 96%N n) w = false -> no_ticks_of n w) by (intros n w H a b ->; exfalso; rewrite occursb_app in H; discriminate).
  apply scans_ticks; [lia|vm_compute; discriminate|right; apply T; vm_compute; reflexivity|exact I|]. words.
  apply scans_code; [lia|vm_compute; discriminate|vm_compute; discriminate|vm_compute; discriminate|apply T; vm_compute; reflexivity|vm_compute; discriminate|]. words.
  apply scans_code; [lia|vm_compute; discriminate|vm_compute; discriminate|vm_compute; discriminate|apply T; vm_compute; reflexivity|vm_compute; discriminate|]. apply scans_end. apply paired_end.
Qed.
Print Assumptions C59_backticks_refuted.
(** An address with a scheme in angle brackets is not recognised: the emphasis marks in it go. *)
Theorem C59_autolink_refuted : exists ts, text_of ts = lit "<http://a*b*c>" /\ commonmark ascii_env ts [] /\ without r_left [] 0 ts = text_of ts /\
  remove_emphasis ascii_env Github (text_of ts) = Ok (lit "<http://abc>").
Proof.
  exists [Angle (Uri (lit "http") (lit "//a*b*c"))]. split; [vm_compute; reflexivity|]. split; [|split; vm_compute; reflexivity].
  apply scans_angle; [|exact I|apply scans_end; apply paired_end]. split; [cbn; lia|]. split; [change (is_letter 104%N); letter|]. split; [spread; repeat first [apply Forall_nil|apply Forall_cons; [left; letter|]]|].
  spread; repeat first [apply Forall_nil|apply Forall_cons; [split; [vm_compute; discriminate|vm_compute; intuition discriminate]|]].
Qed.
Print Assumptions C59_autolink_refuted.
(** A tag with an attribute that has no value is not recognised. *)
Theorem C59_attribute_refuted : exists ts, text_of ts = lit "<input disabled title=""*x*"">" /\ commonmark ascii_env ts [] /\ without r_left [] 0 ts = text_of ts /\
  remove_emphasis ascii_env Github (text_of ts) = Ok (lit "<input disabled title=""x"">").
Proof.
  exists [Angle (Tag (HtmlSpec.Open (lit "input") [HtmlSpec.Attr (lit " ") (lit "disabled") None; HtmlSpec.Attr (lit " ") (lit "title") (Some ([], [], HtmlSpec.Double (lit "*x*")))] [] false))].
  split; [vm_compute; reflexivity|]. split; [|split; vm_compute; reflexivity].
  apply scans_angle; [|exact I|apply scans_end; apply paired_end]. split; [|discriminate].
  split; [exists 105%N, (lit "nput"); split; [reflexivity|split; [letter|spread; repeat first [apply Forall_nil|apply Forall_cons; [left; letter|]]]]|]. split; [|constructor].
  constructor; [|constructor; [|constructor]].
  - split; [discriminate|]. split; [cbn [HtmlSpec.a_gap]; blank_|]. split; [|exact I]. exists 100%N, (lit "isabled"). split; [reflexivity|]. split; [left; letter|]. spread; repeat first [apply Forall_nil|apply Forall_cons; [left; letter|]].
  - split; [discriminate|]. split; [cbn [HtmlSpec.a_gap]; blank_|]. split; [exists 116%N, (lit "itle"); split; [reflexivity|split; [left; letter|spread; repeat first [apply Forall_nil|apply Forall_cons; [left; letter|]]]]|].
    cbn [HtmlSpec.a_value]. split; [constructor|]. split; [constructor|]. split; vm_compute; intuition discriminate.
Qed.
Print Assumptions C59_attribute_refuted.
(** A title in parentheses, or one with an escaped quote, is not recognised: the link is not seen as a link, and
    the emphasis marks in its address go. *)
Theorem C59_titles_refuted : forall title left_over, (title, left_over) = (Some (40%N, lit "t"), lit "[a](u (t))") \/ (title, left_over) = (Some (34%N, lit "t\""u"), lit "[a](u ""t\""u"")") ->
  let ts := [LeftBracket; Piece (Words (lit "a")); LinkTo (Target [] (Plain (lit "*u*")) (lit " ") title [])] in
  commonmark ascii_env ts [] /\ without r_left [] 0 ts = text_of ts /\ left_over <> text_of ts /\ remove_emphasis ascii_env Github (text_of ts) = Ok left_over.
Proof.
  intros title left_over H. cbv zeta. split; [|destruct H as [H|H]; injection H as -> ->; (split; [vm_compute; reflexivity|split; [vm_compute; discriminate|vm_compute; reflexivity]])].
  apply scans_left. words. apply (scans_link _ _ _ [] false [] (Target [] (Plain (lit "*u*")) (lit " ") title []) _ [] []); [|exact I|apply paired_end|apply scans_end; apply paired_end].
  target_; [split; [addr|split; [vm_compute; discriminate|discriminate]]|]. destruct H as [H|H]; injection H as -> _; (split; [discriminate|split; [cbn; auto|]]).
  - match goal with |- title_text ?q ?w => let w' := eval vm_compute in w in change (title_text q w') end. apply title_char; try discriminate. apply title_end.
  - match goal with |- title_text ?q ?w => let w' := eval vm_compute in w in change (title_text q w') end. apply title_char; try discriminate. apply title_escape; [discriminate|]. apply title_char; try discriminate. apply title_end.
Qed.
Print Assumptions C59_titles_refuted.
(** An address that ends with a backslash ends the program. *)
Theorem C59_backslash_refuted : remove_emphasis ascii_env Github (lit "[a](u\ ""t"")") = Err IndexError.
Proof. vm_compute. reflexivity. Qed.
Print Assumptions C59_backslash_refuted.
(** An instruction that ends with two question marks, or a section that ends with three brackets, is not seen to
    end there: the emphasis up to the next end stays. *)
Theorem C59_sections_refuted : forall x y text, (x, y, text) = (HtmlSpec.Instruction (lit "a?"), HtmlSpec.Instruction (lit "b"), lit "<?a??> *c* <?b?>") \/
    (x, y, text) = (HtmlSpec.Cdata (lit "a]"), HtmlSpec.Cdata (lit "b"), lit "<![CDATA[a]]]> *c* <![CDATA[b]]>") ->
  exists out, let ts := [Angle (Tag x); Piece (Words (lit " ")); Piece (Marks 42 1); Piece (Words (lit "c")); Piece (Marks 42 1); Piece (Words (lit " ")); Angle (Tag y)] in
  text_of ts = text /\ commonmark ascii_env ts out /\ without r_left out 0 ts = HtmlSpec.show x ++ lit " c " ++ HtmlSpec.show y /\ remove_emphasis ascii_env Github text = Ok text.
Proof.
  intros x y text H. set (n := length (HtmlSpec.show x) + 1). exists [mkRun n 42 1 true false 0 1; mkRun (n + 2) 42 1 false true 1 0]. cbv zeta. split; [destruct H as [H|H]; injection H as -> -> ->; vm_compute; reflexivity|].
  split; [|destruct H as [H|H]; injection H as -> -> ->; split; vm_compute; reflexivity].
  destruct H as [H|H]; injection H as -> -> ->.
  - apply scans_angle; [split; [|discriminate]; split; [vm_compute; intuition discriminate|apply PropHtml.occurs_without; vm_compute; reflexivity]|exact I|]. words. marks true false. words. marks false true. words.
    apply scans_angle; [split; [|discriminate]; split; [vm_compute; intuition discriminate|apply PropHtml.occurs_without; vm_compute; reflexivity]|exact I|]. apply scans_end. cbn [runs_of flat_map app rev].
    pass. pair (@nil run) (mkRun 7 42 1 true false 0 0) (@nil run). pass. apply paired_end.
  - apply scans_angle; [split; [|discriminate]; split; [discriminate|split; [vm_compute; intuition discriminate|apply PropHtml.occurs_without; vm_compute; reflexivity]]|exact I|]. words. marks true false. words. marks false true. words.
    apply scans_angle; [split; [|discriminate]; split; [discriminate|split; [vm_compute; intuition discriminate|apply PropHtml.occurs_without; vm_compute; reflexivity]]|exact I|]. apply scans_end. cbn [runs_of flat_map app rev].
    pass. pair (@nil run) (mkRun 15 42 1 true false 0 0) (@nil run). pass. apply paired_end.
Qed.
Print Assumptions C59_sections_refuted.
