(** A tag with an equals sign and no value is no raw HTML. *)
From Coq Require Import String List NArith ZArith Bool Arith Lia.
From Verif Require Import Str StrFacts Spec EnvSpec Regex RegexSpec RegexProof HtmlRe Fence Atx Entity Inlines HelperSpec EntityProof EmphSpec DelimSpec LinkSpec HtmlProof HtmlRaw AtxProof InlineProof InlineHtml InlineRun InlineOpaque InlineEmph InlineRead InlineTarget InlineSection InlineAngle InlineLone.
From Verif Require HtmlSpec.
Import ListNotations.
Local Open Scope list_scope.
(** [<i x= y="*c*">] *)
Lemma no_value : ~ angle_ahead (lit "i x= y=""*c*"">").
Proof.
  set (P := fun z => is_letter z \/ is_digit z \/ z = 45%N). set (W := fun c : N => In c [9; 10; 11; 12; 13; 32]%N).
  assert (Raw : forall k rest, 60%N :: lit "i x= y=""*c*"">" = k ++ rest -> HtmlSpec.raw (fun _ => True) k -> False).
  { intros k rest E Hk. revert E. destruct Hk as [m l t sl (y & q & -> & Hy & Fq) _ Hl Ht|m t _ _ _|u _ _ _ _|u _|c u _ _|u _]; intros E; [|cbn in E; discriminate..]. cbn [HtmlSpec.show app] in E. rewrite <- !app_assoc in E. injection E as <- E.
    assert (Fin : stop (t ++ (if sl then [47%N] else []) ++ 62%N :: rest)) by (apply (white_stop (fun _ => True)); [exact Ht|]; exact (fin_stop sl rest)).
    destruct (attrs_white_stop (fun _ => True) l _ Hl Fin) as (f & s & Es & Hf). pose proof E as E1. rewrite Es in E1.
    destruct (same_prefix P [] q 32%N f (lit "x= y=""*c*"">") s ltac:(constructor) Fq E1) as (<- & _ & _); [unfold P, is_letter, is_digit; lia|clear -Hf; unfold P, is_letter, is_digit; cbn in Hf; lia|]. cbn [app] in E.
    assert (W1 : Forall W [32%N]) by (constructor; [cbn; tauto|constructor]). assert (Wx : ~ W 120%N) by (unfold W; cbn; lia).
    destruct Hl as [|a l (_ & G2 & (c & u & En & Hc & Hu) & Hv) Hl].
    { cbn [map concat] in E. destruct sl; [destruct (same_prefix W [32%N] t 120%N 47%N (lit "= y=""*c*"">") (62%N :: rest) W1 Ht E Wx) as (_ & X & _)|destruct (same_prefix W [32%N] t 120%N 62%N (lit "= y=""*c*"">") rest W1 Ht E Wx) as (_ & X & _)]; try (unfold W; cbn; lia); discriminate. }
    pose proof (attrs_white_stop (fun _ => True) l _ Hl Fin) as St. cbn [map concat] in E. unfold HtmlSpec.show_attr in E at 1. rewrite En, <- !app_assoc in E. rewrite <- app_comm_cons in E.
    destruct (same_prefix W [32%N] _ 120%N c (lit "= y=""*c*"">") _ W1 G2 E Wx) as (_ & _ & E2); [clear -Hc; unfold W, is_letter in *; cbn in *; lia|]. clear E E1 Es.
    set (S := concat (map HtmlSpec.show_attr l) ++ t ++ (if sl then [47%N] else []) ++ 62%N :: rest) in *. clearbody S. set (Q := fun z => is_letter z \/ is_digit z \/ In z (lit ":._-")).
    assert (Q1 : ~ Q 61%N) by (unfold Q, is_letter, is_digit; cbn; lia).
    destruct (HtmlSpec.a_value a) as [((b1 & b2) & v)|].
    2: { destruct St as (d & z & -> & Hd). cbn [app] in E2. destruct (same_prefix Q [] u 61%N d _ _ ltac:(constructor) Hu E2 Q1) as (_ & X & _); [clear -Hd; unfold Q, is_letter, is_digit; cbn in *; lia|]. subst d. cbn in Hd. lia. }
    destruct Hv as (B1 & B2 & Hv). rewrite <- app_assoc in E2. cbn [app] in E2. rewrite <- app_assoc in E2.
    assert (Ub : u = [] /\ b1 = [] /\ lit " y=""*c*"">" = b2 ++ HtmlSpec.show_value v ++ S).
    { destruct B1 as [|e b1 He B1]; cbn [app] in E2.
      - destruct (same_prefix Q [] u 61%N 61%N _ _ ltac:(constructor) Hu E2 Q1 Q1) as (<- & _ & X). auto.
      - destruct (same_prefix Q [] u 61%N e _ _ ltac:(constructor) Hu E2 Q1) as (_ & X & _); [clear -He; unfold Q, is_letter, is_digit; cbn in *; lia|]. subst e. cbn in He. lia. }
    destruct Ub as (_ & _ & E3). clear E2. assert (Wy : ~ W 121%N) by (unfold W; cbn; lia).
    destruct v as [v|v|v]; cbn [HtmlSpec.show_value app] in E3.
    - destruct Hv as (Hn & Fv). destruct v as [|z v]; [contradiction|]. inversion Fv as [|? ? Hz Fv']; subst. cbn [app] in E3. destruct (same_prefix W [32%N] b2 121%N z _ _ W1 B2 E3 Wy) as (_ & _ & X); [clear -Hz; unfold W; cbn in *; lia|].
      destruct St as (d & z' & -> & Hd). assert (61%N = d) as <-; [|cbn in Hd; lia]. refine (clash (fun _ => False) _ [] 61%N _ v d z' ltac:(constructor) Fv' X _ _); [cbn; lia|tauto].
    - destruct (same_prefix W [32%N] b2 121%N 39%N _ _ W1 B2 E3 Wy) as (_ & X & _); [unfold W; cbn; lia|discriminate].
    - destruct (same_prefix W [32%N] b2 121%N 34%N _ _ W1 B2 E3 Wy) as (_ & X & _); [unfold W; cbn; lia|discriminate]. }
  intros (k & rest & E & [H|(x & Hx & ->)]); [exact (Raw k rest E H)|]. destruct x as [x|u (l & ls)|s r].
  - destruct Hx as (H1 & H2). exact (Raw _ rest E (proper_raw x H1 H2)).
  - destruct Hx as (_ & H2 & _). cbn [show_angle] in E. rewrite <- !app_comm_cons in E. injection E as E. rewrite <- !app_assoc in E. cbn [app] in E. enough (32%N = 64%N) by discriminate.
    refine (clash P mail_char [105%N] 32%N _ u 64%N _ _ H2 E _ _); [constructor; [left; unfold is_letter; lia|constructor]|unfold mail_char, is_letter, is_digit; cbn; lia|unfold P, is_letter, is_digit; lia].
  - destruct Hx as (_ & _ & H2 & _). cbn [show_angle] in E. rewrite <- !app_comm_cons in E. injection E as E. rewrite <- !app_assoc in E. cbn [app] in E. enough (32%N = 58%N) by discriminate.
    refine (clash P _ [105%N] 32%N _ s 58%N _ _ H2 E _ _); [constructor; [left; unfold is_letter; lia|constructor]|unfold is_letter, is_digit; cbn; lia|unfold P, is_letter, is_digit; lia].
Qed.
