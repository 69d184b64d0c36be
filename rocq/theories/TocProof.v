(** build_toc refines the history-based specification of TocSpec.v. *)
From Coq Require Import String List NArith ZArith Bool Arith Lia.
From Verif Require Import Str Fence Atx HtmlRe Inlines Anchor Toc Spec AnchorSpec TocSpec.
From Verif Require Import StrFacts FenceProof AtxProof DecFacts AnchorProof.
Import ListNotations.
Local Open Scope list_scope.

Lemma app_cons_snoc {A} (s : list A) a l : s ++ a :: l = (s ++ [a]) ++ l.
Proof. rewrite <- app_assoc. reflexivity. Qed.

(** ** Dependence on the level limit *)
Lemma file_line_split l : file_line l -> exists s k, single_line s /\ l = s ++ repeat 10%N k /\ l <> [].
Proof.
  intros (s & Hs & [-> | (-> & H)]).
  - exists s, 1. repeat split; try apply Hs. destruct s; discriminate.
  - exists s, 0. cbn. rewrite app_nil_r. repeat split; try apply Hs. exact H.
Qed.

Lemma get_atx_redcarpet keep nl s k :
  (1 <= keep)%Z -> single_line s -> s ++ repeat 10%N k <> [] ->
  get_atx_heading Redcarpet keep nl (s ++ repeat 10%N k) = Ok [fst (atx_redcarpet nl true s)].
Proof.
  intros Hk Hs Hne. unfold get_atx_heading.
  replace (keep <? 1)%Z with false by (symmetry; apply Z.ltb_ge; lia).
  pose proof (split_newlines_single s k Hs) as E.
  destruct (s ++ repeat 10%N k) as [|x l] eqn:El; [congruence|].
  rewrite E. cbn [atx_lines cm_family]. destruct (atx_redcarpet nl true s) as (h & v). reflexivity.
Qed.

Lemma atx_redcarpet_some nl s h v :
  atx_redcarpet nl true s = (Some h, v) -> 1 <= h_level h <= 6 /\ h_visible h = true.
Proof.
  unfold atx_redcarpet. destruct (startswith [cHASH] s) eqn:Es; [|discriminate].
  assert (Hl : 1 <= leading cHASH s).
  { destruct s as [|c s]; [discriminate|]. cbn in Es |- *. rewrite andb_true_r in Es.
    rewrite N.eqb_sym, Es. lia. }
  set (level := Nat.min 6 (leading cHASH s)). assert (1 <= level <= 6) by (unfold level; lia). clearbody level.
  destruct (skipn level s) as [|c r]; [discriminate|]. destruct (negb _); [discriminate|].
  destruct (_ <? _); [|discriminate].
  destruct (negb nl && _); intros E; injection E as <- _; cbn; auto.
Qed.

Definition known_parser (p : parser) : Prop := p <> OtherParser.
Lemma known_cases p : known_parser p -> cm_family p = true \/ p = Redcarpet.
Proof. unfold known_parser. destruct p; cbn; auto; congruence. Qed.

(** The heading structure of a line with limit [keep], from the one with limit 6. *)
Lemma get_atx_keep p keep nl l :
  known_parser p -> (1 <= keep)%Z -> file_line l ->
  match get_atx_heading p 6 nl l with
  | Err e => get_atx_heading p keep nl l = Err e
  | Ok [Some h] => 1 <= h_level h <= 6
      /\ get_atx_heading p keep nl l = Ok [Some (mkHeading (h_level h) (h_text h) (listed p keep (h_level h)))]
  | Ok hs => hs = [None] /\ get_atx_heading p keep nl l = Ok [None]
  end.
Proof.
  intros Hp Hk Hl. destruct (file_line_split l Hl) as (s & k & Hs & -> & Hne).
  destruct (known_cases p Hp) as [Hc | ->].
  - assert (Hcm : commonmark_parser p) by (apply cm_family_iff; exact Hc).
    rewrite !get_atx_single by (assumption || lia).
    destruct (atx_line_dec p s) as [(lev & r & H)|H].
    + rewrite !(atx_cm_heading p _ nl true s lev r H).
      destruct (if nl then _ else _) as [t|e]; cbn; [|reflexivity].
      split; [destruct H as (? & _ & _ & H & _); exact H|]. do 4 f_equal.
      unfold sees, listed. rewrite Z.gtb_ltb, Z.leb_antisym.
      destruct p; try discriminate; destruct (keep <? Z.of_nat lev)%Z; reflexivity.
    + destruct (atx_cm_none p 6 nl true s H) as (v & ->). destruct (atx_cm_none p keep nl true s H) as (v' & ->).
      cbn. auto.
  - rewrite !get_atx_redcarpet by (assumption || lia).
    destruct (atx_redcarpet nl true s) as (h & v) eqn:E. cbn [fst].
    destruct h as [h|]; [|auto]. apply atx_redcarpet_some in E as (A & B). split; [exact A|].
    destruct h; cbn in *. subst. reflexivity.
Qed.

(** ** One line: headings and anchors *)
Definition dups_ok (p : parser) (E : env) (seen : list str) (d : dupcount) : Prop :=
  cm_family p = true -> counts E seen d.

Lemma build_anchor_known E p d text seen :
  known_parser p -> dups_ok p E seen d ->
  match build_anchor_link E p [] text with
  | Err e => build_anchor_link E p d text = Err e
  | Ok (Some s, _) =>
      (cm_family p = true -> no_collision E (seen ++ [s])) ->
      exists d', build_anchor_link E p d text = Ok (Some (anchor_of p s seen), d') /\ dups_ok p E (seen ++ [s]) d'
  | Ok (None, _) => False
  end.
Proof.
  intros Hp Hd. unfold build_anchor_link.
  destruct (1 <? length (replace_and_split_newlines text)); [reflexivity|].
  destruct (known_cases p Hp) as [Hc | ->].
  - rewrite Hc. destruct (slug E p text) as [s|e]; cbn [bind]; [|reflexivity].
    unfold number_anchor at 1. cbn [dup_get]. change (0 <? 0)%Z with false. cbn iota.
    intros Hn. destruct (number_anchor E d s) as (a & d') eqn:En. exists d'.
    pose proof (number_anchor_value E seen d s a d' (Hd Hc)) as V.
    rewrite V; [split| |exact En].
    + unfold anchor_of. destruct p; try discriminate; reflexivity.
    + intros _. eapply counts_step; [apply Hd; exact Hc|exact En].
    + intros t Ht Et. apply (Hn eq_refl); auto; apply in_or_app; cbn; auto.
  - cbn. intros _. exists d. split; [reflexivity|]. discriminate.
Qed.

Lemma md_header_line E p keep nl d line seen :
  known_parser p -> (1 <= keep)%Z -> file_line line -> dups_ok p E seen d ->
  match line_heading E p nl line with
  | Err e => get_md_header E p keep nl d line = Err e
  | Ok None => get_md_header E p keep nl d line = Ok ([None], d)
  | Ok (Some f) => 1 <= f_level f <= 6 /\
      ((cm_family p = true -> no_collision E (seen ++ [f_slug f])) ->
       exists d', get_md_header E p keep nl d line
                = Ok ([Some (mkHeader (f_level f) (f_text f) (Some (anchor_of p (f_slug f) seen))
                               (listed p keep (f_level f)))], d')
             /\ dups_ok p E (seen ++ [f_slug f]) d')
  end.
Proof.
  intros Hp Hk Hl Hd. unfold line_heading, get_md_header.
  pose proof (get_atx_keep p keep nl line Hp Hk Hl) as H.
  destruct (get_atx_heading p 6 nl line) as [hs|e]; [|rewrite H; reflexivity].
  destruct hs as [|[h|] [|h2 hs]]; try (destruct H as (A & B); discriminate).
  - destruct H as (Hlev & ->). cbn [bind md_headers h_text h_level h_visible].
    pose proof (build_anchor_known E p d (h_text h) seen Hp Hd) as G.
    destruct (build_anchor_link E p [] (h_text h)) as [([s|] & d0)|e]; [|destruct G|rewrite G; reflexivity].
    split; [exact Hlev|]. intros Hn. cbn [f_slug] in Hn. destruct (G Hn) as (d' & -> & Hd').
    cbn [bind f_level f_text f_slug]. exists d'. split; [reflexivity|exact Hd'].
  - destruct H as (_ & ->). reflexivity.
Qed.

(** ** Numbers *)
Definition has_level (l : nat) (levels : list nat) : bool := existsb (Nat.eqb l) levels.
Lemma has_level_not l levels : has_level l levels = false -> last_number levels l = 0.
Proof.
  induction levels as [|x h IH]; cbn; [reflexivity|]. intros H. apply orb_false_iff in H as (A & B).
  rewrite Nat.eqb_sym, A. auto.
Qed.
Lemma tc_get_set d k v k' : tc_get (tc_set d k v) k' = if (k =? k')%Z then Some v else tc_get d k'.
Proof.
  induction d as [|(k0 & w) d IH]; cbn [tc_set tc_get].
  - reflexivity.
  - destruct (k0 =? k)%Z eqn:E.
    + apply Z.eqb_eq in E as ->. cbn [tc_get]. destruct (k =? k')%Z; reflexivity.
    + cbn [tc_get]. rewrite IH. destruct (k0 =? k')%Z eqn:E1; [|reflexivity].
      apply Z.eqb_eq in E1 as ->. rewrite Z.eqb_sym, E. reflexivity.
Qed.

Definition types_ok (levels : list nat) (d : typecount) : Prop :=
  forall l, 1 <= l -> tc_get d (Z.of_nat l) =
    if has_level l levels then Some (Z.of_nat (last_number levels l)) else None.

Definition prev_of (levels : list nat) : Z := match levels with [] => 0%Z | x :: _ => Z.of_nat x end.

Lemma increase_index_spec p levels d l :
  types_ok levels d -> Forall (fun x => 1 <= x) levels -> 1 <= l ->
  increase_index p d (prev_of levels) (Z.of_nat l) =
  if limits_index p && (999999999 <? Z.of_nat (number levels l))%Z then Err GithubOverflowOrderedListMarker
  else Ok (tc_set d (Z.of_nat l) (Z.of_nat (number levels l))).
Proof.
  intros Ht Fl Hl. unfold increase_index.
  replace (prev_of levels <? 0)%Z with false by (symmetry; apply Z.ltb_ge; unfold prev_of; destruct levels; lia).
  replace (Z.of_nat l <? 1)%Z with false by (symmetry; apply Z.ltb_ge; lia).
  rewrite (Ht l Hl).
  assert (E : ((if has_level l levels
     then if ((if (prev_of levels =? 0)%Z then Z.of_nat l else prev_of levels) <? Z.of_nat l)%Z then 0 else Z.of_nat (last_number levels l)
     else 0) + 1)%Z = Z.of_nat (number levels l)).
  { destruct levels as [|y h]; [reflexivity|]. cbn [prev_of number].
    inversion Fl; subst. replace (Z.of_nat y =? 0)%Z with false by (symmetry; apply Z.eqb_neq; lia).
    replace (Z.of_nat y <? Z.of_nat l)%Z with (y <? l) by (destruct (y <? l) eqn:G; symmetry; [apply Z.ltb_lt; apply Nat.ltb_lt in G; lia|apply Z.ltb_ge; apply Nat.ltb_ge in G; lia]).
    destruct (has_level l (y :: h)) eqn:Hh.
    - destruct (y <? l); lia.
    - rewrite (has_level_not _ _ Hh). destruct (y <? l); lia. }
  destruct (has_level l levels); cbn [bind]; rewrite E; reflexivity.
Qed.

Lemma types_ok_step levels d l :
  types_ok levels d -> 1 <= l -> types_ok (l :: levels) (tc_set d (Z.of_nat l) (Z.of_nat (number levels l))).
Proof.
  intros H Hl x Hx. rewrite tc_get_set. cbn [has_level existsb].
  destruct (Z.of_nat l =? Z.of_nat x)%Z eqn:E.
  - apply Z.eqb_eq in E. assert (x = l) by lia. subst x. rewrite Nat.eqb_refl. cbn [orb]. do 2 f_equal.
    cbn [last_number]. rewrite Nat.eqb_refl. reflexivity.
  - apply Z.eqb_neq in E. replace (x =? l) with false by (symmetry; apply Nat.eqb_neq; lia). cbn [orb].
    rewrite H by exact Hx. cbn [last_number]. replace (l =? x) with false by (symmetry; apply Nat.eqb_neq; lia). reflexivity.
Qed.

(** ** Indentation *)
Lemma nth_list_upd {A} (l : list A) n f k :
  nth_error (list_upd l n f) k = if k =? n then option_map f (nth_error l n) else nth_error l k.
Proof.
  revert n k. induction l as [|x l IH]; intros n k.
  - cbn. destruct k, n; cbn; auto; destruct (k =? n); reflexivity.
  - destruct n, k; cbn [list_upd nth_error Nat.eqb option_map]; auto.
Qed.
Lemma length_list_upd {A} (l : list A) n f : length (list_upd l n f) = length l.
Proof. revert n. induction l; intros [|n]; cbn; auto. Qed.
Lemma nth_reset (l : list ilog) c g k :
  nth_error (firstn c l ++ map g (skipn c l)) k =
  if k <? c then nth_error l k else option_map g (nth_error l k).
Proof.
  revert c k. induction l as [|x l IH]; intros c k.
  - rewrite firstn_nil, skipn_nil. cbn [map app]. destruct k; cbn [nth_error option_map]; destruct (_ <? c); reflexivity.
  - destruct c.
    + cbn. destruct k; [reflexivity|]. cbn. apply nth_error_map.
    + destruct k; [reflexivity|]. cbn [firstn skipn app nth_error]. rewrite IH. reflexivity.
Qed.
Lemma log_get_nat l i : 1 <= i -> log_get l (Z.of_nat i) = match nth_error l (i - 1) with Some e => Ok e | None => Err KeyError end.
Proof.
  intros H. unfold log_get. replace (Z.of_nat i <? 1)%Z with false by (symmetry; apply Z.ltb_ge; lia).
  replace (Z.to_nat (Z.of_nat i - 1)) with (i - 1) by lia. reflexivity.
Qed.
Lemma log_upd_nat l i f e : 1 <= i -> nth_error l (i - 1) = Some e -> log_upd l (Z.of_nat i) f = Ok (list_upd l (i - 1) f).
Proof.
  intros H E. unfold log_upd. rewrite log_get_nat by exact H. rewrite E. cbn [bind].
  replace (Z.to_nat (Z.of_nat i - 1)) with (i - 1) by lia. reflexivity.
Qed.

Definition width (ordered : bool) (m : str) (index : Z) : nat :=
  (if ordered then length (dec index) else 0) + length m.

Definition log_ok (ordered : bool) (m : str) (hist : list (nat * nat)) (log : list ilog) : Prop :=
  length log = 6 /\
  forall l, 1 <= l <= 6 -> exists e, nth_error log (l - 1) = Some e /\ il_marker e = m
    /\ il_spaces e = Z.of_nat (column_from false hist l)
    /\ (forall x w h, hist = (x, w) :: h -> l = x -> w = width ordered m (il_index e)).

Lemma compute_indentation_spec p ordered m hist log l pv n :
  cm_family p = true -> marker_ok p ordered m = true -> log_ok ordered m hist log ->
  Forall (fun x => 1 <= fst x <= 6) hist -> 1 <= l <= 6 -> (1 <= n)%Z ->
  (match hist with [] => pv = 0 \/ pv = l | (x, _) :: _ => pv = x end) ->
  exists log' e, compute_indentation p ordered m log (Z.of_nat l) (Z.of_nat pv) n = Ok log'
    /\ log_ok ordered m ((l, width ordered m n) :: hist) log'
    /\ log_get log' (Z.of_nat l) = Ok e /\ il_spaces e = Z.of_nat (column_from true hist l).
Proof.
  intros Hp Hm (Hlen & Hlog) Fh Hl Hn Hpv. unfold compute_indentation.
  replace (Z.of_nat l <? 1)%Z with false by (symmetry; apply Z.ltb_ge; lia).
  replace (Z.of_nat pv <? 0)%Z with false by (symmetry; apply Z.ltb_ge; lia).
  rewrite Hp, Hlen. cbn [Nat.eqb negb andb].
  replace (n <? 1)%Z with false by (symmetry; apply Z.ltb_ge; lia). rewrite Hm. cbn [negb].
  (* the width of the previous marker *)
  assert (Hil : exists ilen, (if ordered && negb (Z.of_nat pv =? 0)%Z
       then do e <- log_get log (Z.of_nat pv); Ok (Z.of_nat (length (dec (il_index e)))) else Ok 0%Z) = Ok ilen
       /\ (forall x w h, hist = (x, w) :: h -> (Z.of_nat w = ilen + Z.of_nat (length m))%Z)).
  { destruct hist as [|(x & w) h].
    - destruct Hpv as [-> | ->].
      + exists 0%Z. rewrite andb_false_r. split; [reflexivity|discriminate].
      + destruct (Hlog l Hl) as (e & E & _). rewrite log_get_nat by lia. rewrite E. cbn [bind].
        destruct (ordered && _); eexists; (split; [reflexivity|discriminate]).
    - subst pv. inversion Fh; subst. cbn [fst] in *. destruct (Hlog x) as (e & E & _ & _ & Hw); [lia|].
      specialize (Hw x w h eq_refl eq_refl). rewrite log_get_nat by lia. rewrite E. cbn [bind].
      replace (Z.of_nat x =? 0)%Z with false by (symmetry; apply Z.eqb_neq; lia). cbn [negb]. rewrite andb_true_r.
      unfold width in Hw. destruct ordered; eexists; (split; [reflexivity|]);
        intros x' w' h' Eq; injection Eq as <- <- <-; lia. }
  destruct Hil as (ilen & -> & Hilen). cbn [bind].
  (* the spaces *)
  assert (Hsp : exists log1,
     (if (Z.of_nat pv =? 0)%Z then log_upd log (Z.of_nat l) (set_spaces 0)
      else if (Z.of_nat pv <? Z.of_nat l)%Z
       then do e <- log_get log (Z.of_nat pv);
            log_upd log (Z.of_nat l) (set_spaces (il_spaces e + Z.of_nat (length (il_marker e)) + ilen + 1))
       else if (Z.of_nat l <? Z.of_nat pv)%Z then Ok (reset_deeper log (Z.of_nat l) m) else Ok log) = Ok log1
     /\ length log1 = 6
     /\ forall k, 1 <= k <= 6 -> exists e, nth_error log1 (k - 1) = Some e /\ il_marker e = m /\
          il_spaces e = Z.of_nat (column_from false ((l, 0) :: hist) k)).
  { assert (Hupd : forall v, v = Z.of_nat (column_from true hist l) ->
        (forall k, l < k -> column_from false hist k = 0) ->
        length (list_upd log (l - 1) (set_spaces v)) = 6 /\
        forall k, 1 <= k <= 6 -> exists e, nth_error (list_upd log (l - 1) (set_spaces v)) (k - 1) = Some e /\ il_marker e = m /\
          il_spaces e = Z.of_nat (column_from false ((l, 0) :: hist) k)).
    { intros v Hv Hdeep. split; [rewrite length_list_upd; exact Hlen|].
      intros k Hk. destruct (Hlog k Hk) as (e & E & Em & Es & _). rewrite nth_list_upd. cbn [column_from].
      destruct (k - 1 =? l - 1) eqn:Ek.
      - apply Nat.eqb_eq in Ek. assert (k = l) by lia. subst k. rewrite E. cbn [option_map].
        eexists. split; [reflexivity|]. cbn [set_spaces il_marker il_spaces]. rewrite Nat.ltb_irrefl, Nat.eqb_refl. auto.
      - apply Nat.eqb_neq in Ek. exists e. split; [exact E|]. split; [exact Em|]. rewrite Es. f_equal.
        destruct (l <? k) eqn:Elk.
        + apply Nat.ltb_lt in Elk. apply Hdeep. exact Elk.
        + replace (l =? k) with false by (symmetry; apply Nat.eqb_neq; lia). reflexivity. }
    assert (Hsame : (forall k, l < k -> column_from false hist k = 0) -> column_from false hist l = column_from true hist l ->
        length log = 6 /\
        forall k, 1 <= k <= 6 -> exists e, nth_error log (k - 1) = Some e /\ il_marker e = m /\
          il_spaces e = Z.of_nat (column_from false ((l, 0) :: hist) k)).
    { intros Hdeep Hcol. split; [exact Hlen|]. intros k Hk. destruct (Hlog k Hk) as (e & E & Em & Es & _).
      exists e. split; [exact E|]. split; [exact Em|]. rewrite Es. f_equal. cbn [column_from].
      destruct (l <? k) eqn:Elk; [apply Nat.ltb_lt in Elk; apply Hdeep; exact Elk|].
      destruct (l =? k) eqn:Elk2; [|reflexivity]. apply Nat.eqb_eq in Elk2. subst k. exact Hcol. }
    destruct (Hlog l Hl) as (el & El & _).
    destruct hist as [|(x & w) h].
    - destruct Hpv as [-> | ->].
      + change (Z.of_nat 0 =? 0)%Z with true. cbn iota. rewrite (log_upd_nat log l _ el) by (lia || exact El).
        eexists. split; [reflexivity|]. apply Hupd; reflexivity.
      + replace (Z.of_nat l =? 0)%Z with false by (symmetry; apply Z.eqb_neq; lia).
        rewrite Z.ltb_irrefl. eexists. split; [reflexivity|]. apply Hsame; reflexivity.
    - subst pv. inversion Fh as [|? ? Hx Fh' Eq]. clear Eq. cbn [fst] in Hx.
      replace (Z.of_nat x =? 0)%Z with false by (symmetry; apply Z.eqb_neq; lia).
      destruct (Z.of_nat x <? Z.of_nat l)%Z eqn:E1.
      + apply Z.ltb_lt in E1. destruct (Hlog x) as (ex & Ex & Emx & Esx & _); [lia|].
        rewrite log_get_nat by lia. rewrite Ex. cbn [bind]. rewrite (log_upd_nat log l _ el) by (lia || exact El).
        eexists. split; [reflexivity|]. apply Hupd.
        * rewrite Esx, Emx. cbn [column_from]. rewrite Nat.ltb_irrefl, Nat.eqb_refl.
          replace (x <? l) with true by (symmetry; apply Nat.ltb_lt; lia).
          specialize (Hilen x w h eq_refl). lia.
        * intros k Hk. cbn [column_from]. replace (x <? k) with true by (symmetry; apply Nat.ltb_lt; lia). reflexivity.
      + apply Z.ltb_ge in E1. destruct (Z.of_nat l <? Z.of_nat x)%Z eqn:E2.
        * apply Z.ltb_lt in E2. eexists. split; [reflexivity|]. unfold reset_deeper. rewrite Nat2Z.id. split.
          -- rewrite app_length, map_length, <- app_length, firstn_skipn. exact Hlen.
          -- intros k Hk. destruct (Hlog k Hk) as (e & E & Em & Es & _). rewrite nth_reset.
             destruct (k - 1 <? l) eqn:Ek.
             ++ apply Nat.ltb_lt in Ek. exists e. split; [exact E|]. split; [exact Em|]. rewrite Es. f_equal.
                cbn [column_from]. replace (x <? k) with false by (symmetry; apply Nat.ltb_ge; lia).
                replace (l <? k) with false by (symmetry; apply Nat.ltb_ge; lia).
                replace (x =? k) with false by (symmetry; apply Nat.eqb_neq; lia).
                destruct (l =? k) eqn:Elk; [|reflexivity]. apply Nat.eqb_eq in Elk. subst k.
                replace (x <? l) with false by (symmetry; apply Nat.ltb_ge; lia).
                replace (x =? l) with false by (symmetry; apply Nat.eqb_neq; lia). reflexivity.
             ++ apply Nat.ltb_ge in Ek. rewrite E. cbn [option_map]. eexists. split; [reflexivity|]. cbn [il_marker il_spaces].
                split; [reflexivity|]. cbn [column_from]. replace (l <? k) with true by (symmetry; apply Nat.ltb_lt; lia). reflexivity.
        * apply Z.ltb_ge in E2. assert (x = l) by lia. subst x. eexists. split; [reflexivity|]. apply Hsame.
          -- intros k Hk. cbn [column_from]. replace (l <? k) with true by (symmetry; apply Nat.ltb_lt; lia). reflexivity.
          -- cbn [column_from]. rewrite Nat.ltb_irrefl, Nat.eqb_refl. reflexivity. }
  destruct Hsp as (log1 & -> & Hlen1 & Hlog1). cbn [bind].
  destruct (Hlog1 l Hl) as (e1 & E1 & Em1 & Es1).
  assert (Hidx : exists log2 e2, (if ordered then log_upd log1 (Z.of_nat l) (set_index n) else Ok log1) = Ok log2
     /\ length log2 = 6 /\ nth_error log2 (l - 1) = Some e2 /\ il_spaces e2 = il_spaces e1
     /\ (ordered = true -> il_index e2 = n)
     /\ forall k, k <> l - 1 -> nth_error log2 k = nth_error log1 k).
  { destruct ordered.
    - rewrite (log_upd_nat log1 l _ e1) by (lia || exact E1). eexists. eexists. split; [reflexivity|].
      split; [rewrite length_list_upd; exact Hlen1|]. rewrite nth_list_upd, Nat.eqb_refl, E1. cbn [option_map].
      split; [reflexivity|]. split; [reflexivity|]. split; [reflexivity|].
      intros k Hk. rewrite nth_list_upd. apply Nat.eqb_neq in Hk. rewrite Hk. reflexivity.
    - exists log1, e1. repeat split; auto. discriminate. }
  destruct Hidx as (log2 & e2 & -> & Hlen2 & E2 & Es2 & Ei2 & Hk2). cbn [bind].
  rewrite (log_upd_nat log2 l _ e2) by (lia || exact E2).
  eexists. exists (set_marker m e2). split; [reflexivity|]. split; [|split].
  - split; [rewrite length_list_upd; exact Hlen2|]. intros k Hk. rewrite nth_list_upd.
    destruct (k - 1 =? l - 1) eqn:Ek.
    + apply Nat.eqb_eq in Ek. assert (k = l) by lia. subst k. rewrite E2. cbn [option_map].
      eexists. split; [reflexivity|]. split; [reflexivity|]. split.
      * cbn [set_marker il_spaces]. rewrite Es2, Es1. reflexivity.
      * intros x w h Eq Ex. injection Eq as <- <- _. cbn [set_marker il_index]. unfold width.
        destruct ordered; [rewrite Ei2 by reflexivity; reflexivity|reflexivity].
    + apply Nat.eqb_neq in Ek. rewrite Hk2 by exact Ek. destruct (Hlog1 k Hk) as (e & E & Em & Es).
      exists e. split; [exact E|]. split; [exact Em|]. split; [exact Es|].
      intros x w h Eq Ex. injection Eq as <- <- _. lia.
  - rewrite log_get_nat by lia. rewrite nth_list_upd, Nat.eqb_refl, E2. reflexivity.
  - cbn [set_marker il_spaces]. rewrite Es2, Es1. cbn [column_from]. rewrite Nat.ltb_irrefl, Nat.eqb_refl. reflexivity.
Qed.

Lemma compute_indentation_redcarpet ordered m log l pv n :
  marker_ok Redcarpet ordered m = true -> length log = 6 -> 1 <= l <= 6 -> (0 <= pv)%Z -> (1 <= n)%Z ->
  exists log' e, compute_indentation Redcarpet ordered m log (Z.of_nat l) pv n = Ok log'
    /\ length log' = 6 /\ log_get log' (Z.of_nat l) = Ok e /\ il_spaces e = Z.of_nat (4 * (l - 1)).
Proof.
  intros Hm Hlen Hl Hpv Hn. unfold compute_indentation.
  replace (Z.of_nat l <? 1)%Z with false by (symmetry; apply Z.ltb_ge; lia).
  replace (pv <? 0)%Z with false by (symmetry; apply Z.ltb_ge; lia).
  cbn [cm_family andb]. replace (n <? 1)%Z with false by (symmetry; apply Z.ltb_ge; lia). rewrite Hm. cbn [negb].
  destruct (nth_error log (l - 1)) as [e|] eqn:E; [|apply nth_error_None in E; lia].
  rewrite (log_upd_nat log l _ e) by (lia || exact E).
  eexists. exists (set_spaces (4 * (Z.of_nat l - 1)) e). split; [reflexivity|].
  split; [rewrite length_list_upd; exact Hlen|]. split.
  - rewrite log_get_nat by lia. rewrite nth_list_upd, Nat.eqb_refl, E. reflexivity.
  - cbn [set_spaces il_spaces]. lia.
Qed.

(** ** The state of the loop *)
Record inv (o : opts) (ordered : bool) (m : str) (hist : list (nat * nat)) (st : state) : Prop := {
  i_levels : Forall (fun x => 1 <= fst x <= 6) hist;
  i_prev : t_prev st = prev_of (map fst hist);
  i_first : o_no_indentation o = false -> o_no_list_coherence o = false ->
            t_first st = Z.of_nat (last (map fst hist) 0);
  i_types : numbered_list o ordered = true -> types_ok (map fst hist) (t_types st);
  i_log : o_no_indentation o = false ->
          length (t_log st) = 6 /\ (cm_family (o_parser o) = true -> log_ok ordered m hist (t_log st))
}.

Lemma last_cons_default {A} (x : A) h d d' : last (x :: h) d = last (x :: h) d'.
Proof. revert x. induction h as [|y h IH]; intros x; [reflexivity|]. cbn [last] in *. apply IH. Qed.
Lemma last_in {A} (x : A) h d : In (last (x :: h) d) (x :: h).
Proof. revert x. induction h as [|y h IH]; intros x; [left; reflexivity|]. right. apply (IH y). Qed.

Lemma number_pos hist l : 1 <= number hist l.
Proof. unfold number. destruct hist as [|y h]; [lia|]. destruct (y <? l); lia. Qed.

Lemma marker_ok_used p ordered m :
  known_parser p -> (ordered = true -> sin m (closing_markers p) = true) ->
  marker_ok p ordered m = negb (negb ordered && negb (sin m (bullet_markers p))).
Proof.
  intros Hp Hm. unfold marker_ok. replace (known p) with true by (destruct p; try reflexivity; destruct Hp; reflexivity).
  cbn [negb orb]. destruct ordered; [rewrite Hm; reflexivity|]. destruct (sin m (bullet_markers p)); reflexivity.
Qed.

Lemma entry_marker_width o ordered m hist l :
  length (entry_marker o ordered m hist l) = width ordered m (Z.of_nat (entry_number o ordered hist l)).
Proof.
  unfold entry_marker, width. destruct ordered; [|reflexivity]. rewrite app_length, dec_nat. reflexivity.
Qed.

Lemma add_header_spec o ordered m hist st h a :
  known_parser (o_parser o) -> (ordered = true -> sin m (closing_markers (o_parser o)) = true) ->
  inv o ordered m hist st -> 1 <= hd_level h <= 6 -> hd_anchor h = Some a ->
  match entry_line o ordered m hist (hd_level h) (hd_text h) a with
  | Err e => add_header o ordered m st h = Err e
  | Ok s => exists st', add_header o ordered m st h = Ok st' /\ t_toc st' = t_toc st ++ [s]
      /\ inv o ordered m ((hd_level h, length (entry_marker o ordered m hist (hd_level h))) :: hist) st'
      /\ t_dups st' = t_dups st /\ t_in st' = t_in st /\ t_fence st' = t_fence st /\ t_end st' = t_end st
  end.
Proof.
  intros Hp Hm [Il Ip If It Ig] Hl Ha. unfold add_header, entry_line.
  set (p := o_parser o) in *. set (l := hd_level h) in *.
  assert (Il1 : Forall (fun x => 1 <= x) (map fst hist)).
  { apply Forall_map. eapply Forall_impl; [|exact Il]. cbn; intros; lia. }
  (* numbering *)
  assert (Hnum : (numbered_list o ordered && limits_index p && (999999999 <? Z.of_nat (entry_number o ordered hist l))%Z = true /\
     (if ordered && negb (o_constant o) then
        do t <- increase_index p (t_types st) (t_prev st) (Z.of_nat l);
        Ok (t, match tc_get t (Z.of_nat l) with Some n => n | None => 0%Z end)
      else Ok (t_types st, 1%Z)) = Err GithubOverflowOrderedListMarker) \/
    (numbered_list o ordered && limits_index p && (999999999 <? Z.of_nat (entry_number o ordered hist l))%Z = false /\
     exists t, (if ordered && negb (o_constant o) then
        do t <- increase_index p (t_types st) (t_prev st) (Z.of_nat l);
        Ok (t, match tc_get t (Z.of_nat l) with Some n => n | None => 0%Z end)
      else Ok (t_types st, 1%Z)) = Ok (t, Z.of_nat (entry_number o ordered hist l)) /\
      (numbered_list o ordered = true -> types_ok (l :: map fst hist) t))).
  { unfold entry_number. change (ordered && negb (o_constant o)) with (numbered_list o ordered).
    destruct (numbered_list o ordered) eqn:En.
    - rewrite Ip, increase_index_spec by (auto; lia). cbn [andb].
      destruct (limits_index p && _) eqn:Ei; [left; auto|right].
      split; [reflexivity|]. cbn [bind]. eexists. rewrite tc_get_set, Z.eqb_refl. split; [reflexivity|].
      intros _. apply types_ok_step; [auto|lia].
    - right. split; [reflexivity|]. exists (t_types st). split; [reflexivity|discriminate]. }
  destruct Hnum as [(-> & ->)|(-> & t & -> & Ht)]; [reflexivity|]. cbn [bind].
  assert (Hn1 : 1 <= entry_number o ordered hist l).
  { unfold entry_number. destruct (numbered_list o ordered); [apply number_pos|lia]. }
  set (n := entry_number o ordered hist l) in *.
  (* coherence *)
  assert (Hcoh : negb (o_no_indentation o) = true -> exists fp,
     (if o_no_list_coherence o then Ok (t_first st, t_prev st)
            else
              let first := if (t_first st =? 0)%Z then Z.of_nat l else t_first st in
              let prev := if (t_prev st =? 0)%Z then Z.of_nat l else t_prev st in
              if ((Z.of_nat l <? first) || (prev + 1 <? Z.of_nat l))%Z then Err TocDoesNotRenderAsCoherentList
              else Ok (first, prev)) =
     (if negb (o_no_list_coherence o) && incoherent (map fst hist) l then Err TocDoesNotRenderAsCoherentList
      else Ok fp)
     /\ (negb (o_no_list_coherence o) = true -> incoherent (map fst hist) l = false -> fst fp = Z.of_nat (last (l :: map fst hist) 0))
     /\ exists pv, snd fp = Z.of_nat pv /\ match hist with [] => pv = 0 \/ pv = l | (x, _) :: _ => pv = x end).
  { intros Hi. apply negb_true_iff in Hi. destruct (o_no_list_coherence o) eqn:Ec.
    - eexists. split; [reflexivity|]. split; [discriminate|]. cbn [snd]. rewrite Ip.
      destruct hist as [|(x & w) hh]; cbn; [exists 0; auto|]. exists x. auto.
    - cbn [negb andb]. rewrite (If Hi eq_refl), Ip.
      destruct hist as [|(x & w) hh].
      + cbn [map last prev_of incoherent]. change (Z.of_nat 0 =? 0)%Z with true. change (0 =? 0)%Z with true. cbn iota zeta.
        exists (Z.of_nat l, Z.of_nat l). rewrite Z.ltb_irrefl. replace (Z.of_nat l + 1 <? Z.of_nat l)%Z with false by (symmetry; apply Z.ltb_ge; lia).
        cbn [orb fst snd]. split; [reflexivity|]. split; [reflexivity|]. exists l. auto.
      + pose proof (last_in x (map fst hh) 0) as Hin. cbn [map] in *.
        rewrite Forall_forall in Il1. pose proof (Il1 _ Hin) as Hlast. cbn [fst] in *.
        assert (Hx : 1 <= x) by (apply Il1; left; reflexivity).
        cbn [prev_of incoherent]. set (la := last (x :: map fst hh) 0) in *.
        replace (Z.of_nat la =? 0)%Z with false by (symmetry; apply Z.eqb_neq; lia).
        replace (Z.of_nat x =? 0)%Z with false by (symmetry; apply Z.eqb_neq; lia). cbn zeta.
        exists (Z.of_nat la, Z.of_nat x). split; [|split; [reflexivity|exists x; auto]].
        replace (Z.of_nat l <? Z.of_nat la)%Z with (l <? la) by (destruct (l <? la) eqn:G; symmetry; [apply Z.ltb_lt; apply Nat.ltb_lt in G; lia|apply Z.ltb_ge; apply Nat.ltb_ge in G; lia]).
        replace (Z.of_nat x + 1 <? Z.of_nat l)%Z with (S x <? l) by (destruct (S x <? l) eqn:G; symmetry; [apply Z.ltb_lt; apply Nat.ltb_lt in G; lia|apply Z.ltb_ge; apply Nat.ltb_ge in G; lia]).
        rewrite orb_comm. reflexivity. }
  pose proof (marker_ok_used p ordered m Hp Hm) as Hmk.
  assert (Hline : toc_line_no_indent p ordered (o_no_links o) (Z.of_nat n) m h =
     if negb ordered && negb (sin m (bullet_markers p)) then Err ValueError
     else Ok (Some (entry_marker o ordered m hist l ++ [32%N] ++ entry_label o (hd_text h) a))).
  { unfold toc_line_no_indent. fold l. replace (Z.of_nat l <? 1)%Z with false by (symmetry; apply Z.ltb_ge; lia).
    replace (Z.of_nat n <? 1)%Z with false by (symmetry; apply Z.ltb_ge; lia). rewrite Hmk, negb_involutive.
    destruct (negb ordered && _); [reflexivity|].
    replace (known p) with true by (destruct p; try reflexivity; destruct Hp; reflexivity).
    rewrite Ha, dec_nat. unfold entry_marker, entry_label. fold n. destruct (o_no_links o); cbn [bind]; reflexivity. }
  destruct (o_no_indentation o) eqn:Ei.
  - cbn [bind negb andb]. rewrite Hline. destruct (negb ordered && _); [reflexivity|]. cbn [bind].
    unfold build_toc_line. cbn [Z.ltb Z.compare Z.to_nat repeat app bind].
    eexists. split; [reflexivity|]. cbn [t_toc t_types t_prev t_first t_dups t_log t_in t_fence t_end].
    split; [rewrite <- !app_assoc; reflexivity|]. split; [|auto].
    constructor; cbn [t_toc t_types t_prev t_first t_dups t_log t_in t_fence t_end map fst]; try congruence; auto.
  - destruct Hcoh as (fp & Hfp & Hfirst & pv & Hpv & Hhist); [reflexivity|]. cbn zeta in Hfp. rewrite Hfp. clear Hfp. cbn [negb andb].
    destruct (negb (o_no_list_coherence o) && incoherent (map fst hist) l) eqn:Einc; [reflexivity|].
    cbn [bind]. destruct fp as (fi & pr). cbn [fst snd] in *. subst pr.
    destruct (negb ordered && negb (sin m (bullet_markers p))) eqn:Emk.
    + assert (compute_indentation p ordered m (t_log st) (Z.of_nat l) (Z.of_nat pv) (Z.of_nat n) = Err ValueError) as ->; [|reflexivity].
      unfold compute_indentation. rewrite Hmk. cbn [negb]. repeat (match goal with |- (if ?c then _ else _) = _ => destruct c; [reflexivity|] end). reflexivity.
    + cbn [negb] in Hmk. destruct (Ig eq_refl) as (Hlen & Hlog).
      assert (Hind : exists log' e, compute_indentation p ordered m (t_log st) (Z.of_nat l) (Z.of_nat pv) (Z.of_nat n) = Ok log'
         /\ length log' = 6 /\ (cm_family p = true -> log_ok ordered m ((l, length (entry_marker o ordered m hist l)) :: hist) log')
         /\ log_get log' (Z.of_nat l) = Ok e /\ il_spaces e = Z.of_nat (column p hist l)).
      { rewrite entry_marker_width. fold n. destruct (known_cases p Hp) as [Hc|Hc].
        - destruct (compute_indentation_spec p ordered m hist (t_log st) l pv (Z.of_nat n)) as (log' & e & A & B & C & D); auto; [lia|].
          exists log', e. split; [exact A|]. split; [apply B|]. split; [intros _; exact B|]. split; [exact C|].
          rewrite D. destruct p; try discriminate; reflexivity.
        - rewrite Hc in *. destruct (compute_indentation_redcarpet ordered m (t_log st) l (Z.of_nat pv) (Z.of_nat n)) as (log' & e & A & B & C & D); auto; try lia.
          exists log', e. split; [exact A|]. split; [exact B|]. split; [discriminate|]. split; [exact C|]. exact D. }
      destruct Hind as (log' & e & -> & A & B & C & D). cbn [bind]. rewrite C. cbn [bind]. rewrite Hline. cbn [bind].
      unfold build_toc_line. rewrite D. replace (Z.of_nat (column p hist l) <? 0)%Z with false by (symmetry; apply Z.ltb_ge; lia).
      cbn [bind]. rewrite Nat2Z.id. eexists. split; [reflexivity|]. cbn [t_toc t_types t_prev t_first t_dups t_log t_in t_fence t_end].
      split; [rewrite <- !app_assoc; reflexivity|]. split; [|auto].
      constructor; cbn [t_toc t_types t_prev t_first t_dups t_log t_in t_fence t_end map fst]; auto.
      intros _ Hc. apply Hfirst; [rewrite Hc; reflexivity|]. rewrite Hc in Einc. exact Einc.
Qed.
