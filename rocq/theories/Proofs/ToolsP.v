(** Proofs about the tools (Model/Tools.v). *)
From Coq Require Import Lia ZifyBool ZifyNat Floats.SpecFloat.
From Verif Require Import Model.Base Model.Helpers Model.Errors Model.F32 Model.Tools Spec.ToolsS.
From Verif Require Import Proofs.BaseLemmas.
Ltac Zify.zify_post_hook ::= Z.div_mod_to_equations.

(** ** Numbers *)
Lemma is_digit_spec b : is_digit b = true <-> 48 <= bz b <= 57.
Proof. unfold is_digit. lia. Qed.

Lemma span_digits_spec s : let '(d, r) := span_digits s in
  s = d ++ r /\ Forall (fun b => 48 <= bz b <= 57) d /\ (forall c r', r = c :: r' -> ~ 48 <= bz c <= 57).
Proof.
  induction s as [|b s IH]; cbn [span_digits]; [split; [reflexivity|split; [constructor|discriminate]]|].
  destruct (is_digit b) eqn:E.
  - destruct (span_digits s) as [d r]. destruct IH as (A & B & C). apply is_digit_spec in E.
    split; [cbn; congruence|]. split; [constructor; assumption|exact C].
  - split; [reflexivity|]. split; [constructor|]. intros c r' H. injection H as -> _. rewrite <- is_digit_spec. congruence.
Qed.

Lemma span_unique d r d' r' :
  d ++ r = d' ++ r' -> Forall (fun b => 48 <= bz b <= 57) d -> Forall (fun b => 48 <= bz b <= 57) d' ->
  (forall c t, r = c :: t -> ~ 48 <= bz c <= 57) -> (forall c t, r' = c :: t -> ~ 48 <= bz c <= 57) -> d = d' /\ r = r'.
Proof.
  revert d'. induction d as [|b d IH]; intros [|b' d'] E F F' N N'.
  - auto.
  - exfalso. cbn in E. inversion F'. subst. eapply N; eauto.
  - exfalso. cbn in E. inversion F. subst. eapply N'; eauto.
  - cbn in E. injection E as -> E. inversion F. inversion F'. subst. destruct (IH d' E) as [-> ->]; auto.
Qed.

Lemma span_app d r : Forall (fun b => 48 <= bz b <= 57) d -> (forall c t, r = c :: t -> ~ 48 <= bz c <= 57) ->
  span_digits (d ++ r) = (d, r).
Proof.
  intros F N. pose proof (span_digits_spec (d ++ r)) as S. destruct (span_digits (d ++ r)) as [d' r'].
  destruct S as (A & B & C). destruct (span_unique d r d' r' A F B N C) as [-> ->]. reflexivity.
Qed.

Lemma span_all d : Forall (fun b => 48 <= bz b <= 57) d -> span_digits d = (d, []).
Proof. intros F. rewrite <- (app_nil_r d) at 1. apply span_app; [exact F|discriminate]. Qed.

Definition dec_from (a : Z) (s : list byte) : Z := fold_left (fun a b => 10 * a + (bz b - 48)) s a.
Lemma dec_from_ge s : forall a, Forall (fun b => 48 <= bz b <= 57) s -> 0 <= a -> a <= dec_from a s.
Proof.
  induction s as [|b s IH]; intros a F Ha; cbn [dec_from fold_left]; [lia|]. inversion F as [|? ? Hb HF]. subst.
  specialize (IH (10 * a + (bz b - 48)) HF ltac:(lia)). unfold dec_from in IH. lia.
Qed.

Lemma parse_digits_spec max s : forall a, Forall (fun b => 48 <= bz b <= 57) s -> 0 <= a <= max ->
  parse_digits max a s = if dec_from a s <=? max then Some (dec_from a s) else None.
Proof.
  induction s as [|b s IH]; intros a F Ha; cbn [parse_digits dec_from fold_left].
  - replace (a <=? max) with true by lia. reflexivity.
  - inversion F as [|? ? Hb HF]. subst. replace (is_digit b) with true by (symmetry; apply is_digit_spec; exact Hb).
    replace (a * 10 + (bz b - 48)) with (10 * a + (bz b - 48)) by lia.
    destruct (10 * a + (bz b - 48) <=? max) eqn:E.
    + rewrite IH by (assumption || lia). reflexivity.
    + pose proof (dec_from_ge s (10 * a + (bz b - 48)) HF ltac:(lia)) as G. unfold dec_from in G.
      destruct (fold_left _ s (10 * a + (bz b - 48)) <=? max) eqn:E2; [lia|reflexivity].
Qed.

Lemma parse_uint_digits max s : digits s -> 0 <= max -> parse_uint max s = if decimal s <=? max then Some (decimal s) else None.
Proof.
  intros [N F] Hm. unfold parse_uint. destruct s as [|b s]; [congruence|]. inversion F as [|? ? Hb HF]. subst.
  replace (bz b =? 43) with false by lia. rewrite parse_digits_spec by (assumption || lia). reflexivity.
Qed.

Lemma parse_uint_nil max : parse_uint max [] = None. Proof. reflexivity. Qed.

(** ** C49 *)
Lemma index_parsed : forall s a b, index_string s a b ->
  cli_message_index s =
  if (decimal a <? 2 ^ 64) && (decimal b <? 2 ^ 64) then Ret (Ok (decimal a, decimal b)) else Panic.
Proof.
  intros s a b (Da & Db & ->). unfold cli_message_index.
  rewrite (span_app a ([x2e] ++ b)); [|exact (proj2 Da)|]. 2:{ intros c t H. injection H as <- _. cbn. lia. }
  cbn [app]. rewrite (span_all b) by exact (proj2 Db).
  pose proof (parse_uint_digits (2 ^ 64 - 1) a Da ltac:(cbn; lia)) as Pa. pose proof (parse_uint_digits (2 ^ 64 - 1) b Db ltac:(cbn; lia)) as Pb.
  destruct a as [|a0 a']; [destruct Da; congruence|]. destruct b as [|b0 b']; [destruct Db; congruence|].
  change (bz x2e =? 46) with true. cbv iota. rewrite Pa. cbv beta iota.
  set (u := decimal (a0 :: a')) in *. set (w := decimal (b0 :: b')) in *. clearbody u w.
  replace (u <=? 2 ^ 64 - 1) with (u <? 2 ^ 64) in * by lia. replace (w <=? 2 ^ 64 - 1) with (w <? 2 ^ 64) in * by lia.
  destruct (u <? 2 ^ 64); [|reflexivity]. rewrite Pb. destruct (w <? 2 ^ 64); reflexivity.
Qed.

Lemma index_refused : forall s, (forall a b, ~ index_string s a b) -> cli_message_index s = Ret (Err BadIndex).
Proof.
  intros s H. unfold cli_message_index. pose proof (span_digits_spec s) as S1. destruct (span_digits s) as [d1 r1].
  destruct S1 as (E1 & F1 & _). destruct d1 as [|a0 a]; [reflexivity|]. destruct r1 as [|dot r2]; [reflexivity|].
  destruct (bz dot =? 46) eqn:Ed; [|reflexivity].
  pose proof (span_digits_spec r2) as S2. destruct (span_digits r2) as [d2 r3]. destruct S2 as (E2 & F2 & _).
  destruct d2 as [|b0 b]; [reflexivity|]. destruct r3 as [|]; [|reflexivity].
  exfalso. apply (H (a0 :: a) (b0 :: b)). rewrite app_nil_r in E2. subst r2.
  assert (dot = x2e) as ->. { rewrite <- (zb_bz dot), <- (zb_bz x2e). f_equal. change (bz x2e) with 46. lia. }
  split; [split; [discriminate|assumption]|]. split; [split; [discriminate|assumption]|]. exact E1.
Qed.

(** ** C51: ranges *)
Lemma range_parsed : forall s lo hi, range_string s lo hi ->
  parse_range s = if (lo <? 2 ^ 64) && (hi <? 2 ^ 64) then Some (MkRange lo hi) else None.
Proof.
  intros s lo hi H. destruct H as [a Da|a b r Da Db N]; unfold parse_range.
  - rewrite (span_all a) by exact (proj2 Da).
    rewrite parse_uint_digits by (assumption || (cbn; lia)). set (u := decimal a). clearbody u.
    replace (u <=? 2 ^ 64 - 1) with (u <? 2 ^ 64) by lia. destruct (u <? 2 ^ 64); reflexivity.
  - rewrite (span_app a ([x2d] ++ b ++ r)); [|exact (proj2 Da)|]. 2:{ intros c t H. injection H as <- _. cbn. lia. }
    cbn [app]. rewrite (span_app b r); [|exact (proj2 Db)|exact N]. cbn [fst].
    rewrite !parse_uint_digits by (assumption || (cbn; lia)). set (u := decimal a). set (w := decimal b). clearbody u w.
    change (bz x2d =? 45) with true. cbv iota.
    replace (u <=? 2 ^ 64 - 1) with (u <? 2 ^ 64) by lia. replace (w <=? 2 ^ 64 - 1) with (w <? 2 ^ 64) by lia.
    destruct (u <? 2 ^ 64); [|reflexivity]. destruct (w <? 2 ^ 64); reflexivity.
Qed.

Lemma range_refused : forall s, (forall lo hi, ~ range_string s lo hi) -> parse_range s = None.
Proof.
  intros s H. unfold parse_range. pose proof (span_digits_spec s) as S1. destruct (span_digits s) as [d1 r1].
  destruct S1 as (E1 & F1 & _). destruct d1 as [|a0 a]; [reflexivity|].
  destruct (parse_uint _ (a0 :: a)) as [st|]; [|reflexivity].
  destruct r1 as [|h r2].
  - exfalso. rewrite app_nil_r in E1. subst s. eapply H. apply range_one. split; [discriminate|exact F1].
  - destruct (bz h =? 45) eqn:Eh; [|reflexivity].
    pose proof (span_digits_spec r2) as S2. destruct (span_digits r2) as [d2 r3]. destruct S2 as (E2 & F2 & N2). cbn [fst].
    destruct d2 as [|b0 b]; [reflexivity|]. exfalso.
    assert (h = x2d) as ->. { rewrite <- (zb_bz h), <- (zb_bz x2d). f_equal. change (bz x2d) with 45. lia. }
    subst r2 s. eapply H. apply (range_two (a0 :: a) (b0 :: b) r3); [split; [discriminate|assumption]|split; [discriminate|assumption]|exact N2].
Qed.

Lemma decimal_nonneg a : digits a -> 0 <= decimal a.
Proof. intros [_ F]. exact (dec_from_ge a 0 F ltac:(lia)). Qed.
Lemma range_string_nonneg s lo hi : range_string s lo hi -> 0 <= lo /\ 0 <= hi.
Proof. intros [a Da|a b r Da Db N]; split; apply decimal_nonneg; assumption. Qed.

Lemma parse_range_iff s lo hi : parse_range s = Some (MkRange lo hi) <-> range_string s lo hi /\ lo < 2 ^ 64 /\ hi < 2 ^ 64.
Proof.
  split.
  - intros E. assert (D : (exists l h, range_string s l h) \/ (forall l h, ~ range_string s l h)).
    { pose proof (span_digits_spec s) as S1. destruct (span_digits s) as [d1 r1] eqn:Sp. destruct S1 as (E1 & F1 & _).
      unfold parse_range in E. rewrite Sp in E. destruct d1 as [|a0 a]; [discriminate|].
      destruct (parse_uint _ (a0 :: a)) as [st|]; [|discriminate]. destruct r1 as [|h r2].
      - left. rewrite app_nil_r in E1. subst s. eexists _, _. apply range_one. split; [discriminate|exact F1].
      - destruct (bz h =? 45) eqn:Eh; [|discriminate].
        pose proof (span_digits_spec r2) as S2. destruct (span_digits r2) as [d2 r3]. destruct S2 as (E2 & F2 & N2). cbn [fst] in E.
        destruct d2 as [|b0 b]; [discriminate|]. left.
        assert (h = x2d) as ->. { rewrite <- (zb_bz h), <- (zb_bz x2d). f_equal. change (bz x2d) with 45. lia. }
        subst r2 s. eexists _, _. apply (range_two (a0 :: a) (b0 :: b) r3); [split; [discriminate|assumption]|split; [discriminate|assumption]|exact N2]. }
    destruct D as [(l & h & R)|N]; [|rewrite (range_refused s N) in E; discriminate].
    rewrite (range_parsed s l h R) in E. destruct ((l <? 2 ^ 64) && (h <? 2 ^ 64)) eqn:B; [|discriminate].
    injection E as <- <-. split; [exact R|lia].
  - intros (R & A & B). rewrite (range_parsed s lo hi R). replace ((lo <? 2 ^ 64) && (hi <? 2 ^ 64)) with true by lia. reflexivity.
Qed.

Lemma parse_range_none s : parse_range s = None -> forall lo hi, range_string s lo hi -> 2 ^ 64 <= lo \/ 2 ^ 64 <= hi.
Proof.
  intros E lo hi R. rewrite (range_parsed s lo hi R) in E. destruct ((lo <? 2 ^ 64) && (hi <? 2 ^ 64)) eqn:B; [discriminate|lia].
Qed.

Lemma described_spec d : described d = if in_dec bytes_dec d reserved then None else Some d.
Proof. reflexivity. Qed.
Lemma described_some d s : described d = Some s -> s = d /\ ~ no_description d.
Proof. unfold described. destruct (in_dec bytes_dec d reserved); [discriminate|]. intros E. injection E as <-. auto. Qed.
Lemma described_none d : described d = None -> no_description d.
Proof. unfold described. destruct (in_dec bytes_dec d reserved); [auto|discriminate]. Qed.

Lemma get_app_l A (l l' : list A) c : c < zlen l -> get (l ++ l') c = get l c.
Proof.
  intros H. unfold get. destruct (0 <=? c) eqn:E; [|reflexivity]. unfold zlen in H. apply nth_error_app1. lia.
Qed.
Lemma get_app_r A (l l' : list A) c : zlen l <= c -> get (l ++ l') c = get l' (c - zlen l).
Proof.
  intros H. unfold get. unfold zlen in *. replace (0 <=? c) with true by lia. replace (0 <=? c - Z.of_nat (length l)) with true by lia.
  rewrite nth_error_app2 by lia. f_equal. lia.
Qed.
Lemma get_repeat A (x : A) n c d : get (repeat x n) c = Some d <-> 0 <= c < Z.of_nat n /\ d = x.
Proof.
  unfold get. destruct (0 <=? c) eqn:E; [|split; [discriminate|lia]]. split.
  - intros H. pose proof (nth_error_In _ _ H) as I. apply repeat_spec in I.
    assert (Z.to_nat c < length (repeat x n))%nat by (apply nth_error_Some; congruence). rewrite repeat_length in *. split; [lia|exact I].
  - intros [H ->]. rewrite nth_error_repeat by lia. reflexivity.
Qed.
Lemma get_some_lt A (l : list A) c d : get l c = Some d -> 0 <= c < zlen l.
Proof.
  unfold get, zlen. destruct (0 <=? c) eqn:E; [|discriminate]. intros H.
  assert (Z.to_nat c < length l)%nat by (apply nth_error_Some; congruence). lia.
Qed.

Lemma to_vec_loop_spec : forall m rows k output count empty,
  rows_ok rows -> (k + zlen rows) < 2 ^ 31 -> 0 <= k -> count = zlen output -> 0 <= empty -> count + empty <= k * 2 ^ 32 ->
  exists t, to_vec_loop m rows output count empty = Ret t /\
  (t = [] \/
   (exists ext, t = output ++ ext) /\
   (forall c d, describes rows c d -> count + empty <= c) /\
   forall c d, count <= c -> (get t c = Some d <-> describes rows c d \/ (d = [] /\ c < zlen t /\ forall d', ~ describes rows c d'))).
Proof.
  intros m. induction rows as [|[id s] rows IH]; intros k output count empty Ok Hk Hk0 Hc He Hb; cbn [to_vec_loop].
  - exists output. split; [reflexivity|]. right. split; [exists []; now rewrite app_nil_r|].
    split. { intros c d (i & lo & hi & [] & _). }
    intros c d H. split.
    + intros G. apply get_some_lt in G. lia.
    + intros [(i & lo & hi & [] & _)|(_ & L & _)]. lia.
  - assert (Ok' : rows_ok rows).
    { destruct Ok as [A B]. split; [unfold zlen in *; cbn [length] in A; lia|]. intros; eapply B; [right|]; eassumption. }
    assert (Hz : zlen ((id, s) :: rows) = 1 + zlen rows) by (unfold zlen; cbn [length]; lia). rewrite Hz in Hk.
    pose proof (zlen_nonneg _ rows) as Hz0. pose proof (zlen_nonneg _ output) as Hz1.
    destruct (parse_range id) as [[lo hi]|] eqn:Er.
    + apply parse_range_iff in Er. destruct Er as (R & _ & _). pose proof (proj2 Ok id s lo hi (or_introl eq_refl) R) as B.
      pose proof (range_string_nonneg _ _ _ R) as [B0 _].
      assert (Uniq : forall lo' hi', range_string id lo' hi' -> lo' = lo /\ hi' = hi).
      { intros lo' hi' R'. pose proof (proj2 Ok id s lo' hi' (or_introl eq_refl) R') as B'.
        assert (P : parse_range id = Some (MkRange lo hi)) by (apply parse_range_iff; split; [exact R|change (2 ^ 64) with (2 ^ 32 * 2 ^ 32); lia]).
        assert (P' : parse_range id = Some (MkRange lo' hi')) by (apply parse_range_iff; split; [exact R'|change (2 ^ 64) with (2 ^ 32 * 2 ^ 32); lia]).
        rewrite P in P'. injection P' as -> ->. auto. }
      unfold range_size. cbn [r_start r_end].
      assert (K : k < 2 ^ 31) by lia. change (2 ^ 32) with 4294967296 in *. change (2 ^ 31) with 2147483648 in *.
      destruct (described s) as [s'|] eqn:Ed.
      * destruct (described_some _ _ Ed) as [-> Nd]. rewrite (arith_ok m Usize (count + empty)) by mlia. cbn [bind].
        destruct (count + empty =? lo) eqn:El; cbn [negb]; [|exists []; split; [reflexivity|left; reflexivity]].
        rewrite (arith_ok m Usize (hi - lo)) by mlia. cbn [bind]. rewrite (arith_ok m Usize (hi - lo + 1)) by mlia. cbn [bind].
        rewrite (arith_ok m Usize (count + empty + _)) by mlia. cbn [bind].
        set (o1 := output ++ repeat [] (Z.to_nat empty)).
        assert (Ho1 : zlen o1 = count + empty) by (unfold o1, zlen in *; rewrite app_length, repeat_length; lia).
        assert (Hif : (if hi - lo + 1 =? 1 then [s] else repeat s (Z.to_nat (hi - lo + 1))) = repeat s (Z.to_nat (hi - lo + 1))).
        { destruct (hi - lo + 1 =? 1) eqn:E1; [|reflexivity]. replace (hi - lo + 1) with 1 by lia. reflexivity. }
        rewrite Hif. set (o2 := o1 ++ repeat s (Z.to_nat (hi - lo + 1))).
        assert (Ho2 : zlen o2 = hi + 1) by (unfold o2, zlen in *; rewrite app_length, repeat_length; lia).
        destruct (IH (k + 1) o2 (count + empty + (hi - lo + 1)) 0 Ok') as (t & Et & Ht); try lia.
        exists t. split; [exact Et|]. destruct Ht as [->|((ext & Ex) & Low & Spec)]; [left; reflexivity|]. right.
        split; [exists (repeat [] (Z.to_nat empty) ++ repeat s (Z.to_nat (hi - lo + 1)) ++ ext); rewrite Ex; unfold o2, o1; now rewrite <- !app_assoc|].
        assert (Dh : forall c d, describes ((id, s) :: rows) c d <-> (lo <= c <= hi /\ d = s) \/ describes rows c d).
        { intros c d. split.
          - intros (i & l & h & [I|I] & R' & Hin & N).
            + injection I as <- <-. destruct (Uniq l h R') as [-> ->]. left. auto.
            + right. exists i, l, h. auto.
          - intros [[Hin ->]|(i & l & h & I & R' & Hin & N)].
            + exists id, lo, hi. split; [left; reflexivity|]. auto.
            + exists i, l, h. split; [right; exact I|]. auto. }
        split. { intros c d D. apply Dh in D. destruct D as [[D _]|D]; [lia|]. apply Low in D. lia. }
        intros c d Hcc. destruct (Z.le_gt_cases (hi + 1) c) as [Hge|Hlt].
        { rewrite (Spec c d) by lia. rewrite (Dh c d). split.
          - intros [D|(D1 & D2 & D3)]; [auto|]. right. split; [exact D1|]. split; [exact D2|]. intros d' D'. apply Dh in D'. destruct D' as [[D' _]|D']; [lia|]. exact (D3 _ D').
          - intros [[[D _]|D]|(D1 & D2 & D3)]; [lia|auto|]. right. split; [exact D1|]. split; [exact D2|]. intros d' D'. apply (D3 d'), Dh. auto. }
        assert (Hnot : forall d', ~ describes rows c d'). { intros d' D'. apply Low in D'. lia. }
        assert (Hzt : hi + 1 <= zlen t). { rewrite Ex. unfold zlen in *. rewrite app_length. lia. }
        rewrite Ex, get_app_l by lia. unfold o2. destruct (Z.le_gt_cases lo c) as [Hge2|Hlt2].
        { rewrite get_app_r by lia. rewrite get_repeat. rewrite (Dh c d). split.
          - intros [_ ->]. left. left. split; [lia|reflexivity].
          - intros [[[_ ->]|D]|(_ & _ & D)]; [split; [lia|reflexivity]|destruct (Hnot _ D)|].
            exfalso. apply (D s), Dh. left. split; [lia|reflexivity]. }
        rewrite get_app_l by lia. unfold o1. rewrite get_app_r by lia. rewrite get_repeat, (Dh c d). split.
        { intros [_ ->]. right. split; [reflexivity|]. split.
          - rewrite Ex in Hzt. unfold o2, o1 in *. lia.
          - intros d' D'. apply Dh in D'. destruct D' as [[D' _]|D']; [lia|]. exact (Hnot _ D'). }
        { intros [[[D _]|D]|(-> & _)]; [lia|destruct (Hnot _ D)|]. split; [lia|reflexivity]. }
      * apply described_none in Ed.
        rewrite (arith_ok m Usize (hi - lo)) by mlia. cbn [bind]. rewrite (arith_ok m Usize (hi - lo + 1)) by mlia. cbn [bind].
        rewrite (arith_ok m Usize (empty + _)) by mlia. cbn [bind].
        destruct (IH (k + 1) output count (empty + (hi - lo + 1)) Ok') as (t & Et & Ht); try lia.
        exists t. split; [exact Et|]. destruct Ht as [->|(Ext & Low & Spec)]; [left; reflexivity|]. right. split; [exact Ext|].
        assert (Dh : forall c d, describes ((id, s) :: rows) c d <-> describes rows c d).
        { intros c d. split.
          - intros (i & l & h & [I|I] & R' & Hin & N); [injection I as <- <-; contradiction|exists i, l, h; auto].
          - intros (i & l & h & I & R' & Hin & N). exists i, l, h. split; [right; exact I|auto]. }
        split. { intros c d D. apply Dh in D. apply Low in D. lia. }
        intros c d Hcc. rewrite (Spec c d Hcc), (Dh c d). split; (intros [D|(D1 & D2 & D3)]; [auto|right; split; [exact D1|split; [exact D2|]]; intros d' D'; apply (D3 d'), Dh, D']).
    + assert (NoR : forall lo hi, ~ range_string id lo hi).
      { intros lo hi R. pose proof (proj2 Ok id s lo hi (or_introl eq_refl) R). destruct (parse_range_none _ Er lo hi R); cbn in *; lia. }
      destruct (IH (k + 1) output count empty Ok') as (t & Et & Ht); try lia.
      exists t. split; [exact Et|]. destruct Ht as [->|(Ext & Low & Spec)]; [left; reflexivity|]. right. split; [exact Ext|].
      assert (Dh : forall c d, describes ((id, s) :: rows) c d <-> describes rows c d).
      { intros c d. split.
        - intros (i & l & h & [I|I] & R' & Hin & N); [injection I as <- <-; destruct (NoR _ _ R')|exists i, l, h; auto].
        - intros (i & l & h & I & R' & Hin & N). exists i, l, h. split; [right; exact I|auto]. }
      split. { intros c d D. apply Dh in D. apply Low in D. lia. }
      intros c d Hcc. rewrite (Spec c d Hcc), (Dh c d). split; (intros [D|(D1 & D2 & D3)]; [auto|right; split; [exact D1|split; [exact D2|]]; intros d' D'; apply (D3 d'), Dh, D']).
Qed.

Lemma describes_cons id d0 rows c d : describes ((id, d0) :: rows) c d <->
  (exists lo hi, range_string id lo hi /\ lo <= c <= hi /\ d = d0 /\ ~ no_description d) \/ describes rows c d.
Proof.
  split.
  - intros (i & l & h & [I|I] & R & Hin & N).
    + injection I as <- <-. left. exists l, h. auto.
    + right. exists i, l, h. auto.
  - intros [(l & h & R & Hin & -> & N)|(i & l & h & I & R & Hin & N)].
    + exists id, l, h. split; [left; reflexivity|]. auto.
    + exists i, l, h. split; [right; exact I|]. auto.
Qed.

Lemma range_unique id lo hi lo' hi' : range_string id lo hi -> range_string id lo' hi' ->
  lo < 2 ^ 64 -> hi < 2 ^ 64 -> lo' < 2 ^ 64 -> hi' < 2 ^ 64 -> lo' = lo /\ hi' = hi.
Proof.
  intros R R' A B A' B'.
  assert (P : parse_range id = Some (MkRange lo hi)) by (apply parse_range_iff; auto).
  assert (P' : parse_range id = Some (MkRange lo' hi')) by (apply parse_range_iff; auto).
  rewrite P in P'. injection P' as -> ->. auto.
Qed.

Lemma consecutive_loop : forall m rows c0 e, consecutive c0 rows e -> forall k output count empty,
  rows_ok rows -> (k + zlen rows) < 2 ^ 31 -> 0 <= k -> count = zlen output -> 0 <= empty -> count + empty = c0 -> c0 <= k * 2 ^ 32 ->
  exists t output' count' empty', to_vec_loop m rows output count empty = Ret t /\
    (forall post, to_vec_loop m (rows ++ post) output count empty = to_vec_loop m post output' count' empty') /\
    count' + empty' = e /\ 0 <= empty' /\ 0 <= count' /\ e <= (k + zlen rows) * 2 ^ 32 /\
   (exists ext, t = output ++ ext) /\
   (forall c d, describes rows c d -> count + empty <= c) /\
   forall c d, count <= c -> (get t c = Some d <-> describes rows c d \/ (d = [] /\ (forall d', ~ describes rows c d') /\ described_after rows c)).
Proof.
  intros m rows c0 e H. induction H as [c0|c0 id d0 rows e N H IH|c0 id d0 hi rows e R Hle H IH]; intros k output count empty Ok Hk Hk0 Hc He Hb Hk1;
    cbn [to_vec_loop app]; pose proof (zlen_nonneg _ output) as Hz1.
  - exists output, output, count, empty. split; [reflexivity|]. split; [reflexivity|]. split; [exact Hb|]. split; [exact He|]. split; [lia|].
    split; [rewrite zlen_nil; lia|]. split; [exists []; now rewrite app_nil_r|].
    split. { intros c d (i & lo & hi & [] & _). }
    intros c d Hc'. split; [intros G; apply get_some_lt in G; lia|].
    intros [(i & lo & hi & [] & _)|(_ & _ & c' & d' & _ & i & lo & hi & [] & _)].
  - assert (Ok' : rows_ok rows).
    { destruct Ok as [A B]. split; [rewrite zlen_cons in A; lia|]. intros; eapply B; [right|]; eassumption. }
    rewrite zlen_cons in Hk. rewrite zlen_cons. rewrite (range_refused id N).
    destruct (IH (k + 1) output count empty Ok') as (t & o' & c' & e' & Et & Ep & E1 & E2 & E3 & E4 & Ext & Low & Spec); try lia.
    exists t, o', c', e'. split; [exact Et|]. split; [exact Ep|]. split; [exact E1|]. split; [exact E2|]. split; [exact E3|]. split; [lia|]. split; [exact Ext|].
    assert (Dh : forall c d, describes ((id, d0) :: rows) c d <-> describes rows c d).
    { intros c d. rewrite describes_cons. split; [|auto]. intros [(l & h & R & _)|D]; [destruct (N _ _ R)|exact D]. }
    split. { intros c d D. apply Dh in D. exact (Low _ _ D). }
    intros c d Hcc. rewrite (Spec c d Hcc), (Dh c d). apply or_iff_compat_l.
    split; (intros (D1 & D2 & c1 & d1 & D3 & D4); split; [exact D1|split; [intros d' D'; apply (D2 d'), Dh, D'|exists c1, d1; split; [exact D3|now apply Dh]]]).
  - assert (Ok' : rows_ok rows).
    { destruct Ok as [A B]. split; [rewrite zlen_cons in A; lia|]. intros; eapply B; [right|]; eassumption. }
    pose proof (proj2 Ok id d0 c0 hi (or_introl eq_refl) R) as B.
    assert (Uniq : forall lo' hi', range_string id lo' hi' -> lo' = c0 /\ hi' = hi).
    { intros lo' hi' R'. pose proof (proj2 Ok id d0 lo' hi' (or_introl eq_refl) R') as B'.
      apply (range_unique id c0 hi lo' hi' R R'); change (2 ^ 64) with (2 ^ 32 * 2 ^ 32); lia. }
    assert (Er : parse_range id = Some (MkRange c0 hi)) by (apply parse_range_iff; split; [exact R|change (2 ^ 64) with (2 ^ 32 * 2 ^ 32); lia]).
    rewrite zlen_cons in Hk. rewrite zlen_cons. pose proof (zlen_nonneg _ rows) as Hz0.
    rewrite Er. unfold range_size. cbn [r_start r_end].
    assert (K : k < 2 ^ 31) by lia. change (2 ^ 32) with 4294967296 in *. change (2 ^ 31) with 2147483648 in *.
    destruct (described d0) as [s'|] eqn:Ed.
    + destruct (described_some _ _ Ed) as [-> Nd]. rewrite (arith_ok m Usize (count + empty)) by mlia. cbn [bind].
      replace (count + empty =? c0) with true by lia. cbn [negb].
      rewrite (arith_ok m Usize (hi - c0)) by mlia. cbn [bind]. rewrite (arith_ok m Usize (hi - c0 + 1)) by mlia. cbn [bind].
      rewrite (arith_ok m Usize (count + empty + _)) by mlia. cbn [bind].
      set (o1 := output ++ repeat [] (Z.to_nat empty)).
      assert (Ho1 : zlen o1 = c0) by (unfold o1, zlen in *; rewrite app_length, repeat_length; lia).
      assert (Hif : (if hi - c0 + 1 =? 1 then [d0] else repeat d0 (Z.to_nat (hi - c0 + 1))) = repeat d0 (Z.to_nat (hi - c0 + 1))).
      { destruct (hi - c0 + 1 =? 1) eqn:E1; [|reflexivity]. replace (hi - c0 + 1) with 1 by lia. reflexivity. }
      rewrite Hif. set (o2 := o1 ++ repeat d0 (Z.to_nat (hi - c0 + 1))).
      assert (Ho2 : zlen o2 = hi + 1) by (unfold o2, zlen in *; rewrite app_length, repeat_length; lia).
      destruct (IH (k + 1) o2 (count + empty + (hi - c0 + 1)) 0 Ok') as (t & o' & c' & e' & Et & Ep & E1 & E2 & E3 & E4 & (ext & Ex) & Low & Spec); try lia.
      exists t, o', c', e'. split; [exact Et|]. split; [exact Ep|]. split; [exact E1|]. split; [exact E2|]. split; [exact E3|]. split; [lia|].
      split; [exists (repeat [] (Z.to_nat empty) ++ repeat d0 (Z.to_nat (hi - c0 + 1)) ++ ext); rewrite Ex; unfold o2, o1; now rewrite <- !app_assoc|].
      assert (Dh : forall c d, describes ((id, d0) :: rows) c d <-> (c0 <= c <= hi /\ d = d0) \/ describes rows c d).
      { intros c d. rewrite describes_cons. apply or_iff_compat_r. split.
        - intros (l & h & R' & Hin & -> & N'). destruct (Uniq l h R') as [-> ->]. auto.
        - intros [Hin ->]. exists c0, hi. auto. }
      split. { intros c d D. apply Dh in D. destruct D as [[D _]|D]; [lia|]. apply Low in D. lia. }
      intros c d Hcc. destruct (Z.le_gt_cases (hi + 1) c) as [Hge|Hlt].
      { rewrite (Spec c d) by lia. rewrite (Dh c d). split.
        - intros [D|(D1 & D2 & c1 & d1 & D3 & D4)]; [auto|]. right. split; [exact D1|]. split.
          + intros d' D'. apply Dh in D'. destruct D' as [[D' _]|D']; [lia|]. exact (D2 _ D').
          + exists c1, d1. split; [exact D3|]. apply Dh. auto.
        - intros [[[D _]|D]|(D1 & D2 & c1 & d1 & D3 & D4)]; [lia|auto|]. right. split; [exact D1|]. split.
          + intros d' D'. apply (D2 d'), Dh. auto.
          + exists c1, d1. split; [exact D3|]. apply Dh in D4. destruct D4 as [[D4 _]|D4]; [lia|exact D4]. }
      assert (Hnot : forall d', ~ describes rows c d'). { intros d' D'. apply Low in D'. lia. }
      rewrite Ex, get_app_l by lia. unfold o2. destruct (Z.le_gt_cases c0 c) as [Hge2|Hlt2].
      { rewrite get_app_r by lia. rewrite get_repeat. rewrite (Dh c d). split.
        - intros [_ ->]. left. left. split; [lia|reflexivity].
        - intros [[[_ ->]|D]|(_ & D & _)]; [split; [lia|reflexivity]|destruct (Hnot _ D)|].
          exfalso. apply (D d0), Dh. left. split; [lia|reflexivity]. }
      rewrite get_app_l by lia. unfold o1. rewrite get_app_r by lia. rewrite get_repeat, (Dh c d). split.
      { intros [_ ->]. right. split; [reflexivity|]. split.
        - intros d' D'. apply Dh in D'. destruct D' as [[D' _]|D']; [lia|]. exact (Hnot _ D').
        - exists c0, d0. split; [lia|]. apply Dh. left. split; [lia|reflexivity]. }
      { intros [[[D _]|D]|(-> & _)]; [lia|destruct (Hnot _ D)|]. split; [lia|reflexivity]. }
    + apply described_none in Ed.
      rewrite (arith_ok m Usize (hi - c0)) by mlia. cbn [bind]. rewrite (arith_ok m Usize (hi - c0 + 1)) by mlia. cbn [bind].
      rewrite (arith_ok m Usize (empty + _)) by mlia. cbn [bind].
      destruct (IH (k + 1) output count (empty + (hi - c0 + 1)) Ok') as (t & o' & c' & e' & Et & Ep & E1 & E2 & E3 & E4 & Ext & Low & Spec); try lia.
      exists t, o', c', e'. split; [exact Et|]. split; [exact Ep|]. split; [exact E1|]. split; [exact E2|]. split; [exact E3|]. split; [lia|]. split; [exact Ext|].
      assert (Dh : forall c d, describes ((id, d0) :: rows) c d <-> describes rows c d).
      { intros c d. rewrite describes_cons. split; [|auto]. intros [(l & h & R' & _ & -> & N)|D]; [contradiction|exact D]. }
      split. { intros c d D. apply Dh in D. apply Low in D. lia. }
      intros c d Hcc. rewrite (Spec c d Hcc), (Dh c d). apply or_iff_compat_l.
      split; (intros (D1 & D2 & c1 & d1 & D3 & D4); split; [exact D1|split; [intros d' D'; apply (D2 d'), Dh, D'|exists c1, d1; split; [exact D3|now apply Dh]]]).
Qed.

(** ** C51: look-up *)
Lemma lookup_cases t c : 0 <= c -> (exists d, get t c = Some d /\ lookup t c = Ok d) \/ (get t c = None /\ lookup t c = Err c).
Proof. intros _. unfold lookup. destruct (get t c) as [d|]; [left; exists d; auto|right; auto]. Qed.

Lemma table_sound : forall m rows, rows_ok rows ->
  exists t, to_vec m rows = Ret t /\
  forall c, 0 <= c -> (exists d, lookup t c = Ok d /\ (describes rows c d \/ d = [] /\ forall d', ~ describes rows c d')) \/ lookup t c = Err c.
Proof.
  intros m rows Ok. pose proof (proj1 Ok) as L. destruct (to_vec_loop_spec m rows 0 [] 0 0 Ok) as (t & E & H); try lia; [reflexivity|].
  exists t. split; [exact E|]. intros c Hc. destruct (lookup_cases t c Hc) as [(d & G & ->)|[_ G]]; [left|right; exact G].
  exists d. split; [reflexivity|]. destruct H as [->|(_ & _ & Spec)].
  - exfalso. unfold get in G. destruct (0 <=? c); [destruct (Z.to_nat c)|]; discriminate.
  - apply (Spec c d Hc) in G. destruct G as [G|(-> & _ & G)]; auto.
Qed.

Lemma table_complete : forall m rows e, rows_ok rows -> consecutive 0 rows e ->
  exists t, to_vec m rows = Ret t /\
  forall c, 0 <= c ->
    (forall d, describes rows c d -> lookup t c = Ok d) /\
    ((forall d, ~ describes rows c d) -> described_after rows c -> lookup t c = Ok []) /\
    ((forall d, ~ describes rows c d) -> ~ described_after rows c -> lookup t c = Err c).
Proof.
  intros m rows e Ok C. pose proof (proj1 Ok) as L.
  destruct (consecutive_loop m rows 0 e C 0 [] 0 0 Ok) as (t & o' & c' & e' & E & _ & _ & _ & _ & _ & _ & _ & Spec); try lia; [reflexivity|].
  exists t. split; [exact E|]. intros c Hc. unfold lookup. split; [|split].
  - intros d D. rewrite (proj2 (Spec c d Hc)) by auto. reflexivity.
  - intros N A. rewrite (proj2 (Spec c [] Hc)) by auto. reflexivity.
  - intros N A. destruct (get t c) as [d|] eqn:G; [|reflexivity]. apply (Spec c d Hc) in G.
    destruct G as [G|(_ & _ & G)]; [destruct (N _ G)|contradiction].
Qed.

Lemma table_sparse : forall m rows e id d post lo hi, rows_ok (rows ++ (id, d) :: post) -> consecutive 0 rows e ->
  range_string id lo hi -> lo <> e -> ~ no_description d -> to_vec m (rows ++ (id, d) :: post) = Ret [].
Proof.
  intros m rows e id d post lo hi Ok C R Ne N. pose proof (proj1 Ok) as L. rewrite zlen_app, zlen_cons in L.
  pose proof (zlen_nonneg _ post) as Hp.
  assert (Ok1 : rows_ok rows). { destruct Ok as [A B]. split; [lia|]. intros; eapply B; [apply in_or_app; left|]; eassumption. }
  pose proof (proj2 Ok id d lo hi ltac:(apply in_or_app; right; left; reflexivity) R) as B.
  destruct (consecutive_loop m rows 0 e C 0 [] 0 0 Ok1) as (t & o' & c' & e' & _ & E & E1 & E2 & E3 & E4 & _); try lia; [reflexivity|].
  unfold to_vec. rewrite E. cbn [to_vec_loop].
  assert (Er : parse_range id = Some (MkRange lo hi)) by (apply parse_range_iff; split; [exact R|change (2 ^ 64) with (2 ^ 32 * 2 ^ 32); lia]).
  rewrite Er. destruct (described d) as [s'|] eqn:Ed; [|destruct (N (described_none _ Ed))].
  change (2 ^ 32) with 4294967296 in *. change (2 ^ 31) with 2147483648 in *.
  rewrite (arith_ok m Usize (c' + e')) by mlia. cbn [bind r_start]. replace (c' + e' =? lo) with false by lia. reflexivity.
Qed.
