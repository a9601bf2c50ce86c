(** The text of [gribber decode]. *)
From Coq Require Import Lia ZifyBool ZifyNat Strings.String Reals Lra Floats.SpecFloat.
From Flocq Require Import Core.Core IEEE754.BinarySingleNaN.
From Verif Require Import Model.Base Model.Helpers Model.Errors Model.F32 Model.F64 Model.Sections Model.Reader Model.Parser Model.Context Model.Product Model.Grid Model.Gaussian Model.Proj Model.Decoder Model.Tools Model.Text Model.Tables Model.Cli Model.CliDecode.
From Verif Require Import Spec.FloatS Spec.ToolsS Spec.ReaderS Spec.ParserS Spec.ContextS Spec.FieldsS.
From Verif Require Import Proofs.BaseLemmas Proofs.ReaderP Proofs.FileP Proofs.ToolsP Proofs.TextP Proofs.ToolsX Proofs.ContextX Proofs.ViewX Proofs.BoundX Proofs.CliP Proofs.CliX Proofs.CliL Proofs.RunX Proofs.FieldsX.
From Verif Require Import Spec.CliS Spec.DecodeTextS.
Local Open Scope Z_scope.
Ltac Zify.zify_post_hook ::= Z.div_mod_to_equations.

(** ** Six decimals *)

Lemma dec_zeros n t : decimal (repeat x30 n ++ t) = decimal t.
Proof.
  induction n as [|n IH]; [reflexivity|]. change (repeat x30 (S n) ++ t) with (x30 :: (repeat x30 n ++ t)). rewrite <- IH. reflexivity.
Qed.
Lemma dec_from_lower s : Forall (fun b => 48 <= bz b <= 57) s -> forall a, 0 <= a -> a * 10 ^ zlen s <= dec_from a s.
Proof.
  induction 1 as [|b s Hb _ IH]; intros a Ha.
  - unfold zlen, dec_from. cbn. lia.
  - unfold dec_from. cbn [fold_left]. change (fold_left _ s ?x) with (dec_from x s). specialize (IH (10 * a + (bz b - 48)) ltac:(lia)).
    rewrite zlen_cons. rewrite Z.pow_add_r by (pose proof (zlen_nonneg _ s); lia). pose proof (Z.pow_pos_nonneg 10 (zlen s) ltac:(lia) (zlen_nonneg _ s)). nia.
Qed.
Lemma show_uint_short n w : 0 <= n < 10 ^ Z.of_nat w -> (0 < w)%nat -> (length (show_uint n) <= w)%nat.
Proof.
  intros Hn Hw. destruct (show_uint_spec n ltac:(lia)) as ((N & F) & D & Z0). destruct (show_uint n) as [|b t] eqn:E; [congruence|].
  destruct (Nat.le_gt_cases (length (b :: t)) w) as [L|L]; [exact L|exfalso]. cbn [length] in L.
  pose proof (Forall_inv F) as Hb. pose proof (Forall_inv_tail F) as Ft. cbv beta in Hb.
  assert (B : bz b <> 48).
  { intros B. assert (b = x30) by (apply byte_eq; rewrite B; reflexivity). subst b. destruct (Z0 t eq_refl) as [_ ->]. cbn in L. lia. }
  change (dec_from 0 (b :: t) = n) in D. unfold dec_from in D. cbn [fold_left] in D. change (fold_left _ t ?x) with (dec_from x t) in D.
  pose proof (dec_from_lower t Ft (10 * 0 + (bz b - 48)) ltac:(lia)) as K. rewrite D in K.
  assert (P : 10 ^ Z.of_nat w <= 10 ^ zlen t) by (apply Z.pow_le_mono_r; unfold zlen; lia). nia.
Qed.
Lemma show_zero_ok n w : 0 <= n < 10 ^ Z.of_nat w -> (0 < w)%nat ->
  length (show_zero w n) = w /\ digits (show_zero w n) /\ decimal (show_zero w n) = n.
Proof.
  intros Hn Hw. pose proof (show_uint_short n w Hn Hw) as L. destruct (show_uint_spec n ltac:(lia)) as ((N & F) & D & _). unfold show_zero.
  split; [rewrite app_length, repeat_length; lia|]. split; [split|].
  - intros Q. apply app_eq_nil in Q. tauto.
  - apply Forall_app. split; [|exact F]. apply Forall_forall. intros x Hx. apply repeat_spec in Hx. subst x. change (bz x30) with 48. lia.
  - rewrite dec_zeros. exact D.
Qed.

Lemma round_scaled_spec n e : 0 <= n -> round_scaled n e = ZnearestE (IZR n * bpow radix2 e).
Proof.
  intros Hn. unfold round_scaled. destruct (0 <=? e) eqn:He.
  - rewrite <- IZR_Zpower by lia. change (Zpower radix2 e) with (2 ^ e). rewrite <- mult_IZR. symmetry. apply (Zrnd_IZR ZnearestE).
  - set (d := 2 ^ (- e)). assert (Hd : 0 < d) by (apply Z.pow_pos_nonneg; lia).
    assert (Eb : (IZR n * bpow radix2 e = IZR n / IZR d)%R).
    { unfold Rdiv. f_equal. unfold d. change (2 ^ (- e)) with (Zpower radix2 (- e)). rewrite IZR_Zpower by lia. rewrite bpow_opp. rewrite Rinv_inv. reflexivity. }
    rewrite Eb. assert (Hd' : (0 < IZR d)%R) by (apply IZR_lt; exact Hd).
    pose proof (Z.div_mod n d ltac:(lia)) as DM. pose proof (Z.mod_pos_bound n d Hd) as MB. set (q := n / d) in *. set (r := n mod d) in *.
    assert (EV : (IZR n / IZR d = IZR q + IZR r / IZR d)%R).
    { rewrite DM, plus_IZR, mult_IZR. field. lra. }
    assert (FR : (0 <= IZR r / IZR d < 1)%R).
    { split.
      - apply Rmult_le_pos; [apply IZR_le; lia|]. left. apply Rinv_0_lt_compat. exact Hd'.
      - apply (Rmult_lt_reg_r (IZR d)); [exact Hd'|]. unfold Rdiv. rewrite Rmult_assoc, Rinv_l, Rmult_1_r, Rmult_1_l by lra. apply IZR_lt. lia. }
    assert (FL : Zfloor (IZR n / IZR d) = q). { apply Zfloor_imp. rewrite EV, plus_IZR. lra. }
    unfold Znearest. rewrite FL.
    assert (CE : Rcompare (IZR n / IZR d - IZR q) (/ 2) = (2 * r ?= d)).
    { replace (IZR n / IZR d - IZR q)%R with (IZR r / IZR d)%R by (rewrite EV; ring). unfold Rdiv.
      rewrite <- (Rcompare_mult_r (2 * IZR d)) by lra. replace (IZR r * / IZR d * (2 * IZR d))%R with (IZR (2 * r)) by (rewrite mult_IZR; field; lra).
      replace (/ 2 * (2 * IZR d))%R with (IZR d) by field. apply Rcompare_IZR. }
    rewrite CE.
    assert (CL : 0 < r -> Zceil (IZR n / IZR d) = q + 1).
    { intros R0. apply Zceil_imp. rewrite EV. replace (q + 1 - 1) with q by lia. rewrite plus_IZR.
      assert (0 < IZR r / IZR d)%R by (apply Rmult_lt_0_compat; [apply IZR_lt; lia|apply Rinv_0_lt_compat; exact Hd']). lra. }
    destruct (Z.compare_spec (2 * r) d) as [C|C|C].
    + replace (2 * r <? d) with false by lia. replace (2 * r =? d) with true by lia. cbn [orb andb]. destruct (Z.even q); cbn [negb]; [reflexivity|].
      rewrite CL by lia. reflexivity.
    + replace (2 * r <? d) with true by lia. reflexivity.
    + replace (2 * r <? d) with false by lia. replace (2 * r =? d) with false by lia. cbn [orb andb]. rewrite CL by lia. reflexivity.
Qed.

Lemma fixed_ok x : shows_fixed x (show_fixed6 x).
Proof.
  split; [|split; [intros ->; reflexivity|split; intros ->; reflexivity]].
  intros F. destruct x as [sg|sg| |sg mt ex]; try discriminate F; cbn [negative].
  - exists (text "0"), (text "000000"), 0. cbn [show_fixed6]. split; [reflexivity|]. split; [|split; [reflexivity|split]].
    + split; [split; [discriminate|repeat constructor; cbn; lia]|]. split; [reflexivity|]. intros t' E. injection E as <-. reflexivity.
    + split; [discriminate|]. repeat constructor; cbn; lia.
    + unfold val. cbn [SF2R]. rewrite Rabs_R0, Rmult_0_l. change 0%R with (IZR 0). rewrite (Zrnd_IZR ZnearestE). reflexivity.
  - cbn [show_fixed6]. set (n := round_scaled (Zpos mt * 10 ^ 6) ex). exists (show_uint (n / 10 ^ 6)), (show_zero 6 (n mod 10 ^ 6)), (n / 10 ^ 6).
    assert (EN : n = ZnearestE (Rabs (val (S754_finite sg mt ex)) * 10 ^ 6)).
    { unfold n. rewrite round_scaled_spec by lia. f_equal. unfold val. cbn [SF2R]. unfold F2R. cbn [Fnum Fexp].
      rewrite Rabs_mult, (Rabs_pos_eq (bpow radix2 ex)) by apply bpow_ge_0. rewrite <- abs_IZR. rewrite mult_IZR.
      replace (Z.abs (SpecFloat.cond_Zopp sg (Zpos mt))) with (Zpos mt) by (destruct sg; reflexivity).
      change (10 ^ 6) with 1000000. replace (10 ^ 6)%R with (IZR 1000000) by (cbn [pow]; lra). ring. }
    assert (N0 : 0 <= n).
    { unfold n, round_scaled. destruct (0 <=? ex) eqn:E0; [pose proof (Z.pow_pos_nonneg 2 ex ltac:(lia) ltac:(lia)); nia|].
      pose proof (Z.pow_pos_nonneg 2 (- ex) ltac:(lia) ltac:(lia)) as Pd. cbv zeta. pose proof (Z.div_pos (Zpos mt * 10 ^ 6) (2 ^ (- ex)) ltac:(lia) Pd).
      destruct ((2 * _ <? _) || _); lia. }
    clearbody n. change (10 ^ 6) with 1000000 in *. pose proof (Z.mod_pos_bound n 1000000 ltac:(lia)) as MB. pose proof (Z.div_pos n 1000000 N0 ltac:(lia)) as DP.
    split; [destruct sg; reflexivity|]. split; [|].
    + destruct (show_uint_spec (n / 1000000) DP) as (A & B & C). split; [exact A|]. split; [exact B|]. intros t' E. apply C in E. tauto.
    + destruct (show_zero_ok (n mod 1000000) 6) as (A & B & C); [change (10 ^ Z.of_nat 6) with 1000000; exact MB|lia|]. split; [exact A|]. split; [exact B|].
      rewrite C, <- EN. symmetry. apply Z.div_mod. lia.
Qed.
Lemma nl_zero w n : nolf (show_zero w n).
Proof. apply nl_app; [|apply nl_uint]. intros H. apply repeat_spec in H. discriminate. Qed.
Lemma nl_fixed x : nolf (show_fixed6 x).
Proof.
  destruct x as [sg|sg| |sg mt ex]; cbn [show_fixed6]; try (destruct sg); try (apply nl_str; reflexivity).
  - apply nl_app; [apply nl_str; reflexivity|]. apply nl_app; [apply nl_uint|]. apply nl_app; [apply nl_str; reflexivity|apply nl_zero].
  - apply nl_app; [apply nl_nil|]. apply nl_app; [apply nl_uint|]. apply nl_app; [apply nl_str; reflexivity|apply nl_zero].
Qed.

(** ** Lines *)
Lemma decode_heading_eq : decode_header = decode_heading. Proof. vm_compute. reflexivity. Qed.
Lemma row_ok shortest x : point_line shortest x (decode_row shortest x).
Proof.
  destruct x as ((lat & lon) & value). unfold point_line, decode_row. cbn [fst snd].
  exists (show_fixed6 lat), (show_fixed6 lon), (shortest value), (pad_left 10 (show_fixed6 lat)), (pad_left 11 (show_fixed6 lon)), (pad_left 9 (shortest value)).
  split; [apply fixed_ok|]. split; [apply fixed_ok|]. split; [reflexivity|]. split; [apply right_iff; reflexivity|]. split; [apply right_iff; reflexivity|].
  split; [apply right_iff; reflexivity|]. reflexivity.
Qed.
Lemma row_lf shortest x : (forall f, nolf (shortest f)) -> line_feeds (decode_row shortest x) = 1.
Proof.
  intros H. destruct x as ((lat & lon) & value). unfold decode_row. rewrite !lf_app. unfold lf. rewrite lf_lf.
  rewrite !(lf_none (pad_left _ _)) by (apply nl_left; apply nl_fixed || apply H). rewrite !(lf_none (str " ")) by (apply nl_str; reflexivity). reflexivity.
Qed.
Lemma lines_ok shortest color l : shows_points_of shortest color l (decode_lines shortest color l).
Proof.
  exists (map (decode_row shortest) l). split.
  - induction l as [|x l IH]; constructor; [apply row_ok|exact IH].
  - unfold decode_lines. rewrite bold_eq, decode_heading_eq. reflexivity.
Qed.
Lemma lines_lf shortest color l : (forall f, nolf (shortest f)) -> line_feeds (decode_lines shortest color l) = 1 + zlen l.
Proof.
  intros H. unfold decode_lines. rewrite bold_eq, !lf_app, lf_bold by (rewrite decode_heading_eq; apply nl_str; vm_compute; reflexivity).
  unfold lf. rewrite lf_lf. rewrite (lf_concat 1).
  - unfold zlen. rewrite map_length. lia.
  - apply Forall_forall. intros t Ht. apply in_map_iff in Ht. destruct Ht as (x & <- & _). apply row_lf. exact H.
Qed.

(** ** The command *)
Lemma nan_points (out : list f32) : combine (repeat (f32_nan, f32_nan) (length out)) out = map (fun x => ((f32_nan, f32_nan), x)) out.
Proof. induction out as [|x out IH]; [reflexivity|]. cbn [length repeat combine map]. now rewrite IH. Qed.

Section Text.
  Variables (m : mode) (rfuel : nat) (s : src) (g : grib2).
  Hypotheses (Hr : grib2_read m rfuel s = Ret (Ok g)) (Hd : zlen (data s) < 2 ^ 63) (Hp : 0 <= pos s <= zlen (data s)).
  Hypothesis Hg : 0 < g_len g < Z.of_nat rfuel.
  Variables (index a b : list byte).
  Hypotheses (Hi : index_string index a b) (Ha : decimal a < 2 ^ 64) (Hb : decimal b < 2 ^ 64).
  Variables (w : submessage Z) (v : view).
  Hypotheses (Hw : In w (g_subs g)) (Hv : make_view g w = Some v) (Hx : (u_mi v, u_si v) = (decimal a, decimal b)).

  Lemma text_selected lm pl c gfuel fuel shortest color :
    decode_text m lm pl c rfuel gfuel fuel shortest color s index = decode_view_text m lm pl c gfuel fuel shortest color (g_src g) v.
  Proof.
    unfold decode_text, cli_grib. rewrite Hr. cbn [bind]. unfold g_is_empty. replace (g_len g =? 0) with false by lia. cbn [bind].
    rewrite (index_parsed index a b Hi). replace ((decimal a <? 2 ^ 64) && (decimal b <? 2 ^ 64)) with true by lia. cbn [bind].
    destruct (views m rfuel s g Hr Hd ltac:(lia)) as (ms & us & vs & W & Es & U & Sh & V).
    pose proof (find_from g vs (decimal a, decimal b) rfuel 0 V) as F. cbn [skipn Z.of_nat fst snd] in F.
    rewrite F by (pose proof (count_subs g vs V); unfold g_len, zlen in *; lia). cbn [bind]. clear F.
    pose proof (proj1 (sub_indices ms 0 us U)) as ND. rewrite (shows_index _ _ _ Sh) in ND.
    destruct (Forall2_in_l _ _ _ _ _ w V Hw) as (v1 & I1 & E1). assert (v1 = v) by congruence. subst v1. injection Hx as X1 X2.
    match goal with |- context [find ?f vs] => destruct (find f vs) as [v'|] eqn:G end.
    - apply find_some in G. destruct G as [I' E']. replace v' with v; [reflexivity|].
      apply (NoDup_map_inj _ _ _ vs ND); [exact I1|exact I'|]. f_equal; lia.
    - exfalso. pose proof (find_none _ _ G v I1) as N. cbn in N. lia.
  Qed.

  Lemma text_shown : forall lm pl c gfuel fuel latlons dec s' it out,
    let p3 := octets (data s) (s_offset (snd (u_3 v)) + 5) (s_size (snd (u_3 v)) - 5) in
    sub_latlons m lm pl gfuel p3 = Ret latlons ->
    decoder_from m (g_src g) v = Ret (Ok dec, s') -> dispatch c m dec = Ret (Ok it) -> Run it out End ->
    (length out < fuel)%nat -> zlen out < 2 ^ 63 ->
    forall shortest color, (forall f, ~ In x0a (shortest f)) ->
    let shows l := exists t, decode_text m lm pl c rfuel gfuel fuel shortest color s index = Ret (Ok (zlen l + 1, t)) /\
        shows_points_of shortest color l t /\ line_feeds t = zlen l + 1 in
    match latlons with
    | Ok pts => 0 < field p3 7 10 -> exists ps, Run (points_iter m pts) ps End /\ zlen ps = field p3 7 10 /\ shows (combine ps out)
    | Err NotSupported => shows (map (fun x => ((f32_nan, f32_nan), x)) out)
    | Err e => decode_text m lm pl c rfuel gfuel fuel shortest color s index = Ret (Err (Unexpected e))
    end.
  Proof.
    intros lm pl c gfuel fuel latlons dec s' it out p3 L D1 D2 R Hf Ho shortest color Hs shows. subst shows. rewrite text_selected. unfold decode_view_text.
    destruct (file_bodies m rfuel s g Hr Hd Hp w v Hw Hv) as (_ & _ & B3' & _). rewrite B3'. cbn [bind]. fold p3. rewrite L. cbn [bind]. rewrite D1. cbn [bind].
    rewrite D2. cbn [bind]. rewrite (collect_Run' _ it out End R eq_refl fuel Hf). cbn [bind]. pose proof (zlen_nonneg _ out) as O0.
    destruct latlons as [pts|e].
    - intros H0.
      assert (Re : reaches p3 10).
      { destruct (file_views m rfuel s g Hr Hd Hp w v Hw Hv) as (_ & _ & (_ & H3 & N3) & _).
        destruct (body_by_num _ _ H3) as (_ & _ & B3'' & _). destruct (B3'' N3) as (E3 & S3). pose proof (FieldsX.header_body _ _ H3) as Hb3. rewrite E3 in Hb3.
        pose proof (proj1 H3) as H3p. unfold reaches, p3. rewrite zlen_octets by lia. lia. }
      destruct (latlons_total m lm pl gfuel p3 pts Re L H0) as (ps & Rp & Np). exists ps. split; [exact Rp|]. split; [exact Np|].
      assert (ZC : zlen (combine ps out) = Z.min (field p3 7 10) (zlen out)) by (rewrite <- Np; unfold zlen; rewrite combine_length; lia).
      exists (decode_lines shortest color (combine ps out)). split; [|split; [apply lines_ok|rewrite lines_lf by exact Hs; lia]].
      unfold decode_num_lines. cbn [wrapper_size wrapper_iter]. rewrite (PointsP.sub_latlons_count m lm pl gfuel p3 pts Re L). cbn [bind].
      rewrite arith_U64_ok by lia. cbn [bind]. rewrite (zip_run _ _ _ ps End Rp eq_refl out fuel Hf). cbn [bind]. rewrite ZC. reflexivity.
    - destruct e; try reflexivity. set (l := map _ out).
      assert (ZL : zlen l = zlen out) by (unfold l, zlen; rewrite map_length; reflexivity).
      exists (decode_lines shortest color l). split; [|split; [apply lines_ok|rewrite lines_lf by exact Hs; lia]].
      unfold decode_num_lines. cbn [wrapper_size wrapper_iter]. replace (zlen (repeat (f32_nan, f32_nan) (length out))) with (zlen out) by (unfold zlen; rewrite repeat_length; reflexivity).
      cbn [bind]. rewrite Z.min_id. rewrite arith_U64_ok by lia. cbn [bind].
      rewrite (zip_run _ _ _ _ End (BaseLemmas.Run_iter_of_list _ _) eq_refl out fuel Hf). cbn [bind]. rewrite nan_points, ZL. reflexivity.
  Qed.
End Text.
