(** From the octets of a file to values. *)
From Coq Require Import Lia ZifyBool ZifyNat Reals Lra.
From Flocq Require Import Core.Core.
From Verif Require Import Model.Base Model.Helpers Model.Errors Model.F32 Model.Stream Model.Bitmap Model.Diff Model.Complex Model.Simple Model.RunLength.
From Verif Require Import Model.Sections Model.Reader Model.Parser Model.Context Model.Product Model.Diff Model.Decoder.
From Verif Require Import Spec.Bits Spec.BitmapS Spec.ReaderS Spec.FieldsS Spec.ComplexS Spec.FloatS Spec.SimpleS Spec.RunLengthS Spec.DecodeS.
From Verif Require Proofs.RunLengthP.
From Verif Require Import Proofs.BaseLemmas Proofs.HelpersP Proofs.BitsP Proofs.StreamP Proofs.BitmapP Proofs.Bits2 Proofs.DiffP Proofs.Fields Proofs.ComplexP Proofs.FloatP Proofs.SimpleP Proofs.AccuracyP Proofs.DecodeP.
Ltac Zify.zify_post_hook ::= Z.div_mod_to_equations.
Open Scope Z_scope.

Lemma packing_slice np t refbits e dec nbit tail :
  slice (sect5_packing np t refbits e dec nbit tail) 6 16
  = Ret (be_bytes 4 refbits ++ sm_bytes 2 e ++ sm_bytes 2 dec ++ be_bytes 1 nbit ++ be_bytes 1 0).
Proof.
  unfold sect5_packing. set (b := be_bytes 4 refbits ++ sm_bytes 2 e ++ sm_bytes 2 dec ++ be_bytes 1 nbit ++ be_bytes 1 0).
  rewrite app_assoc. apply slice_split.
  - rewrite zlen_app, !zlen_be_bytes. reflexivity.
  - unfold b, sm_bytes. rewrite !zlen_app, !zlen_be_bytes. reflexivity.
Qed.

Lemma head_fields np t rest : 0 <= t < 2 ^ 16 -> 
  repr_tmpl_num (be_bytes 4 np ++ be_bytes 2 t ++ rest) = Ret t.
Proof. intros H. unfold repr_tmpl_num, read_u16. rd ltac:(lia). reflexivity. Qed.
Lemma head_points np t rest : 0 <= np < 2 ^ 32 ->
  repr_num_points (be_bytes 4 np ++ be_bytes 2 t ++ rest) = Ret np.
Proof. intros H. unfold repr_num_points, read_u32. rd ltac:(lia). reflexivity. Qed.

Lemma discard_level m u k : 0 <= u < 2 ^ 32 -> 0 <= k < 32 -> value_for_discard_level m u k = Ret (cdiv u k).
Proof.
  intros Hu Hk. unfold value_for_discard_level, cdiv. rewrite shl_ok by (cbn; lia). cbn [bind].
  rewrite wrap_unsigned by reflexivity. change (2 ^ bits_of U32) with 4294967296. rewrite Z.mul_1_l.
  assert (H2 : 0 < 2 ^ k) by (apply Z.pow_pos_nonneg; lia).
  assert (H3 : 2 ^ k < 4294967296) by (change 4294967296 with (2 ^ 32); apply Z.pow_lt_mono_r; lia).
  rewrite (Z.mod_small (2 ^ k) 4294967296) by lia.
  set (D := 2 ^ k) in *. clearbody D. change (2 ^ 32) with 4294967296 in Hu. 
  pose proof (Z.div_mod u D ltac:(lia)). pose proof (Z.mod_pos_bound u D ltac:(lia)).
  destruct (0 <? u mod D) eqn:E.
  - assert (u / D + 1 = (u + D - 1) / D). { apply Z.div_unique with (u mod D - 1); lia. }
    assert (u / D <= u). { apply Z.div_le_upper_bound; nia. }
    assert (2 <= D). { assert (D <> 1); [|lia]. intros ->. rewrite Z.mod_1_r in E. lia. }
    assert (u / D <= u / 2). { apply Z.div_le_compat_l; lia. }
    rewrite arith_ok; [congruence|]. mlia.
  - assert (u / D = (u + D - 1) / D). { apply Z.div_unique with (D - 1); lia. } congruence.
Qed.

Lemma gray_samples m i xs : gray_image i xs -> j2k_samples m i = Ret (Ok xs).
Proof.
  intros (Hc & Hf & Hx & Hy & Hn & Hl). unfold j2k_samples, j2k_width, j2k_height.
  rewrite !arith_ok by (mlia). cbn [bind]. rewrite Hc. cbn [zlen length Z.of_nat Z.eqb Pos.of_succ_nat].
  rewrite !discard_level by assumption. cbn [bind]. rewrite Hn. pose proof (zlen_nonneg _ xs). rewrite arith_ok by (mlia). cbn [bind].
  rewrite Z.ltb_irrefl. unfold zlen. rewrite Nat2Z.id, firstn_all. reflexivity.
Qed.

Lemma point_values refbits e dec nbit xs :
  0 <= refbits < 2 ^ 32 -> ieee_finite refbits -> -127 <= e <= 127 -> -38 <= dec <= 37 ->
  Forall (fun x => Z.abs x <= 2 ^ 127) xs ->
  Forall2 (point_value refbits e dec) (map Normal xs) (map (fun x => simple_value (params refbits e dec nbit) (f32_of_Z x)) xs).
Proof.
  intros Hr Hf He Hd HF. destruct (of_bits_value refbits Hr Hf) as [Fb Eb].
  induction HF as [|x xs Hx HF IH]; cbn [map]; constructor; [|exact IH].
  cbn [point_value]. rewrite <- Eb.
  split; [intros Hd' O; apply simple_value_ok|intro O; apply simple_value_accurate]; try assumption; apply valid_of_bits, Hr.
Qed.

Lemma constant_value refbits e dec : 0 <= refbits < 2 ^ 32 -> ieee_finite refbits -> -127 <= e <= 127 -> -38 <= dec <= 37 ->
  point_value refbits e dec (Normal 0) (zero_bit_reference_value (params refbits e dec 0)).
Proof.
  intros Hr Hf He Hd. destruct (of_bits_value refbits Hr Hf) as [Fb Eb]. cbn [point_value]. split.
  2:{ intro O. rewrite <- Eb in O |- *. apply zero_bit_accurate; try assumption. apply valid_of_bits, Hr. }
  intros Hd' (_ & _ & O). destruct (powi10 (- dec) ltac:(lia)) as [Fp Ep].
  assert (Es : shifted (ieee_value refbits) e 0 = ieee_value refbits).
  { unfold shifted, scaled. change (IZR 0) with 0%R. rewrite (rnd32_0). rewrite Rmult_0_l, rnd32_0, Rplus_0_r.
    rewrite <- Eb. apply rnd32_val, valid_of_bits, Hr. }
  unfold unpacked in *. rewrite Es in *. unfold zero_bit_reference_value, params. cbn [sp_ref sp_dig].
  rewrite <- Eb, <- Ep in O |- *. apply mul_ok; try assumption; [apply valid_of_bits, Hr|apply valid_powi, valid_of_Z].
Qed.

Lemma Forall2_repeat : forall A B (R : A -> B -> Prop) a b n, R a b -> Forall2 R (repeat a n) (repeat b n).
Proof. intros A B R a b n H. induction n; cbn; constructor; assumption. Qed.

Lemma packed_run m (n : nat) xs refbits e dec : (1 <= n <= 32)%nat -> Forall (fun x => 0 <= x < 2 ^ Z.of_nat n) xs ->
  exists extra, Run (simple_iter f32_of_Z (params refbits e dec (Z.of_nat n)) (nbit_iter m (nbit_new (pack n xs) (Z.of_nat n))))
    (map (fun x => simple_value (params refbits e dec (Z.of_nat n)) (f32_of_Z x)) xs ++ extra) End.
Proof.
  intros Hn HF. destruct (pack_unpack m n xs Hn HF) as (extra & Hx & HR).
  exists (map (fun x => simple_value (params refbits e dec (Z.of_nat n)) (f32_of_Z x)) (repeat 0 extra)). rewrite <- map_app.
  unfold simple_iter. apply (Run_imap_total _ _ (fun x => simple_value (params refbits e dec (Z.of_nat n)) (f32_of_Z x))).
  unfold bit_stream in HR. replace (Z.of_nat n =? 0) with false in HR by lia. exact HR.
Qed.

Lemma small_abs (n : nat) xs : (n <= 32)%nat -> Forall (fun x => 0 <= x < 2 ^ Z.of_nat n) xs -> Forall (fun x => Z.abs x <= 2 ^ 127) xs.
Proof.
  intros Hn. apply Forall_impl. intros x Hx.
  pose proof (Z.pow_le_mono_r 2 (Z.of_nat n) 127 ltac:(lia) ltac:(lia)). lia.
Qed.

Lemma encodes_values c m refbits e dec s5 s7 pts :
  0 <= refbits < 2 ^ 32 -> ieee_finite refbits -> -127 <= e <= 127 -> -38 <= dec <= 37 ->
  encodes c refbits e dec s5 s7 pts ->
  exists t, repr_tmpl_num s5 = Ret t /\
  forall np, repr_num_points s5 = Ret np ->
  exists vals vs more, (forall total b, template_values c m (MkDecoder total np t s5 b s7) = Ret (Ok vals)) /\
    Run vals (vs ++ more) End /\ Forall2 (point_value refbits e dec) pts vs /\ (t <> 0 -> t <> 41 -> more = []).
Proof.
  intros Hr Hf He Hd Henc. assert (P127 : 2 ^ 31 <= 2 ^ 127) by (apply Z.pow_le_mono_r; lia).
  destruct Henc as [np n xs tail Hn HF|np t data tail Hnp Ht|np nbit data i xs tail Hnb Hi Hg HF|np n data xs tail Hn HF Hpng
    |np nbit mvm miss1 miss2 wref wnbit lnbit lref linc llast slens gs trailing Henc
    |np nbit mvm miss1 miss2 wref wnbit lnbit lref linc llast slens gs trailing k zmin fld dummy d0 Hk HF Henc HI HD
    |np nbit mvm miss1 miss2 wref wnbit lnbit lref linc llast slens gs trailing k zmin fld dummy1 dummy2 d0 d1 Hk HF Henc HI HD].
  - exists 0. split; [apply head_fields; lia|]. intros np' _. destruct (packed_run m n xs refbits e dec Hn HF) as (extra & HR).
    eexists _, _, _. split; [|split; [exact HR|split; [apply point_values; try assumption; apply (small_abs n); [lia|assumption]|intros; congruence]]].
    intros total b. unfold template_values. cbn [d_template d_sect5 d_sect7 d_encoded]. unfold simple_decode. rewrite packing_slice. cbn [bind].
    rewrite simple_params_read by (try assumption; lia). cbn [bind sp_nbit]. replace (Z.of_nat n =? 0) with false by lia. reflexivity.
  - exists t. split; [apply head_fields; lia|]. intros np' Hnp'. 
    assert (np' = np). { unfold sect5_packing in Hnp'. rewrite head_points in Hnp' by assumption. congruence. } subst np'.
    exists (fixed_iter (zero_bit_reference_value (params refbits e dec 0)) np), (repeat (zero_bit_reference_value (params refbits e dec 0)) (Z.to_nat np)), [].
    split; [|split; [|split; [|reflexivity]]].
    + intros total b. unfold template_values. cbn [d_template d_sect5 d_sect7 d_encoded].
      destruct Ht as [->|[->|(-> & Hp)]]; cbv iota; [unfold simple_decode|unfold jpeg2000_decode|unfold png_decode]; rewrite packing_slice; cbn [bind];
        rewrite simple_params_read by (try assumption; lia); cbn [bind sp_nbit]; try reflexivity.
      destruct (png_buffer c data); [reflexivity|congruence].
    + rewrite app_nil_r. rewrite <- (Z2Nat.id np) at 1 by lia. apply Run_fixed.
    + apply Forall2_repeat, constant_value; assumption.
  - exists 40. split; [apply head_fields; lia|]. intros np' _.
    exists (simple_iter f32_of_Z (params refbits e dec nbit) (iter_of_list xs)), (map (fun x => simple_value (params refbits e dec nbit) (f32_of_Z x)) xs), [].
    split; [|split; [|split; [|reflexivity]]].
    + intros total b. unfold template_values. cbn [d_template d_sect5 d_sect7 d_encoded]. unfold jpeg2000_decode. rewrite packing_slice. cbn [bind].
      rewrite simple_params_read by (try assumption; lia). cbn [bind sp_nbit]. replace (nbit =? 0) with false by lia.
      unfold decode_jp2. rewrite Hi. rewrite (gray_samples m i xs Hg). reflexivity.
    + rewrite app_nil_r. unfold simple_iter. apply (Run_imap_total _ _ (fun x => simple_value (params refbits e dec nbit) (f32_of_Z x))). apply Run_iter_of_list.
    + apply point_values; try assumption. eapply Forall_impl; [|exact HF]. unfold is_i32. intros x Hx. lia.
  - exists 41. split; [apply head_fields; lia|]. intros np' _. destruct (packed_run m n xs refbits e dec Hn HF) as (extra & HR).
    eexists _, _, _. split; [|split; [exact HR|split; [apply point_values; try assumption; apply (small_abs n); [lia|assumption]|intros; congruence]]].
    intros total b. unfold template_values. cbn [d_template d_sect5 d_sect7 d_encoded]. unfold png_decode. rewrite packing_slice. cbn [bind].
    rewrite simple_params_read by (try assumption; lia). cbn [bind sp_nbit]. rewrite Hpng. replace (Z.of_nat n =? 0) with false by lia. reflexivity.
  - exists 2. split; [apply head_fields; lia|]. intros np' _.
    destruct (decode_7_2_values m np refbits e dec nbit mvm miss1 miss2 wref wnbit lnbit lref linc llast slens gs trailing Hr Hf He Hd Henc) as (it & vs & E & HR & HV).
    exists it, vs, []. rewrite app_nil_r. split; [|split; [|split]; trivial]. intros total b. exact E.
  - exists 3. split; [apply head_fields; lia|]. intros np' _.
    destruct (decode_7_3_first_values m np refbits e dec nbit mvm miss1 miss2 wref wnbit lnbit lref linc llast slens gs trailing k zmin fld dummy d0 Hr Hf He Hd Hk HF Henc HI HD) as (it & vs & E & HR & HV).
    exists it, vs, []. rewrite app_nil_r. split; [|split; [|split]; trivial]. intros total b. exact E.
  - exists 3. split; [apply head_fields; lia|]. intros np' _.
    destruct (decode_7_3_second m np refbits e dec nbit mvm miss1 miss2 wref wnbit lnbit lref linc llast slens gs trailing k zmin fld dummy1 dummy2 d0 d1) as (it & E & HR); try assumption; try lia; try (intros _; assumption).
    destruct (simple_iter_dv refbits e dec (Z.of_nat nbit) it _ Hr Hf He Hd HR) as (vs & HR' & HV).
    { apply normals_i32. eapply Forall_impl; [|exact HI]. unfold is_i32. intros x Hx. lia. }
    eexists _, vs, []. rewrite app_nil_r. split; [|split; [|split]; [eassumption..|reflexivity]]. intros total b.
    unfold template_values. cbn [d_template d_sect5 d_sect7 d_encoded]. unfold decode_7_3. rewrite E. reflexivity.
Qed.

(** C46 *)
Lemma decode_file : forall m fuel s g, grib2_read m fuel s = Ret (Ok g) -> zlen (data s) < 2 ^ 63 -> 0 <= pos s <= zlen (data s) ->
  forall w v, In w (g_subs g) -> make_view g w = Some v -> 5 <= s_size (snd (u_7 v)) ->
  let d := data s in
  forall c refbits e dec pts, 0 <= refbits < 2 ^ 32 -> ieee_finite refbits -> -127 <= e <= 127 -> -38 <= dec <= 37 ->
  encodes c refbits e dec (packing d v) (packed_data d v) pts ->
  mask_ok d v -> ones (mask d v) = length pts ->
  forall m' m'' p sc, exists decoder s' it out,
    decoder_from m' (MkSrc d p sc) v = Ret (Ok decoder, s') /\ data s' = d /\
    dispatch c m'' decoder = Ret (Ok it) /\ Run it out End /\ decodes_to d v (item refbits e dec) pts out /\
    (bitmap_indicator d v = 255 -> packing_template d v <> 0 -> packing_template d v <> 41 -> zlen out = grid_points d v).
Proof.
  intros m fuel s g Hr Hd Hp w v Hw Hv H7 d c refbits e dec pts Hb Hf He Hdec Henc Hm Ho m' m'' p sc.
  destruct (encodes_values c m'' refbits e dec _ _ pts Hb Hf He Hdec Henc) as (t & Et & Hvals).
  destruct (decoder_fields m fuel s g w v Hr Hd Hp Hw Hv) as (_ & _ & _ & _ & Ep & Et' & _). fold d in Ep, Et'.
  assert (t = packing_template d v) by congruence. subst t.
  destruct (Hvals _ Ep) as (vals & vs & more & Hval & HR & HF & Hmore).
  destruct (decode_masked m fuel s g w v Hr Hd Hp Hw Hv H7 dv (item refbits e dec) c m' m'' p sc vals pts vs more) as (decoder & s' & it & out & E1 & E2 & E3 & E4 & E5 & E6);
    try assumption; try reflexivity.
  - intros b. apply Hval.
  - exists decoder, s', it, out. repeat (split; [assumption|]). auto.
Qed.

(** C46, template 200 *)
Lemma decode_rle_file : forall m fuel s g, grib2_read m fuel s = Ret (Ok g) -> zlen (data s) < 2 ^ 63 -> 0 <= pos s <= zlen (data s) ->
  forall w v, In w (g_subs g) -> make_view g w = Some v -> 5 <= s_size (snd (u_7 v)) ->
  let d := data s in
  forall c np (n : nat) maxv scale levels tail runs, 0 <= np < 2 ^ 32 -> (1 <= n <= 15)%nat -> 0 <= maxv -> maxv + 1 < 2 ^ Z.of_nat n -> 0 <= scale < 256 ->
  zlen levels < 2 ^ 16 -> Forall (fun l => 0 <= l < 2 ^ 16) levels ->
  packing d v = sect5_rle np (Z.of_nat n) maxv scale levels tail ->
  Forall (run_ok (Z.of_nat n) maxv) runs ->
  let codes := flat_map (run_codes maxv) runs in
  let pts := flat_map (expand (base (Z.of_nat n) maxv)) runs in
  packed_data d v = pack n codes -> (- (Z.of_nat n * zlen codes)) mod 8 < Z.of_nat n ->
  np = zlen pts -> Forall (fun l => l <= zlen levels) pts ->
  mask_ok d v -> ones (mask d v) = length pts ->
  forall m' m'' p sc, exists decoder s' it out,
    decoder_from m' (MkSrc d p sc) v = Ret (Ok decoder, s') /\ data s' = d /\
    dispatch c m'' decoder = Ret (Ok it) /\ Run it out End /\
    decodes_to d v (fun o x => x = match o with None => f32_nan | Some l => level_value scale levels l end) pts out /\
    (bitmap_indicator d v = 255 -> zlen out = grid_points d v).
Proof.
  intros m fuel s g Hr Hd Hp w v Hw Hv H7 d c np n maxv scale levels tail runs Hnp Hn Hmv Hmv2 Hsc Hl HF Hpk Hruns codes pts Hdata Hpad Enp HL Hm Ho m' m'' p sc.
  destruct (decoder_fields m fuel s g w v Hr Hd Hp Hw Hv) as (_ & _ & _ & _ & Ep & Et' & _). fold d in Ep, Et'.
  assert (Et : packing_template d v = 200).
  { rewrite Hpk in Et'. unfold sect5_rle in Et'. rewrite head_fields in Et' by lia. congruence. }
  assert (Enp' : packed_points d v = np).
  { rewrite Hpk in Ep. unfold sect5_rle in Ep. rewrite head_points in Ep by lia. congruence. }
  pose proof (RunLengthP.rle_decode_roundtrip m'' np n maxv scale levels tail runs) as RT.
  assert (Hv2 : forall b, template_values c m'' (the_decoder s v b) = Ret (Ok (iter_of_list (map (level_value scale levels) pts)))).
  { intros b. unfold template_values, the_decoder. cbn [d_template d_sect5 d_sect7 d_encoded]. fold d. rewrite Et, Hpk, Hdata, Enp', Enp.
    rewrite Enp in RT. cbv zeta in RT. fold codes pts in RT. rewrite RT by assumption. reflexivity. }
  destruct (decode_masked m fuel s g w v Hr Hd Hp Hw Hv H7 Z (fun o x => x = match o with None => f32_nan | Some l => level_value scale levels l end)
    c m' m'' p sc _ pts (map (level_value scale levels) pts) [] Hm Hv2) as (decoder & s' & it & out & E1 & E2 & E3 & E4 & E5 & E6); try assumption; try reflexivity.
  - rewrite app_nil_r. apply Run_iter_of_list.
  - clear. induction pts as [|a l IH]; cbn [map]; constructor; [reflexivity|exact IH].
  - exists decoder, s', it, out. repeat (split; [assumption|]). auto.
Qed.
