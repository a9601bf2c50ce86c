(** Reading the samples of a JPEG 2000 image. *)
From Coq Require Import Lia ZifyBool ZifyNat.
From Verif Require Import Model.Base Model.Helpers Model.Errors Model.F32 Model.Stream Model.Bitmap Model.Diff Model.Complex Model.Simple.
From Verif Require Import Model.Decoder Model.OpjMemory.
From Verif Require Import Spec.Bits Spec.BitmapS Spec.ReaderS Spec.FieldsS Spec.RefuseS Spec.DecodeS Spec.OpjMemoryS.
From Verif Require Import Proofs.BaseLemmas Proofs.HelpersP Proofs.FieldsX Proofs.RefuseX Proofs.DecodeX Proofs.CodecX.
Ltac Zify.zify_post_hook ::= Z.div_mod_to_equations.

Lemma up_1 a : up a 1 = a.
Proof. unfold up. rewrite Z.div_1_r. lia. Qed.
Lemma cdiv_0 a : cdiv a 0 = a.
Proof. unfold cdiv. change (2 ^ 0) with 1. rewrite Z.div_1_r. lia. Qed.
Lemma up_bounds a b : 1 <= b -> a <= up a b * b < a + b.
Proof. intros H. unfold up. pose proof (Z.div_mod (a + b - 1) b ltac:(lia)). pose proof (Z.mod_pos_bound (a + b - 1) b ltac:(lia)). nia. Qed.
Lemma up_le a b d : 1 <= d -> a <= b -> up a d <= up b d <= up a d + (b - a).
Proof.
  intros H L. split; [apply Z.div_le_mono; lia|]. pose proof (up_bounds a d H). pose proof (up_bounds b d H). nia.
Qed.
Lemma up_less a b d : 2 <= d -> a + 2 <= b -> up b d < up a d + (b - a).
Proof. intros H L. pose proof (up_bounds a d ltac:(lia)). pose proof (up_bounds b d ltac:(lia)). nia. Qed.

Lemma claimed_size m z f gray i : siz_ok z -> 0 <= f < 32 -> decoded z f i gray ->
  samples_claimed m i = arith m U32 (cdiv (width z) f * cdiv (height z) f).
Proof.
  intros (X & X1 & Y & Y1 & _) Hf (-> & _). unfold samples_claimed, j2k_width, j2k_height. cbn [j_x0 j_x1 j_y0 j_y1 j_factor].
  rewrite (arith_ok m U32 (z_x1 z - z_x0 z)) by mlia. rewrite (arith_ok m U32 (z_y1 z - z_y0 z)) by mlia. cbn [bind]. rewrite !discard_level by lia. reflexivity.
Qed.

Lemma size_full z : siz_ok z -> columns z 0 <= width z /\ rows z 0 <= height z /\ 0 <= columns z 0 /\ 0 <= rows z 0.
Proof.
  intros (X & X1 & Y & Y1 & DX & DY). unfold columns, rows, width, height. rewrite !cdiv_0.
  pose proof (up_le (z_x0 z) (z_x1 z) (z_dx z) ltac:(lia) ltac:(lia)). pose proof (up_le (z_y0 z) (z_y1 z) (z_dy z) ltac:(lia) ltac:(lia)). lia.
Qed.

Lemma arith_product m n : 0 <= n -> (n < 2 ^ 32 -> arith m U32 n = Ret n) /\ (2 ^ 32 <= n -> m = Checked -> arith m U32 n = Panic) /\ (m = Wrapping -> arith m U32 n = Ret (n mod 2 ^ 32)).
Proof.
  intros H. split; [|split].
  - intros L. apply arith_ok. mlia.
  - intros L ->. unfold arith. destruct (in_range U32 n) eqn:E; [|reflexivity]. exfalso. unfold in_range in E. change (min_of U32) with 0 in E. change (max_of U32) with (2 ^ 32 - 1) in E. lia.
  - intros ->. unfold arith. destruct (in_range U32 n) eqn:E; [|rewrite wrap_unsigned by reflexivity; reflexivity]. unfold in_range in E. change (min_of U32) with 0 in E. change (max_of U32) with (2 ^ 32 - 1) in E. rewrite Z.mod_small by lia. reflexivity.
Qed.

(** A component with all samples *)
Lemma full : forall m z gray i, siz_ok z -> z_dx z = 1 -> z_dy z = 1 -> decoded z 0 i gray ->
  (zlen gray < 2 ^ 32 -> samples_claimed m i = Ret (zlen gray)) /\
  (2 ^ 32 <= zlen gray -> match m with Checked => samples_claimed m i = Panic | Wrapping => samples_claimed m i = Ret (zlen gray mod 2 ^ 32) end).
Proof.
  intros m z gray i Z DX DY D. rewrite (claimed_size m z 0 gray i Z ltac:(lia) D). rewrite !cdiv_0. destruct D as (_ & ->).
  unfold columns, rows. rewrite DX, DY, !cdiv_0, !up_1. fold (width z) (height z). destruct Z as (X & X1 & Y & Y1 & _).
  assert (P : 0 <= width z * height z) by (unfold width, height; nia). destruct (arith_product m _ P) as (A & B & C). split; [exact A|]. intros L. destruct m; auto.
Qed.
(** Discarded levels *)
Lemma discarded : forall m z f gray i, siz_ok z -> z_dx z = 1 -> z_dy z = 1 -> 0 <= f < 32 -> z_x0 z mod 2 ^ f = 0 -> z_y0 z mod 2 ^ f = 0 -> decoded z f i gray ->
  zlen gray < 2 ^ 32 -> samples_claimed m i = Ret (zlen gray).
Proof.
  intros m z f gray i Z DX DY Hf MX MY D L. rewrite (claimed_size m z f gray i Z Hf D). destruct D as (_ & E). rewrite E in *.
  unfold columns, rows in *. rewrite DX, DY, !up_1 in *. assert (P : 0 < 2 ^ f) by (apply Z.pow_pos_nonneg; lia).
  assert (W : forall a b, a mod 2 ^ f = 0 -> cdiv b f - cdiv a f = cdiv (b - a) f).
  { intros a b M. unfold cdiv. set (D := 2 ^ f) in *. pose proof (Z.div_mod a D ltac:(lia)) as A. rewrite M, Z.add_0_r in A.
    replace (b + D - 1) with ((b - a + D - 1) + (a / D) * D) by lia. rewrite Z.div_add by lia.
    replace ((a + D - 1) / D) with (a / D); [lia|]. apply Z.div_unique with (D - 1); [left; lia|]. rewrite <- A. clear. lia. }
  rewrite !W in * by assumption. fold (width z) (height z) in *. destruct Z as (X & X1 & Y & Y1 & _).
  assert (Q : 0 <= cdiv (width z) f * cdiv (height z) f) by (clear MX MY W E L; apply Z.mul_nonneg_nonneg; unfold cdiv; (apply Z.div_pos; [unfold width, height; lia|exact P])).
  apply (proj1 (arith_product m _ Q)). exact L.
Qed.

(** Fewer samples *)
Lemma outside : forall m z gray i, siz_ok z -> decoded z 0 i gray -> width z * height z < 2 ^ 32 ->
  samples_claimed m i = Ret (width z * height z) /\ zlen gray <= width z * height z /\
  ((2 <= z_dx z /\ 2 <= width z /\ 1 <= height z) \/ (2 <= z_dy z /\ 2 <= height z /\ 1 <= width z) -> zlen gray < width z * height z).
Proof.
  intros m z gray i Z D L. rewrite (claimed_size m z 0 gray i Z ltac:(lia) D). rewrite !cdiv_0. destruct D as (_ & E).
  pose proof (size_full z Z) as (C & R & C0 & R0). rewrite E. destruct Z as (X & X1 & Y & Y1 & DX & DY).
  assert (P : 0 <= width z * height z) by (unfold width, height; nia). split; [apply (proj1 (arith_product m _ P)), L|]. split; [nia|].
  assert (HC : 2 <= z_dx z -> 2 <= width z -> columns z 0 < width z).
  { intros A B. unfold columns, width in *. rewrite !cdiv_0. pose proof (up_less (z_x0 z) (z_x1 z) (z_dx z) A ltac:(lia)). lia. }
  assert (HR : 2 <= z_dy z -> 2 <= height z -> rows z 0 < height z).
  { intros A B. unfold rows, height in *. rewrite !cdiv_0. pose proof (up_less (z_y0 z) (z_y1 z) (z_dy z) A ltac:(lia)). lia. }
  intros [(A & B & H)|(A & B & H)]; [specialize (HC A B)|specialize (HR A B)]; nia.
Qed.
(** How much is read beyond the end. *)
Lemma times : forall m z gray i a b, siz_ok z -> decoded z 0 i gray -> z_x0 z = 0 -> z_y0 z = 0 -> z_x1 z = a * z_dx z -> z_y1 z = b * z_dy z ->
  z_x1 z * z_y1 z < 2 ^ 32 -> samples_claimed m i = Ret (z_dx z * z_dy z * zlen gray).
Proof.
  intros m z gray i a b Z D X0 Y0 X1 Y1 L. destruct (outside m z gray i Z D) as (E & _); [unfold width, height; rewrite X0, Y0, !Z.sub_0_r; exact L|]. rewrite E. f_equal. destruct D as (_ & ->).
  destruct Z as (_ & _ & _ & _ & DX & DY). unfold columns, rows, width, height. rewrite !cdiv_0, X0, Y0, X1, Y1, !Z.sub_0_r. unfold up.
  replace (a * z_dx z + z_dx z - 1) with (z_dx z - 1 + a * z_dx z) by lia. replace (b * z_dy z + z_dy z - 1) with (z_dy z - 1 + b * z_dy z) by lia.
  rewrite !Z.div_add by lia. rewrite !Z.add_0_l, !(Z.div_small (_ - 1)) by lia. lia.
Qed.

(** In the model of decoding *)
Lemma samples_of m i gray : j_comps i = [gray] -> j2k_samples m i = match samples_claimed m i with Ret n => if zlen gray <? n then Panic else Ret (Ok (firstn (Z.to_nat n) gray)) | Panic => Panic | Diverge => Diverge end.
Proof.
  intros E. unfold j2k_samples, samples_claimed. rewrite E. change (zlen [gray] =? 0) with false. cbv iota.
  destruct (j2k_width m i); cbn [bind]; try reflexivity. destruct (j2k_height m i); cbn [bind]; try reflexivity.
  destruct (value_for_discard_level m a (j_factor i)); cbn [bind]; try reflexivity. destruct (value_for_discard_level m a0 (j_factor i)); cbn [bind]; try reflexivity.
Qed.
Lemma decoder_outside : forall c m d z gray i, let p := d_sect5 d in d_template d = 40 -> reaches p 21 -> field p 21 21 = 0 -> field p 20 20 <> 0 ->
  opj_image c (d_sect7 d) = Ok i -> decoded z 0 i gray -> forall n, samples_claimed m i = Ret n ->
  if zlen gray <? n then dispatch c m d = Panic
  else dispatch c m d = match bitmap_iter f32_nan (d_bitmap d) (simple_iter f32_of_Z (simple_of p) (iter_of_list (firstn (Z.to_nat n) gray))) (d_total d) with Some it => Ret (Ok it) | None => Ret (Err (EDecode LengthMismatch)) end.
Proof.
  intros c m d z gray i p T R F21 F20 E D n N. subst p. rewrite jp2_values by assumption. unfold decode_jp2. rewrite E. destruct D as (-> & _). rewrite (samples_of m _ gray) by reflexivity. rewrite N.
  destruct (zlen gray <? n); reflexivity.
Qed.
