From Coq Require Import Lia ZifyBool ZifyNat.
From Verif Require Import Model.Base Model.Helpers Spec.Bits Proofs.BaseLemmas.
Ltac Zify.zify_post_hook ::= Z.div_mod_to_equations.

(** The four instantiations of the macro (src/helpers.rs:20-25). *)
Definition grib_pair (u d : ity) : Prop :=
  (u = U8 /\ d = I8) \/ (u = U16 /\ d = I16) \/ (u = U32 /\ d = I32) \/ (u = U64 /\ d = I64).

Lemma as_grib_int_spec : forall m u d x, grib_pair u d -> 0 <= x < 2 ^ bits_of u ->
  as_grib_int m u d x = Ret (sign_magnitude (bits_of u / 8) x)
  /\ - max_of d <= sign_magnitude (bits_of u / 8) x <= max_of d.
Proof.
  intros m u d x HP Hx.
  assert (HB : bits_of d = bits_of u /\ is_signed d = true /\ is_signed u = false
               /\ 8 * (bits_of u / 8) = bits_of u).
  { destruct HP as [[-> ->]|[[-> ->]|[[-> ->]|[-> ->]]]]; cbn; auto. }
  destruct HB as (HB & HSd & HSu & H8).
  unfold as_grib_int, sign_magnitude. rewrite H8.
  pose proof (pow_bits_half u) as E. pose proof (bits_of_pos u) as B8.
  assert (P : 0 < 2 ^ (bits_of u - 1)) by (apply Z.pow_pos_nonneg; lia).
  assert (Hmax : max_of d = 2 ^ (bits_of u - 1) - 1) by (unfold max_of; rewrite HSd, HB; reflexivity).
  assert (Hmin : min_of d = - 2 ^ (bits_of u - 1)) by (unfold min_of; rewrite HSd, HB; reflexivity).
  destruct (Z.leb_spec (2 ^ (bits_of u - 1)) x) as [Hge|Hlt].
  - replace (x <? 2 ^ (bits_of u - 1)) with false by lia.
    rewrite shl_ok by lia. cbn [bind]. rewrite shr_ok by lia. cbn [bind].
    rewrite (wrap_unsigned u) by exact HSu. change (2 ^ 1) with 2.
    assert (Em : (x * 2) mod 2 ^ bits_of u = (x - 2 ^ (bits_of u - 1)) * 2).
    { symmetry. apply (Z.mod_unique_pos _ _ 1); lia. }
    rewrite Em. rewrite Z.div_mul by lia.
    rewrite wrap_id by lia. split; [|lia]. rewrite arith_ok by lia. reflexivity.
  - replace (x <? 2 ^ (bits_of u - 1)) with true by lia.
    rewrite wrap_id by lia. split; [reflexivity|lia].
Qed.

Lemma read_be_ok : forall n (l1 l2 l3 : list byte) start,
  start = zlen l1 -> n = zlen l2 -> read_be n (l1 ++ l2 ++ l3) start = Ret (be l2).
Proof.
  intros n l1 l2 l3 start -> ->. unfold read_be. rewrite slice_app_mid. reflexivity.
Qed.

Lemma read_be_range : forall n buf start x, read_be n buf start = Ret x ->
  0 <= n /\ 0 <= start /\ start + n <= zlen buf /\ 0 <= x < 256 ^ n.
Proof.
  intros n buf start x H. unfold read_be in H.
  destruct (slice buf start (start + n)) as [s| |] eqn:E; try discriminate.
  injection H as <-. apply slice_inv in E. destruct E as (H1 & H2 & H3 & _).
  pose proof (be_range s) as R. replace (zlen s) with n in R by lia. lia.
Qed.

Lemma read_be_panic : forall n buf start, 0 <= n ->
  ~ (0 <= start /\ start + n <= zlen buf) -> read_be n buf start = Panic.
Proof.
  intros n buf start Hn H. unfold read_be. rewrite slice_panic by lia. reflexivity.
Qed.

(** Characterisation of [read_be] for every argument. *)
Lemma read_be_spec : forall n buf start, 0 <= n -> 0 <= start -> start + n <= zlen buf ->
  read_be n buf start = Ret (be (firstn (Z.to_nat n) (skipn (Z.to_nat start) buf))).
Proof.
  intros n buf start Hn Hs Hl. unfold read_be. rewrite slice_ok by lia. cbn [bind].
  replace (start + n - start) with n by lia. reflexivity.
Qed.

Lemma grib_int_from_bytes_spec : forall m bytes,
  1 <= zlen bytes <= 4 ->
  grib_int_from_bytes m bytes = Ret (sign_magnitude (zlen bytes) (be bytes)).
Proof.
  intros m bytes H.
  assert (RB : forall n, zlen bytes = n -> read_be n bytes 0 = Ret (be bytes)).
  { intros n Hn. unfold read_be. rewrite slice_ok by lia. cbn [bind].
    replace (Z.to_nat (0 + n - 0)) with (length bytes) by (unfold zlen in Hn; lia).
    cbn [Z.to_nat skipn]. rewrite firstn_all. reflexivity. }
  pose proof (be_range bytes) as R.
  destruct bytes as [|b0 [|b1 [|b2 [|b3 [|b4 l]]]]].
  - cbn in H. lia.
  - change (zlen [b0]) with 1 in *. unfold grib_int_from_bytes. cbn [length].
    unfold read_i8, read_u8. rewrite RB by reflexivity. cbn [bind].
    apply (as_grib_int_spec m U8 I8); [unfold grib_pair; auto|cbn in *; lia].
  - change (zlen [b0; b1]) with 2 in *. unfold grib_int_from_bytes. cbn [length].
    unfold read_i16, read_u16. rewrite RB by reflexivity. cbn [bind].
    apply (as_grib_int_spec m U16 I16); [unfold grib_pair; auto|cbn in *; lia].
  - change (zlen [b0; b1; b2]) with 3 in *. unfold grib_int_from_bytes. cbn [length].
    unfold read_u8, read_u16.
    rewrite (read_be_ok 1 [] [b0] [b1; b2]) by reflexivity. cbn [bind].
    rewrite (read_be_ok 2 [b0] [b1; b2] []) by reflexivity. cbn [bind].
    rewrite shl_ok by (cbn; lia). cbn [bind]. rewrite shr_ok by (cbn; lia). cbn [bind].
    rewrite wrap_unsigned by reflexivity.
    rewrite !be_cons, !be_nil in *. change (zlen (@nil byte)) with 0 in *.
    change (zlen [b2]) with 1 in *. change (zlen [b1; b2]) with 2 in *.
    change (256 ^ 0) with 1 in *. change (256 ^ 1) with 256 in *. change (256 ^ 2) with 65536 in *.
    pose proof (bz_range b0) as R0. pose proof (bz_range b1) as R1. pose proof (bz_range b2) as R2.
    change (bits_of U8) with 8. change (2 ^ 1) with 2. change (2 ^ 8) with 256. change (2 ^ 7) with 128.
    unfold sign_magnitude. change (2 ^ (8 * 3 - 1)) with 8388608.
    set (f := ((bz b0 * 1 + 0) * 2) mod 256 / 2).
    assert (Ef : f = if bz b0 <? 128 then bz b0 else bz b0 - 128).
    { unfold f. destruct (Z.ltb_spec (bz b0) 128); lia. }
    clearbody f. assert (Hf : 0 <= f < 128) by (rewrite Ef; destruct (Z.ltb_spec (bz b0) 128); lia).
    rewrite (arith_ok m I32 (f * 65536)) by mlia. cbn [bind].
    rewrite arith_ok by mlia. cbn [bind].
    destruct (Z.ltb_spec (bz b0 * 1 + 0) 128) as [Hp|Hp].
    + replace (bz b0 <? 128) with true in Ef by lia.
      replace (bz b0 * 65536 + (bz b1 * 256 + (bz b2 * 1 + 0)) <? 8388608) with true by lia.
      f_equal. lia.
    + replace (bz b0 <? 128) with false in Ef by lia.
      replace (bz b0 * 65536 + (bz b1 * 256 + (bz b2 * 1 + 0)) <? 8388608) with false by lia.
      rewrite arith_ok by mlia. f_equal. lia.
  - change (zlen [b0; b1; b2; b3]) with 4 in *. unfold grib_int_from_bytes. cbn [length].
    unfold read_i32, read_u32. rewrite RB by reflexivity. cbn [bind].
    apply (as_grib_int_spec m U32 I32); [unfold grib_pair; auto|cbn in *; lia].
  - rewrite !zlen_cons in H. pose proof (zlen_nonneg _ l). lia.
Qed.

Lemma grib_int_from_bytes_panics : forall m bytes,
  ~ 1 <= zlen bytes <= 4 -> grib_int_from_bytes m bytes = Panic.
Proof.
  intros m bytes H.
  destruct bytes as [|b0 [|b1 [|b2 [|b3 [|b4 l]]]]]; try reflexivity;
    unfold zlen in H; cbn [length] in H; lia.
Qed.

(** Round trips with the encoders of the specification. *)
Lemma be_bytes_length : forall n v, length (be_bytes n v) = n.
Proof. induction n; intros; cbn [be_bytes length]; congruence. Qed.

Lemma zlen_be_bytes : forall n v, zlen (be_bytes n v) = Z.of_nat n.
Proof. intros. unfold zlen. rewrite be_bytes_length. reflexivity. Qed.

Lemma be_be_bytes_mod : forall n v, be (be_bytes n v) = v mod 256 ^ Z.of_nat n.
Proof.
  induction n as [|n IH]; intros v.
  - cbn [be_bytes]. rewrite be_nil. change (256 ^ Z.of_nat 0) with 1. rewrite Z.mod_1_r. reflexivity.
  - cbn [be_bytes]. rewrite be_cons, bz_zb, IH, zlen_be_bytes.
    rewrite Nat2Z.inj_succ, Z.pow_succ_r by lia.
    rewrite (Z.mul_comm 256). rewrite (Z.rem_mul_r v (256 ^ Z.of_nat n) 256) by lia. lia.
Qed.

Lemma be_be_bytes : forall n v, 0 <= v < 256 ^ Z.of_nat n -> be (be_bytes n v) = v.
Proof. intros. rewrite be_be_bytes_mod. apply Z.mod_small. assumption. Qed.

Lemma pow256 : forall n, 0 <= n -> 256 ^ n = 2 ^ (8 * n).
Proof. intros. rewrite Z.pow_mul_r by lia. reflexivity. Qed.

Lemma sign_magnitude_sm_bytes : forall n v, (1 <= n)%nat ->
  Z.abs v < 2 ^ (8 * Z.of_nat n - 1) ->
  sign_magnitude (Z.of_nat n) (be (sm_bytes n v)) = v.
Proof.
  intros n v Hn Hv. unfold sm_bytes.
  assert (E : 2 ^ (8 * Z.of_nat n) = 2 * 2 ^ (8 * Z.of_nat n - 1)).
  { rewrite <- Z.pow_succ_r by lia. f_equal. lia. }
  rewrite be_be_bytes; rewrite ?pow256 by lia; unfold sign_magnitude; destruct (Z.ltb_spec v 0) as [H|H];
   try lia.
  - replace (2 ^ (8 * Z.of_nat n - 1) - v <? 2 ^ (8 * Z.of_nat n - 1)) with false by lia. lia.
  - replace (v <? 2 ^ (8 * Z.of_nat n - 1)) with true by lia. reflexivity.
Qed.
