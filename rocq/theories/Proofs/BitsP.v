From Coq Require Import Lia ZifyBool ZifyNat.
From Verif Require Import Model.Base Spec.Bits Proofs.BaseLemmas.
Ltac Zify.zify_post_hook ::= Z.div_mod_to_equations.

Lemma pow2_pos : forall k, 0 <= k -> 0 < 2 ^ k.
Proof. intros. apply Z.pow_pos_nonneg; lia. Qed.

Lemma bits_value_app : forall l l', bits_value (l ++ l') = bits_value l * 2 ^ zlen l' + bits_value l'.
Proof.
  induction l as [|b l IH]; intros l'; cbn [app bits_value]; [lia|].
  rewrite IH, app_length, Nat2Z.inj_add, Z.pow_add_r by lia. unfold zlen. destruct b; ring.
Qed.

Lemma bits_value_range : forall l, 0 <= bits_value l < 2 ^ zlen l.
Proof.
  induction l as [|b l IH]; cbn [bits_value].
  - change (2 ^ zlen (@nil bool)) with 1. lia.
  - rewrite zlen_cons, Z.pow_add_r by (pose proof (zlen_nonneg _ l); lia).
    change (2 ^ 1) with 2. unfold zlen in *. destruct b; lia.
Qed.

Lemma byte_bits_length : forall b, length (byte_bits b) = 8%nat.
Proof. reflexivity. Qed.

Lemma byte_bits_sweep : forall b, byte_bits b =
  [Z.testbit (bz b) 7; Z.testbit (bz b) 6; Z.testbit (bz b) 5; Z.testbit (bz b) 4;
   Z.testbit (bz b) 3; Z.testbit (bz b) 2; Z.testbit (bz b) 1; Z.testbit (bz b) 0].
Proof. reflexivity. Qed.

Lemma bits_value_byte_skipn : forall b (o : nat), (o <= 8)%nat ->
  bits_value (skipn o (byte_bits b)) = bz b mod 2 ^ (8 - Z.of_nat o).
Proof.
  intros b o H.
  do 9 (destruct o as [|o]; [destruct b; reflexivity|]). lia.
Qed.

Lemma bits_value_byte_firstn : forall b (k : nat), (k <= 8)%nat ->
  bits_value (firstn k (byte_bits b)) = bz b / 2 ^ (8 - Z.of_nat k).
Proof.
  intros b o H.
  do 9 (destruct o as [|o]; [destruct b; reflexivity|]). lia.
Qed.

Lemma bits_value_byte : forall b, bits_value (byte_bits b) = bz b.
Proof. destruct b; reflexivity. Qed.

Lemma bits_of_bytes_app : forall l l', bits_of_bytes (l ++ l') = bits_of_bytes l ++ bits_of_bytes l'.
Proof. intros. apply flat_map_app. Qed.

Lemma bits_of_bytes_cons : forall b l, bits_of_bytes (b :: l) = byte_bits b ++ bits_of_bytes l.
Proof. reflexivity. Qed.

Lemma bits_of_bytes_length : forall l, length (bits_of_bytes l) = (8 * length l)%nat.
Proof.
  induction l as [|b l IH]; [reflexivity|].
  rewrite bits_of_bytes_cons, app_length, IH, byte_bits_length. cbn [length]. lia.
Qed.

Lemma zlen_bits_of_bytes : forall l, zlen (bits_of_bytes l) = 8 * zlen l.
Proof. intros. unfold zlen. rewrite bits_of_bytes_length. lia. Qed.

Lemma bits_value_bytes : forall l, bits_value (bits_of_bytes l) = be l.
Proof.
  induction l as [|b l IH]; [reflexivity|].
  rewrite bits_of_bytes_cons, bits_value_app, IH, be_cons, bits_value_byte, zlen_bits_of_bytes.
  rewrite Z.pow_mul_r by (pose proof (zlen_nonneg _ l); lia). reflexivity.
Qed.

Lemma skipn_app_exact : forall A (l l' : list A) n, n = length l -> skipn n (l ++ l') = l'.
Proof. intros; subst. rewrite skipn_app, skipn_all, Nat.sub_diag. reflexivity. Qed.
Lemma firstn_app_exact : forall A (l l' : list A) n, n = length l -> firstn n (l ++ l') = l.
Proof. intros; subst. rewrite firstn_app, firstn_all, Nat.sub_diag. cbn [firstn]. apply app_nil_r. Qed.
Lemma skipn_app_more : forall A (l l' : list A) n k, n = (length l + k)%nat -> skipn n (l ++ l') = skipn k l'.
Proof. intros; subst. rewrite skipn_app, skipn_all2 by lia. cbn [app]. f_equal. lia. Qed.
Lemma skipn_app_less : forall A (l l' : list A) n, (n <= length l)%nat -> skipn n (l ++ l') = skipn n l ++ l'.
Proof. intros. rewrite skipn_app. replace (n - length l)%nat with 0%nat by lia. reflexivity. Qed.
Lemma firstn_app_more : forall A (l l' : list A) n k, n = (length l + k)%nat -> firstn n (l ++ l') = l ++ firstn k l'.
Proof. intros; subst. rewrite firstn_app, firstn_all2 by lia. f_equal. f_equal. lia. Qed.
Lemma firstn_app_less : forall A (l l' : list A) n, (n <= length l)%nat -> firstn n (l ++ l') = firstn n l.
Proof. intros. rewrite firstn_app. replace (n - length l)%nat with 0%nat by lia. cbn [firstn]. apply app_nil_r. Qed.

(** ** Encoding integers and packing *)

Lemma int_bits_length : forall n v, length (int_bits n v) = n.
Proof. intros. unfold int_bits. rewrite map_length, seq_length. reflexivity. Qed.

Lemma int_bits_S : forall n v, int_bits (S n) v = Z.testbit v (Z.of_nat n) :: int_bits n v.
Proof.
  intros. unfold int_bits. cbn [seq map]. f_equal.
  - f_equal. lia.
  - rewrite <- seq_shift, map_map. apply map_ext. intros k. f_equal. f_equal. lia.
Qed.

Lemma bits_value_int_bits_mod : forall n v, bits_value (int_bits n v) = v mod 2 ^ Z.of_nat n.
Proof.
  induction n as [|n IH]; intros v.
  - change (int_bits 0 v) with (@nil bool). change (2 ^ Z.of_nat 0) with 1.
    rewrite Z.mod_1_r. reflexivity.
  - rewrite int_bits_S. cbn [bits_value]. rewrite int_bits_length, IH.
    rewrite Nat2Z.inj_succ, Z.pow_succ_r, (Z.mul_comm 2) by lia.
    assert (P : 0 < 2 ^ Z.of_nat n) by (apply pow2_pos; lia).
    rewrite (Z.rem_mul_r v (2 ^ Z.of_nat n) 2) by lia.
    rewrite Z.testbit_eqb by lia.
    destruct (Z.eqb_spec ((v / 2 ^ Z.of_nat n) mod 2) 1) as [H|H].
    + rewrite H. lia.
    + replace ((v / 2 ^ Z.of_nat n) mod 2) with 0 by lia. lia.
Qed.

Lemma bits_value_int_bits : forall n v, 0 <= v < 2 ^ Z.of_nat n -> bits_value (int_bits n v) = v.
Proof. intros. rewrite bits_value_int_bits_mod. apply Z.mod_small. assumption. Qed.

Lemma byte_bits_int_bits : forall b, byte_bits b = int_bits 8 (bz b).
Proof. reflexivity. Qed.

Lemma bits_value_inj : forall l l', length l = length l' -> bits_value l = bits_value l' -> l = l'.
Proof.
  induction l as [|b l IH]; intros [|b' l'] HL HV; try discriminate; [reflexivity|].
  cbn [length] in HL. injection HL as HL. cbn [bits_value] in HV. rewrite HL in HV.
  pose proof (bits_value_range l) as R. pose proof (bits_value_range l') as R'.
  unfold zlen in *. rewrite HL in R.
  destruct b, b'; try (f_equal; apply IH; [exact HL|lia]); lia.
Qed.

Lemma byte_bits_byte_of_bits : forall l,
  byte_bits (byte_of_bits l) = firstn 8 (l ++ repeat false 8).
Proof.
  intros l. set (w := firstn 8 (l ++ repeat false 8)).
  assert (L : length w = 8%nat).
  { unfold w. rewrite firstn_length, app_length, repeat_length. lia. }
  apply bits_value_inj; [rewrite L; reflexivity|].
  rewrite bits_value_byte. unfold byte_of_bits. fold w.
  apply bz_zb_small. pose proof (bits_value_range w) as R.
  unfold zlen in R. rewrite L in R. exact R.
Qed.

Lemma bytes_of_bits_fuel_spec : forall fuel l, (length l <= fuel)%nat ->
  exists pad, (pad < 8)%nat /\ bits_of_bytes (bytes_of_bits_fuel fuel l) = l ++ repeat false pad.
Proof.
  induction fuel as [|fuel IH]; intros l H.
  - destruct l; [|cbn [length] in H; lia]. exists 0%nat. split; [lia|reflexivity].
  - destruct l as [|b l]; [exists 0%nat; split; [lia|reflexivity]|].
    cbn [bytes_of_bits_fuel]. rewrite bits_of_bytes_cons, byte_bits_byte_of_bits.
    set (w := b :: l) in *.
    destruct (IH (skipn 8 w)) as (pad & Hp & E).
    { rewrite skipn_length. unfold w in *. cbn [length] in *. lia. }
    rewrite E.
    destruct (Nat.le_gt_cases 8 (length w)) as [H8|H8].
    + exists pad. split; [exact Hp|]. rewrite firstn_app_less by exact H8.
      rewrite app_assoc, firstn_skipn. reflexivity.
    + rewrite skipn_all2 in E |- * by lia. 
      assert (Epad : pad = 0%nat).
      { assert (Hlen : length (bits_of_bytes (bytes_of_bits_fuel fuel [])) = 0%nat).
        { destruct fuel; reflexivity. }
        rewrite E in Hlen. cbn [app] in Hlen.
        rewrite repeat_length in Hlen. lia. }
      subst pad. change (repeat false 0) with (@nil bool). rewrite !app_nil_r.
      exists (8 - length w)%nat. split; [unfold w in *; cbn [length] in *; lia|].
      rewrite firstn_app_more with (k := (8 - length w)%nat) by lia. f_equal.
      assert (E8 : repeat false 8 = repeat false (8 - length w) ++ repeat false (length w)).
      { rewrite <- repeat_app. f_equal. lia. }
      rewrite E8.
      rewrite firstn_app_exact by (rewrite repeat_length; reflexivity). reflexivity.
Qed.

Lemma bytes_of_bits_spec : forall l,
  exists pad, (pad < 8)%nat /\ bits_of_bytes (bytes_of_bits l) = l ++ repeat false pad.
Proof. intros. apply bytes_of_bits_fuel_spec. lia. Qed.

Lemma flat_map_int_bits_length : forall n vs, length (flat_map (int_bits n) vs) = (length vs * n)%nat.
Proof.
  intros n vs. induction vs as [|v vs IH]; [reflexivity|].
  cbn [flat_map length]. rewrite app_length, int_bits_length, IH. lia.
Qed.

(** ** Reading fields *)

Lemma fields_length : forall bits off n c, length (fields bits off n c) = c.
Proof. intros. unfold fields. rewrite map_length, seq_length. reflexivity. Qed.

Lemma fields_S : forall bits off n c, fields bits off n (S c) =
  bits_value (firstn n (skipn off bits)) :: fields bits (off + n) n c.
Proof.
  intros. unfold fields. cbn [seq map]. f_equal.
  - f_equal. f_equal. f_equal. lia.
  - rewrite <- seq_shift, map_map. apply map_ext. intros k. f_equal. f_equal. f_equal. lia.
Qed.

Lemma fields_app : forall bits off n c c',
  fields bits off n (c + c') = fields bits off n c ++ fields bits (off + c * n) n c'.
Proof.
  intros bits off n c c'. revert off. induction c as [|c IH]; intros off.
  - cbn [Nat.add fields seq map app Nat.mul]. replace (off + 0)%nat with off by lia. reflexivity.
  - cbn [Nat.add]. rewrite !fields_S, IH. cbn [app].
    replace (off + n + c * n)%nat with (off + S c * n)%nat by lia. reflexivity.
Qed.

Lemma fields_skip : forall pre bits off n c,
  fields (pre ++ bits) (length pre + off) n c = fields bits off n c.
Proof.
  intros. unfold fields. apply map_ext. intros k. f_equal. f_equal.
  apply skipn_app_more. lia.
Qed.

Lemma fields_encode : forall n vs pre rest, Forall (fun v => 0 <= v < 2 ^ Z.of_nat n) vs ->
  fields (pre ++ flat_map (int_bits n) vs ++ rest) (length pre) n (length vs) = vs.
Proof.
  intros n vs. induction vs as [|v vs IH]; intros pre rest HF; [reflexivity|].
  inversion HF as [|v0 vs0 Hv HF']; subst. cbn [length flat_map]. rewrite fields_S. f_equal.
  - rewrite skipn_app_exact by reflexivity. rewrite <- app_assoc.
    rewrite firstn_app_exact by (rewrite int_bits_length; reflexivity).
    apply bits_value_int_bits. exact Hv.
  - rewrite <- app_assoc. rewrite app_assoc.
    replace (length pre + n)%nat with (length (pre ++ int_bits n v)) by (rewrite app_length, int_bits_length; lia).
    apply IH. exact HF'.
Qed.
