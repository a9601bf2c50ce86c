(** An enclosure of the number pi, from Machin's formula in the standard library. *)
From Coq Require Import Reals QArith Qreals Lra Lia Machin Ratan AltSeries Rseries SeqProp PartSum.
From Coq Require Import Floats.SpecFloat.
From Flocq Require Import Core.Core IEEE754.BinarySingleNaN.
From Verif Require Import Model.F64 Spec.FloatS.

Fixpoint powQ (x : Q) (n : nat) : Q := match n with O => 1 | S n => x * powQ x n end.
Definition termQ (n : nat) : Q :=
  powQ (-1 # 1) n * (2 * (powQ (1 # 3) (2 * n + 1) * (1 # Pos.of_succ_nat (2 * n))) + powQ (1 # 7) (2 * n + 1) * (1 # Pos.of_succ_nat (2 * n))).
Fixpoint sumQ (n : nat) : Q := match n with O => termQ 0 | S k => Qred (sumQ k + termQ (S k)) end.

Lemma powQ_R x n : Q2R (powQ x n) = (Q2R x ^ n)%R.
Proof. induction n as [|n IH]; cbn [powQ pow]; [unfold Q2R; cbn; lra|]. rewrite Q2R_mult, IH. reflexivity. Qed.
Lemma inv_R k : Q2R (1 # Pos.of_succ_nat k) = (/ INR (k + 1))%R.
Proof.
  unfold Q2R. cbn [Qnum Qden]. rewrite Rmult_1_l. f_equal. rewrite INR_IZR_INZ. f_equal. lia.
Qed.
Lemma termQ_R n : Q2R (termQ n) = tg_alt PI_2_3_7_tg n.
Proof.
  unfold termQ, tg_alt, PI_2_3_7_tg, Ratan_seq. rewrite !Q2R_mult, Q2R_plus, !Q2R_mult, !powQ_R, !inv_R.
  replace (Q2R (-1 # 1)) with (-1)%R by (unfold Q2R; cbn; lra). replace (Q2R 2) with 2%R by (unfold Q2R; cbn; lra).
  replace (Q2R (1 # 3)) with (/ 3)%R by (unfold Q2R; cbn; lra). replace (Q2R (1 # 7)) with (/ 7)%R by (unfold Q2R; cbn; lra).
  unfold Rdiv. ring.
Qed.
Lemma sumQ_R n : Q2R (sumQ n) = sum_f_R0 (tg_alt PI_2_3_7_tg) n.
Proof.
  induction n as [|n IH]; cbn [sumQ sum_f_R0]; [apply termQ_R|]. rewrite <- IH, <- termQ_R, <- Q2R_plus. apply Qeq_eqR, Qred_correct.
Qed.

Definition pi_lo : Q := (7074237752028440 # 2 ^ 51) .
Definition pi_err : Q := (1 # 2 ^ 52).
Lemma pi_enclosed : (Q2R pi_lo - Q2R pi_err <= PI <= Q2R pi_lo + Q2R pi_err)%R.
Proof.
  pose proof (PI_2_3_7_ineq 8) as H. change (S (2 * 8)) with 17%nat in H. change (2 * 8)%nat with 16%nat in H. rewrite <- !sumQ_R in H.
  assert (A : (Q2R ((pi_lo - pi_err) / 4) <= Q2R (sumQ 17))%R) by (apply Qle_Rle; vm_compute; discriminate).
  assert (B : (Q2R (sumQ 16) <= Q2R ((pi_lo + pi_err) / 4))%R) by (apply Qle_Rle; vm_compute; discriminate).
  rewrite Q2R_div in A, B by (intro E; discriminate E). rewrite Q2R_minus in A. rewrite Q2R_plus in B.
  replace (Q2R 4) with 4%R in A, B by (unfold Q2R; cbn; lra). lra.
Qed.

Lemma val_pi : val f64_pi = Q2R pi_lo.
Proof.
  unfold val, f64_pi, SF2R, pi_lo, Q2R, F2R. cbn [cond_Zopp Fnum Fexp Qnum Qden]. f_equal.
Qed.
Lemma pi_close : (Rabs (val f64_pi - PI) <= bpow radix2 (-52))%R.
Proof.
  rewrite val_pi. pose proof pi_enclosed as H. apply Rabs_le.
  replace (bpow radix2 (-52)) with (Q2R pi_err); [lra|]. unfold pi_err, Q2R. cbn [Qnum Qden]. rewrite Rmult_1_l. reflexivity.
Qed.
