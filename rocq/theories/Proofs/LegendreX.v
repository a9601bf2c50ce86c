(** Legendre polynomials over the real numbers. *)
From Coq Require Import Reals Lra Lia.
From Verif Require Import Model.Base Model.Gaussian Spec.LegendreS.
Local Open Scope R_scope.

Lemma P_SS n x : P (S (S n)) x = ((2 * INR (S (S n)) - 1) * x * P (S n) x - (INR (S (S n)) - 1) * P n x) / INR (S (S n)).
Proof. reflexivity. Qed.

Lemma INR_pos n : 0 < INR (S n).
Proof. apply lt_0_INR. lia. Qed.

(** A derivative of P_n, by the recursion. *)
Fixpoint dP (n : nat) (x : R) : R :=
  match n with
  | O => 0
  | S n1 => match n1 with
            | O => 1
            | S n2 => ((2 * INR n - 1) * (P n1 x + x * dP n1 x) - (INR n - 1) * dP n2 x) / INR n
            end
  end.
Lemma dP_SS n x : dP (S (S n)) x = ((2 * INR (S (S n)) - 1) * (P (S n) x + x * dP (S n) x) - (INR (S (S n)) - 1) * dP n x) / INR (S (S n)).
Proof. reflexivity. Qed.

Lemma pair_ind (Q : nat -> Prop) : Q 0%nat -> Q 1%nat -> (forall n, Q n -> Q (S n) -> Q (S (S n))) -> forall n, Q n.
Proof.
  intros H0 H1 HS. assert (A : forall n, Q n /\ Q (S n)). { induction n as [|n [A B]]; split; auto. } intros n. apply A.
Qed.

Lemma derive_P n x : derivable_pt_lim (P n) x (dP n x).
Proof.
  revert n. apply pair_ind.
  - apply derivable_pt_lim_const.
  - apply derivable_pt_lim_id.
  - intros n A B. rewrite dP_SS. set (k := INR (S (S n))).
    assert (E : forall y, P (S (S n)) y = (/ k * ((2 * k - 1) * (y * P (S n) y) - (k - 1) * P n y))).
    { intros y. rewrite P_SS. fold k. unfold Rdiv. ring. }
    apply (derivable_pt_lim_ext _ (fun y => P (S (S n)) y) x _ (fun y => eq_sym (E y))).
    replace (((2 * k - 1) * (P (S n) x + x * dP (S n) x) - (k - 1) * dP n x) / k)
      with (/ k * ((2 * k - 1) * (1 * P (S n) x + x * dP (S n) x) - (k - 1) * dP n x)) by (unfold Rdiv; ring).
    apply derivable_pt_lim_scal. apply derivable_pt_lim_minus; apply derivable_pt_lim_scal; [|exact A].
    apply (derivable_pt_lim_mult id (P (S n))); [apply derivable_pt_lim_id|exact B].
Qed.

Lemma identity n x : (1 - x * x) * dP (S n) x = INR (S n) * (P n x - x * P (S n) x).
Proof.
  revert n. apply pair_ind.
  - cbn. ring.
  - rewrite dP_SS. rewrite P_SS. cbn [P dP INR]. field.
  - intros n A B. rewrite dP_SS. set (k := INR (S (S (S n)))).
    assert (K0 : 0 < k) by apply INR_pos. assert (K1 : INR (S (S n)) = k - 1) by (unfold k; rewrite (S_INR (S (S n))); ring).
    assert (K2 : INR (S n) = k - 2) by (pose proof (S_INR (S n)); lra).
    assert (K3 : 0 < k - 1) by (rewrite <- K1; apply INR_pos).
    rewrite K1 in B. rewrite K2 in A.
    assert (Q : (k - 1) * P (S (S n)) x = (2 * (k - 1) - 1) * x * P (S n) x - (k - 2) * P n x).
    { rewrite P_SS, K1. field. lra. }
    replace (P (S (S (S n))) x) with (((2 * k - 1) * x * P (S (S n)) x - (k - 1) * P (S n) x) / k) by (rewrite P_SS; reflexivity).
    apply Rmult_eq_reg_l with k; [|lra].
    replace (k * ((1 - x * x) * (((2 * k - 1) * (P (S (S n)) x + x * dP (S (S n)) x) - (k - 1) * dP (S n) x) / k)))
      with ((2 * k - 1) * ((1 - x * x) * P (S (S n)) x + x * ((1 - x * x) * dP (S (S n)) x)) - (k - 1) * ((1 - x * x) * dP (S n) x)) by (field; lra).
    rewrite A, B.
    replace (k * (k * (P (S (S n)) x - x * (((2 * k - 1) * x * P (S (S n)) x - (k - 1) * P (S n) x) / k))))
      with (k * k * P (S (S n)) x - k * x * ((2 * k - 1) * x * P (S (S n)) x - (k - 1) * P (S n) x)) by (field; lra).
    assert (E : (k - 2) * P n x = (2 * (k - 1) - 1) * x * P (S n) x - (k - 1) * P (S (S n)) x) by lra.
    replace ((k - 1) * ((k - 2) * (P n x - x * P (S n) x))) with ((k - 1) * ((k - 2) * P n x - (k - 2) * x * P (S n) x)) by ring.
    rewrite E. ring.
Qed.

(** The derivative that the program computes with. *)
Lemma derivative : forall n x, (1 <= n)%nat -> Rabs x < 1 ->
  derivable_pt_lim (P n) x (INR n * (P (n - 1) x - x * P n x) / (1 - x * x)).
Proof.
  intros n x Hn Hx. destruct n as [|n]; [lia|]. replace (S n - 1)%nat with n by lia.
  assert (0 < 1 - x * x). { apply Rabs_def2 in Hx. nra. }
  replace (INR (S n) * (P n x - x * P (S n) x) / (1 - x * x)) with (dP (S n) x); [apply derive_P|].
  rewrite <- identity. field. lra.
Qed.

Lemma P_step k x : (2 <= k)%nat -> P k x = ((IZR (2 * Z.of_nat k - 1)) * x * P (k - 1) x - IZR (Z.of_nat k - 1) * P (k - 2) x) / IZR (Z.of_nat k).
Proof.
  intros Hk. destruct k as [|[|k]]; try lia. replace (S (S k) - 1)%nat with (S k) by lia. replace (S (S k) - 2)%nat with k by lia.
  rewrite P_SS, !minus_IZR, mult_IZR, <- INR_IZR_INZ. reflexivity.
Qed.
Lemma exact_loop x c : forall k, (2 <= k)%nat ->
  legendre_loop exact_ops c (Z.of_nat k) x (P (k - 2) x) (P (k - 1) x) = (P (k + c - 2) x, P (k + c - 1) x).
Proof.
  induction c as [|c IH]; intros k Hk; cbn [legendre_loop o_sub o_mul o_div o_int exact_ops]; [rewrite Nat.add_0_r; reflexivity|].
  rewrite <- P_step by assumption. replace (Z.of_nat k + 1)%Z with (Z.of_nat (S k)) by lia.
  specialize (IH (S k) ltac:(lia)). replace (S k - 2)%nat with (k - 1)%nat in IH by lia. replace (S k - 1)%nat with k in IH by lia.
  rewrite IH. do 2 f_equal; lia.
Qed.

(** Without rounding, the program computes the polynomial and Newton's step. *)
Lemma exact_newton : forall n x, (1 <= n)%nat ->
  legendre_polynomial exact_ops (Z.of_nat n) x = (P (n - 1) x, P n x) /\
  (Rabs x < 1 -> exists d, derivable_pt_lim (P n) x d /\ legendre_step exact_ops (Z.of_nat n) x = P n x / d).
Proof.
  intros n x Hn.
  assert (E : legendre_polynomial exact_ops (Z.of_nat n) x = (P (n - 1) x, P n x)).
  { unfold legendre_polynomial.
    change (legendre_loop exact_ops (Z.to_nat (Z.of_nat n - 1)) 2 x (o_int exact_ops 1) x) with
      (legendre_loop exact_ops (Z.to_nat (Z.of_nat n - 1)) (Z.of_nat 2) x (P (2 - 2) x) (P (2 - 1) x)).
    rewrite exact_loop by lia. do 2 f_equal; lia. }
  split; [exact E|]. intros Hx. eexists. split; [apply derivative; assumption|].
  unfold legendre_step. rewrite E. unfold legendre_polynomial_derivative. cbn [o_sub o_mul o_div o_int exact_ops]. rewrite <- INR_IZR_INZ. reflexivity.
Qed.
