(** Gaussian latitudes. *)
From Coq Require Import Lia ZifyBool ZifyNat Floats.SpecFloat.
From Verif Require Import Model.Base Model.Errors Model.F32 Model.F64 Model.Grid Model.Gaussian Spec.GridS Spec.GaussS.
From Verif Require Import Proofs.BaseLemmas Proofs.ReaderP Proofs.Progress Proofs.GridP Proofs.PointsP.
Ltac Zify.zify_post_hook ::= Z.div_mod_to_equations.

Lemma iterate_S : forall f x k, iterate f (f64_sub x (f x)) k = iterate f x (S k).
Proof. intros f x k. induction k as [|k IH]; [reflexivity|]. cbn [iterate] in *. rewrite IH. reflexivity. Qed.

Lemma find_root_loop_spec : forall f c x,
  match find_root_loop c x f with
  | Some y => exists k, (k <= c)%nat /\ settled f (iterate f x k) = true /\ (forall i, (i < k)%nat -> settled f (iterate f x i) = false) /\ y = iterate f x (S k)
  | None => forall k, (k <= c)%nat -> settled f (iterate f x k) = false
  end.
Proof.
  intros f. induction c as [|c IH]; intros x; cbn [find_root_loop].
  - fold (settled f x). change f64_epsilon with (S754_finite false (2 ^ 52) (-104)). fold (settled f x). destruct (settled f x) eqn:E.
    + exists O. split; [lia|]. split; [exact E|]. split; [lia|reflexivity].
    + intros k Hk. replace k with O by lia. exact E.
  - change f64_epsilon with (S754_finite false (2 ^ 52) (-104)). fold (settled f x). destruct (settled f x) eqn:E.
    + exists O. split; [lia|]. split; [exact E|]. split; [lia|reflexivity].
    + specialize (IH (f64_sub x (f x))). destruct (find_root_loop c (f64_sub x (f x)) f) as [y|].
      * destruct IH as (k & Hk & S1 & S2 & ->). exists (S k). rewrite iterate_S in *. split; [lia|]. split; [exact S1|]. split; [|reflexivity].
        intros [|i] Hi; [exact E|]. rewrite <- iterate_S. apply S2. lia.
      * intros [|k] Hk; [exact E|]. rewrite <- iterate_S. apply IH. lia.
Qed.

(** C53 *)
Lemma root_search : forall f x,
  match find_root x f with
  | Some y => root_found f x y
  | None => root_missed f x
  end.
Proof. intros f x. apply find_root_loop_spec. Qed.

Lemma legendre_S : forall x k, (2 <= k)%nat ->
  legendre x k = f64_div (f64_sub (f64_mul (f64_mul (f64_of_Z (2 * Z.of_nat k - 1)) x) (legendre x (k - 1))) (f64_mul (f64_of_Z (Z.of_nat k - 1)) (legendre x (k - 2)))) (f64_of_Z (Z.of_nat k)).
Proof.
  intros x k Hk. destruct k as [|[|k]]; try lia. cbn [legendre Nat.sub]. rewrite Nat.sub_0_r. reflexivity.
Qed.
Lemma legendre_loop_spec : forall x c k, (2 <= k)%nat ->
  legendre_loop f64_ops c (Z.of_nat k) x (legendre x (k - 2)) (legendre x (k - 1)) = (legendre x (k + c - 2), legendre x (k + c - 1)).
Proof.
  intros x. induction c as [|c IH]; intros k Hk; cbn [legendre_loop o_sub o_mul o_div o_int f64_ops]; [rewrite Nat.add_0_r; reflexivity|].
  rewrite <- legendre_S by assumption. replace (Z.of_nat k + 1) with (Z.of_nat (S k)) by lia.
  specialize (IH (S k) ltac:(lia)). replace (S k - 2)%nat with (k - 1)%nat in IH by lia. replace (S k - 1)%nat with k in IH by lia.
  rewrite IH. do 2 f_equal; lia.
Qed.
Lemma legendre_polynomial_spec : forall n x, (1 <= n)%nat -> legendre_polynomial f64_ops (Z.of_nat n) x = (legendre x (n - 1), legendre x n).
Proof.
  intros n x Hn. unfold legendre_polynomial.
  change (legendre_loop f64_ops (Z.to_nat (Z.of_nat n - 1)) 2 x (o_int f64_ops 1) x) with
    (legendre_loop f64_ops (Z.to_nat (Z.of_nat n - 1)) (Z.of_nat 2) x (legendre x (2 - 2)) (legendre x (2 - 1))).
  rewrite legendre_loop_spec by lia. do 2 f_equal; lia.
Qed.
Lemma newton : forall n x, (1 <= n)%nat -> legendre_step f64_ops (Z.of_nat n) x = newton_step n x.
Proof. intros n x Hn. unfold legendre_step, newton_step, legendre_polynomial_derivative. rewrite legendre_polynomial_spec by assumption. reflexivity. Qed.

Lemma latitudes_count : forall m lm n, 0 <= n <= cube_limit ->
  exists l, compute_gaussian_latitudes m lm n = Ret l /\ zlen l = n.
Proof.
  intros m lm n Hn. unfold compute_gaussian_latitudes, legendre_roots, cube_limit in *.
  rewrite arith_U64_ok by lia. cbn [bind]. rewrite arith_U64_ok by nia. cbn [bind].
  rewrite arith_U64_ok. 2: { assert (0 <= n * n <= 1321122 * 1321122) by nia. nia. } cbn [bind].
  eexists. split; [reflexivity|]. unfold zlen. rewrite !map_length, seq_length. lia.
Qed.
Lemma latitudes_values : forall m lm n l, 0 <= n <= cube_limit -> compute_gaussian_latitudes m lm n = Ret l ->
  forall i, 0 <= i < n -> nth_error l (Z.to_nat i) = Some (option_map (asin lm) (find_root (first_guess lm n i) (newton_step (Z.to_nat n)))).
Proof.
  intros m lm n l Hn H i Hi. unfold compute_gaussian_latitudes, legendre_roots, cube_limit in *.
  rewrite arith_U64_ok in H by lia. cbn [bind] in H. rewrite arith_U64_ok in H by nia. cbn [bind] in H.
  rewrite arith_U64_ok in H. 2: { assert (0 <= n * n <= 1321122 * 1321122) by nia. nia. } cbn [bind] in H. injection H as <-.
  rewrite map_map. rewrite nth_error_map. rewrite (nth_error_nth' _ O) by (rewrite seq_length; lia). rewrite seq_nth by lia. cbn [option_map Nat.add].
  rewrite Z2Nat.id by lia. do 2 f_equal. change (legendre_guess lm n _ i) with (first_guess lm n i).
  assert (G : forall f g x c, (forall y, f y = g y) -> find_root_loop c x f = find_root_loop c x g).
  { intros f g x c E. revert x. induction c as [|c IH]; intros x; cbn [find_root_loop]; rewrite !E; [reflexivity|]. rewrite IH. reflexivity. }
  apply G. intros y. rewrite <- newton by lia. rewrite Z2Nat.id by lia. reflexivity.
Qed.
Lemma latitudes_overflow : forall lm n, cube_limit < n < 2 ^ 60 -> compute_gaussian_latitudes Checked lm n = Panic.
Proof.
  intros lm n Hn. unfold compute_gaussian_latitudes, legendre_roots, cube_limit in *.
  rewrite arith_U64_ok by lia. cbn [bind].
  destruct (Z_lt_le_dec (8 * n * n) (2 ^ 64)) as [L|L].
  - rewrite arith_U64_ok by nia. cbn [bind].
    rewrite arith_U64_C. assert (1321123 * 1321123 <= n * n) by nia. assert (1321123 * 1321123 * 1321123 <= n * n * n) by nia.
    replace (8 * n * n * n <? 2 ^ 64) with false by nia. rewrite andb_false_r. reflexivity.
  - rewrite arith_U64_C. replace (8 * n * n <? 2 ^ 64) with false by lia. rewrite andb_false_r. reflexivity.
Qed.

Lemma all_some_spec : forall A (l : list (option A)),
  match all_some l with Some r => l = map Some r | None => In None l end.
Proof.
  intros A. induction l as [|[a|] l IH]; cbn [all_some]; [reflexivity| |left; reflexivity].
  destruct (all_some l) as [r|]; [rewrite IH; reflexivity|right; exact IH].
Qed.
