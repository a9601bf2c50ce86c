(** Accuracy of evenly spaced coordinates. *)
From Coq Require Import Reals ZArith Bool Lia Lra Floats.SpecFloat.
From Flocq Require Import Core.Core IEEE754.BinarySingleNaN.
From Flocq Require Relative.
From Verif Require Import Model.F32 Model.Grid Spec.FloatS Proofs.FloatP.
Local Open Scope R_scope.
Local Existing Instance Hprec.
Local Existing Instance Hmax.

Definition u : R := / 16777216.
Definition w : R := / 281474976710656.
Lemma u_w : u * u = w. Proof. unfold u, w. lra. Qed.

Lemma rnd_err r : Rabs (rnd32 r - r) <= u * Rabs r + bpow radix2 (-150).
Proof.
  destruct (Relative.error_N_FLT radix2 (-149) 24 eq_refl (fun n => negb (Z.even n)) r) as (eps & eta & He & Hn & _ & E).
  unfold rnd32. rewrite E. replace (r * (1 + eps) + eta - r) with (r * eps + eta) by ring.
  eapply Rle_trans; [apply Rabs_triang|]. rewrite Rabs_mult.
  assert (E1 : / 2 * bpow radix2 (- (24) + 1) = u). { unfold u. cbn. lra. }
  assert (E2 : / 2 * bpow radix2 (-149) = bpow radix2 (-150)).
  { change (-150)%Z with (-149 + -1)%Z. rewrite bpow_plus. change (bpow radix2 (-1)) with (/ 2). ring. }
  rewrite E1 in He. rewrite E2 in Hn. pose proof (Rabs_pos r). nra.
Qed.
Lemma tiny : 0 < bpow radix2 (-150) <= w / 1000000000000000000.
Proof.
  split; [apply bpow_gt_0|]. unfold w.
  apply Rle_trans with (bpow radix2 (-110)); [apply bpow_le; lia|]. cbn. lra.
Qed.
Opaque w u.
Lemma u_val : u = / 16777216. Proof. reflexivity. Qed.
Lemma w_val : w = / 281474976710656. Proof. reflexivity. Qed.

(** Small enough not to overflow. *)
Definition big : R := IZR (2 ^ 100).
Lemma rnd_lim r : Rabs r <= big -> Rabs (rnd32 r) < limit32.
Proof.
  intro H. pose proof (rnd_err r) as E. pose proof tiny as T.
  assert (L : 2 * big + 1 < limit32). { unfold limit32, big. change (bpow radix2 128) with (IZR (2 ^ 128)). rewrite <- mult_IZR, <- plus_IZR. apply IZR_lt. reflexivity. }
  pose proof (Rabs_triang (rnd32 r - r) r) as A. replace (rnd32 r - r + r) with (rnd32 r) in A by ring.
  pose proof (Rabs_pos r). rewrite u_val in E. rewrite w_val in T. lra.
Qed.

Lemma rle_abs x a : Rabs x <= a <-> - a <= x <= a.
Proof. split; [apply Rabs_le_inv|apply Rabs_le]. Qed.

(** [x] is a float near [r]. *)
Definition near (x : f32) (r e : R) : Prop := valid x /\ finite x /\ Rabs (val x - r) <= e.

Lemma near_of_Z n a : Rabs (IZR n) <= a -> a <= big / 4 -> near (f32_of_Z n) (IZR n) (u * a + w / 1000000000000000000).
Proof.
  intros H L. destruct (of_Z_ok n) as (F & E). { apply rnd_lim. assert (0 <= big) by (apply IZR_le; lia). lra. }
  split; [apply valid_of_Z|]. split; [exact F|]. rewrite E. eapply Rle_trans; [apply rnd_err|]. pose proof tiny.
  assert (0 < u) by (rewrite u_val; lra). nra.
Qed.
Lemma near_add x y r : valid x -> valid y -> finite x -> finite y -> val x + val y = r -> Rabs r <= big ->
  near (f32_add x y) r (u * Rabs r + w / 1000000000000000000).
Proof.
  intros Vx Vy Fx Fy <- H. destruct (add_ok x y) as (F & E); try assumption. { apply rnd_lim, H. }
  split; [apply valid_add; assumption|]. split; [exact F|]. rewrite E. eapply Rle_trans; [apply rnd_err|]. pose proof tiny. lra.
Qed.
Lemma near_mul x y r : valid x -> valid y -> finite x -> finite y -> val x * val y = r -> Rabs r <= big ->
  near (f32_mul x y) r (u * Rabs r + w / 1000000000000000000).
Proof.
  intros Vx Vy Fx Fy <- H. destruct (mul_ok x y) as (F & E); try assumption. { apply rnd_lim, H. }
  split; [apply valid_mul; assumption|]. split; [exact F|]. rewrite E. eapply Rle_trans; [apply rnd_err|]. pose proof tiny. lra.
Qed.
Lemma near_div x y r : valid x -> valid y -> finite x -> val y <> 0 -> val x / val y = r -> Rabs r <= big ->
  near (f32_div x y) r (u * Rabs r + bpow radix2 (-150)).
Proof.
  intros Vx Vy Fx Fy <- H. destruct (div_ok x y) as (F & E); try assumption. { apply rnd_lim, H. }
  split; [apply valid_div; assumption|]. split; [exact F|]. rewrite E. apply rnd_err.
Qed.
Lemma sub_B (bx b_y : B) : f32_sub (B2SF bx) (B2SF b_y) = B2SF (Bminus mode_NE bx b_y).
Proof.
  unfold f32_sub. destruct bx as [sx|sx| |sx mx ex Bx], b_y as [sy|sy| |sy my ey By]; [now (trivial || simpl; case Bool.eqb).. |].
  simpl. rewrite <- binary_normalize_equiv. f_equal. unfold Fplus_naive.
  rewrite cond_Zopp_negb. reflexivity.
Qed.
Lemma valid_sub x y : valid x -> valid y -> valid (f32_sub x y).
Proof.
  intros Hx Hy. destruct (valid_ex x Hx) as [bx ->], (valid_ex y Hy) as [b_y ->].
  pose proof (sub_B bx b_y) as E.
  rewrite E. apply valid_B.
Qed.
Lemma near_sub x y r : valid x -> valid y -> finite x -> finite y -> val x - val y = r -> Rabs r <= big ->
  near (f32_sub x y) r (u * Rabs r + w / 1000000000000000000) /\ val (f32_sub x y) = rnd32 r.
Proof.
  intros Vx Vy Fx Fy <- H. pose proof (valid_sub x y Vx Vy) as V.
  destruct (valid_ex x Vx) as [bx ->], (valid_ex y Vy) as [b_y ->].
  pose proof (sub_B bx b_y) as E.
  rewrite finite_B in Fx, Fy. rewrite !val_B in *.
  generalize (Bminus_correct 24 128 Hprec Hmax mode_NE bx b_y Fx Fy). rewrite (lt_limit _ (rnd_lim _ H)). intros (C & F & _).
  rewrite E in *. unfold near. rewrite !val_B. change (round _ _ _ _) with (rnd32 (B2R bx - B2R b_y)) in C. split; [|exact C]. split; [exact V|].
  split; [apply finite_B, F|]. rewrite C. eapply Rle_trans; [apply rnd_err|]. pose proof tiny. lra.
Qed.

Lemma prod_le a b x y : Rabs x <= a -> Rabs y <= b -> Rabs (x * y) <= a * b.
Proof. intros. rewrite Rabs_mult. apply Rmult_le_compat; try assumption; apply Rabs_pos. Qed.
Lemma tri x y a b : Rabs x <= a -> Rabs y <= b -> Rabs (x + y) <= a + b.
Proof. intros. eapply Rle_trans; [apply Rabs_triang|]. lra. Qed.

(** One of the evenly spaced degrees: [X] steps of [N] from [S] to [T]. *)
Lemma spaced_one s t S T A c N X : near s S (c * u * A) -> near t T (c * u * A) -> 1 <= c <= 2 ->
  Rabs S <= A -> Rabs T <= A -> 1 <= A <= 1000000000 -> (1 <= N < 2 ^ 32)%Z -> (0 <= X <= N)%Z ->
  near (f32_div (f32_add s (f32_mul (f32_of_Z X) (f32_div (f32_sub t s) (f32_of_Z N)))) (f32_of_Z 1000000))
    ((S + IZR X / IZR N * (T - S)) / 1000000) ((3 * c + 13) * u * (A / 1000000)).
Proof.
  intros (Vs & Fs & Es) (Vt & Ft & Et) Hc HS HT HA HN HX.
  pose proof u_val as Hu. pose proof w_val as Hw. pose proof u_w as Huw.
  assert (Hbig : 1000000000000000000000000000000 <= big) by (apply IZR_le; vm_compute; discriminate).
  assert (CU : c * u * A <= 2 * u * A) by (assert (0 <= u * A) by nra; nra).
  (* d *)
  assert (E1 : Rabs (val t - val s - (T - S)) <= 2 * (c * u * A)).
  { replace (val t - val s - (T - S)) with ((val t - T) + (- (val s - S))) by ring.
    replace (2 * (c * u * A)) with (c * u * A + c * u * A) by ring. apply tri; [exact Et|rewrite Rabs_Ropp; exact Es]. }
  assert (HD : Rabs (T - S) <= 2 * A). { apply rle_abs. apply rle_abs in HS, HT. lra. }
  assert (Hd0 : Rabs (val t - val s) <= 2 * A + 4 * u * A).
  { replace (val t - val s) with ((val t - val s - (T - S)) + (T - S)) by ring. eapply Rle_trans; [apply tri; [exact E1|exact HD]|]. lra. }
  destruct (near_sub t s (val t - val s) Vt Vs Ft Fs eq_refl) as ((Vd & Fd & Ed) & _). { rewrite Hu in Hd0. lra. }
  set (d := f32_sub t s) in *.
  assert (E2 : Rabs (val d - (T - S)) <= (2 * c + 2) * u * A + 5 * w * A).
  { replace (val d - (T - S)) with ((val d - (val t - val s)) + (val t - val s - (T - S))) by ring.
    eapply Rle_trans; [apply tri; [exact Ed|exact E1]|].
    assert (u * Rabs (val t - val s) <= u * (2 * A + 4 * u * A)) by (apply Rmult_le_compat_l; [lra|exact Hd0]).
    replace (u * (2 * A + 4 * u * A)) with (2 * u * A + 4 * w * A) in H by (rewrite <- Huw; ring). rewrite Hu, Hw in *. lra. }
  assert (Hd : Rabs (val d) <= 2 * A + 7 * u * A).
  { replace (val d) with ((val d - (T - S)) + (T - S)) by ring. eapply Rle_trans; [apply tri; [exact E2|exact HD]|]. 
    assert ((2 * c + 2) * u * A <= 6 * u * A) by (assert (0 <= u * A) by nra; nra). rewrite Hu, Hw in *. lra. }
  (* n *)
  assert (HN1 : 1 <= IZR N <= 4294967296) by (split; apply IZR_le; lia).
  destruct (near_of_Z N (IZR N)) as (Vn & Fn & En). { rewrite Rabs_pos_eq; lra. } { lra. }
  set (n := f32_of_Z N) in *.
  assert (En' : Rabs (val n - IZR N) <= (u + w) * IZR N) by (rewrite Hu, Hw in *; lra).
  assert (Hn : IZR N * (1 - (u + w)) <= val n <= IZR N * (1 + (u + w))) by (apply rle_abs in En'; lra).
  assert (Hn1 : / 2 * IZR N <= val n) by (rewrite Hu, Hw in Hn; lra).
  assert (Hnp : 0 < val n) by lra.
  (* q *)
  assert (Hq0 : Rabs (val d / val n) <= 10 * A).
  { unfold Rdiv. rewrite Rabs_mult, (Rabs_pos_eq (/ val n)) by (left; apply Rinv_0_lt_compat; lra).
    apply Rle_trans with (Rabs (val d) * 2).
    - apply Rmult_le_compat_l; [apply Rabs_pos|]. rewrite <- (Rinv_inv 2). apply Rinv_le_contravar; lra.
    - rewrite Hu in Hd. lra. }
  destruct (near_div d n (val d / val n) Vd Vn Fd ltac:(lra) eq_refl) as (Vq & Fq & Eq). { lra. }
  set (q := f32_div d n) in *.
  (* N q near D *)
  assert (E3 : Rabs (IZR N * (val d / val n) - val d) <= (u + 3 * w) * (2 * A + 7 * u * A)).
  { replace (IZR N * (val d / val n) - val d) with (((IZR N - val n) / val n) * val d) by (field; lra).
    apply prod_le; [|exact Hd]. unfold Rdiv. rewrite Rabs_mult, (Rabs_pos_eq (/ val n)) by (left; apply Rinv_0_lt_compat; lra).
    rewrite Rabs_minus_sym.
    apply (Rmult_le_reg_r (val n)); [lra|]. rewrite Rmult_assoc, Rinv_l, Rmult_1_r by lra.
    eapply Rle_trans; [exact En'|].
    apply Rle_trans with ((u + 3 * w) * (IZR N * (1 - (u + w)))); [|apply Rmult_le_compat_l; lra].
    rewrite Hu, Hw in *. lra. }
  assert (E4 : Rabs (IZR N * val q - IZR N * (val d / val n)) <= u * (2 * A + 12 * u * A) + w * A).
  { replace (IZR N * val q - IZR N * (val d / val n)) with (IZR N * (val q - val d / val n)) by ring.
    rewrite Rabs_mult, (Rabs_pos_eq (IZR N)) by lra.
    eapply Rle_trans; [apply Rmult_le_compat_l; [lra|exact Eq]|].
    rewrite Rmult_plus_distr_l.
    assert (Y : IZR N * Rabs (val d / val n) <= 2 * A + 12 * u * A).
    { rewrite <- (Rabs_pos_eq (IZR N)) at 1 by lra. rewrite <- Rabs_mult.
      replace (IZR N * (val d / val n)) with ((IZR N * (val d / val n) - val d) + val d) by ring.
      eapply Rle_trans; [apply tri; [exact E3|exact Hd]|]. rewrite Hu, Hw in *. lra. }
    apply Rplus_le_compat.
    - replace (IZR N * (u * Rabs (val d / val n))) with (u * (IZR N * Rabs (val d / val n))) by ring. apply Rmult_le_compat_l; [lra|exact Y].
    - pose proof tiny as T0. apply Rle_trans with (4294967296 * (w / 1000000000000000000)); [apply Rmult_le_compat; lra|]. rewrite Hw. lra. }
  assert (E5 : Rabs (IZR N * val q - (T - S)) <= (2 * c + 6) * u * A + 50 * w * A).
  { replace (IZR N * val q - (T - S)) with ((IZR N * val q - IZR N * (val d / val n)) + ((IZR N * (val d / val n) - val d) + (val d - (T - S)))) by ring.
    eapply Rle_trans; [apply tri; [exact E4|apply tri; [exact E3|exact E2]]|].
    rewrite Hu, Hw in *. lra. }
  clear E3 E4 Eq Hq0.
  assert (HNq : Rabs (IZR N * val q) <= 2 * A + 11 * u * A).
  { replace (IZR N * val q) with ((IZR N * val q - (T - S)) + (T - S)) by ring. eapply Rle_trans; [apply tri; [exact E5|exact HD]|].
    assert ((2 * c + 6) * u * A <= 10 * u * A) by (assert (0 <= u * A) by nra; nra). rewrite Hu, Hw in *. lra. }
  (* x *)
  assert (HX1 : 0 <= IZR X <= IZR N) by (split; apply IZR_le; lia).
  set (k := IZR X / IZR N).
  assert (Hk : 0 <= k <= 1). { unfold k. split; [apply Rmult_le_pos; [lra|left; apply Rinv_0_lt_compat; lra]|]. apply (Rmult_le_reg_r (IZR N)); [lra|]. unfold Rdiv. rewrite Rmult_assoc, Rinv_l by lra. lra. }
  assert (HXk : IZR X = k * IZR N) by (unfold k; field; lra).
  assert (Hx : exists x, x = f32_of_Z X /\ valid x /\ finite x /\ Rabs (val x - IZR X) <= (u + w) * IZR X).
  { exists (f32_of_Z X). split; [reflexivity|]. split; [apply valid_of_Z|]. destruct (Z.eq_dec X 0) as [->|NX].
    - split; [reflexivity|]. cbn. rewrite Rminus_0_r, Rabs_R0. lra.
    - assert (1 <= IZR X) by (apply IZR_le; lia). destruct (near_of_Z X (IZR X)) as (_ & F & E); [rewrite Rabs_pos_eq; lra|lra|]. split; [exact F|rewrite Hu, Hw in *; lra]. }
  destruct Hx as (x & <- & Vx & Fx & Ex).
  assert (E6 : Rabs (val x * val q - k * (T - S)) <= (2 * c + 8) * u * A + 100 * w * A).
  { replace (val x * val q - k * (T - S)) with ((val x - IZR X) * val q + k * (IZR N * val q - (T - S))) by (rewrite HXk; ring).
    assert (F1 : Rabs ((val x - IZR X) * val q) <= (u + w) * (2 * A + 11 * u * A)).
    { rewrite Rabs_mult. apply Rle_trans with ((u + w) * IZR N * Rabs (val q)).
      - apply Rmult_le_compat_r; [apply Rabs_pos|]. eapply Rle_trans; [exact Ex|]. apply Rmult_le_compat_l; lra.
      - rewrite Rmult_assoc. rewrite <- (Rabs_pos_eq (IZR N)) by lra. rewrite <- Rabs_mult. apply Rmult_le_compat_l; [lra|exact HNq]. }
    assert (F2 : Rabs (k * (IZR N * val q - (T - S))) <= 1 * ((2 * c + 6) * u * A + 50 * w * A)).
    { apply prod_le; [rewrite Rabs_pos_eq; lra|exact E5]. }
    eapply Rle_trans; [apply tri; [exact F1|exact F2]|]. rewrite Hu, Hw in *. lra. }
  assert (HkD : Rabs (k * (T - S)) <= 2 * A). { replace (2 * A) with (1 * (2 * A)) by ring. apply prod_le; [rewrite Rabs_pos_eq; lra|exact HD]. }
  assert (HC : (2 * c + 8) * u * A <= 12 * u * A) by (assert (0 <= u * A) by nra; nra).
  assert (Hp0 : Rabs (val x * val q) <= 2 * A + 13 * u * A).
  { replace (val x * val q) with ((val x * val q - k * (T - S)) + k * (T - S)) by ring. eapply Rle_trans; [apply tri; [exact E6|exact HkD]|]. rewrite Hu, Hw in *. lra. }
  destruct (near_mul x q (val x * val q) Vx Vq Fx Fq eq_refl) as (Vp & Fp & Ep). { rewrite Hu in Hp0. lra. }
  set (p := f32_mul x q) in *.
  assert (E7 : Rabs (val p - k * (T - S)) <= (2 * c + 10) * u * A + 200 * w * A).
  { replace (val p - k * (T - S)) with ((val p - val x * val q) + (val x * val q - k * (T - S))) by ring.
    eapply Rle_trans; [apply tri; [exact Ep|exact E6]|].
    assert (u * Rabs (val x * val q) <= u * (2 * A + 13 * u * A)) by (apply Rmult_le_compat_l; [lra|exact Hp0]). rewrite Hu, Hw in *. lra. }
  (* sum *)
  set (E := S + k * (T - S)).
  assert (HE : Rabs E <= A). { unfold E. apply rle_abs in HS, HT. apply rle_abs. replace (S + k * (T - S)) with ((1 - k) * S + k * T) by ring. nra. }
  assert (E8 : Rabs (val s + val p - E) <= (3 * c + 10) * u * A + 200 * w * A).
  { unfold E. replace (val s + val p - (S + k * (T - S))) with ((val s - S) + (val p - k * (T - S))) by ring.
    eapply Rle_trans; [apply tri; [exact Es|exact E7]|]. lra. }
  assert (HC3 : (3 * c + 10) * u * A <= 16 * u * A) by (assert (0 <= u * A) by nra; nra).
  assert (Hs0 : Rabs (val s + val p) <= A + 17 * u * A).
  { replace (val s + val p) with ((val s + val p - E) + E) by ring. eapply Rle_trans; [apply tri; [exact E8|exact HE]|]. rewrite Hu, Hw in *. lra. }
  destruct (near_add s p (val s + val p) Vs Vp Fs Fp eq_refl) as (Va & Fa & Ea). { rewrite Hu in Hs0. lra. }
  set (a := f32_add s p) in *.
  assert (E9 : Rabs (val a - E) <= (3 * c + 11) * u * A + 300 * w * A).
  { replace (val a - E) with ((val a - (val s + val p)) + (val s + val p - E)) by ring.
    eapply Rle_trans; [apply tri; [exact Ea|exact E8]|].
    assert (u * Rabs (val s + val p) <= u * (A + 17 * u * A)) by (apply Rmult_le_compat_l; [lra|exact Hs0]). rewrite Hu, Hw in *. lra. }
  assert (HC4 : (3 * c + 11) * u * A <= 17 * u * A) by (assert (0 <= u * A) by nra; nra).
  assert (Ha : Rabs (val a) <= A + 18 * u * A).
  { replace (val a) with ((val a - E) + E) by ring. eapply Rle_trans; [apply tri; [exact E9|exact HE]|]. rewrite Hu, Hw in *. lra. }
  (* / 10^6 *)
  assert (M : val (f32_of_Z 1000000) = 1000000 /\ finite (f32_of_Z 1000000)).
  { split; [|reflexivity]. vm_compute. lra. }
  destruct M as (M & MF).
  assert (Hy0 : Rabs (val a / 1000000) <= (A + 18 * u * A) / 1000000).
  { unfold Rdiv. rewrite Rabs_mult, (Rabs_pos_eq (/ 1000000)) by lra. apply Rmult_le_compat_r; [lra|exact Ha]. }
  destruct (near_div a (f32_of_Z 1000000) (val a / 1000000) Va (valid_of_Z _) Fa) as (Vy & Fy & Ey). { rewrite M. lra. } { rewrite M. reflexivity. } { rewrite Hu in Hy0. lra. }
  split; [exact Vy|]. split; [exact Fy|]. fold k. fold E.
  set (y := f32_div a (f32_of_Z 1000000)) in *.
  replace (val y - E / 1000000) with ((val y - val a / 1000000) + (val a - E) * / 1000000) by field.
  assert (F2 : Rabs ((val a - E) * / 1000000) <= ((3 * c + 11) * u * A + 300 * w * A) * / 1000000).
  { rewrite Rabs_mult, (Rabs_pos_eq (/ 1000000)) by lra. apply Rmult_le_compat_r; [lra|exact E9]. }
  eapply Rle_trans; [apply tri; [exact Ey|exact F2]|].
  assert (u * Rabs (val a / 1000000) <= u * ((A + 18 * u * A) / 1000000)) by (apply Rmult_le_compat_l; [lra|exact Hy0]).
  pose proof tiny. rewrite Hu, Hw in *. lra.
Qed.
