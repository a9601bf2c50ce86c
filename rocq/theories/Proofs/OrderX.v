(** C86: the order of coordinates. *)
From Coq Require Import Reals Lia Lra ZifyBool ZifyNat Floats.SpecFloat.
From Flocq Require Import Core.Core IEEE754.BinarySingleNaN.
From Verif Require Import Model.Base Model.Errors Model.F32 Model.Grid Spec.FloatS Spec.GridS Spec.CoordsS Spec.OrderS.
From Verif Require Import Proofs.FloatP Proofs.SpacingP Proofs.BaseLemmas Proofs.ReaderP Proofs.Progress Proofs.GridP Proofs.PointsP Proofs.LatlonX.
Ltac Zify.zify_post_hook ::= Z.div_mod_to_equations.
Local Existing Instance Hprec.
Local Existing Instance Hmax.
Local Open Scope R_scope.

Lemma rnd_abs r : Rabs (rnd32 r) <= 2 * Rabs r + 1.
Proof.
  pose proof (rnd_err r) as E. pose proof tiny as T. rewrite u_val, w_val in *. replace (rnd32 r) with ((rnd32 r - r) + r) by ring.
  eapply Rle_trans; [apply Rabs_triang|]. pose proof (Rabs_pos r). lra.
Qed.
Lemma big_ge : 2 ^ 99 <= big. Proof. replace 2 with (IZR 2) by reflexivity. rewrite pow_IZR. apply IZR_le. vm_compute. discriminate. Qed.
Definition spaced (s e : f32) (n k : Z) : f32 := f32_div (f32_add s (f32_mul (f32_of_Z k) (f32_div (f32_sub e s) (f32_of_Z n)))) (f32_of_Z 1000000).
Lemma of_Z_small n : (0 <= n < 2 ^ 32)%Z -> finite (f32_of_Z n) /\ val (f32_of_Z n) = rnd32 (IZR n) /\ 0 <= rnd32 (IZR n) <= 2 ^ 34.
Proof.
  intros H. assert (B : 0 <= IZR n <= 2 ^ 32). { split; [apply IZR_le; lia|]. replace 2 with (IZR 2) by reflexivity. rewrite pow_IZR. apply IZR_le. change (2 ^ Z.of_nat 32)%Z with (2 ^ 32)%Z. lia. }
  pose proof big_ge as G. destruct (of_Z_ok n) as (F & V). { apply rnd_lim. rewrite Rabs_pos_eq by lra. assert (2 ^ 32 <= 2 ^ 99) by (apply Rle_pow; [lra|lia]). lra. }
  split; [exact F|]. split; [exact V|]. split; [apply rnd32_pos; lra|]. pose proof (rnd_abs (IZR n)) as A. rewrite (Rabs_pos_eq (IZR n)) in A by lra.
  apply rle_abs in A. lra.
Qed.
Lemma rnd_1 : rnd32 1 = 1.
Proof. assert (V : val (f32_of_Z 1) = 1) by (vm_compute; lra). rewrite <- V at 1. rewrite rnd32_val by apply valid_of_Z. exact V. Qed.

(** The parts of the formula. *)
Lemma spaced_parts s e n k : valid s -> valid e -> finite s -> finite e -> Rabs (val s) <= 2 ^ 31 -> Rabs (val e) <= 2 ^ 31 -> (1 <= n < 2 ^ 32)%Z -> (0 <= k <= n)%Z ->
  let delta := rnd32 (rnd32 (val e - val s) / rnd32 (IZR n)) in
  valid (spaced s e n k) /\ finite (spaced s e n k) /\ val (spaced s e n k) = rnd32 (rnd32 (val s + rnd32 (rnd32 (IZR k) * delta)) / 1000000) /\ Rabs (rnd32 (val s + rnd32 (rnd32 (IZR k) * delta))) <= 2 ^ 80.
Proof.
  intros Vs Ve Fs Fe Bs Be Hn Hk delta. pose proof big_ge as G.
  assert (P : forall i j, (i <= j)%nat -> 2 ^ i <= 2 ^ j) by (intros; apply Rle_pow; [lra|assumption]).
  destruct (of_Z_small n ltac:(lia)) as (Fn & En & Bn). destruct (of_Z_small k ltac:(lia)) as (Fk & Ek & Bk).
  assert (N1 : 1 <= rnd32 (IZR n)). { rewrite <- rnd_1 at 1. apply rnd32_le. apply IZR_le. lia. }
  assert (Bd : Rabs (val e - val s) <= 2 ^ 32). { unfold Rminus. replace (2 ^ 32) with (2 ^ 31 + 2 ^ 31) by (simpl; ring). apply tri; [exact Be|rewrite Rabs_Ropp; exact Bs]. }
  destruct (near_sub e s (val e - val s)) as ((V1 & F1 & _) & E1); try assumption; [reflexivity|pose proof (P 32 99 ltac:(lia))%nat; lra|].
  pose proof (rnd_abs (val e - val s)) as B1. assert (B1' : Rabs (rnd32 (val e - val s)) <= 2 ^ 34) by (simpl in *; lra).
  assert (B2 : Rabs (rnd32 (val e - val s) / rnd32 (IZR n)) <= 2 ^ 34).
  { unfold Rdiv. rewrite Rabs_mult, (Rabs_inv (rnd32 (IZR n))), (Rabs_pos_eq (rnd32 (IZR n))) by lra. assert (0 < / rnd32 (IZR n) <= 1). { split; [apply Rinv_0_lt_compat; lra|]. rewrite <- Rinv_1. apply Rinv_le_contravar; lra. }
    pose proof (Rabs_pos (rnd32 (val e - val s))). nra. }
  destruct (div_ok (f32_sub e s) (f32_of_Z n)) as (F2 & E2); try assumption; [apply valid_of_Z|rewrite En; lra|rewrite E1, En; apply rnd_lim; pose proof (P 34 99 ltac:(lia))%nat; lra|].
  rewrite E1, En in E2. fold delta in E2. assert (V2 : valid (f32_div (f32_sub e s) (f32_of_Z n))) by (apply valid_div; [exact V1|apply valid_of_Z]).
  pose proof (rnd_abs (rnd32 (val e - val s) / rnd32 (IZR n))) as B3. fold delta in B3. assert (B3' : Rabs delta <= 2 ^ 36) by (simpl in *; lra).
  assert (B4 : Rabs (rnd32 (IZR k) * delta) <= 2 ^ 70). { rewrite Rabs_mult, (Rabs_pos_eq (rnd32 (IZR k))) by lra. replace (2 ^ 70) with (2 ^ 34 * 2 ^ 36) by (rewrite <- pow_add; reflexivity). apply Rmult_le_compat; try lra. apply Rabs_pos. }
  destruct (mul_ok (f32_of_Z k) (f32_div (f32_sub e s) (f32_of_Z n))) as (F3 & E3); try assumption; [apply valid_of_Z|rewrite Ek, E2; apply rnd_lim; pose proof (P 70 99 ltac:(lia))%nat; lra|].
  rewrite Ek, E2 in E3. assert (V3 : valid (f32_mul (f32_of_Z k) (f32_div (f32_sub e s) (f32_of_Z n)))) by (apply valid_mul; [apply valid_of_Z|exact V2]).
  pose proof (rnd_abs (rnd32 (IZR k) * delta)) as B5. assert (B5' : Rabs (rnd32 (rnd32 (IZR k) * delta)) <= 2 ^ 72) by (simpl in *; lra).
  assert (B6 : Rabs (val s + rnd32 (rnd32 (IZR k) * delta)) <= 2 ^ 73). { eapply Rle_trans; [apply tri; [exact Bs|exact B5']|]. simpl. lra. }
  destruct (add_ok s (f32_mul (f32_of_Z k) (f32_div (f32_sub e s) (f32_of_Z n)))) as (F4 & E4); try assumption; [rewrite E3; apply rnd_lim; pose proof (P 73 99 ltac:(lia))%nat; lra|].
  rewrite E3 in E4. assert (V4 : valid (f32_add s (f32_mul (f32_of_Z k) (f32_div (f32_sub e s) (f32_of_Z n))))) by (apply valid_add; assumption).
  pose proof (rnd_abs (val s + rnd32 (rnd32 (IZR k) * delta))) as B7. assert (B7' : Rabs (rnd32 (val s + rnd32 (rnd32 (IZR k) * delta))) <= 2 ^ 80) by (simpl in *; lra).
  assert (M6 : val (f32_of_Z 1000000) = 1000000) by (vm_compute; lra).
  destruct (div_ok (f32_add s (f32_mul (f32_of_Z k) (f32_div (f32_sub e s) (f32_of_Z n)))) (f32_of_Z 1000000)) as (F5 & E5); try assumption; [apply valid_of_Z|rewrite M6; lra| |].
  { rewrite E4, M6. apply rnd_lim. unfold Rdiv. rewrite Rabs_mult, (Rabs_pos_eq (/ 1000000)) by lra. pose proof (P 80 99 ltac:(lia))%nat. pose proof (Rabs_pos (rnd32 (val s + rnd32 (rnd32 (IZR k) * delta)))). lra. }
  rewrite E4, M6 in E5. split; [apply valid_div; [exact V4|apply valid_of_Z]|]. split; [exact F5|]. split; [exact E5|exact B7'].
Qed.
(** Rounding keeps the order. *)
Lemma spaced_order s e n k k' (up : bool) : valid s -> valid e -> finite s -> finite e -> Rabs (val s) <= 2 ^ 31 -> Rabs (val e) <= 2 ^ 31 -> (1 <= n < 2 ^ 32)%Z -> (0 <= k <= k')%Z -> (k' <= n)%Z ->
  (if up then val s <= val e else val e <= val s) -> ordered up (spaced s e n k) (spaced s e n k').
Proof.
  intros Vs Ve Fs Fe Bs Be Hn Hk Hk' U. destruct (spaced_parts s e n k) as (_ & F & E & _); try assumption; [lia|]. destruct (spaced_parts s e n k') as (_ & F' & E' & _); try assumption; [lia|].
  split; [exact F|]. split; [exact F'|]. rewrite E, E'. set (delta := rnd32 (rnd32 (val e - val s) / rnd32 (IZR n))).
  assert (K : rnd32 (IZR k) <= rnd32 (IZR k')) by (apply rnd32_le, IZR_le; lia). assert (K0 : 0 <= rnd32 (IZR k)) by (apply rnd32_pos, IZR_le; lia).
  assert (N1 : 1 <= rnd32 (IZR n)). { rewrite <- rnd_1 at 1. apply rnd32_le. apply IZR_le. lia. } assert (I : 0 < / rnd32 (IZR n)) by (apply Rinv_0_lt_compat; lra).
  destruct up.
  - assert (D : 0 <= delta). { apply rnd32_pos. apply Rmult_le_pos; [apply rnd32_pos; lra|lra]. }
    apply rnd32_le. apply Rmult_le_compat_r; [lra|]. apply rnd32_le. apply Rplus_le_compat_l. apply rnd32_le. nra.
  - assert (D : delta <= 0). { apply rnd32_neg. unfold Rdiv. assert (rnd32 (val e - val s) <= 0) by (apply rnd32_neg; lra). nra. }
    apply rnd32_le. apply Rmult_le_compat_r; [lra|]. apply rnd32_le. apply Rplus_le_compat_l. apply rnd32_le. nra.
Qed.
Lemma spaced_first s e n : valid s -> valid e -> finite s -> finite e -> Rabs (val s) <= 2 ^ 31 -> Rabs (val e) <= 2 ^ 31 -> (1 <= n < 2 ^ 32)%Z -> val (spaced s e n 0) = rnd32 (val s / 1000000).
Proof.
  intros. destruct (spaced_parts s e n 0) as (_ & _ & E & _); try assumption; [lia|]. rewrite E. rewrite rnd32_0, Rmult_0_l, rnd32_0, Rplus_0_r, rnd32_val by assumption. reflexivity.
Qed.

(** The bounds of longitudes and latitudes. *)
Lemma pow31 : 2 ^ 31 = 2147483648. Proof. simpl. ring. Qed.
Lemma bound_Z a : (Z.abs a <= 360000000)%Z -> valid (f32_of_Z a) /\ finite (f32_of_Z a) /\ Rabs (val (f32_of_Z a)) <= 2 ^ 31 /\ val (f32_of_Z a) = rnd32 (IZR a).
Proof.
  intros H. destruct (half_near a H) as (V & F & E). split; [exact V|]. split; [exact F|]. apply abs_Z in H. split.
  - rewrite pow31. replace (val (f32_of_Z a)) with ((val (f32_of_Z a) - IZR a) + IZR a) by ring. eapply Rle_trans; [apply tri; [exact E|exact H]|]. rewrite u_val. lra.
  - apply of_Z_ok. apply rnd_lim. assert (1000000000000 <= big) by (apply IZR_le; vm_compute; discriminate). lra.
Qed.
Lemma bound_360 a : (Z.abs a <= 360000000)%Z -> let x := f32_add (f32_of_Z a) (f32_of_Z 360000000) in valid x /\ finite x /\ Rabs (val x) <= 2 ^ 31.
Proof.
  intros H x. destruct (near_360 a H) as (V & F & E). fold x in V, F, E. split; [exact V|]. split; [exact F|]. rewrite pow31. apply abs_Z in H. rewrite plus_IZR in E.
  replace (val x) with ((val x - (IZR a + 360000000)) + (IZR a + 360000000)) by ring. eapply Rle_trans; [apply tri; [exact E|apply tri; [exact H|rewrite Rabs_pos_eq by lra; apply Rle_refl]]|]. rewrite u_val. lra.
Qed.
Lemma of_Z_le a b : (Z.abs a <= 360000000)%Z -> (Z.abs b <= 360000000)%Z -> (a <= b)%Z -> val (f32_of_Z a) <= val (f32_of_Z b).
Proof. intros Ha Hb H. rewrite (proj2 (proj2 (proj2 (bound_Z a Ha)))), (proj2 (proj2 (proj2 (bound_Z b Hb)))). apply rnd32_le, IZR_le, H. Qed.
(** Where a monotone predicate begins to hold. *)
Lemma threshold (f : Z -> bool) n : (0 <= n)%Z -> (forall i i', 0 <= i <= i' -> i' < n -> f i = true -> f i' = true)%Z -> exists t, (0 <= t <= n)%Z /\ forall i, (0 <= i < n)%Z -> f i = (t <=? i)%Z.
Proof.
  intros Hn. revert n Hn. apply (natlike_ind (fun n => (forall i i', 0 <= i <= i' -> i' < n -> f i = true -> f i' = true)%Z -> exists t, (0 <= t <= n)%Z /\ forall i, (0 <= i < n)%Z -> f i = (t <=? i)%Z)).
  - intros _. exists 0%Z. split; [lia|]. intros. lia.
  - intros n Hn IH M. destruct IH as (t & Ht & E). { intros i i' A B C. apply (M i i'); [lia|lia|exact C]. }
    destruct (Z.eq_dec t n) as [->|Ne].
    + destruct (f n) eqn:Fn.
      * exists n. split; [lia|]. intros i Hi. destruct (Z.eq_dec i n) as [->|Nn]; [rewrite Fn; symmetry; apply Z.leb_le; lia|apply E; lia].
      * exists (Z.succ n). split; [lia|]. intros i Hi. destruct (Z.eq_dec i n) as [->|Nn]; [rewrite Fn; symmetry; apply Z.leb_gt; lia|]. rewrite E by lia. replace (n <=? i)%Z with false by lia. symmetry. apply Z.leb_gt. lia.
    + exists t. split; [lia|]. intros i Hi. destruct (Z.eq_dec i n) as [->|Nn]; [|apply E; lia].
      assert (f (n - 1)%Z = true) by (rewrite E by lia; apply Z.leb_le; lia). rewrite (M (n - 1)%Z n) by (assumption || lia). symmetry. apply Z.leb_le. lia.
Qed.
Lemma sub_360 x : valid x -> finite x -> Rabs (val x) <= 2 ^ 81 -> finite (f32_sub x (f32_of_Z 360)) /\ val (f32_sub x (f32_of_Z 360)) = rnd32 (val x - 360).
Proof.
  intros V F B. destruct (near_sub x (f32_of_Z 360) (val x - 360)) as ((V2 & F2 & _) & E3); try assumption; try reflexivity; [rewrite (proj1 val_360); reflexivity| |split; assumption].
  unfold Rminus. eapply Rle_trans; [apply tri; [exact B|rewrite Rabs_Ropp, Rabs_pos_eq by lra; apply Rle_refl]|]. pose proof big_ge. simpl in *. lra.
Qed.
Lemma spaced_big s e n k : valid s -> valid e -> finite s -> finite e -> Rabs (val s) <= 2 ^ 31 -> Rabs (val e) <= 2 ^ 31 -> (1 <= n < 2 ^ 32)%Z -> (0 <= k <= n)%Z -> valid (spaced s e n k) /\ finite (spaced s e n k) /\ Rabs (val (spaced s e n k)) <= 2 ^ 81.
Proof.
  intros. destruct (spaced_parts s e n k) as (V & F & E & B); try assumption. split; [exact V|]. split; [exact F|]. rewrite E. eapply Rle_trans; [apply rnd_abs|]. unfold Rdiv. rewrite Rabs_mult, (Rabs_pos_eq (/ 1000000)) by lra.
  match goal with |- context [Rabs ?a * _] => pose proof (Rabs_pos a) end. assert (1 <= 2 ^ 80) by (apply pow_R1_Rle; lra). replace (2 ^ 81) with (2 * 2 ^ 80) by (simpl; ring). lra.
Qed.
(** Longitudes that begin anew: in order on both sides of one column. *)
Lemma wrapped_order s e n (up : bool) : valid s -> valid e -> finite s -> finite e -> Rabs (val s) <= 2 ^ 31 -> Rabs (val e) <= 2 ^ 31 -> (1 <= n < 2 ^ 32)%Z -> (if up then val s <= val e else val e <= val s) ->
  exists t, (0 <= t <= n + 1)%Z /\ forall i i', (0 <= i <= i' -> i' <= n -> i' < t \/ t <= i -> ordered up (unwrap (spaced s e n i)) (unwrap (spaced s e n i')))%Z.
Proof.
  intros Vs Ve Fs Fe Bs Be Hn U. pose proof (proj1 val_360) as V360.
  assert (L : forall i, (0 <= i <= n)%Z -> f32_ltb (spaced s e n i) (f32_of_Z 360) = Rlt_bool (val (spaced s e n i)) 360).
  { intros i Hi. destruct (spaced_big s e n i) as (V & F & _); try assumption. rewrite ltb_val by (assumption || reflexivity). rewrite V360. reflexivity. }
  assert (O : forall i i', (0 <= i <= i' -> i' <= n -> ordered up (spaced s e n i) (spaced s e n i'))%Z) by (intros; apply spaced_order; assumption).
  destruct (threshold (fun i => xorb up (f32_ltb (spaced s e n i) (f32_of_Z 360))) (n + 1)) as (t & Ht & T); [lia| |].
  { intros i i' A B. rewrite !L by lia. destruct (O i i' A ltac:(lia)) as (_ & _ & Q). destruct (Rlt_bool_spec (val (spaced s e n i)) 360), (Rlt_bool_spec (val (spaced s e n i')) 360); destruct up; cbn; intros; try reflexivity; try discriminate; exfalso; lra. }
  exists t. split; [exact Ht|]. intros i i' A B Side. destruct (O i i' A B) as (F & F' & Q).
  assert (Same : f32_ltb (spaced s e n i) (f32_of_Z 360) = f32_ltb (spaced s e n i') (f32_of_Z 360)).
  { pose proof (T i ltac:(lia)) as T1. pose proof (T i' ltac:(lia)) as T2. assert (X : (t <=? i)%Z = (t <=? i')%Z) by lia. rewrite <- T1, <- T2 in X. destruct up, (f32_ltb (spaced s e n i) (f32_of_Z 360)), (f32_ltb (spaced s e n i') (f32_of_Z 360)); cbn in X; congruence. }
  unfold unwrap. rewrite <- Same. destruct (f32_ltb (spaced s e n i) (f32_of_Z 360)); [split; [exact F|]; split; [exact F'|exact Q]|].
  destruct (spaced_big s e n i) as (Vi & _ & Bi); try assumption; [lia|]. destruct (spaced_big s e n i') as (Vi' & _ & Bi'); try assumption; [lia|].
  destruct (sub_360 _ Vi F Bi) as (G & E). destruct (sub_360 _ Vi' F' Bi') as (G' & E'). split; [exact G|]. split; [exact G'|]. rewrite E, E'. destruct up; apply rnd32_le; lra.
Qed.

Lemma mapped_nth (l : list f32) i : (i < length l)%nat -> nth i (map unwrap l) f32_nan = unwrap (nth i l f32_nan).
Proof. intros H. rewrite (nth_indep _ f32_nan (unwrap f32_nan)) by (rewrite map_length; exact H). apply map_nth. Qed.
Lemma spaced_at s e n i : (0 <= i <= n)%Z -> nth (Z.to_nat i) (evenly_spaced_degrees s e n) f32_nan = spaced s e n i.
Proof. intros. apply degrees_nth. assumption. Qed.
Local Close Scope R_scope.
Local Open Scope Z_scope.
Lemma longitudes_order m a b n mode l : Z.abs a <= 360000000 -> Z.abs b <= 360000000 -> 1 <= n < 2 ^ 32 -> a <> b -> (crosses a b mode = true -> Z.abs (a - b) <= 359999800) ->
  evenly_spaced_longitudes m a b n mode = Ret l ->
  zlen l = n + 1 /\ exists t, 0 <= t <= n + 1 /\ (crosses a b mode = false -> t = 0) /\
  forall i i', 0 <= i <= i' -> i' <= n -> i' < t \/ t <= i -> ordered (negb (flag 1 mode)) (nth (Z.to_nat i) l f32_nan) (nth (Z.to_nat i') l f32_nan).
Proof.
  intros Ha Hb Hn Ne Hc H. unfold evenly_spaced_longitudes in H. rewrite arith_ok in H by mlia. cbn [bind] in H. rewrite flag1 in H.
  assert (EC : negb (xorb (0 <? b - a) (negb (flag 1 mode))) = negb (crosses a b mode)).
  { unfold crosses. replace (0 <? b - a) with (a <? b) by lia. destruct (a <? b), (flag 1 mode); reflexivity. }
  rewrite EC in H. destruct (bound_Z a Ha) as (Va & Fa & Ba & Ea). destruct (bound_Z b Hb) as (Vb & Fb & Bb & Eb). destruct (bound_360 a Ha) as (Va' & Fa' & Ba'). destruct (bound_360 b Hb) as (Vb' & Fb' & Bb').
  destruct (crosses a b mode) eqn:C; cbn [negb] in H.
  - specialize (Hc eq_refl). apply Z.abs_le in Hc.
    assert (Q1 : a <= b + 359999800) by lia. assert (Q2 : b <= a + 359999800) by lia. apply IZR_le in Q1, Q2. rewrite plus_IZR in Q1, Q2. change (fun x => if f32_ltb x (f32_of_Z 360) then x else f32_sub x (f32_of_Z 360)) with unwrap in H.
    assert (X : exists (s e : f32) (up : bool), valid s /\ valid e /\ finite s /\ finite e /\ (Rabs (val s) <= 2 ^ 31)%R /\ (Rabs (val e) <= 2 ^ 31)%R /\ (if up then val s <= val e else val e <= val s)%R /\ negb (flag 1 mode) = up /\ l = map unwrap (evenly_spaced_degrees s e n)).
    { destruct (near_Z a 360000000 Ha ltac:(lia)) as (_ & _ & Na). destruct (near_Z b 360000000 Hb ltac:(lia)) as (_ & _ & Nb). destruct (near_360 a Ha) as (_ & _ & Na'). destruct (near_360 b Hb) as (_ & _ & Nb').
      rewrite plus_IZR in Na', Nb'. apply rle_abs in Na, Nb, Na', Nb'. rewrite u_val in *.
      unfold crosses in C. destruct (b <? a) eqn:L.
      - exists (f32_of_Z a), (f32_add (f32_of_Z b) (f32_of_Z 360000000)), true. repeat (split; [assumption|]). split.
        { lra. }
        split; [destruct (flag 1 mode); [exfalso; destruct (a <? b) eqn:Lab; [lia|discriminate]|reflexivity]|congruence].
      - exists (f32_add (f32_of_Z a) (f32_of_Z 360000000)), (f32_of_Z b), false. repeat (split; [assumption|]). split.
        { lra. }
        split; [destruct (flag 1 mode); [reflexivity|exfalso; destruct (a <? b) eqn:Lab; [discriminate|lia]]|congruence]. }
    destruct X as (s & e & up & Vs & Ve & Fs & Fe & Bs & Be & U & -> & ->). destruct (wrapped_order s e n up Vs Ve Fs Fe Bs Be Hn U) as (t & Ht & T).
    pose proof (degrees_length s e n ltac:(lia)) as Ln. split; [unfold zlen in *; rewrite map_length; exact Ln|]. exists t. split; [exact Ht|]. split; [discriminate|]. intros i i' A B Side.
    rewrite !mapped_nth by (unfold zlen in Ln; lia). rewrite !spaced_at by lia. apply T; assumption.
  - assert (l = evenly_spaced_degrees (f32_of_Z a) (f32_of_Z b) n) by congruence. subst l. split; [apply degrees_length; lia|]. exists 0. split; [lia|]. split; [reflexivity|]. intros i i' A B _.
    rewrite !spaced_at by lia. apply spaced_order; try assumption. unfold crosses in C. destruct (flag 1 mode); cbn [negb]; apply of_Z_le; try assumption; destruct (a <? b) eqn:Lab; try discriminate; lia.
Qed.
Theorem grid_order : forall m d r l, 2 <= ll_ni d < 2 ^ 32 -> 2 <= ll_nj d < 2 ^ 32 ->
  Z.abs (ll_lat1 d) <= 90000000 -> Z.abs (ll_lat2 d) <= 90000000 -> Z.abs (ll_lon1 d) <= 360000000 -> Z.abs (ll_lon2 d) <= 360000000 ->
  ll_lon1 d <> ll_lon2 d -> (crosses (ll_lon1 d) (ll_lon2 d) (ll_mode d) = true -> Z.abs (ll_lon1 d - ll_lon2 d) <= 359999800) ->
  latlon_latlons m d = Ret (Ok r) -> Run (regular_iter m r) l End ->
  exists t, 0 <= t <= ll_ni d /\ (crosses (ll_lon1 d) (ll_lon2 d) (ll_mode d) = false -> t = 0) /\
  forall k k' lat lon lat' lon', nth_error l k = Some (lat, lon) -> nth_error l k' = Some (lat', lon') ->
  let '(i, j) := scan_ij (ll_ni d) (ll_nj d) (ll_mode d) (Z.of_nat k) in
  let '(i', j') := scan_ij (ll_ni d) (ll_nj d) (ll_mode d) (Z.of_nat k') in
  (j <= j' -> ordered (flag 2 (ll_mode d)) lat lat') /\
  (j < j' -> 300 * (ll_nj d - 1) <= Z.abs (ll_lat2 d - ll_lat1 d) -> apart (flag 2 (ll_mode d)) lat lat') /\
  (j = 0 -> val lat = rnd32 (rnd32 (IZR (ll_lat1 d)) / 1000000)) /\
  (i <= i' -> i' < t \/ t <= i -> ordered (negb (flag 1 (ll_mode d))) lon lon').
Proof.
  intros m d r l Hi Hj A1 A2 O1 O2 Ne Hc H R. unfold latlon_latlons in H. rewrite consistent_j in H by lia. cbn [bind] in H.
  destruct (eqb (ll_lat1 d <? ll_lat2 d) (flag 2 (ll_mode d))) eqn:C2; cbn [negb] in H; [|discriminate]. destruct (ij_of (ll_ni d) (ll_nj d) (ll_mode d)) as [ij|] eqn:Eij; [|discriminate].
  assert (Eg : ij = gpi_new (ll_ni d) (ll_nj d) (ll_mode d)). { unfold ij_of in Eij. destruct (has_unsupported_flags (ll_mode d)); [discriminate|]. congruence. } subst ij.
  rewrite arith_ok in H by mlia. cbn [bind] in H. rewrite arith_ok in H by mlia. cbn [bind] in H.
  destruct (evenly_spaced_longitudes m (ll_lon1 d) (ll_lon2 d) (ll_ni d - 1) (ll_mode d)) as [lon| |] eqn:El; cbn [bind] in H; try discriminate.
  destruct (longitudes_order m (ll_lon1 d) (ll_lon2 d) (ll_ni d - 1) (ll_mode d) lon O1 O2 ltac:(lia) Ne Hc El) as (Ll & t & Ht & T0 & T). set (lat := evenly_spaced_degrees (f32_of_Z (ll_lat1 d)) (f32_of_Z (ll_lat2 d)) (ll_nj d - 1)) in *.
  assert (Hlat : zlen lat = ll_nj d) by (unfold lat; rewrite degrees_length; lia). assert (Er : r = MkRegular lat lon (gpi_new (ll_ni d) (ll_nj d) (ll_mode d))) by congruence. subst r.
  assert (R' := regular_run m (ll_ni d) (ll_nj d) (ll_mode d) lat lon ltac:(lia) ltac:(lia) ltac:(unfold row_len; destruct (flag 3 (ll_mode d)); lia) ltac:(lia) ltac:(lia)).
  destruct (Run_det _ _ _ _ R _ _ R') as (El' & _). exists t. split; [lia|]. split; [exact T0|]. intros k k' la lo la' lo' N N'.
  assert (P : forall q x y, nth_error l q = Some (x, y) -> 0 <= Z.of_nat q < ll_ni d * ll_nj d /\ (x, y) = pair_at lat lon (scan_ij (ll_ni d) (ll_nj d) (ll_mode d) (Z.of_nat q))).
  { intros q x y Nq. assert (Lq : (q < length l)%nat) by (apply nth_error_Some; congruence). rewrite El', map_length, seq_length in Lq. rewrite El', nth_error_map, (nth_error_nth' _ O) in Nq by (rewrite seq_length; exact Lq).
    rewrite seq_nth in Nq by exact Lq. cbn [option_map Nat.add] in Nq. split; [lia|congruence]. }
  destruct (P k la lo N) as (Rk & Pk). destruct (P k' la' lo' N') as (Rk' & Pk'). clear P N N'. pose proof (scan_ij_range (ll_ni d) (ll_nj d) (ll_mode d) (Z.of_nat k) ltac:(lia) ltac:(lia) Rk) as Sk. pose proof (scan_ij_range (ll_ni d) (ll_nj d) (ll_mode d) (Z.of_nat k') ltac:(lia) ltac:(lia) Rk') as Sk'.
  destruct (scan_ij (ll_ni d) (ll_nj d) (ll_mode d) (Z.of_nat k)) as (i, j). destruct (scan_ij (ll_ni d) (ll_nj d) (ll_mode d) (Z.of_nat k')) as (i', j'). cbn [fst snd] in *. unfold pair_at in Pk, Pk'. cbn [fst snd] in Pk, Pk'.
  assert (la = spaced (f32_of_Z (ll_lat1 d)) (f32_of_Z (ll_lat2 d)) (ll_nj d - 1) j) by (rewrite <- spaced_at by lia; fold lat; congruence). assert (la' = spaced (f32_of_Z (ll_lat1 d)) (f32_of_Z (ll_lat2 d)) (ll_nj d - 1) j') by (rewrite <- spaced_at by lia; fold lat; congruence).
  assert (lo = nth (Z.to_nat i) lon f32_nan) by congruence. assert (lo' = nth (Z.to_nat i') lon f32_nan) by congruence. subst la la' lo lo'. clear Pk Pk'.
  destruct (bound_Z (ll_lat1 d) ltac:(lia)) as (Va & Fa & Ba & Ea). destruct (bound_Z (ll_lat2 d) ltac:(lia)) as (Vb & Fb & Bb & Eb).
  assert (U : (if flag 2 (ll_mode d) then val (f32_of_Z (ll_lat1 d)) <= val (f32_of_Z (ll_lat2 d)) else val (f32_of_Z (ll_lat2 d)) <= val (f32_of_Z (ll_lat1 d)))%R).
  { apply eqb_prop in C2. rewrite <- C2. destruct (ll_lat1 d <? ll_lat2 d) eqn:L; apply of_Z_le; lia. }
  split; [intros; apply spaced_order; try assumption; lia|]. split.
  - intros Hlt Sp. destruct (plain_even (ll_lat1 d) (ll_lat2 d) (ll_nj d - 1) j 90000000) as (_ & F & E); try lia. destruct (plain_even (ll_lat1 d) (ll_lat2 d) (ll_nj d - 1) j' 90000000) as (_ & F' & E'); try lia.
    split; [exact F|]. split; [exact F'|]. fold (spaced (f32_of_Z (ll_lat1 d)) (f32_of_Z (ll_lat2 d)) (ll_nj d - 1) j) in E. fold (spaced (f32_of_Z (ll_lat1 d)) (f32_of_Z (ll_lat2 d)) (ll_nj d - 1) j') in E'.
    set (x := spaced (f32_of_Z (ll_lat1 d)) (f32_of_Z (ll_lat2 d)) (ll_nj d - 1) j) in *. set (y := spaced (f32_of_Z (ll_lat1 d)) (f32_of_Z (ll_lat2 d)) (ll_nj d - 1) j') in *.
    rewrite u_val in E, E'. apply rle_abs in E, E'. clear U Ea Eb Ba Bb R R' El El' T.
    assert (N1 : (1 <= IZR (ll_nj d - 1))%R) by (apply IZR_le; lia). assert (J : (1 <= IZR j' - IZR j)%R) by (rewrite <- minus_IZR; apply IZR_le; lia).
    assert (Ev : (even (ll_lat1 d) (ll_lat2 d) (ll_nj d - 1) j' - even (ll_lat1 d) (ll_lat2 d) (ll_nj d - 1) j = (IZR j' - IZR j) * ((IZR (ll_lat2 d) - IZR (ll_lat1 d)) / IZR (ll_nj d - 1)) / 1000000)%R) by (unfold even; field; lra).
    apply eqb_prop in C2. destruct (flag 2 (ll_mode d)).
    + assert (Q : (300 <= (IZR (ll_lat2 d) - IZR (ll_lat1 d)) / IZR (ll_nj d - 1))%R).
      { apply (Rmult_le_reg_r (IZR (ll_nj d - 1))); [lra|]. unfold Rdiv. rewrite Rmult_assoc, Rinv_l, Rmult_1_r by lra. rewrite <- mult_IZR, <- minus_IZR. apply IZR_le. lia. }
      assert (300 <= (IZR j' - IZR j) * ((IZR (ll_lat2 d) - IZR (ll_lat1 d)) / IZR (ll_nj d - 1)))%R by nra. lra.
    + assert (Q : (300 <= - ((IZR (ll_lat2 d) - IZR (ll_lat1 d)) / IZR (ll_nj d - 1)))%R).
      { apply (Rmult_le_reg_r (IZR (ll_nj d - 1))); [lra|]. unfold Rdiv. rewrite Ropp_mult_distr_l, Rmult_assoc, Rinv_l, Rmult_1_r by lra. rewrite <- mult_IZR, <- minus_IZR, <- opp_IZR. apply IZR_le. lia. }
      assert (300 <= - ((IZR j' - IZR j) * ((IZR (ll_lat2 d) - IZR (ll_lat1 d)) / IZR (ll_nj d - 1))))%R by nra. lra.
  - split; [|intros; apply T; assumption || lia]. intros ->. rewrite <- Ea. apply spaced_first; try assumption. lia.
Qed.
