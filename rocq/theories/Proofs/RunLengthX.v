(** C12, C14: exact statements. *)
From Coq Require Import Lia ZifyBool ZifyNat.
From Verif Require Import Model.Base Model.Helpers Model.Errors Model.F32 Model.Stream Model.RunLength Spec.Bits Spec.RunLengthS.
From Verif Require Import Proofs.BaseLemmas Proofs.BitsP Proofs.Bits2 Proofs.StreamP Proofs.RunLengthP.
Ltac Zify.zify_post_hook ::= Z.div_mod_to_equations.

Lemma roundtrip : forall m (n : nat) maxv runs, (1 <= n <= 15)%nat -> 0 <= maxv -> maxv + 1 < 2 ^ Z.of_nat n ->
  Forall (run_ok (Z.of_nat n) maxv) runs ->
  let codes := flat_map (run_codes maxv) runs in
  let levels := flat_map (expand (base (Z.of_nat n) maxv)) runs in
  let padding := (- (Z.of_nat n * zlen codes)) mod 8 in
  rleunpack m (pack n codes) (Z.of_nat n) maxv (Some (zlen levels)) =
    Ret (if padding <? Z.of_nat n then Ok levels else Err RleLengthMismatch).
Proof.
  intros m n maxv runs Hn H0 H1 HF codes levels padding.
  destruct (Z.ltb_spec padding (Z.of_nat n)) as [H|H].
  - apply rle_roundtrip; assumption.
  - apply rle_padding_mismatch; assumption.
Qed.

Lemma wide_panic : forall input nbit maxv len, 16 <= nbit -> rleunpack Checked input nbit maxv len = Panic.
Proof.
  intros input nbit maxv len Hn. unfold rleunpack, rleunpack_fuel.
  rewrite arith_checked. destruct (in_range U16 (maxv + 1)); [|reflexivity]. cbn [bind].
  unfold shl, shift_amount. change (bits_of U16) with 16.
  replace ((0 <=? nbit) && (nbit <? 16)) with false by lia. reflexivity.
Qed.

Lemma zero_next : forall m input, input <> [] -> nbit_next m (nbit_new input 0) = Ret (Some 0, nbit_new input 0).
Proof.
  intros m input Hi. pose proof (nbit_zero_endless m input 1 Hi) as H. cbn [repeat] in H.
  inversion H as [|s s1 s' a l E HS]; subst. inversion HS; subst. exact E.
Qed.
Lemma zero_loop : forall m input rlbase lngu fuel s, input <> [] -> 0 < rlbase ->
  rle_loop fuel m rlbase lngu (nbit_new input 0) s = Diverge.
Proof.
  intros m input rlbase lngu fuel. induction fuel as [|fuel IH]; intros s Hi Hr; [reflexivity|].
  cbn [rle_loop]. rewrite zero_next by exact Hi. cbn [bind].
  unfold rle_body. change (wrap U16 0) with 0. replace (0 <? rlbase) with true by lia. cbn [bind]. apply IH; assumption.
Qed.

Lemma wrap_U16 : forall z, wrap U16 z = z mod 2 ^ 16.
Proof. intros. apply wrap_unsigned. reflexivity. Qed.

(** What bit width 0 leads to. *)
Lemma zero_width : forall m input maxv len fuel, 0 <= maxv < 2 ^ 16 -> input <> [] ->
  rleunpack_fuel (S fuel) m input 0 maxv len =
  if maxv =? 0 then Diverge
  else match m with
       | Checked => Panic
       | Wrapping => if maxv <? 65535 then Diverge else Ret (Err InvalidFirstValue)
       end.
Proof.
  intros m input maxv len fuel Hm Hi. change (2 ^ 16) with 65536 in Hm.
  destruct (Z.eqb_spec maxv 0) as [->|N]; [apply rle_zero_width_loops; exact Hi|].
  unfold rleunpack_fuel.
  assert (S1 : shl m U16 1 0 = Ret 1).
  { rewrite shl_ok by (change (bits_of U16) with 16; lia). reflexivity. }
  destruct m.
  - destruct (Z.eq_dec maxv 65535) as [->|N'].
    + rewrite arith_checked. reflexivity.
    + rewrite arith_ok by mlia. cbn [bind]. rewrite S1. cbn [bind].
      rewrite arith_checked. unfold in_range. change (min_of U16) with 0. replace (0 <=? 1 - (maxv + 1)) with false by lia. reflexivity.
  - rewrite arith_wrapping. cbn [bind]. rewrite S1. cbn [bind]. rewrite arith_wrapping. cbn [bind].
    destruct (Z.ltb_spec maxv 65535) as [L|L].
    + unfold in_range at 1 2. change (min_of U16) with 0. change (max_of U16) with 65535.
      replace ((0 <=? maxv + 1) && (maxv + 1 <=? 65535)) with true by lia. cbv iota.
      rewrite zero_loop by (try exact Hi; lia). reflexivity.
    + assert (E : maxv = 65535) by lia. subst maxv. vm_compute (in_range U16 (65535 + 1)). cbv iota.
      change (wrap U16 (65535 + 1)) with 0. cbn [rle_loop]. rewrite zero_next by exact Hi. cbn [bind].
      unfold rle_body. change (wrap U16 0) with 0. change (0 <? 0) with false. cbn [rle_cached bind]. reflexivity.
Qed.

Lemma empty_terminates : forall m nbit maxv len fuel, rleunpack_fuel (S fuel) m [] nbit maxv len <> Diverge.
Proof.
  intros m nbit maxv len fuel. unfold rleunpack_fuel.
  assert (A : forall t z, arith m t z <> Diverge).
  { intros t z. unfold arith. destruct (in_range t z); [discriminate|]. destruct m; discriminate. }
  pose proof (A U16 (maxv + 1)) as H1. destruct (arith m U16 (maxv + 1)) as [rlbase| |]; cbn [bind]; try congruence.
  assert (H2 : shl m U16 1 nbit <> Diverge).
  { unfold shl, shift_amount. destruct (_ && _); cbn [bind]; [discriminate|]. destruct m; discriminate. }
  destruct (shl m U16 1 nbit) as [one| |]; cbn [bind]; try congruence.
  pose proof (A U16 (one - rlbase)) as H3. destruct (arith m U16 (one - rlbase)) as [lngu| |]; cbn [bind]; try congruence.
  cbn [rle_loop]. unfold nbit_new, nbit_next. change (zlen (@nil byte) <=? 0) with true. cbn [orb bind].
  destruct len as [l|]; cbn [rle_out]; [destruct (l =? zlen (@nil Z)); discriminate|discriminate].
Qed.

(** Exactly when decoding never ends. *)
Lemma diverges : forall m input nbit maxv len, 0 <= nbit -> 0 <= maxv < 2 ^ 16 ->
  (nbit = 0 /\ input <> [] /\ (maxv = 0 \/ m = Wrapping /\ maxv < 65535) ->
     forall fuel, rleunpack_fuel fuel m input nbit maxv len = Diverge) /\
  (~ (nbit = 0 /\ input <> [] /\ (maxv = 0 \/ m = Wrapping /\ maxv < 65535)) ->
     rleunpack m input nbit maxv len <> Diverge).
Proof.
  intros m input nbit maxv len Hn Hm. split.
  - intros (-> & Hi & H) fuel. 
    assert (G : forall f, rleunpack_fuel (S f) m input 0 maxv len = Diverge).
    { intros f. rewrite zero_width by assumption. destruct (Z.eqb_spec maxv 0) as [E|E]; [reflexivity|].
      destruct H as [H|[-> H]]; [contradiction|]. replace (maxv <? 65535) with true by lia. reflexivity. }
    destruct fuel as [|fuel]; [|apply G].
    (* with no fuel at all nothing is computed *)
    specialize (G 0%nat). unfold rleunpack_fuel in *.
    destruct (arith m U16 (maxv + 1)) as [rlbase| |]; cbn [bind] in *; try discriminate; try reflexivity.
    destruct (shl m U16 1 0) as [one| |]; cbn [bind] in *; try discriminate; try reflexivity.
    destruct (arith m U16 (one - rlbase)) as [lngu| |]; cbn [bind] in *; try discriminate; reflexivity.
  - intros H. destruct (Z.eq_dec nbit 0) as [->|N]; [|apply rle_terminates; lia].
    unfold rleunpack, rle_fuel. destruct input as [|b input]; [apply empty_terminates|].
    rewrite zero_width by (try assumption; discriminate).
    destruct (Z.eqb_spec maxv 0) as [E|E].
    + exfalso. apply H. repeat split; [discriminate|left; exact E].
    + destruct m; [discriminate|]. destruct (Z.ltb_spec maxv 65535) as [L|L]; [|discriminate].
      exfalso. apply H. repeat split; [discriminate|right; split; [reflexivity|exact L]].
Qed.
