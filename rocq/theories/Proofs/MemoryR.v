(** Memory for run-length decoding. *)
From Coq Require Import Lia ZifyBool ZifyNat.
From Verif Require Import Model.Base Model.Helpers Model.Errors Model.F32 Model.Stream Model.RunLength Model.Memory.
From Verif Require Import Spec.Bits Spec.RunLengthS Proofs.BaseLemmas Proofs.BitsP Proofs.Bits2 Proofs.StreamP Proofs.ReaderP Proofs.RunLengthP Proofs.RunLengthX.
Ltac Zify.zify_post_hook ::= Z.div_mod_to_equations.

Lemma body_mem left m rb lg v s : zlen (rle_out s) <= left ->
  match rle_body m rb lg v s with
  | Ret (Ok s') => zlen (rle_out s) <= zlen (rle_out s') /\ mrle_body left m rb lg v s = if zlen (rle_out s') <=? left then Ret (Ok s') else Diverge
  | x => mrle_body left m rb lg v s = x \/ mrle_body left m rb lg v s = Diverge
  end.
Proof.
  intros H. unfold rle_body, mrle_body. cbv zeta. destruct (wrap U16 v <? rb).
  - cbn [rle_out]. rewrite zlen_app. change (zlen [wrap U16 v]) with 1. split; [lia|]. reflexivity.
  - destruct (rle_cached s) as [pv|]; [|left; reflexivity]. destruct (arith m U64 _) as [n| |] eqn:En; cbn [bind]; [|left; reflexivity|left; reflexivity].
    assert (Hn : 0 <= n) by (apply arith_U64_inv in En; destruct En as (-> & _); lia).
    destruct (arith m U64 (rle_exp s * lg)) as [e| |]; cbn [bind].
    + cbn [rle_out]. rewrite zlen_app. assert (Zr : zlen (repeat pv (Z.to_nat n)) = n) by (unfold zlen; rewrite repeat_length; lia). rewrite Zr. split; [lia|]. reflexivity.
    + destruct (_ <=? left); auto.
    + destruct (_ <=? left); auto.
Qed.
Lemma loop_mem left m rb lg : forall fuel it s, zlen (rle_out s) <= left ->
  match rle_loop fuel m rb lg it s with
  | Ret (Ok s') => zlen (rle_out s) <= zlen (rle_out s') /\ mrle_loop left fuel m rb lg it s = if zlen (rle_out s') <=? left then Ret (Ok s') else Diverge
  | x => mrle_loop left fuel m rb lg it s = x \/ mrle_loop left fuel m rb lg it s = Diverge
  end.
Proof.
  induction fuel as [|fuel IH]; intros it s H; cbn [rle_loop mrle_loop]; [left; reflexivity|].
  destruct (nbit_next m it) as [[[v|] it']| |]; cbn [bind]; [|split; [lia|replace (_ <=? left) with true by lia; reflexivity]|left; reflexivity|left; reflexivity].
  pose proof (body_mem left m rb lg v s H) as B. destruct (rle_body m rb lg v s) as [[s1|e]| |]; cbn [bind].
  - destruct B as (L & ->). destruct (zlen (rle_out s1) <=? left) eqn:El; cbn [bind].
    + specialize (IH it' s1 ltac:(lia)). destruct (rle_loop fuel m rb lg it' s1) as [[s2|e]| |]; [|exact IH|exact IH|exact IH]. split; [lia|apply IH].
    + destruct (rle_loop fuel m rb lg it' s1) as [[s2|e]| |] eqn:E2; [|right; reflexivity|right; reflexivity|right; reflexivity].
      assert (M : zlen (rle_out s1) <= zlen (rle_out s2)).
      { clear - E2. revert it' s1 E2. induction fuel as [|fuel IH]; intros it s E; cbn [rle_loop] in E; [discriminate|].
        destruct (nbit_next m it) as [[[v|] it']| |]; cbn [bind] in E; try discriminate; [|injection E as <-; lia].
        pose proof (body_mem (zlen (rle_out s)) m rb lg v s ltac:(lia)) as B. destruct (rle_body m rb lg v s) as [[s1|e]| |]; cbn [bind] in E; try discriminate.
        destruct B as (B & _). specialize (IH _ _ E). lia. }
      split; [lia|]. replace (zlen (rle_out s2) <=? left) with false by lia. reflexivity.
  - destruct B as [-> | ->]; cbn [bind]; auto.
  - destruct B as [-> | ->]; cbn [bind]; auto.
  - destruct B as [-> | ->]; cbn [bind]; auto.
Qed.
Lemma rle_mem : forall left m input nbit maxv expected len l, 0 <= left -> rleunpack m input nbit maxv len = Ret (Ok l) ->
  mem_rleunpack left m input nbit maxv expected = if zlen l <=? left then rleunpack m input nbit maxv expected else Diverge.
Proof.
  intros left m input nbit maxv expected len l Hl H. unfold rleunpack, rleunpack_fuel in H. unfold mem_rleunpack, rleunpack, rleunpack_fuel.
  destruct (arith m U16 (maxv + 1)) as [rb| |]; cbn [bind] in *; try discriminate. destruct (shl m U16 1 nbit) as [one| |]; cbn [bind] in *; try discriminate.
  destruct (arith m U16 (one - rb)) as [lg| |]; cbn [bind] in *; try discriminate.
  pose proof (loop_mem left m rb lg (rle_fuel input) (nbit_new input nbit) (RLE [] None 1) Hl) as K.
  destruct (rle_loop _ m rb lg _ _) as [[s|e]| |]; cbn [bind] in *; try discriminate.
  assert (E : l = rle_out s) by (destruct len as [n|]; [destruct (n =? _) in H; [|discriminate]|]; injection H as <-; reflexivity). subst l. destruct K as (_ & ->).
  destruct (zlen (rle_out s) <=? left); reflexivity.
Qed.
Lemma rle_mem_any : forall left m input nbit maxv expected, 0 <= left ->
  mem_rleunpack left m input nbit maxv expected = rleunpack m input nbit maxv expected \/ mem_rleunpack left m input nbit maxv expected = Diverge.
Proof.
  intros left m input nbit maxv expected Hl. unfold mem_rleunpack, rleunpack, rleunpack_fuel.
  destruct (arith m U16 (maxv + 1)) as [rb| |]; cbn [bind]; auto. destruct (shl m U16 1 nbit) as [one| |]; cbn [bind]; auto. destruct (arith m U16 (one - rb)) as [lg| |]; cbn [bind]; auto.
  pose proof (loop_mem left m rb lg (rle_fuel input) (nbit_new input nbit) (RLE [] None 1) Hl) as K.
  destruct (rle_loop _ m rb lg _ _) as [[s|e]| |].
  - destruct K as (_ & ->). destruct (_ <=? left); cbn [bind]; auto.
  - destruct K as [-> | ->]; auto.
  - destruct K as [-> | ->]; auto.
  - destruct K as [-> | ->]; auto.
Qed.

(** C82: the exact amount. *)
Lemma rle_mem_exact : forall left m input n maxv len, 0 <= left -> 1 <= n <= 15 -> 0 <= maxv -> maxv + 1 < 2 ^ n ->
  forall runs, split_runs maxv (codes_of input n) = ([], runs) -> runs_ok (base n maxv) runs ->
  mem_rleunpack left m input n maxv len =
    if zlen (flat_map (expand (base n maxv)) runs) <=? left then rleunpack m input n maxv len else Diverge.
Proof.
  intros left m input n maxv len Hl Hn H0 H1 runs E O. pose proof (rle_exact m input n maxv (zlen (flat_map (expand (base n maxv)) runs)) Hn H0 H1) as X. cbv zeta in X.
  rewrite E in X. specialize (X O). rewrite Z.eqb_refl in X. exact (rle_mem left m input n maxv len _ _ Hl X).
Qed.

(** A file of few octets that stands for many points. *)
Lemma digits_full L : forall k, 0 < L -> 1 + digits_value L (repeat (L - 1) k) = L ^ Z.of_nat k.
Proof.
  induction k as [|k IH]; intros H; [reflexivity|]. cbn [repeat digits_value]. rewrite Nat2Z.inj_succ, Z.pow_succ_r by lia. rewrite <- IH by exact H. ring.
Qed.
Lemma bomb_codes : forall k, (k <= 8)%nat -> codes_of (x00 :: repeat xff k) 8 = 0 :: repeat 255 k.
Proof. intros k H. do 9 (destruct k as [|k]; [vm_compute; reflexivity|]). lia. Qed.
Lemma bomb_split : forall k, split_runs 0 (0 :: repeat 255 k) = ([], [(0, repeat 254 k)]).
Proof.
  intros k. cbn [split_runs]. assert (E : split_runs 0 (repeat 255 k) = (repeat 254 k, [])).
  { induction k as [|k IH]; [reflexivity|]. cbn [repeat split_runs]. rewrite IH. reflexivity. }
  rewrite E. reflexivity.
Qed.
Lemma bomb : forall k, (k <= 8)%nat -> let input := x00 :: repeat xff k in
  zlen input = Z.of_nat k + 1 /\ forall m len, len <> 255 ^ Z.of_nat k ->
  rleunpack m input 8 0 (Some len) = Ret (Err RleLengthMismatch) /\
  forall left, 0 <= left < 255 ^ Z.of_nat k -> mem_rleunpack left m input 8 0 (Some len) = Diverge.
Proof.
  intros k Hk input. split; [unfold input; rewrite zlen_cons; unfold zlen; rewrite repeat_length; lia|]. intros m len Hlen.
  assert (E : split_runs 0 (codes_of input 8) = ([], [(0, repeat 254 k)])) by (unfold input; rewrite bomb_codes by exact Hk; apply bomb_split).
  assert (B : base 8 0 = 255) by reflexivity.
  assert (P : 255 ^ Z.of_nat k <= 255 ^ 8) by (apply Z.pow_le_mono_r; lia).
  assert (O : runs_ok (base 8 0) [(0, repeat 254 k)]).
  { constructor; [|constructor]. cbn [snd]. rewrite B. unfold zlen. rewrite repeat_length. change (255 ^ 8) with 17878103347812890625 in P. change (2 ^ 64) with 18446744073709551616. lia. }
  assert (Z1 : zlen (flat_map (expand (base 8 0)) [(0, repeat 254 k)]) = 255 ^ Z.of_nat k).
  { cbn [flat_map]. rewrite app_nil_r, B. unfold expand, zlen. cbn [fst snd]. rewrite repeat_length. pose proof (digits_full 255 k ltac:(lia)) as D.
    assert (0 < 255 ^ Z.of_nat k) by (apply Z.pow_pos_nonneg; lia). change (255 - 1) with 254 in D. lia. }
  split.
  - pose proof (rle_exact m input 8 0 len ltac:(lia) ltac:(lia) ltac:(reflexivity)) as X. cbv zeta in X. rewrite E in X. rewrite (X O), Z1.
    replace (len =? 255 ^ Z.of_nat k) with false by lia. reflexivity.
  - intros left Hl. rewrite (rle_mem_exact left m input 8 0 (Some len) ltac:(lia) ltac:(lia) ltac:(lia) ltac:(reflexivity) _ E O), Z1.
    replace (255 ^ Z.of_nat k <=? left) with false by lia. reflexivity.
Qed.
