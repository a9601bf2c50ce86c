(** The index iterator. *)
From Coq Require Import Lia ZifyBool ZifyNat.
From Verif Require Import Model.Base Model.Errors Model.Grid Spec.GridS Proofs.BaseLemmas Proofs.ReaderP Proofs.Progress.
Ltac Zify.zify_post_hook ::= Z.div_mod_to_equations.

Lemma land_bit : forall x n, 0 <= n -> (Z.land x (2 ^ n) =? 0) = negb (Z.testbit x n).
Proof.
  intros x n Hn. destruct (Z.testbit x n) eqn:E; cbn [negb].
  - apply Z.eqb_neq. intro H. apply (f_equal (fun z => Z.testbit z n)) in H.
    rewrite Z.land_spec, Z.bits_0, E, Z.pow2_bits_true in H by lia. discriminate.
  - apply Z.eqb_eq. apply Z.bits_inj'. intros k Hk. rewrite Z.land_spec, Z.bits_0.
    destruct (Z.eq_dec k n) as [->|Hne]; [rewrite E; reflexivity|]. rewrite Z.pow2_bits_false by lia. apply andb_false_r.
Qed.
Lemma flag1 : forall x, scans_positively_for_i x = negb (flag 1 x).
Proof. intros. unfold scans_positively_for_i. change 0x80 with (2 ^ 7). rewrite land_bit by lia. reflexivity. Qed.
Lemma flag2 : forall x, scans_positively_for_j x = flag 2 x.
Proof. intros. unfold scans_positively_for_j. change 0x40 with (2 ^ 6). rewrite land_bit by lia. apply negb_involutive. Qed.
Lemma flag3 : forall x, is_consecutive_for_i x = negb (flag 3 x).
Proof. intros. unfold is_consecutive_for_i. change 0x20 with (2 ^ 5). rewrite land_bit by lia. reflexivity. Qed.
Lemma flag4 : forall x, scans_alternating_rows x = flag 4 x.
Proof. intros. unfold scans_alternating_rows. change 0x10 with (2 ^ 4). rewrite land_bit by lia. apply negb_involutive. Qed.
Lemma low_flags : forall x, has_unsupported_flags x = true <-> low_flag x.
Proof.
  intros x. unfold has_unsupported_flags, low_flag, flag. cbn [Z.sub Z.add Z.opp Z.pos_sub Pos.pred_double Z.double Z.succ_double Z.pred_double].
  change (8 - 5) with 3. change (8 - 6) with 2. change (8 - 7) with 1. change (8 - 8) with 0. split.
  - intros H. apply negb_true_iff, Z.eqb_neq in H.
    destruct (Z.testbit x 3) eqn:E3; [auto|]. destruct (Z.testbit x 2) eqn:E2; [auto|].
    destruct (Z.testbit x 1) eqn:E1; [auto|]. destruct (Z.testbit x 0) eqn:E0; [auto|].
    exfalso. apply H. apply Z.bits_inj'. intros k Hk. rewrite Z.land_spec, Z.bits_0.
    destruct (Z_lt_ge_dec k 4) as [L|L].
    + assert (k = 0 \/ k = 1 \/ k = 2 \/ k = 3) as [->|[->|[->| ->]]] by lia; [rewrite E0|rewrite E1|rewrite E2|rewrite E3]; reflexivity.
    + change 0x0f with (Z.ones 4). rewrite Z.ones_spec_high by lia. apply andb_false_r.
  - intros H. apply negb_true_iff, Z.eqb_neq. intro E. 
    assert (G : forall k, 0 <= k < 4 -> Z.testbit x k = false).
    { intros k Hk. apply (f_equal (fun z => Z.testbit z k)) in E. rewrite Z.land_spec, Z.bits_0 in E.
      change 0x0f with (Z.ones 4) in E. rewrite Z.ones_spec_low in E by lia. rewrite andb_true_r in E. exact E. }
    rewrite !G in H by lia. intuition discriminate.
Qed.

(** The state after [k] points. *)
Definition gpi_at (ni nj mode k : Z) : gpi :=
  let w := row_len ni nj mode in
  MkGpi (rows ni nj mode) w mode (k / w) (k mod w) (negb (flag 4 mode && Z.odd (k / w))).

Lemma gpi_at_0 : forall ni nj mode, gpi_at ni nj mode 0 = gpi_new ni nj mode.
Proof.
  intros. unfold gpi_at, gpi_new. rewrite flag3. unfold rows, row_len.
  rewrite Zdiv_0_l, Zmod_0_l. change (Z.odd 0) with false. rewrite andb_false_r. destruct (flag 3 mode); reflexivity.
Qed.

Lemma div_succ_same : forall k w, 0 < w -> 0 <= k -> k mod w + 1 <> w -> (k + 1) / w = k / w /\ (k + 1) mod w = k mod w + 1.
Proof.
  intros k w Hw Hk H. pose proof (Z.mod_pos_bound k w Hw). pose proof (Z.div_mod k w ltac:(lia)).
  split; symmetry; [apply (Z.div_unique _ _ _ (k mod w + 1))|apply (Z.mod_unique _ _ (k / w))]; lia.
Qed.
Lemma div_succ_next : forall k w, 0 < w -> 0 <= k -> k mod w + 1 = w -> (k + 1) / w = k / w + 1 /\ (k + 1) mod w = 0.
Proof.
  intros k w Hw Hk H. pose proof (Z.div_mod k w ltac:(lia)).
  split; symmetry; [apply (Z.div_unique _ _ _ 0)|apply (Z.mod_unique _ _ (k / w + 1))]; lia.
Qed.

Lemma gpi_step : forall m ni nj mode k, 0 <= ni < 2 ^ 32 -> 0 <= nj < 2 ^ 32 -> 0 < row_len ni nj mode ->
  0 <= k < ni * nj -> gpi_next m (gpi_at ni nj mode k) = Ret (Some (scan_ij ni nj mode k), gpi_at ni nj mode (k + 1)).
Proof.
  intros m ni nj mode k Hi Hj Hw Hk. unfold gpi_next, gpi_at. cbn [major_pos major_len minor_pos minor_len gmode increments].
  set (w := row_len ni nj mode) in *. set (h := rows ni nj mode).
  assert (Hwh : k < h * w) by (unfold h, w, rows, row_len; destruct (flag 3 mode); nia).
  assert (Hh : h < 2 ^ 32) by (unfold h, rows; destruct (flag 3 mode); lia).
  assert (Hw2 : w < 2 ^ 32) by (unfold w, row_len; destruct (flag 3 mode); lia).
  pose proof (Z.mod_pos_bound k w Hw) as Hm. assert (Hd : 0 <= k / w < h) by (split; [apply Z.div_pos; lia|apply Z.div_lt_upper_bound; nia]).
  replace (k / w =? h) with false by lia.
  assert (Emin : (if negb (flag 4 mode && Z.odd (k / w)) then Ret (k mod w)
     else let! x := arith m Usize (w - k mod w) in arith m Usize (x - 1)) =
     Ret (if flag 4 mode && Z.odd (k / w) then w - 1 - k mod w else k mod w)).
  { destruct (flag 4 mode && Z.odd (k / w)); cbn [negb]; [|reflexivity].
    rewrite arith_U64_ok by lia. cbn [bind]. rewrite arith_U64_ok by lia. f_equal. lia. }
  rewrite Emin. cbn [bind]. rewrite arith_U64_ok by lia. cbn [bind].
  assert (Eitem : (if is_consecutive_for_i mode
     then (if flag 4 mode && Z.odd (k / w) then w - 1 - k mod w else k mod w, k / w)
     else (k / w, if flag 4 mode && Z.odd (k / w) then w - 1 - k mod w else k mod w)) = scan_ij ni nj mode k).
  { unfold scan_ij. rewrite flag3. unfold w, row_len. destruct (flag 3 mode); reflexivity. }
  destruct (Z.eqb_spec (k mod w + 1) w) as [E|E].
  - rewrite arith_U64_ok by lia. cbn [bind]. rewrite Eitem. rewrite flag4.
    destruct (div_succ_next k w Hw ltac:(lia) E) as (-> & ->). do 3 f_equal.
    rewrite Z.odd_add. change (Z.odd 1) with true. destruct (flag 4 mode), (Z.odd (k / w)); reflexivity.
  - cbn [bind]. rewrite Eitem. destruct (div_succ_same k w Hw ltac:(lia) E) as (-> & ->). reflexivity.
Qed.

Lemma gpi_done : forall m ni nj mode, 0 <= ni -> 0 <= nj -> 0 < row_len ni nj mode ->
  gpi_next m (gpi_at ni nj mode (ni * nj)) = Ret (None, gpi_at ni nj mode (ni * nj)).
Proof.
  intros m ni nj mode Hi Hj Hw. unfold gpi_next, gpi_at. cbn [major_pos major_len].
  assert (E : ni * nj / row_len ni nj mode = rows ni nj mode).
  { unfold rows, row_len in *. destruct (flag 3 mode); [apply Z.div_mul; lia|]. rewrite Z.mul_comm. apply Z.div_mul. lia. }
  rewrite E, Z.eqb_refl. reflexivity.
Qed.

(** A state machine with one state per position. *)
Lemma Run_indexed : forall S A (step : S -> outcome (option A * S)) (st : nat -> S) (f : nat -> A) n,
  (forall k, (k < n)%nat -> step (st k) = Ret (Some (f k), st (Datatypes.S k))) ->
  (exists s', step (st n) = Ret (None, s')) ->
  forall k, (k <= n)%nat -> Run (MkIter S (st k) step) (map f (seq k (n - k))) End.
Proof.
  intros S A step st f n Hs (s' & He) k Hk. remember (n - k)%nat as d eqn:Ed. revert k Hk Ed.
  induction d as [|d IH]; intros k Hk Ed; cbn [seq map].
  - replace k with n by lia. eapply Run_end. rewrite next_mk, He. reflexivity.
  - eapply Run_cons; [rewrite next_mk, Hs by lia; reflexivity|]. apply IH; lia.
Qed.
Lemma SSteps_indexed : forall S A (step : S -> outcome (option A * S)) (st : nat -> S) (f : nat -> A) n,
  (forall k, (k < n)%nat -> step (st k) = Ret (Some (f k), st (Datatypes.S k))) ->
  (exists s', step (st n) = Ret (None, s')) ->
  forall l s' k, SSteps step (st k) l s' -> (k <= n)%nat -> (k + length l <= n)%nat /\ s' = st (k + length l)%nat.
Proof.
  intros S A step st f n Hs He l. induction l as [|a l IH]; intros s' k H Hk; inversion H; subst; cbn [length].
  - rewrite Nat.add_0_r. split; [lia|reflexivity].
  - destruct (Nat.eq_dec k n) as [->|Hne].
    + destruct He as (x & He). congruence.
    + rewrite Hs in * by lia. match goal with Q : Ret _ = Ret _ |- _ => injection Q as Q1 Q2 end. subst.
      destruct (IH s' (Datatypes.S k)) as (A1 & A2); [assumption|lia|]. split; [lia|]. rewrite A2. f_equal. lia.
Qed.

Lemma gpi_steps : forall m ni nj mode, 0 <= ni < 2 ^ 32 -> 0 <= nj < 2 ^ 32 -> 0 < row_len ni nj mode ->
  forall k, (k < Z.to_nat (ni * nj))%nat ->
  gpi_next m (gpi_at ni nj mode (Z.of_nat k)) = Ret (Some (scan_ij ni nj mode (Z.of_nat k)), gpi_at ni nj mode (Z.of_nat (S k))).
Proof. intros m ni nj mode Hi Hj Hw k Hk. rewrite gpi_step by (try assumption; nia). do 3 f_equal. lia. Qed.

Lemma gpi_run : forall m ni nj mode, 0 <= ni < 2 ^ 32 -> 0 <= nj < 2 ^ 32 -> 0 < row_len ni nj mode ->
  Run (gpi_iter m (gpi_new ni nj mode)) (map (fun k => scan_ij ni nj mode (Z.of_nat k)) (seq 0 (Z.to_nat (ni * nj)))) End.
Proof.
  intros m ni nj mode Hi Hj Hw. unfold gpi_iter. rewrite <- gpi_at_0.
  pose proof (Run_indexed gpi (Z * Z) (gpi_next m) (fun k => gpi_at ni nj mode (Z.of_nat k)) (fun k => scan_ij ni nj mode (Z.of_nat k))
    (Z.to_nat (ni * nj)) (gpi_steps m ni nj mode Hi Hj Hw)) as H.
  specialize (H ltac:(eexists; rewrite Z2Nat.id by nia; apply gpi_done; lia) O ltac:(lia)).
  rewrite Nat.sub_0_r in H. exact H.
Qed.

Lemma scan_ij_range : forall ni nj mode k, 0 <= ni -> 0 <= nj -> 0 <= k < ni * nj ->
  0 <= fst (scan_ij ni nj mode k) < ni /\ 0 <= snd (scan_ij ni nj mode k) < nj.
Proof.
  intros ni nj mode k Hi Hj Hk. unfold scan_ij.
  assert (0 < ni) by nia. assert (0 < nj) by nia.
  destruct (flag 3 mode); cbn [fst snd].
  - pose proof (Z.mod_pos_bound k nj ltac:(lia)). split; [split; [apply Z.div_pos; lia|apply Z.div_lt_upper_bound; nia]|].
    destruct (_ && _); lia.
  - pose proof (Z.mod_pos_bound k ni ltac:(lia)). split; [|split; [apply Z.div_pos; lia|apply Z.div_lt_upper_bound; nia]].
    destruct (_ && _); lia.
Qed.

Lemma scan_ij_inj : forall ni nj mode k k', 0 <= ni -> 0 <= nj -> 0 <= k < ni * nj -> 0 <= k' < ni * nj ->
  scan_ij ni nj mode k = scan_ij ni nj mode k' -> k = k'.
Proof.
  intros ni nj mode k k' Hi Hj Hk Hk' E. unfold scan_ij in E. assert (0 < ni) by nia. assert (0 < nj) by nia.
  destruct (flag 3 mode); injection E as E1 E2.
  - rewrite E1 in E2. pose proof (Z.div_mod k nj ltac:(lia)). pose proof (Z.div_mod k' nj ltac:(lia)).
    destruct (_ && _); nia.
  - rewrite E2 in E1. pose proof (Z.div_mod k ni ltac:(lia)). pose proof (Z.div_mod k' ni ltac:(lia)).
    destruct (_ && _); nia.
Qed.

Lemma scan_ij_onto : forall ni nj mode i j, 0 <= i < ni -> 0 <= j < nj ->
  exists k, 0 <= k < ni * nj /\ scan_ij ni nj mode k = (i, j).
Proof.
  intros ni nj mode i j Hi Hj. unfold scan_ij. destruct (flag 3 mode).
  - set (p := if flag 4 mode && Z.odd i then nj - 1 - j else j). assert (0 <= p < nj) by (unfold p; destruct (_ && _); lia).
    exists (i * nj + p). split; [nia|].
    assert (D : (i * nj + p) / nj = i) by (symmetry; apply (Z.div_unique _ _ _ p); lia).
    assert (M : (i * nj + p) mod nj = p) by (symmetry; apply (Z.mod_unique _ _ i); lia).
    rewrite D, M. unfold p. destruct (_ && _); f_equal; lia.
  - set (p := if flag 4 mode && Z.odd j then ni - 1 - i else i). assert (0 <= p < ni) by (unfold p; destruct (_ && _); lia).
    exists (j * ni + p). split; [nia|].
    assert (D : (j * ni + p) / ni = j) by (symmetry; apply (Z.div_unique _ _ _ p); lia).
    assert (M : (j * ni + p) mod ni = p) by (symmetry; apply (Z.mod_unique _ _ j); lia).
    rewrite D, M. unfold p. destruct (_ && _); f_equal; lia.
Qed.

(** C32 *)
Lemma indices : forall m ni nj mode, 0 <= ni < 2 ^ 32 -> 0 <= nj < 2 ^ 32 -> 0 < row_len ni nj mode ->
  exists l, Run (gpi_iter m (gpi_new ni nj mode)) l End /\ zlen l = ni * nj /\
    (forall k, 0 <= k < ni * nj -> nth_error l (Z.to_nat k) = Some (scan_ij ni nj mode k)) /\
    NoDup l /\ (forall i j, In (i, j) l <-> 0 <= i < ni /\ 0 <= j < nj).
Proof.
  intros m ni nj mode Hi Hj Hw. eexists. split; [apply gpi_run; assumption|].
  assert (L : forall T (f : nat -> T) k, (k < Z.to_nat (ni * nj))%nat -> nth_error (map f (seq 0 (Z.to_nat (ni * nj)))) k = Some (f k)).
  { intros T f k Hk. rewrite nth_error_map. rewrite (nth_error_nth' _ O) by (rewrite seq_length; lia). rewrite seq_nth by lia. reflexivity. }
  split; [unfold zlen; rewrite map_length, seq_length; nia|].
  split. { intros k Hk. rewrite L by lia. f_equal. f_equal. lia. }
  split.
  - rewrite NoDup_nth_error. intros a b Ha E. rewrite map_length, seq_length in Ha. rewrite L in E by lia.
    destruct (Nat.lt_ge_cases b (Z.to_nat (ni * nj))) as [Hb|Hb].
    + rewrite L in E by lia. injection E as E. apply scan_ij_inj in E; lia.
    + assert (N : nth_error (map (fun k => scan_ij ni nj mode (Z.of_nat k)) (seq 0 (Z.to_nat (ni * nj)))) b = None)
        by (apply nth_error_None; rewrite map_length, seq_length; lia). congruence.
  - intros i j. rewrite in_map_iff. split.
    + intros (k & E & Hk). apply in_seq in Hk. pose proof (scan_ij_range ni nj mode (Z.of_nat k) ltac:(lia) ltac:(lia) ltac:(lia)) as R.
      rewrite E in R. exact R.
    + intros (A & B). destruct (scan_ij_onto ni nj mode i j A B) as (k & Hk & E). exists (Z.to_nat k).
      rewrite Z2Nat.id by lia. split; [exact E|]. apply in_seq. lia.
Qed.

Lemma indices_size : forall m ni nj mode l g', 0 <= ni < 2 ^ 32 -> 0 <= nj < 2 ^ 32 -> 0 < row_len ni nj mode ->
  SSteps (gpi_next m) (gpi_new ni nj mode) l g' -> gpi_size m g' = Ret (ni * nj - zlen l).
Proof.
  intros m ni nj mode l g' Hi Hj Hw H. rewrite <- gpi_at_0 in H.
  pose proof (SSteps_indexed gpi (Z * Z) (gpi_next m) (fun k => gpi_at ni nj mode (Z.of_nat k)) (fun k => scan_ij ni nj mode (Z.of_nat k))
    (Z.to_nat (ni * nj)) (gpi_steps m ni nj mode Hi Hj Hw)) as S.
  specialize (S ltac:(eexists; rewrite Z2Nat.id by nia; apply gpi_done; lia) l g' O H ltac:(lia)). cbn [Nat.add] in S.
  destruct S as (Hl & ->). unfold gpi_size, gpi_at. cbn [major_len major_pos minor_len minor_pos]. unfold zlen.
  set (k := Z.of_nat (length l)) in *. set (w := row_len ni nj mode) in *. set (h := rows ni nj mode).
  assert (Hwh : ni * nj = h * w) by (unfold h, w, rows, row_len; destruct (flag 3 mode); nia).
  assert (Hh : 0 <= h < 2 ^ 32) by (unfold h, rows; destruct (flag 3 mode); lia).
  assert (Hw2 : w < 2 ^ 32) by (unfold w, row_len; destruct (flag 3 mode); lia).
  assert (Hk : 0 <= k <= h * w) by lia.
  pose proof (Z.mod_pos_bound k w Hw). pose proof (Z.div_mod k w ltac:(lia)) as DM.
  assert (0 <= k / w <= h) by (split; [apply Z.div_pos; lia|apply Z.div_le_upper_bound; nia]).
  rewrite arith_U64_ok by lia. cbn [bind]. rewrite arith_U64_ok by nia. cbn [bind]. rewrite arith_U64_ok by nia. f_equal. nia.
Qed.

(** C33 *)
Lemma no_rows : forall m ni nj mode, rows ni nj mode = 0 -> Run (gpi_iter m (gpi_new ni nj mode)) [] End.
Proof.
  intros m ni nj mode H.
  assert (E : exists g, gpi_next m (gpi_new ni nj mode) = Ret (None, g)).
  { unfold gpi_next, gpi_new. rewrite flag3. unfold rows in H.
    destruct (flag 3 mode); cbn [negb major_pos major_len]; rewrite H; eexists; reflexivity. }
  destruct E as (g & E). eapply Run_end. unfold gpi_iter. rewrite next_mk, E. reflexivity.
Qed.

Lemma endless : forall m ni nj mode n, row_len ni nj mode = 0 -> 0 < rows ni nj mode -> Z.of_nat n < 2 ^ 64 ->
  exists g', SSteps (gpi_next m) (gpi_new ni nj mode) (map (fun k => bogus mode (Z.of_nat k)) (seq 0 n)) g'.
Proof.
  intros m ni nj mode n Hw Hh Hn.
  assert (G : forall d k, (k + d <= n)%nat -> exists g', SSteps (gpi_next m) (MkGpi (rows ni nj mode) 0 mode 0 (Z.of_nat k) true)
     (map (fun k => bogus mode (Z.of_nat k)) (seq k d)) g').
  { induction d as [|d IH]; intros k Hk; [eexists; constructor|]. destruct (IH (S k) ltac:(lia)) as (g' & Hg').
    exists g'. cbn [seq map]. econstructor; [|exact Hg'].
    unfold gpi_next. cbn [major_pos major_len minor_pos minor_len gmode increments].
    replace (0 =? rows ni nj mode) with false by lia. cbn [bind]. rewrite arith_U64_ok by lia. cbn [bind].
    replace (Z.of_nat k + 1 =? 0) with false by lia. cbn [bind]. rewrite flag3. unfold bogus.
    replace (Z.of_nat (S k)) with (Z.of_nat k + 1) by lia. destruct (flag 3 mode); reflexivity. }
  specialize (G n O ltac:(lia)). unfold gpi_new. rewrite flag3. unfold row_len, rows in *.
  destruct (flag 3 mode); cbn [negb]; rewrite Hw; exact G.
Qed.
