(** Grid points: counts, order, refusals. *)
From Coq Require Import Lia ZifyBool ZifyNat.
From Verif Require Import Model.Base Model.Helpers Model.Errors Model.F32 Model.F64 Model.Grid Model.Gaussian Model.Proj.
From Verif Require Import Spec.ReaderS Spec.FieldsS Spec.GridS.
From Verif Require Import Proofs.BaseLemmas Proofs.HelpersP Proofs.ReaderP Proofs.Progress Proofs.FieldsP Proofs.FieldsX Proofs.GridP.
Ltac Zify.zify_post_hook ::= Z.div_mod_to_equations.

Definition pair_at (lat lon : list f32) (ij : Z * Z) : f32 * f32 :=
  (nth (Z.to_nat (snd ij)) lat f32_nan, nth (Z.to_nat (fst ij)) lon f32_nan).

Lemma index_nth : forall (l : list f32) i, 0 <= i < zlen l -> index l i = Ret (nth (Z.to_nat i) l f32_nan).
Proof.
  intros l i H. unfold index, get. replace (0 <=? i) with true by lia. unfold zlen in H.
  rewrite (nth_error_nth' l f32_nan) by lia. reflexivity.
Qed.

Lemma regular_run : forall m ni nj mode lat lon, 0 <= ni < 2 ^ 32 -> 0 <= nj < 2 ^ 32 -> 0 < row_len ni nj mode ->
  nj <= zlen lat -> ni <= zlen lon ->
  Run (regular_iter m (MkRegular lat lon (gpi_new ni nj mode)))
    (map (fun k => pair_at lat lon (scan_ij ni nj mode (Z.of_nat k))) (seq 0 (Z.to_nat (ni * nj)))) End.
Proof.
  intros m ni nj mode lat lon Hi Hj Hw Hlat Hlon. unfold regular_iter. rewrite <- gpi_at_0.
  pose proof (Run_indexed regular (f32 * f32) (regular_next m) (fun k => MkRegular lat lon (gpi_at ni nj mode (Z.of_nat k)))
    (fun k => pair_at lat lon (scan_ij ni nj mode (Z.of_nat k))) (Z.to_nat (ni * nj))) as H.
  cut (Run (MkIter regular (MkRegular lat lon (gpi_at ni nj mode (Z.of_nat 0))) (regular_next m))
    (map (fun k => pair_at lat lon (scan_ij ni nj mode (Z.of_nat k))) (seq 0 (Z.to_nat (ni * nj) - 0))) End).
  { rewrite Nat.sub_0_r. exact (fun x => x). }
  apply H; [| |lia]; clear H.
  - intros k Hk. unfold regular_next. cbn [rg_ij rg_lat rg_lon]. rewrite gpi_steps by assumption. cbn [bind].
    pose proof (scan_ij_range ni nj mode (Z.of_nat k) ltac:(lia) ltac:(lia) ltac:(lia)) as (R1 & R2). unfold pair_at.
    destruct (scan_ij ni nj mode (Z.of_nat k)) as (i, j). cbn [fst snd] in *.
    rewrite !index_nth by lia. reflexivity.
  - eexists. unfold regular_next. cbn [rg_ij]. rewrite Z2Nat.id by nia. rewrite gpi_done by lia. reflexivity.
Qed.

Lemma new_size : forall m ni nj mode, 0 <= ni < 2 ^ 32 -> 0 <= nj < 2 ^ 32 -> gpi_size m (gpi_new ni nj mode) = Ret (ni * nj).
Proof.
  intros m ni nj mode Hi Hj. unfold gpi_size, gpi_new.
  destruct (is_consecutive_for_i mode); cbn [major_len major_pos minor_len minor_pos].
  - rewrite arith_U64_ok by lia. cbn [bind]. rewrite arith_U64_ok by nia. cbn [bind]. rewrite arith_U64_ok by nia. f_equal. lia.
  - rewrite arith_U64_ok by lia. cbn [bind]. rewrite arith_U64_ok by nia. cbn [bind]. rewrite arith_U64_ok by nia. f_equal. lia.
Qed.

(** ** C34, C37 *)
Lemma unsupported_flag : forall ni nj mode, ij_of ni nj mode = Err NotSupported <-> low_flag mode.
Proof.
  intros. unfold ij_of. rewrite <- low_flags. destruct (has_unsupported_flags mode); split; congruence.
Qed.
Lemma supported_flag : forall ni nj mode, ~ low_flag mode -> ij_of ni nj mode = Ok (gpi_new ni nj mode).
Proof.
  intros ni nj mode H. unfold ij_of. destruct (has_unsupported_flags mode) eqn:E; [|reflexivity]. apply low_flags in E. contradiction.
Qed.

Lemma read_be_range : forall n b o x, 0 <= n -> read_be n b o = Ret x -> 0 <= x < 256 ^ n.
Proof.
  intros n b o x Hn H.
  destruct (Z_le_gt_dec 0 o) as [H0|H0]; [destruct (Z_le_gt_dec (o + n) (zlen b)) as [H1|H1]|].
  - rewrite read_be_spec in H by lia. injection H as <-. apply octets_be_range; lia.
  - rewrite read_be_panic in H by lia. discriminate.
  - rewrite read_be_panic in H by lia. discriminate.
Qed.
Ltac eat H :=
  repeat match type of H with
  | (let! _ := ?e in _) = _ => let E := fresh "E" in destruct e eqn:E; cbn [bind] in H; try discriminate H
  end.

Lemma grid_dims : forall m p g, grid_of_payload m p = Ret (Ok g) ->
  0 <= fst (grid_shape g) < 2 ^ 32 /\ 0 <= snd (grid_shape g) < 2 ^ 32.
Proof.
  intros m p g H.
  assert (R : forall b o x, read_u32 b o = Ret x -> 0 <= x < 2 ^ 32).
  { intros b o x E. apply (read_be_range 4) in E; [|lia]. change (256 ^ 4) with (2 ^ 32) in E. exact E. }
  unfold grid_of_payload in H. eat H.
  destruct a as [|t|t]; try discriminate H.
  - destruct (67 <? zlen p); [discriminate|]. eat H. injection H as <-. unfold latlon_from_buf in E1. eat E1. injection E1 as <-. cbn. eauto.
  - do 6 (try (destruct t as [t|t|]; try discriminate H)).
    + eat H. injection H as <-. unfold lambert_from_buf in E1. eat E1. injection E1 as <-. cbn. eauto.
    + eat H. injection H as <-. unfold polar_from_buf in E1. eat E1. injection E1 as <-. cbn. eauto.
    + destruct (67 <? zlen p); [discriminate|]. eat H. injection H as <-. unfold gaussian_from_buf in E1. eat E1. injection E1 as <-. cbn. eauto.
Qed.

Lemma sub_ij_spec : forall m p g, reaches p 10 -> grid_of_payload m p = Ret (Ok g) ->
  let '(ni, nj) := grid_shape g in
  (low_flag (grid_mode g) -> sub_ij m p = Ret (Err NotSupported)) /\
  (~ low_flag (grid_mode g) -> field p 7 10 <> ni * nj -> sub_ij m p = Ret (Err InvalidValueError)) /\
  (~ low_flag (grid_mode g) -> field p 7 10 = ni * nj -> sub_ij m p = Ret (Ok (gpi_new ni nj (grid_mode g)))).
Proof.
  intros m p g Hp Hg. pose proof (grid_dims m p g Hg) as Hd. unfold sub_ij. unfold read_u32. rewrite (read_field 4 p 1 7 10) by (lia || assumption).
  cbn [bind]. rewrite Hg. cbn [bind]. unfold grid_ij. destruct (grid_shape g) as (ni, nj). cbn [fst snd] in Hd.
  split; [|split]; intros Hf.
  - apply (unsupported_flag ni nj) in Hf. rewrite Hf. reflexivity.
  - intros Hn. rewrite supported_flag by assumption. rewrite new_size by lia. cbn [bind].
    replace (field p 7 10 =? ni * nj) with false by lia. reflexivity.
  - intros Hn. rewrite supported_flag by assumption. rewrite new_size by lia. cbn [bind].
    replace (field p 7 10 =? ni * nj) with true by lia. reflexivity.
Qed.

Lemma sub_ij_errors : forall m p, reaches p 10 ->
  (forall e, grid_of_payload m p = Ret (Err e) -> sub_ij m p = Ret (Err e)).
Proof.
  intros m p Hp e Hg. unfold sub_ij. rewrite Hg. unfold read_u32. rewrite (read_field 4 p 1 7 10) by (lia || assumption). reflexivity.
Qed.

Lemma sub_latlons_count : forall m lm pl fuel p it, reaches p 10 ->
  sub_latlons m lm pl fuel p = Ret (Ok it) -> points_size m it = Ret (field p 7 10).
Proof.
  intros m lm pl fuel p it Hp H. unfold sub_latlons, read_u32 in H. rewrite (read_field 4 p 1 7 10) in H by (lia || assumption). cbn [bind] in H.
  destruct (grid_of_payload m p) as [[g|e]| |]; cbn [bind] in H; try discriminate.
  destruct (grid_latlons m lm pl fuel g) as [[l|e]| |]; cbn [bind] in H; try discriminate.
  destruct (points_size m l) as [n| |] eqn:E; cbn [bind] in H; try discriminate.
  destruct (field p 7 10 =? n) eqn:F; [|discriminate H]. injection H as <-. rewrite E. f_equal. lia.
Qed.
Lemma sub_latlons_mismatch : forall m lm pl fuel p g it n, reaches p 10 -> grid_of_payload m p = Ret (Ok g) ->
  grid_latlons m lm pl fuel g = Ret (Ok it) -> points_size m it = Ret n -> n <> field p 7 10 ->
  sub_latlons m lm pl fuel p = Ret (Err InvalidValueError).
Proof.
  intros m lm pl fuel p g it n Hp Hg Hl Hs Hn. unfold sub_latlons, read_u32. rewrite (read_field 4 p 1 7 10) by (lia || assumption).
  cbn [bind]. rewrite Hg. cbn [bind]. rewrite Hl. cbn [bind]. rewrite Hs. cbn [bind]. replace (field p 7 10 =? n) with false by lia. reflexivity.
Qed.
