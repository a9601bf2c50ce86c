(** Builds with and without overflow checks: grids. *)
From Coq Require Import Lia ZifyBool ZifyNat.
From Verif Require Import Model.Base Model.Helpers Model.Errors Model.F32 Model.F64 Model.Grid Model.Gaussian Model.Proj.
From Verif Require Import Spec.ProfileS Proofs.BaseLemmas Proofs.ProfileP Proofs.ProfileD.

Lemma su_gpi g : SU (gpi_next Checked g) (gpi_next Wrapping g).
Proof. unfold gpi_next. su. Qed.
#[export] Hint Resolve su_gpi : su.
Lemma su_gsize g : SU (gpi_size Checked g) (gpi_size Wrapping g).
Proof. unfold gpi_size. su. Qed.
#[export] Hint Resolve su_gsize : su.
Lemma alike_gpi g : alike (gpi_iter Checked g) (gpi_iter Wrapping g).
Proof. apply alike_mk, su_gpi. Qed.
Lemma su_latlon b : SU (latlon_from_buf Checked b) (latlon_from_buf Wrapping b).
Proof. unfold latlon_from_buf. su. Qed.
Lemma su_gaussian b : SU (gaussian_from_buf Checked b) (gaussian_from_buf Wrapping b).
Proof. unfold gaussian_from_buf. su. Qed.
Lemma su_lambert b : SU (lambert_from_buf Checked b) (lambert_from_buf Wrapping b).
Proof. unfold lambert_from_buf. su. Qed.
Lemma su_polar b : SU (polar_from_buf Checked b) (polar_from_buf Wrapping b).
Proof. unfold polar_from_buf. su. Qed.
#[export] Hint Resolve su_latlon su_gaussian su_lambert su_polar : su.
Lemma su_payload p : SU (grid_of_payload Checked p) (grid_of_payload Wrapping p).
Proof.
  unfold grid_of_payload. apply su_bind; [apply su_refl|]. intros n.
  assert (A : SU (if 67 <? zlen p then Ret (Err NotSupported) else let! b := slice_from p 25 in let! d := latlon_from_buf Checked b in Ret (Ok (Template0 d))) (if 67 <? zlen p then Ret (Err NotSupported) else let! b := slice_from p 25 in let! d := latlon_from_buf Wrapping b in Ret (Ok (Template0 d)))) by (su).
  assert (B : SU (let! b := slice_from p 9 in let! d := polar_from_buf Checked b in Ret (@Ok _ grib_error (Template20 d))) (let! b := slice_from p 9 in let! d := polar_from_buf Wrapping b in Ret (Ok (Template20 d)))) by (su).
  assert (C : SU (let! b := slice_from p 9 in let! d := lambert_from_buf Checked b in Ret (@Ok _ grib_error (Template30 d))) (let! b := slice_from p 9 in let! d := lambert_from_buf Wrapping b in Ret (Ok (Template30 d)))) by (su).
  assert (D : SU (if 67 <? zlen p then Ret (Err NotSupported) else let! b := slice_from p 25 in let! d := gaussian_from_buf Checked b in Ret (Ok (Template40 d))) (if 67 <? zlen p then Ret (Err NotSupported) else let! b := slice_from p 25 in let! d := gaussian_from_buf Wrapping b in Ret (Ok (Template40 d)))) by (su).
  destruct n as [|n|n]; auto using su_refl. repeat (destruct n as [n|n|]; auto using su_refl).
Qed.
#[export] Hint Resolve su_payload : su.
Lemma su_lons a b c d : SU (evenly_spaced_longitudes Checked a b c d) (evenly_spaced_longitudes Wrapping a b c d).
Proof. unfold evenly_spaced_longitudes. apply su_bind; [apply su_arith|]. intros. apply su_refl. Qed.
#[export] Hint Resolve su_lons : su.
Lemma su_regular r : SU (regular_next Checked r) (regular_next Wrapping r).
Proof. unfold regular_next. su. Qed.
#[export] Hint Resolve su_regular : su.
Lemma su_rsize r : SU (regular_size Checked r) (regular_size Wrapping r).
Proof. apply su_gsize. Qed.
Lemma su_consistent a b c : SU (is_consistent_for_j Checked a b c) (is_consistent_for_j Wrapping a b c).
Proof. unfold is_consistent_for_j. su. Qed.
#[export] Hint Resolve su_rsize su_consistent : su.
Lemma su_ll d : SU (latlon_latlons Checked d) (latlon_latlons Wrapping d).
Proof. unfold latlon_latlons. su. Qed.
#[export] Hint Resolve su_ll : su.
Lemma su_shape p : SU (sub_grid_shape Checked p) (sub_grid_shape Wrapping p).
Proof. unfold sub_grid_shape. su. Qed.
Lemma su_ij p : SU (sub_ij Checked p) (sub_ij Wrapping p).
Proof. unfold sub_ij. su. Qed.
#[export] Hint Resolve su_shape su_ij : su.
Lemma su_roots lm n : SU (legendre_roots Checked lm n) (legendre_roots Wrapping lm n).
Proof. unfold legendre_roots. repeat (apply su_bind; [apply su_arith|intros ?]). apply su_refl. Qed.
#[export] Hint Resolve su_roots : su.
Lemma su_gausslats lm n : SU (compute_gaussian_latitudes Checked lm n) (compute_gaussian_latitudes Wrapping lm n).
Proof. unfold compute_gaussian_latitudes. su. Qed.
#[export] Hint Resolve su_gausslats : su.
Lemma su_degrees lm n : SU (gaussian_degrees Checked lm n) (gaussian_degrees Wrapping lm n).
Proof. unfold gaussian_degrees. su. Qed.
#[export] Hint Resolve su_degrees : su.
Lemma su_gl lm d : SU (gaussian_latlons Checked lm d) (gaussian_latlons Wrapping lm d).
Proof. unfold gaussian_latlons. su. Qed.
#[export] Hint Resolve su_gl : su.
Lemma su_allij fuel g : SU (all_ij Checked fuel g) (all_ij Wrapping fuel g).
Proof. apply su_collect, alike_gpi. Qed.
#[export] Hint Resolve su_allij : su.
Lemma su_lambertl lm pl fuel d : SU (lambert_latlons Checked lm pl fuel d) (lambert_latlons Wrapping lm pl fuel d).
Proof. unfold lambert_latlons. su. Qed.
Lemma su_polarl lm pl fuel d : SU (polar_latlons Checked lm pl fuel d) (polar_latlons Wrapping lm pl fuel d).
Proof. unfold polar_latlons. su. Qed.
#[export] Hint Resolve su_lambertl su_polarl : su.
Lemma su_points p : SU (points_next Checked p) (points_next Wrapping p).
Proof. unfold points_next. su. Qed.
Lemma su_psize p : SU (points_size Checked p) (points_size Wrapping p).
Proof. unfold points_size. su. Qed.
#[export] Hint Resolve su_points su_psize : su.
Lemma alike_points p : alike (points_iter Checked p) (points_iter Wrapping p).
Proof. apply alike_mk, su_points. Qed.
#[export] Hint Resolve alike_points alike_gpi : su.
Lemma su_gridl lm pl fuel g : SU (grid_latlons Checked lm pl fuel g) (grid_latlons Wrapping lm pl fuel g).
Proof. unfold grid_latlons. su. Qed.
#[export] Hint Resolve su_gridl : su.
Lemma su_latlons lm pl fuel p : SU (sub_latlons Checked lm pl fuel p) (sub_latlons Wrapping lm pl fuel p).
Proof. unfold sub_latlons. su. Qed.
#[export] Hint Resolve su_latlons : su.
