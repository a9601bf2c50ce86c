(** The points of a grid: the iterator that [latlons] returns yields the declared number of
    points, without a panic. *)
From Coq Require Import Lia ZifyBool ZifyNat.
From Verif Require Import Model.Base Model.Helpers Model.Errors Model.F32 Model.F64 Model.Grid Model.Gaussian Model.Proj.
From Verif Require Import Spec.ReaderS Spec.FieldsS Spec.GridS.
From Verif Require Import Proofs.BaseLemmas Proofs.HelpersP Proofs.ReaderP Proofs.FieldsP Proofs.FieldsX Proofs.GridP Proofs.PointsP Proofs.LatlonX Proofs.GaussP.
Ltac Zify.zify_post_hook ::= Z.div_mod_to_equations.

Lemma points_run m : forall l r e, Run (regular_iter m r) l e -> Run (points_iter m (PLatLon r)) l e.
Proof.
  induction l as [|a l IH]; intros r e H; inversion H as [it it' N|it N|it it' a' l' e' N R]; subst; unfold regular_iter, next in N; cbn [istep icur ist] in N.
  - destruct (regular_next m r) as [[o s]| |] eqn:E; try discriminate. injection N as -> <-.
    eapply Run_end. unfold points_iter. rewrite next_mk. cbn [points_next]. rewrite E. reflexivity.
  - destruct (regular_next m r) as [[o s]| |] eqn:E; try discriminate.
    apply Run_crash. unfold points_iter. rewrite next_mk. cbn [points_next]. rewrite E. reflexivity.
  - destruct (regular_next m r) as [[o s]| |] eqn:E; try discriminate. injection N as -> <-.
    eapply Run_cons. { unfold points_iter. rewrite next_mk. cbn [points_next]. rewrite E. reflexivity. }
    apply IH. exact R.
Qed.
Lemma vec_run m : forall l, Run (points_iter m (PVec l)) l End.
Proof.
  induction l as [|a l IH].
  - eapply Run_end. unfold points_iter. rewrite next_mk. reflexivity.
  - eapply Run_cons; [unfold points_iter; rewrite next_mk; reflexivity|exact IH].
Qed.

Lemma longitudes_count m a b n mode l : 0 <= n -> evenly_spaced_longitudes m a b n mode = Ret l -> zlen l = n + 1.
Proof.
  intros Hn H. unfold evenly_spaced_longitudes in H. destruct (arith m I32 (b - a)) as [d| |]; cbn [bind] in H; try discriminate.
  destruct (negb (xorb (0 <? d) (scans_positively_for_i mode))); [|destruct (b <? a)]; injection H as <-; unfold zlen; rewrite ?map_length; apply degrees_length; exact Hn.
Qed.
Lemma latitudes_length m lm n l : compute_gaussian_latitudes m lm n = Ret l -> length l = Z.to_nat n.
Proof.
  intros H. unfold compute_gaussian_latitudes in H. destruct (legendre_roots m lm n) as [rs| |] eqn:E; cbn [bind] in H; try discriminate. injection H as <-.
  unfold legendre_roots in E. eat E. injection E as <-. rewrite !map_length, seq_length. reflexivity.
Qed.

Lemma regular_total m ni nj mode lat lon : 0 <= ni < 2 ^ 32 -> 0 <= nj < 2 ^ 32 -> 0 < ni * nj -> nj <= zlen lat -> ni <= zlen lon ->
  exists ps, Run (points_iter m (PLatLon (MkRegular lat lon (gpi_new ni nj mode)))) ps End /\ zlen ps = ni * nj.
Proof.
  intros Hi Hj Hp H1 H2. assert (W : 0 < row_len ni nj mode) by (unfold row_len; destruct (flag 3 mode); nia).
  eexists. split; [apply points_run, regular_run; assumption|]. unfold zlen. rewrite map_length, seq_length. lia.
Qed.

Lemma pred_U32 m n : 0 < n < 2 ^ 32 -> arith m U32 (n - 1) = Ret (n - 1).
Proof. intros H. apply arith_ok. unfold in_range. cbn. lia. Qed.

Lemma latlon_total m d r : 0 <= ll_ni d < 2 ^ 32 -> 0 <= ll_nj d < 2 ^ 32 -> 0 < ll_ni d * ll_nj d -> latlon_latlons m d = Ret (Ok r) ->
  points_size m (PLatLon r) = Ret (ll_ni d * ll_nj d) /\
  exists ps, Run (points_iter m (PLatLon r)) ps End /\ zlen ps = ll_ni d * ll_nj d.
Proof.
  intros Hi Hj Hp H. unfold latlon_latlons in H. eat H. destruct (negb _) in H; [discriminate|].
  unfold ij_of in H. destruct (has_unsupported_flags (ll_mode d)); [discriminate|].
  rewrite pred_U32 in H by nia. cbn [bind] in H. rewrite pred_U32 in H by nia. cbn [bind] in H.
  destruct (evenly_spaced_longitudes m (ll_lon1 d) (ll_lon2 d) (ll_ni d - 1) (ll_mode d)) as [lon| |] eqn:L; cbn [bind] in H; try discriminate.
  injection H as <-. apply longitudes_count in L; [|nia]. split; [apply new_size; assumption|].
  apply regular_total; try assumption; [|lia]. rewrite degrees_length by nia. lia.
Qed.

Lemma gaussian_total m lm d r : 0 <= ga_ni d < 2 ^ 32 -> 0 <= ga_nj d < 2 ^ 32 -> 0 < ga_ni d * ga_nj d -> gaussian_latlons m lm d = Ret (Ok r) ->
  points_size m (PLatLon r) = Ret (ga_ni d * ga_nj d) /\
  exists ps, Run (points_iter m (PLatLon r)) ps End /\ zlen ps = ga_ni d * ga_nj d.
Proof.
  intros Hi Hj Hp H. unfold gaussian_latlons in H. eat H. destruct (negb _) in H; [discriminate|].
  unfold ij_of in H. destruct (has_unsupported_flags (ga_mode d)); [discriminate|].
  unfold gaussian_degrees in H. destruct (compute_gaussian_latitudes m lm (ga_nj d)) as [ls| |] eqn:G; cbn [bind] in H; try discriminate.
  apply latitudes_length in G. pose proof (all_some_spec _ (map (option_map f64_to_degrees) ls)) as AS.
  destruct (all_some (map (option_map f64_to_degrees) ls)) as [l|]; [|discriminate]. apply (f_equal (@length _)) in AS. rewrite !map_length in AS.
  rewrite pred_U32 in H by nia. cbn [bind] in H.
  destruct (evenly_spaced_longitudes m (ga_lon1 d) (ga_lon2 d) (ga_ni d - 1) (ga_mode d)) as [lon| |] eqn:L; cbn [bind] in H; try discriminate.
  injection H as <-. apply longitudes_count in L; [|nia]. split; [apply new_size; assumption|].
  apply regular_total; try assumption; [|lia]. unfold zlen. rewrite map_length. destruct (scans_positively_for_j _); rewrite ?rev_length; lia.
Qed.

(** C34: the points. *)
Lemma latlons_total : forall m lm pl fuel p it, reaches p 10 -> sub_latlons m lm pl fuel p = Ret (Ok it) -> 0 < field p 7 10 ->
  exists ps, Run (points_iter m it) ps End /\ zlen ps = field p 7 10.
Proof.
  intros m lm pl fuel p it Hp H H0. unfold sub_latlons, read_u32 in H. rewrite (read_field 4 p 1 7 10) in H by (lia || assumption). cbn [bind] in H.
  destruct (grid_of_payload m p) as [[g|e]| |] eqn:Hg; cbn [bind] in H; try discriminate.
  destruct (grid_latlons m lm pl fuel g) as [[l|e]| |] eqn:Hl; cbn [bind] in H; try discriminate.
  destruct (points_size m l) as [n| |] eqn:E; cbn [bind] in H; try discriminate.
  destruct (field p 7 10 =? n) eqn:F; [|discriminate H]. injection H as <-. apply Z.eqb_eq in F. rewrite F in H0 |- *.
  pose proof (grid_dims m p g Hg) as D.
  assert (V : forall l', l = PVec l' -> exists ps, Run (points_iter m l) ps End /\ zlen ps = n).
  { intros l' ->. exists l'. split; [apply vec_run|]. cbn in E. congruence. }
  assert (Sz : forall r ni nj mode, l = PLatLon r -> rg_ij r = gpi_new ni nj mode -> 0 <= ni < 2 ^ 32 -> 0 <= nj < 2 ^ 32 -> ni * nj = n).
  { intros r ni nj mode -> R A B. cbn [points_size] in E. unfold regular_size in E. rewrite R, new_size in E by assumption. congruence. }
  destruct g as [d|d|d|d]; cbn [grid_latlons grid_shape fst snd] in Hl, D; destruct D as [D1 D2].
  - destruct (latlon_latlons m d) as [[r|]| |] eqn:K; cbn [bind] in Hl; try discriminate. injection Hl as <-.
    assert (N : ll_ni d * ll_nj d = n).
    { refine (Sz r (ll_ni d) (ll_nj d) (ll_mode d) eq_refl _ D1 D2). clear - K. unfold latlon_latlons in K. eat K. destruct (negb _) in K; [discriminate|].
      unfold ij_of in K. destruct (has_unsupported_flags (ll_mode d)); [discriminate|]. eat K. injection K as <-. reflexivity. }
    rewrite <- N. apply latlon_total; try assumption; lia.
  - destruct pl; [|discriminate]. destruct (polar_latlons _ _ _ _ _) as [[r|]| |]; cbn [bind] in Hl; try discriminate. injection Hl as <-. exact (V _ eq_refl).
  - destruct pl; [|discriminate]. destruct (lambert_latlons _ _ _ _ _) as [[r|]| |]; cbn [bind] in Hl; try discriminate. injection Hl as <-. exact (V _ eq_refl).
  - destruct (gaussian_latlons m lm d) as [[r|]| |] eqn:K; cbn [bind] in Hl; try discriminate. injection Hl as <-.
    assert (N : ga_ni d * ga_nj d = n).
    { refine (Sz r (ga_ni d) (ga_nj d) (ga_mode d) eq_refl _ D1 D2). clear - K. unfold gaussian_latlons in K. eat K. destruct (negb _) in K; [discriminate|].
      unfold ij_of in K. destruct (has_unsupported_flags (ga_mode d)); [discriminate|].
      destruct (gaussian_degrees m lm (ga_nj d)) as [[ls|]| |]; cbn [bind] in K; try discriminate. eat K. injection K as <-. reflexivity. }
    rewrite <- N. apply (gaussian_total m lm); try assumption; lia.
Qed.
