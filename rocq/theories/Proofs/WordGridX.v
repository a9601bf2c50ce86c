(** C84: grid points where [usize] has 32 bits. *)
From Coq Require Import Lia ZifyBool ZifyNat.
From Verif Require Import Model.Base Model.Helpers Model.Errors Model.F32 Model.F64 Model.Grid Model.Gaussian Model.Proj Model.WordGrid.
From Verif Require Import Spec.Bits Spec.GridS Spec.FieldsS Spec.WordS Proofs.BaseLemmas Proofs.NearP Proofs.WordX Proofs.ReaderP Proofs.FieldsP Proofs.FieldsX Proofs.GridP Proofs.PointsP.
Ltac Zify.zify_post_hook ::= Z.div_mod_to_equations.

Definition gp_ok (g : gpi) : Prop := 0 <= minor_pos g < minor_len g /\ minor_len g < 2 ^ 32 /\ 0 <= major_pos g <= major_len g /\ major_len g < 2 ^ 32.
Lemma gpi_same m g : gp_ok g -> wgpi_next U32 m g = gpi_next m g.
Proof.
  destruct g as [mj mn md mjp mnp inc]. intros (A & B & C & D). cbn [minor_pos minor_len major_pos major_len] in *. unfold wgpi_next, gpi_next. cbn [minor_pos minor_len major_pos major_len increments gmode].
  destruct (Z.eqb_spec mjp mj) as [->|Ne]; [reflexivity|].
  rewrite (arith32 m (mnp + 1)) by lia. rewrite (arith_U64_ok m (mnp + 1)) by lia. rewrite (arith32 m (mjp + 1)) by lia. rewrite (arith_U64_ok m (mjp + 1)) by lia.
  rewrite (arith32 m (mn - mnp)) by lia. rewrite (arith_U64_ok m (mn - mnp)) by lia. cbn [bind]. rewrite (arith32 m (mn - mnp - 1)) by lia. rewrite (arith_U64_ok m (mn - mnp - 1)) by lia. reflexivity.
Qed.
Lemma gpi_keeps m g o g' : gp_ok g -> gpi_next m g = Ret (o, g') -> gp_ok g'.
Proof.
  destruct g as [mj mn md mjp mnp inc]. intros (A & B & C & D) H. cbn [minor_pos minor_len major_pos major_len] in *. unfold gpi_next in H. cbn [minor_pos minor_len major_pos major_len increments gmode] in H.
  destruct (Z.eqb_spec mjp mj) as [->|Ne]; [injection H as <- <-; repeat split; cbn; lia|].
  destruct (if inc then _ else _) as [mi| |] in H; cbn [bind] in H; try discriminate. rewrite (arith_U64_ok m (mnp + 1)) in H by lia. cbn [bind] in H.
  destruct (Z.eqb_spec (mnp + 1) mn) as [E|E].
  - rewrite (arith_U64_ok m (mjp + 1)) in H by lia. cbn [bind] in H. injection H as <- <-. repeat split; cbn [minor_pos minor_len major_pos major_len]; lia.
  - cbn [bind] in H. injection H as <- <-. repeat split; cbn [minor_pos minor_len major_pos major_len]; lia.
Qed.
Lemma near_gpi m g : gp_ok g -> near True (fun _ => True) (gpi_iter m g) (wgpi_iter U32 m g).
Proof.
  intros H. exists gpi, gp_ok, g, (gpi_next m), (wgpi_next U32 m). split; [reflexivity|]. split; [reflexivity|]. split; [exact H|].
  intros x Hx. rewrite gpi_same by exact Hx. destruct (gpi_next m x) as [[o x']| |] eqn:E; auto. split; [reflexivity|]. split; [eapply gpi_keeps; eassumption|auto].
Qed.
Lemma new_gp ni nj md : 0 < ni < 2 ^ 32 -> 0 < nj < 2 ^ 32 -> gp_ok (gpi_new ni nj md).
Proof. intros A B. unfold gpi_new. destruct (is_consecutive_for_i md); repeat split; cbn [minor_pos minor_len major_pos major_len]; lia. Qed.
Definition po_ok (p : points) : Prop := match p with PLatLon r => gp_ok (rg_ij r) | PVec _ => True end.
Lemma near_points m p : po_ok p -> near True (fun _ => True) (points_iter m p) (wpoints_iter U32 m p).
Proof.
  intros H. exists points, po_ok, p, (points_next m), (wpoints_next U32 m). split; [reflexivity|]. split; [reflexivity|]. split; [exact H|].
  intros [[lat lon ij]|[|a l]] Hx; [|cbn; repeat split|cbn; repeat split]. cbn [po_ok rg_ij] in Hx. cbn [points_next wpoints_next]. unfold wregular_next, regular_next. cbn [rg_ij rg_lat rg_lon]. rewrite gpi_same by exact Hx.
  destruct (gpi_next m ij) as [[o x']| |] eqn:E; cbn [bind]; auto. pose proof (gpi_keeps m ij o x' Hx E) as K. destruct o as [[i j]|]; cbn [bind].
  - destruct (index lat j) as [la| |]; cbn [bind]; auto. destruct (index lon i) as [lo| |]; cbn [bind]; auto.
  - split; [reflexivity|split; [exact K|auto]].
Qed.
Lemma size_same m ni nj md : 0 <= ni < 2 ^ 32 -> 0 <= nj < 2 ^ 32 -> ni * nj < 2 ^ 32 -> wgpi_size U32 m (gpi_new ni nj md) = Ret (ni * nj).
Proof.
  intros A B C. unfold wgpi_size, gpi_new. destruct (is_consecutive_for_i md); cbn [major_len major_pos minor_len minor_pos].
  - rewrite (arith32 m (nj - 0)) by lia. cbn [bind]. rewrite (arith32 m ((nj - 0) * ni)) by nia. cbn [bind]. rewrite arith32 by nia. f_equal. lia.
  - rewrite (arith32 m (ni - 0)) by lia. cbn [bind]. rewrite (arith32 m ((ni - 0) * nj)) by nia. cbn [bind]. rewrite arith32 by nia. f_equal. lia.
Qed.
Lemma size_big m ni nj md : 0 <= ni < 2 ^ 32 -> 0 <= nj < 2 ^ 32 -> 2 ^ 32 <= ni * nj ->
  wgpi_size U32 m (gpi_new ni nj md) = match m with Checked => Panic | Wrapping => Ret ((ni * nj) mod 2 ^ 32) end.
Proof.
  intros A B C. assert (X : forall a b, a * b = ni * nj -> 0 <= a < 2 ^ 32 -> 
    (let! x := arith m U32 (a - 0) in let! y := arith m U32 (x * b) in arith m U32 (y - 0)) = match m with Checked => Panic | Wrapping => Ret ((ni * nj) mod 2 ^ 32) end).
  { intros a b E Ha. rewrite (arith32 m (a - 0)) by lia. cbn [bind]. replace ((a - 0) * b) with (ni * nj) by lia.
    unfold arith at 1. replace (in_range U32 (ni * nj)) with false by (unfold in_range; change (max_of U32) with (2 ^ 32 - 1); lia). destruct m; [reflexivity|]. cbn [bind].
    unfold wrap. cbn [is_signed andb]. change (bits_of U32) with 32. rewrite arith32 by lia. f_equal. lia. }
  unfold wgpi_size, gpi_new. destruct (is_consecutive_for_i md); cbn [major_len major_pos minor_len minor_pos]; apply X; lia.
Qed.

(** ** Index pairs *)
Theorem ij_same m p g : grid_of_payload m p = Ret (Ok g) -> fst (grid_shape g) * snd (grid_shape g) < 2 ^ 32 -> wsub_ij U32 m p = sub_ij m p.
Proof.
  intros E H. pose proof (grid_dims m p g E) as (A & B). unfold wsub_ij, sub_ij. destruct (read_u32 p 1) as [n| |]; cbn [bind]; [|reflexivity|reflexivity]. rewrite E. cbn [bind].
  unfold grid_ij. destruct (grid_shape g) as [ni nj]. cbn [fst snd] in *. unfold ij_of. destruct (has_unsupported_flags _); [reflexivity|]. rewrite size_same, new_size by assumption. reflexivity.
Qed.
Theorem ij_same_err m p : (forall g, grid_of_payload m p <> Ret (Ok g)) -> wsub_ij U32 m p = sub_ij m p.
Proof. intros E. unfold wsub_ij, sub_ij. destruct (read_u32 p 1) as [n| |]; cbn [bind]; [|reflexivity|reflexivity]. destruct (grid_of_payload m p) as [[g|e]| |]; [exfalso; eapply E; reflexivity|reflexivity|reflexivity|reflexivity]. Qed.
Theorem ij_run m ni nj md l e : 0 < ni < 2 ^ 32 -> 0 < nj < 2 ^ 32 -> Run (gpi_iter m (gpi_new ni nj md)) l e -> Run (wgpi_iter U32 m (gpi_new ni nj md)) l e.
Proof. intros A B R. eapply near_run; [exact R|apply near_gpi, new_gp; assumption|auto]. Qed.
Theorem ij_big m p g : reaches p 10 -> grid_of_payload m p = Ret (Ok g) -> ~ low_flag (grid_mode g) -> let '(ni, nj) := grid_shape g in 2 ^ 32 <= ni * nj ->
  wsub_ij U32 m p = match m with
    | Checked => Panic
    | Wrapping => if field p 7 10 =? (ni * nj) mod 2 ^ 32 then Ret (Ok (gpi_new ni nj (grid_mode g))) else Ret (Err InvalidValueError)
    end.
Proof.
  intros Hp E HF. pose proof (grid_dims m p g E) as (A & B). unfold wsub_ij, grid_ij, read_u32. rewrite (read_field 4 p 1 7 10) by (lia || assumption). cbn [bind]. rewrite E. cbn [bind].
  destruct (grid_shape g) as [ni nj]. cbn [fst snd] in *. intros H. rewrite supported_flag by exact HF. rewrite size_big by assumption. destruct m; reflexivity.
Qed.

(** ** Coordinates *)
Lemma roots_same m lm n : 0 <= n <= 812 -> wlegendre_roots U32 m lm n = legendre_roots m lm n.
Proof.
  intros H. unfold wlegendre_roots, legendre_roots. assert (8 * n * n <= 8 * 812 * 812) by nia. assert (8 * n * n * n <= 8 * 812 * 812 * 812) by nia.
  rewrite (arith32 m (8 * n)) by lia. rewrite (arith_U64_ok m (8 * n)) by lia. cbn [bind].
  rewrite (arith32 m (8 * n * n)) by nia. rewrite (arith_U64_ok m (8 * n * n)) by nia. cbn [bind].
  rewrite (arith32 m (8 * n * n * n)) by nia. rewrite (arith_U64_ok m (8 * n * n * n)) by nia. reflexivity.
Qed.
Lemma gauss_same m lm d : 0 <= ga_nj d <= 812 -> wgaussian_latlons U32 m lm d = gaussian_latlons m lm d.
Proof.
  intros H. unfold wgaussian_latlons, gaussian_latlons. destruct (is_consistent_for_j _ _ _ _) as [c| |]; cbn [bind]; [|reflexivity|reflexivity]. destruct (negb c); [reflexivity|].
  destruct (ij_of _ _ _); [|reflexivity]. unfold wgaussian_degrees, gaussian_degrees, compute_gaussian_latitudes. rewrite roots_same by exact H. destruct (legendre_roots m lm _); reflexivity.
Qed.
Lemma collect_same m fuel ni nj md : 0 < ni < 2 ^ 32 -> 0 < nj < 2 ^ 32 -> collect fuel (wgpi_iter U32 m (gpi_new ni nj md)) = all_ij m fuel (gpi_new ni nj md).
Proof.
  intros A B. unfold all_ij. pose proof (near_collect _ _ _ fuel _ _ (near_gpi m _ (new_gp ni nj md A B))) as X.
  destruct (collect fuel (gpi_iter m _)) as [l| |]; [exact X|exact (X I)|exact (X I)].
Qed.
Lemma grid_same m lm pl fuel g : 0 < fst (grid_shape g) < 2 ^ 32 -> 0 < snd (grid_shape g) < 2 ^ 32 -> (forall d, g = Template40 d -> ga_nj d <= 812) ->
  wgrid_latlons U32 m lm pl fuel g = grid_latlons m lm pl fuel g.
Proof.
  intros A B C. destruct g as [d|d|d|d]; cbn [grid_shape fst snd] in A, B; unfold wgrid_latlons, grid_latlons.
  - reflexivity.
  - destruct pl as [pl|]; [|reflexivity]. unfold wpolar_latlons, polar_latlons. destruct (radii _ _) as [[a b]|]; [|reflexivity]. destruct (centre_has_unsupported_flags _); [reflexivity|].
    unfold ij_of. destruct (has_unsupported_flags _); [reflexivity|]. rewrite collect_same by assumption. reflexivity.
  - destruct pl as [pl|]; [|reflexivity]. unfold wlambert_latlons, lambert_latlons. destruct (radii _ _) as [[a b]|]; [|reflexivity].
    unfold ij_of. destruct (has_unsupported_flags _); [reflexivity|]. rewrite collect_same by assumption. reflexivity.
  - specialize (C d eq_refl). rewrite gauss_same by lia. reflexivity.
Qed.
Lemma grid_points_of m lm pl fuel g r : grid_latlons m lm pl fuel g = Ret (Ok (PLatLon r)) -> rg_ij r = gpi_new (fst (grid_shape g)) (snd (grid_shape g)) (grid_mode g).
Proof.
  unfold grid_latlons. destruct g as [d|d|d|d]; cbn [grid_shape grid_mode fst snd].
  - unfold latlon_latlons, ij_of. destruct (is_consistent_for_j _ _ _ _) as [c| |]; cbn [bind]; try discriminate. destruct (negb c); [discriminate|]. destruct (has_unsupported_flags _); [discriminate|].
    destruct (arith m U32 (ll_nj d - 1)) as [a| |]; cbn [bind]; try discriminate. destruct (arith m U32 (ll_ni d - 1)) as [b| |]; cbn [bind]; try discriminate. destruct (evenly_spaced_longitudes _ _ _ _ _) as [l| |]; cbn [bind]; try discriminate. intros [= <-]. reflexivity.
  - destruct pl; [|discriminate]. destruct (polar_latlons _ _ _ _ _) as [[l|e]| |]; cbn [bind]; discriminate.
  - destruct pl; [|discriminate]. destruct (lambert_latlons _ _ _ _ _) as [[l|e]| |]; cbn [bind]; discriminate.
  - unfold gaussian_latlons, ij_of. destruct (is_consistent_for_j _ _ _ _) as [c| |]; cbn [bind]; try discriminate. destruct (negb c); [discriminate|]. destruct (has_unsupported_flags _); [discriminate|].
    destruct (gaussian_degrees _ _ _) as [[a|]| |]; cbn [bind]; try discriminate. destruct (arith m U32 (ga_ni d - 1)) as [b| |]; cbn [bind]; try discriminate. destruct (evenly_spaced_longitudes _ _ _ _ _) as [l| |]; cbn [bind]; try discriminate. intros [= <-]. reflexivity.
Qed.
Theorem latlons_same m lm pl fuel p g : grid_of_payload m p = Ret (Ok g) -> let '(ni, nj) := grid_shape g in
  0 < ni -> 0 < nj -> ni * nj < 2 ^ 32 -> (forall d, g = Template40 d -> nj <= 812) ->
  wsub_latlons U32 m lm pl fuel p = sub_latlons m lm pl fuel p /\
  (forall it l e, sub_latlons m lm pl fuel p = Ret (Ok it) -> Run (points_iter m it) l e -> Run (wpoints_iter U32 m it) l e).
Proof.
  intros E. pose proof (grid_dims m p g E) as (A & B). pose proof (grid_same m lm pl fuel g) as GS. pose proof (fun r => grid_points_of m lm pl fuel g r) as GP. 
  assert (GN : forall d, g = Template40 d -> snd (grid_shape g) = ga_nj d) by (intros d ->; reflexivity).
  destruct (grid_shape g) as [ni nj] eqn:Eg. cbn [fst snd] in *. intros Hi Hj Hp HG.
  specialize (GS ltac:(lia) ltac:(lia) ltac:(intros d Ed; rewrite <- (GN d Ed); exact (HG d Ed))).
  unfold wsub_latlons, sub_latlons. destruct (read_u32 p 1) as [n| |]; cbn [bind]; [|split; [reflexivity|discriminate]|split; [reflexivity|discriminate]]. rewrite E. cbn [bind]. rewrite GS.
  destruct (grid_latlons m lm pl fuel g) as [[pt|e]| |] eqn:EL; cbn [bind]; [|split; [reflexivity|discriminate]|split; [reflexivity|discriminate]|split; [reflexivity|discriminate]].
  assert (SZ : wpoints_size U32 m pt = points_size m pt). { destruct pt as [r|l]; [|reflexivity]. cbn [wpoints_size points_size]. unfold regular_size. rewrite (GP r eq_refl), size_same, new_size by (assumption || lia). reflexivity. }
  rewrite SZ. split; [reflexivity|]. intros it l e H R. destruct (points_size m pt) as [k| |]; cbn [bind] in H; try discriminate. destruct (n =? k); [|discriminate]. injection H as <-.
  eapply near_run; [exact R|apply near_points|auto]. destruct pt as [r|]; cbn [po_ok]; [|exact I]. rewrite (GP r eq_refl). apply new_gp; lia.
Qed.

(** ** Many rows *)
Lemma over32 z : 2 ^ 32 <= z -> arith Checked U32 z = Panic.
Proof. intros H. unfold arith. replace (in_range U32 z) with false by (unfold in_range; change (max_of U32) with (2 ^ 32 - 1); lia). reflexivity. Qed.
Lemma roots_panic lm n : 813 <= n -> wlegendre_roots U32 Checked lm n = Panic.
Proof.
  intros H. unfold wlegendre_roots. destruct (Z.ltb_spec (8 * n) (2 ^ 32)) as [L1|G1]; [|rewrite over32 by lia; reflexivity]. rewrite (arith32 Checked (8 * n)) by lia. cbn [bind].
  destruct (Z.ltb_spec (8 * n * n) (2 ^ 32)) as [L2|G2]; [|rewrite over32 by lia; reflexivity]. rewrite (arith32 Checked (8 * n * n)) by nia. cbn [bind].
  assert (8 * 813 * 813 <= 8 * n * n) by nia. rewrite over32; [reflexivity|nia].
Qed.
Theorem gauss_panic lm pl fuel p d it : grid_of_payload Checked p = Ret (Ok (Template40 d)) -> 813 <= ga_nj d -> sub_latlons Checked lm pl fuel p = Ret (Ok it) -> wsub_latlons U32 Checked lm pl fuel p = Panic.
Proof.
  intros E H S. unfold sub_latlons in S. unfold wsub_latlons. destruct (read_u32 p 1) as [n| |]; cbn [bind] in S |- *; try discriminate. rewrite E in *. cbn [bind] in S |- *. unfold grid_latlons in S. unfold wgrid_latlons.
  unfold gaussian_latlons in S. unfold wgaussian_latlons. destruct (is_consistent_for_j _ _ _ _) as [c| |]; cbn [bind] in S |- *; try discriminate. destruct (negb c); [discriminate|]. destruct (ij_of _ _ _); [|discriminate].
  unfold wgaussian_degrees. rewrite roots_panic by exact H. reflexivity.
Qed.
Lemma bad_guess x : x = SpecFloat.S754_infinity false \/ x = SpecFloat.S754_infinity true \/ x = SpecFloat.S754_nan -> find_root x (legendre_step f64_ops 1024) = None.
Proof. intros [->|[->| ->]]; vm_compute; reflexivity. Qed.
Lemma infinite_times y : let x := f64_mul (SpecFloat.S754_infinity false) y in x = SpecFloat.S754_infinity false \/ x = SpecFloat.S754_infinity true \/ x = SpecFloat.S754_nan.
Proof. destruct y as [s|s| |s mm e]; cbn; auto; destruct s; cbn; auto. Qed.
Lemma roots_1024 lm : wlegendre_roots U32 Wrapping lm 1024 = Ret (repeat None 1024).
Proof.
  unfold wlegendre_roots. change (arith Wrapping U32 (8 * 1024)) with (@Ret Z 8192). cbn [bind]. change (arith Wrapping U32 (8192 * 1024)) with (@Ret Z 8388608). cbn [bind].
  change (arith Wrapping U32 (8388608 * 1024)) with (@Ret Z 0). cbn [bind]. cbv zeta.
  change (f64_add (f64_sub (f64_of_Z 1) (f64_div (f64_of_Z 1) (f64_of_Z 8388608))) (f64_div (f64_of_Z 1) (f64_of_Z 0))) with (SpecFloat.S754_infinity false).
  f_equal. change (Z.to_nat 1024) with 1024%nat. rewrite <- (seq_length 1024 0) at 2. generalize (seq 0 1024) as l. induction l as [|i l IH]; [reflexivity|]. cbn [map length repeat].
  rewrite IH. f_equal. apply bad_guess. unfold legendre_guess. apply infinite_times.
Qed.
Theorem gauss_1024 lm pl fuel p d it : grid_of_payload Wrapping p = Ret (Ok (Template40 d)) -> ga_nj d = 1024 -> sub_latlons Wrapping lm pl fuel p = Ret (Ok it) -> wsub_latlons U32 Wrapping lm pl fuel p = Ret (Err Unknown).
Proof.
  intros E H S. unfold sub_latlons in S. unfold wsub_latlons. destruct (read_u32 p 1) as [n| |]; cbn [bind] in S |- *; try discriminate. rewrite E in *. cbn [bind] in S |- *. unfold grid_latlons in S. unfold wgrid_latlons.
  unfold gaussian_latlons in S. unfold wgaussian_latlons. destruct (is_consistent_for_j _ _ _ _) as [c| |]; cbn [bind] in S |- *; try discriminate. destruct (negb c); [discriminate|]. destruct (ij_of _ _ _); [|discriminate].
  unfold wgaussian_degrees. rewrite H, roots_1024. reflexivity.
Qed.

(** With a constant in the place of the cosine all roots are the same. *)
Lemma const_roots m lm k r : (forall x, cos lm x = k) -> let c := f64_add (f64_sub (f64_of_Z 1) (f64_div (f64_of_Z 1) (f64_of_Z (8 * 1024 * 1024)))) (f64_div (f64_of_Z 1) (f64_of_Z (8 * 1024 * 1024 * 1024))) in
  find_root (f64_mul c k) (legendre_step f64_ops 1024) = Some r -> legendre_roots m lm 1024 = Ret (repeat (Some r) 1024).
Proof.
  intros Hk c Hr. unfold legendre_roots. rewrite (arith_U64_ok m (8 * 1024)) by lia. cbn [bind]. rewrite (arith_U64_ok m (8 * 1024 * 1024)) by lia. cbn [bind].
  rewrite (arith_U64_ok m (8 * 1024 * 1024 * 1024)) by lia. cbn [bind]. cbv zeta. fold c. clearbody c. f_equal. change (Z.to_nat 1024) with 1024%nat. rewrite <- (seq_length 1024 0) at 2. generalize (seq 0 1024) as l.
  induction l as [|i l IH]; [reflexivity|]. cbn [map length repeat]. rewrite IH. f_equal. unfold legendre_guess. rewrite Hk. exact Hr.
Qed.
Lemma all_some_repeat {A} (x : A) n : all_some (repeat (Some x) n) = Some (repeat x n).
Proof. induction n as [|n IH]; [reflexivity|]. cbn [repeat all_some]. rewrite IH. reflexivity. Qed.
Lemma map_rep {A B} (f : A -> B) x n : map f (repeat x n) = repeat (f x) n.
Proof. induction n as [|n IH]; [reflexivity|]. cbn [repeat map]. rewrite IH. reflexivity. Qed.
Lemma const_latlons m lm pl fuel p d r n lon : grid_of_payload m p = Ret (Ok (Template40 d)) -> legendre_roots m lm 1024 = Ret (repeat (Some r) 1024) -> ga_nj d = 1024 ->
  is_consistent_for_j m (ga_lat1 d) (ga_lat2 d) (ga_mode d) = Ret true -> has_unsupported_flags (ga_mode d) = false -> read_u32 p 1 = Ret n -> n = ga_ni d * 1024 -> 1 <= ga_ni d < 2 ^ 32 ->
  evenly_spaced_longitudes m (ga_lon1 d) (ga_lon2 d) (ga_ni d - 1) (ga_mode d) = Ret lon ->
  exists it, sub_latlons m lm pl fuel p = Ret (Ok it).
Proof.
  intros E R N C F Rn Hn Hi L. unfold sub_latlons. rewrite Rn. cbn [bind]. rewrite E. cbn [bind]. unfold grid_latlons, gaussian_latlons. rewrite C. cbn [bind negb]. unfold ij_of. rewrite F.
  unfold gaussian_degrees, compute_gaussian_latitudes. rewrite N, R. cbn [bind]. rewrite !map_rep. cbn [option_map]. rewrite all_some_repeat. cbn [bind].
  rewrite (arith32 m (ga_ni d - 1)) by lia. cbn [bind]. rewrite L. cbn [bind]. unfold points_size, regular_size. cbn [rg_ij]. rewrite new_size by lia. cbn [bind]. replace (n =? ga_ni d * 1024) with true by lia. eauto.
Qed.

(** The model with a parameter for [usize] is the model of 64 bits where that is U64. *)
Lemma degrees_words m lm n : wgaussian_degrees U64 m lm n = gaussian_degrees m lm n.
Proof. unfold wgaussian_degrees, gaussian_degrees, compute_gaussian_latitudes. change (wlegendre_roots U64 m lm n) with (legendre_roots m lm n). destruct (legendre_roots m lm n); reflexivity. Qed.
Lemma gaussian_words m lm d : wgaussian_latlons U64 m lm d = gaussian_latlons m lm d.
Proof. unfold wgaussian_latlons, gaussian_latlons. rewrite degrees_words. reflexivity. Qed.
Lemma latlons_words m lm pl fuel p : wsub_latlons U64 m lm pl fuel p = sub_latlons m lm pl fuel p.
Proof.
  assert (G : forall g, wgrid_latlons U64 m lm pl fuel g = grid_latlons m lm pl fuel g) by (intros [d|d|d|d]; unfold wgrid_latlons, grid_latlons; try rewrite gaussian_words; destruct pl; reflexivity).
  unfold wsub_latlons, sub_latlons. destruct (read_u32 p 1); cbn [bind]; try reflexivity. destruct (grid_of_payload m p) as [[g|]| |]; cbn; try reflexivity. rewrite G. reflexivity.
Qed.
