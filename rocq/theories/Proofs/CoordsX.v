(** Coordinates from the octets of section 3. *)
From Coq Require Import Lia ZifyBool ZifyNat Floats.SpecFloat.
From Verif Require Import Model.Base Model.Helpers Model.Errors Model.F32 Model.F64 Model.Grid Model.Gaussian Model.Proj.
From Verif Require Import Spec.ReaderS Spec.FloatS Spec.FieldsS Spec.GridS Spec.CoordsS Spec.GaussS Spec.ProjS.
From Verif Require Import Proofs.BaseLemmas Proofs.HelpersP Proofs.ReaderP Proofs.FieldsP Proofs.FieldsX Proofs.GridP Proofs.PointsP Proofs.LatlonX Proofs.GaussP Proofs.GridX Proofs.ProjX Proofs.ShapeX Proofs.RunX.
Ltac Zify.zify_post_hook ::= Z.div_mod_to_equations.

Section Sub.
  Context (m : mode) (lm : libm) (pl : option proj_lib) (fuel : nat) (p : list byte) (G : grid_complete p).

  Lemma parsed_0 : grid_template p = 0 -> grid_of_payload m p = Ret (Ok (Template0 (latlon_fields p))).
  Proof. intros T. destruct (grid_parsed m p (complete_reaches p G)) as (P0 & _). apply P0; [exact T|]. apply G. rewrite T. cbn. auto. Qed.
  Lemma parsed_40 : grid_template p = 40 -> grid_of_payload m p = Ret (Ok (Template40 (gaussian_fields p))).
  Proof. intros T. destruct (grid_parsed m p (complete_reaches p G)) as (_ & P0 & _). apply P0; [exact T|]. apply G. rewrite T. cbn. auto. Qed.
  Lemma parsed_20 : grid_template p = 20 -> grid_of_payload m p = Ret (Ok (Template20 (polar_fields p))).
  Proof. intros T. destruct (grid_parsed m p (complete_reaches p G)) as (_ & _ & P0 & _). apply P0; [exact T|]. destruct G as (_ & R & _). rewrite T in R. exact R. Qed.
  Lemma parsed_30 : grid_template p = 30 -> grid_of_payload m p = Ret (Ok (Template30 (lambert_fields p))).
  Proof. intros T. destruct (grid_parsed m p (complete_reaches p G)) as (_ & _ & _ & P0). apply P0; [exact T|]. destruct G as (_ & R & _). rewrite T in R. exact R. Qed.

  Lemma sub_eq g : grid_of_payload m p = Ret (Ok g) -> sub_latlons m lm pl fuel p =
    (try! l := grid_latlons m lm pl fuel g in
     let! num_decoded := points_size m l in
     if field p 7 10 =? num_decoded then Ret (Ok l) else Ret (Err InvalidValueError)).
  Proof.
    intros H. unfold sub_latlons, read_u32. rewrite (read_field 4 p 1 7 10) by (lia || (pose proof (complete_reaches p G); unfold reaches in *; lia)). cbn [bind].
    rewrite H. reflexivity.
  Qed.
End Sub.

Lemma field_u32 p a : 0 <= field p a (a + 3) < 2 ^ 32.
Proof. unfold field. replace (a + 3 - a + 1) with 4 by lia. pose proof (octets_be_range p (a - 6) 4 ltac:(lia)). lia. Qed.

Lemma latlon_octets : forall m lm pl fuel p, grid_complete p -> grid_template p = 0 ->
  let d := latlon_fields p in
  field p 7 10 = ll_ni d * ll_nj d -> 0 < field p 7 10 ->
  Z.abs (ll_lat1 d) <= 90000000 -> Z.abs (ll_lat2 d) <= 90000000 -> Z.abs (ll_lon1 d) <= 360000000 -> Z.abs (ll_lon2 d) <= 360000000 ->
  ~ low_flag (ll_mode d) ->
  if eqb (ll_lat1 d <? ll_lat2 d) (flag 2 (ll_mode d)) then
    exists it l, sub_latlons m lm pl fuel p = Ret (Ok it) /\ Run (points_iter m it) l End /\ zlen l = field p 7 10 /\
    forall k, 0 <= k < field p 7 10 -> exists lat lon,
      nth_error l (Z.to_nat k) = Some (lat, lon) /\
      let '(i, j) := scan_ij (ll_ni d) (ll_nj d) (ll_mode d) k in
      lat_any (ll_lat1 d) (ll_lat2 d) (ll_nj d) j lat /\
      lon_any (ll_lon1 d) (ll_lon2 d) (ll_ni d) (ll_mode d) i lon
  else sub_latlons m lm pl fuel p = Ret (Err InvalidValueError).
Proof.
  intros m lm pl fuel p G T d N N0 A B C D F. rewrite N in *.
  assert (R1 : 0 <= ll_ni d < 2 ^ 32) by apply (field_u32 p 31). assert (R2 : 0 <= ll_nj d < 2 ^ 32) by apply (field_u32 p 35).
  assert (L1 : 1 <= ll_ni d < 2 ^ 32) by nia. assert (L2 : 1 <= ll_nj d < 2 ^ 32) by nia.
  pose proof (latlon_points_any m d L1 L2 A B C D F) as H.
  rewrite (sub_eq m lm pl fuel p G _ (parsed_0 m p G T)). fold d. unfold grid_latlons.
  destruct (eqb _ _).
  - destruct H as (r & l & H & R & Z & K). rewrite H. cbn [bind]. destruct (latlon_total m d r R1 R2 N0 H) as (S & _). rewrite S. cbn [bind]. rewrite N, Z.eqb_refl.
    exists (PLatLon r), l. split; [reflexivity|]. split; [apply points_run; exact R|]. split; [exact Z|exact K].
  - rewrite H. reflexivity.
Qed.

Lemma gaussian_octets : forall m lm pl fuel p, grid_complete p -> grid_template p = 40 ->
  let d := gaussian_fields p in
  field p 7 10 = ga_ni d * ga_nj d -> 0 < field p 7 10 -> ga_nj d <= cube_limit ->
  Z.abs (ga_lat1 d) <= 90000000 -> Z.abs (ga_lat2 d) <= 90000000 -> Z.abs (ga_lon1 d) <= 360000000 -> Z.abs (ga_lon2 d) <= 360000000 ->
  ~ low_flag (ga_mode d) ->
  let step := newton_step (Z.to_nat (ga_nj d)) in
  let guess := first_guess lm (ga_nj d) in
  if eqb (ga_lat1 d <? ga_lat2 d) (flag 2 (ga_mode d)) then
    (exists it l, sub_latlons m lm pl fuel p = Ret (Ok it) /\ Run (points_iter m it) l End /\ zlen l = field p 7 10 /\
      forall k, 0 <= k < field p 7 10 -> exists x lon,
        let '(i, j) := scan_ij (ga_ni d) (ga_nj d) (ga_mode d) k in
        nth_error l (Z.to_nat k) = Some (f64_to_f32 (f64_to_degrees (asin lm x)), lon) /\
        root_found step (guess (gauss_row (ga_nj d) (ga_mode d) j)) x /\
        lon_any (ga_lon1 d) (ga_lon2 d) (ga_ni d) (ga_mode d) i lon) \/
    (sub_latlons m lm pl fuel p = Ret (Err Unknown) /\ exists j, 0 <= j < ga_nj d /\ root_missed step (guess j))
  else sub_latlons m lm pl fuel p = Ret (Err InvalidValueError).
Proof.
  intros m lm pl fuel p G T d N N0 Cu A B C D F step guess. rewrite N in *.
  assert (R1 : 0 <= ga_ni d < 2 ^ 32) by apply (field_u32 p 31). assert (R2 : 0 <= ga_nj d < 2 ^ 32) by apply (field_u32 p 35).
  assert (L1 : 1 <= ga_ni d < 2 ^ 32) by nia. assert (L2 : 1 <= ga_nj d <= cube_limit) by nia.
  pose proof (gaussian_points m lm d L1 L2 A B C D F) as H. cbv zeta in H. fold step in H. fold guess in H.
  rewrite (sub_eq m lm pl fuel p G _ (parsed_40 m p G T)). fold d. unfold grid_latlons.
  destruct (eqb _ _).
  - destruct H as [(r & l & H & R & Z & K)|(H & K)]; rewrite H; cbn [bind]; [left|right; split; [reflexivity|exact K]].
    destruct (gaussian_total m lm d r R1 R2 N0 H) as (S & _). rewrite S. cbn [bind]. rewrite N, Z.eqb_refl.
    exists (PLatLon r), l. split; [reflexivity|]. split; [apply points_run; exact R|]. split; [exact Z|exact K].
  - rewrite H. reflexivity.
Qed.

Lemma projected_octets : forall m lm fuel p, grid_complete p -> grid_template p = 20 \/ grid_template p = 30 ->
  sub_latlons m lm None fuel p = Ret (Err NotSupported) /\
  forall pl,
  let run := if grid_template p =? 20 then polar_latlons m lm pl fuel (polar_fields p) else lambert_latlons m lm pl fuel (lambert_fields p) in
  (forall e, run = Ret (Err e) -> sub_latlons m lm (Some pl) fuel p = Ret (Err e)) /\
  (forall l, run = Ret (Ok l) -> if zlen l =? field p 7 10 then exists it, sub_latlons m lm (Some pl) fuel p = Ret (Ok it) /\ Run (points_iter m it) l End
                                 else sub_latlons m lm (Some pl) fuel p = Ret (Err InvalidValueError)).
Proof.
  intros m lm fuel p G [T|T]; rewrite T; cbn [Z.eqb Pos.eqb].
  - split; [rewrite (sub_eq m lm None fuel p G _ (parsed_20 m p G T)); reflexivity|]. intros pl. cbv zeta. rewrite (sub_eq m lm (Some pl) fuel p G _ (parsed_20 m p G T)). unfold grid_latlons.
    split; [intros e ->; reflexivity|]. intros l ->. cbn [bind points_size]. rewrite (Z.eqb_sym (field p 7 10)). destruct (zlen l =? field p 7 10); [|reflexivity].
    exists (PVec l). split; [reflexivity|apply vec_run].
  - split; [rewrite (sub_eq m lm None fuel p G _ (parsed_30 m p G T)); reflexivity|]. intros pl. cbv zeta. rewrite (sub_eq m lm (Some pl) fuel p G _ (parsed_30 m p G T)). unfold grid_latlons.
    split; [intros e ->; reflexivity|]. intros l ->. cbn [bind points_size]. rewrite (Z.eqb_sym (field p 7 10)). destruct (zlen l =? field p 7 10); [|reflexivity].
    exists (PVec l). split; [reflexivity|apply vec_run].
Qed.

Lemma lambert_octets : forall m lm pl fuel p a b x0 y0 (ll : Z -> f64 * f64), grid_complete p -> grid_template p = 30 ->
  let d := lambert_fields p in let n := la_ni d * la_nj d in
  field p 7 10 = n -> 0 < n < Z.of_nat fuel ->
  radii lm (la_earth d) = Some (a, b) -> ~ low_flag (la_mode d) ->
  let def := Lcc a b (micro (la_lad d)) (micro (la_lov d)) (micro (la_latin1 d)) (micro (la_latin2 d)) in
  pointwise pl def ->
  project pl def (f64_to_radians (micro (la_lon1 d)), f64_to_radians (micro (la_lat1 d))) false = Some (x0, y0) ->
  (forall k, 0 <= k < n ->
    project pl def (plane x0 y0 (grid_step (negb (flag 1 (la_mode d))) (la_dx d)) (grid_step (flag 2 (la_mode d)) (la_dy d))
      (scan_ij (la_ni d) (la_nj d) (la_mode d) k)) true = Some (ll k)) ->
  exists it l, sub_latlons m lm (Some pl) fuel p = Ret (Ok it) /\ Run (points_iter m it) l End /\ zlen l = n /\
    forall k, 0 <= k < n -> nth_error l (Z.to_nat k) = Some (in_degrees (ll k)).
Proof.
  intros m lm pl fuel p a b x0 y0 ll G T d n N Hn Hr Hf def Pw P0 Pk. subst n.
  assert (R1 : 0 <= la_ni d < 2 ^ 32) by apply (field_u32 p 31). assert (R2 : 0 <= la_nj d < 2 ^ 32) by apply (field_u32 p 35).
  assert (R3 : 0 <= la_dx d < 2 ^ 32) by apply (field_u32 p 56). assert (R4 : 0 <= la_dy d < 2 ^ 32) by apply (field_u32 p 60).
  destruct (lambert_points m lm pl fuel d a b x0 y0 ll R1 R2) as (l & H & Z & K); try assumption; [unfold row_len; destruct (flag 3 (la_mode d)); nia|lia|].
  destruct (projected_octets m lm fuel p G (or_intror T)) as (_ & S). specialize (S pl). cbv zeta in S. rewrite T in S. cbn [Z.eqb Pos.eqb] in S. destruct S as (_ & S). specialize (S l H).
  rewrite Z, N, Z.eqb_refl in S. destruct S as (it & E & R). exists it, l. auto.
Qed.
Lemma polar_octets : forall m lm pl fuel p a b x0 y0 (ll : Z -> f64 * f64), grid_complete p -> grid_template p = 20 ->
  let d := polar_fields p in let n := po_ni d * po_nj d in
  field p 7 10 = n -> 0 < n < Z.of_nat fuel ->
  radii lm (po_earth d) = Some (a, b) -> ~ low_flag (po_mode d) -> po_centre d = 0 \/ po_centre d = 128 ->
  let def := Stere a b (micro (po_lad d)) (f64_of_Z (if po_centre d =? 0 then 90 else -90)) (micro (po_lov d)) in
  pointwise pl def ->
  project pl def (f64_to_radians (micro (po_lon1 d)), f64_to_radians (micro (po_lat1 d))) false = Some (x0, y0) ->
  (forall k, 0 <= k < n ->
    project pl def (plane x0 y0 (grid_step (negb (flag 1 (po_mode d))) (po_dx d)) (grid_step (flag 2 (po_mode d)) (po_dy d))
      (scan_ij (po_ni d) (po_nj d) (po_mode d) k)) true = Some (ll k)) ->
  exists it l, sub_latlons m lm (Some pl) fuel p = Ret (Ok it) /\ Run (points_iter m it) l End /\ zlen l = n /\
    forall k, 0 <= k < n -> nth_error l (Z.to_nat k) = Some (in_degrees (ll k)).
Proof.
  intros m lm pl fuel p a b x0 y0 ll G T d n N Hn Hr Hf Hc def Pw P0 Pk. subst n.
  assert (R1 : 0 <= po_ni d < 2 ^ 32) by apply (field_u32 p 31). assert (R2 : 0 <= po_nj d < 2 ^ 32) by apply (field_u32 p 35).
  assert (R3 : 0 <= po_dx d < 2 ^ 32) by apply (field_u32 p 56). assert (R4 : 0 <= po_dy d < 2 ^ 32) by apply (field_u32 p 60).
  destruct (polar_points m lm pl fuel d a b x0 y0 ll R1 R2) as (l & H & Z & K); try assumption; [unfold row_len; destruct (flag 3 (po_mode d)); nia|lia|].
  destruct (projected_octets m lm fuel p G (or_introl T)) as (_ & S). specialize (S pl). cbv zeta in S. rewrite T in S. cbn [Z.eqb Pos.eqb] in S. destruct S as (_ & S). specialize (S l H).
  rewrite Z, N, Z.eqb_refl in S. destruct S as (it & E & R). exists it, l. auto.
Qed.

(** Without the projection library. *)
Lemma no_library : forall m lm fuel p, grid_complete p ->
  (grid_template p = 20 \/ grid_template p = 30 -> sub_latlons m lm None fuel p = Ret (Err NotSupported)) /\
  (grid_template p = 0 \/ grid_template p = 40 -> forall pl, sub_latlons m lm pl fuel p = sub_latlons m lm None fuel p).
Proof.
  intros m lm fuel p G. split; [intros H; apply (projected_octets m lm fuel p G H)|]. intros [T|T] pl.
  - rewrite !(sub_eq m lm _ fuel p G _ (parsed_0 m p G T)). destruct pl; reflexivity.
  - rewrite !(sub_eq m lm _ fuel p G _ (parsed_40 m p G T)). destruct pl; reflexivity.
Qed.
