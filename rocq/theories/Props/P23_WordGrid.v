(** Property theorems C84: grid points on targets whose [usize] has 32 bits. *)
From Coq Require Import Lia.
From Verif Require Import Model.Base Model.Errors Model.F32 Model.F64 Model.Grid Model.Gaussian Model.Proj Model.WordGrid.
From Verif Require Import Spec.Bits Spec.FieldsS Spec.GridS.
From Verif Require Proofs.WordGridX Props.P09_Grid.

(** C84: ij() gives the same where [usize] has 32 bits if rows and columns multiply to less than
    2^32 - so whenever it succeeds with 64 bits - and for grids that are not understood. *)
Theorem C84_ij : forall m p,
  (forall g, grid_of_payload m p = Ret (Ok g) -> fst (grid_shape g) * snd (grid_shape g) < 2 ^ 32 -> wsub_ij U32 m p = sub_ij m p) /\
  ((forall g, grid_of_payload m p <> Ret (Ok g)) -> wsub_ij U32 m p = sub_ij m p).
Proof. intros m p. split; [apply WordGridX.ij_same|apply WordGridX.ij_same_err]. Qed.
Print Assumptions C84_ij.
(** C84: and its iterator yields the same pairs. *)
Theorem C84_pairs : forall m ni nj md l e, 0 < ni < 2 ^ 32 -> 0 < nj < 2 ^ 32 -> Run (gpi_iter m (gpi_new ni nj md)) l e -> Run (wgpi_iter U32 m (gpi_new ni nj md)) l e.
Proof. exact WordGridX.ij_run. Qed.
Print Assumptions C84_pairs.
(** C84: latlons() gives the same, and its iterator yields the same coordinates, if the grid has points,
    less than 2^32, and - for a Gaussian grid - at most 812 rows. *)
Theorem C84_latlons : forall m lm pl fuel p g, grid_of_payload m p = Ret (Ok g) -> let '(ni, nj) := grid_shape g in
  0 < ni -> 0 < nj -> ni * nj < 2 ^ 32 -> (forall d, g = Template40 d -> nj <= 812) ->
  wsub_latlons U32 m lm pl fuel p = sub_latlons m lm pl fuel p /\
  (forall it l e, sub_latlons m lm pl fuel p = Ret (Ok it) -> Run (points_iter m it) l e -> Run (wpoints_iter U32 m it) l e).
Proof. exact WordGridX.latlons_same. Qed.
Print Assumptions C84_latlons.
(** C84, finding: for more points ij() panics where overflow is checked, and otherwise compares the
    number of points with what is left of the product. *)
Theorem C84_big : forall m p g, reaches p 10 -> grid_of_payload m p = Ret (Ok g) -> ~ low_flag (grid_mode g) -> let '(ni, nj) := grid_shape g in 2 ^ 32 <= ni * nj ->
  wsub_ij U32 m p = match m with
    | Checked => Panic
    | Wrapping => if field p 7 10 =? (ni * nj) mod 2 ^ 32 then Ret (Ok (gpi_new ni nj (grid_mode g))) else Ret (Err InvalidValueError)
    end.
Proof. exact WordGridX.ij_big. Qed.
Print Assumptions C84_big.
(** C84, finding: latlons() of a Gaussian grid of 813 rows or more panics where overflow is checked. *)
Theorem C84_rows : forall lm pl fuel p d it, grid_of_payload Checked p = Ret (Ok (Template40 d)) -> 813 <= ga_nj d -> sub_latlons Checked lm pl fuel p = Ret (Ok it) ->
  wsub_latlons U32 Checked lm pl fuel p = Panic.
Proof. exact WordGridX.gauss_panic. Qed.
Print Assumptions C84_rows.
(** C84, finding: without overflow checks no Gaussian grid of 1024 rows (N512) has coordinates. *)
Theorem C84_1024 : forall lm pl fuel p d it, grid_of_payload Wrapping p = Ret (Ok (Template40 d)) -> ga_nj d = 1024 -> sub_latlons Wrapping lm pl fuel p = Ret (Ok it) ->
  wsub_latlons U32 Wrapping lm pl fuel p = Ret (Err Unknown).
Proof. exact WordGridX.gauss_1024. Qed.
Print Assumptions C84_1024.

(** C84: for 64 bits the model with a word size is the one of the other properties. *)
Theorem C84_words : forall m p, wsub_ij U64 m p = sub_ij m p /\ (forall lm pl fuel, wsub_latlons U64 m lm pl fuel p = sub_latlons m lm pl fuel p) /\
  (forall g, wgpi_iter U64 m g = gpi_iter m g) /\ (forall g, wpoints_iter U64 m g = points_iter m g).
Proof. intros m p. split; [reflexivity|]. split; [intros; apply WordGridX.latlons_words|]. split; reflexivity. Qed.
Print Assumptions C84_words.

(** A grid of [n] points in [nj] rows of [ni]. *)
Definition ex_large (template n ni nj : Z) : list byte := be_bytes 1 0 ++ be_bytes 4 n ++ be_bytes 2 0 ++ be_bytes 2 template ++ repeat x00 16 ++ be_bytes 4 ni ++ be_bytes 4 nj ++ repeat x00 8 ++
   be_bytes 4 60000000 ++ be_bytes 4 0 ++ [x30] ++ be_bytes 4 0 ++ be_bytes 4 350000000 ++ repeat x00 8 ++ [x00].
Definition ex_ok {A} (r : outcome (result A grib_error)) : option (option grib_error) := match r with Ret (Ok _) => Some None | Ret (Err e) => Some (Some e) | _ => None end.
Example C84_ex :
  wsub_ij U32 Checked (P09_Grid.ex_grid 6 3 2 0) = sub_ij Checked (P09_Grid.ex_grid 6 3 2 0) /\ ex_ok (wsub_ij U32 Checked (P09_Grid.ex_grid 6 3 2 0)) = Some None /\
  ex_ok (wsub_latlons U32 Checked P09_Grid.lm0 None 9 (P09_Grid.ex_grid 6 3 2 0)) = Some None /\
  (let p := ex_large 0 65536 65536 65537 in
   ex_ok (sub_ij Checked p) = Some (Some InvalidValueError) /\ ex_ok (sub_ij Wrapping p) = Some (Some InvalidValueError) /\
   ex_ok (wsub_ij U32 Checked p) = None /\ ex_ok (wsub_ij U32 Wrapping p) = Some None).
Proof. vm_compute. repeat split; reflexivity. Qed.
(** 1024 rows are no problem where [usize] has 64 bits; any function serves as cosine. *)
Definition ex_cos : libm := MkLibm (fun _ => f64_of_Z 1) (fun x => x) (fun x _ => x).
Example C84_rows_ex : forall m, exists d, grid_of_payload m (ex_large 40 2048 2 1024) = Ret (Ok (Template40 d)) /\ ga_nj d = 1024 /\
  exists it, sub_latlons m ex_cos None 9 (ex_large 40 2048 2 1024) = Ret (Ok it).
Proof.
  intros m. eexists. split; [destruct m; vm_compute; reflexivity|]. split; [reflexivity|].
  eapply (WordGridX.const_latlons m ex_cos None 9 (ex_large 40 2048 2 1024)); [destruct m; vm_compute; reflexivity| | |destruct m; vm_compute; reflexivity|reflexivity|vm_compute; reflexivity|reflexivity|cbn [ga_ni]; lia|destruct m; vm_compute; reflexivity].
  - eapply (WordGridX.const_roots m ex_cos (f64_of_Z 1)); [reflexivity|]. vm_compute. reflexivity.
  - reflexivity.
Qed.
