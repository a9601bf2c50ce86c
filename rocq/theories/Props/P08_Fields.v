(** Property theorems C38-C44, C54: fields of sections. *)
From Coq Require Import Lia Reals.
From Flocq Require Import Core.
From Verif Require Import Model.Base Model.Errors Model.Sections Model.Reader Model.Parser Model.Context Model.Grid Model.Product.
From Verif Require Import Spec.ReaderS Spec.ParserS Spec.ContextS Spec.FloatS Spec.FieldsS Spec.GridS Spec.ProductS.
From Verif Require Proofs.FieldsX Proofs.ProductX Proofs.SurfaceX Proofs.ViewX Proofs.ShapeX.
Open Scope Z_scope.

Definition bytes (l : list Z) : list byte := map zb l.

(** C38: the accessors of the sections of a file that was read show the octets of the
    file that the manual gives for them. *)
Theorem C38_accessors : forall m fuel s g, grib2_read m fuel s = Ret (Ok g) -> zlen (data s) < 2 ^ 63 -> 0 <= pos s <= zlen (data s) ->
  forall x, In x (g_sections g) ->
  let f a b := file_field (data s) (s_offset x) a b in
  match s_body x with
  | Some (B0 di t) => s_num x = 0 /\ di = f 7 7 /\ t = f 9 16
  | Some (B1 p) => s_num x = 1 /\
      centre_id p = Ret (f 6 7) /\ subcentre_id p = Ret (f 8 9) /\
      master_table_version p = Ret (f 10 10) /\ local_table_version p = Ret (f 11 11) /\
      ref_time_significance p = Ret (f 12 12) /\
      prod_status p = Ret (f 20 20) /\ data_type p = Ret (f 21 21)
  | Some (B2 _) => s_num x = 2
  | Some (B3 p) => s_num x = 3 /\ grid_num_points p = Ret (f 7 10) /\ grid_tmpl_num p = Ret (f 13 14)
  | Some (B4 p) => s_num x = 4 /\ num_coordinates p = Ret (f 6 7) /\ prod_tmpl_num p = Ret (f 8 9)
  | Some (B5 p) => s_num x = 5 /\ repr_num_points p = Ret (f 6 9) /\ repr_tmpl_num p = Ret (f 10 11)
  | Some (B6 i) => s_num x = 6 /\ i = f 6 6
  | Some B7 => s_num x = 7
  | None => s_num x = 8
  end.
Proof. exact FieldsX.file_fields. Qed.
Print Assumptions C38_accessors.

(** C38: a payload that ends before the last octet of the fixed part is refused. *)
Theorem C38_short_payloads : forall num p, 1 <= num <= 5 ->
  from_payload num p =
  (let need := match num with 1 => 21 | 2 => 5 | 3 => 14 | 4 => 9 | _ => 11 end in
   if zlen p + 5 <? need then Err (ReadErrorTooSmall (zlen p))
   else Ok (match num with 1 => B1 p | 2 => B2 p | 3 => B3 p | 4 => B4 p | _ => B5 p end)).
Proof. exact FieldsX.short_payloads. Qed.
Print Assumptions C38_short_payloads.

(** A file of one message. *)
Definition ex_1 : list byte := bytes [0; 34; 255; 3; 5; 1; 1; 7; 231; 2; 28; 23; 59; 59; 0; 2].
Definition ex_3 : list byte := bytes
  ([0; 0; 0; 0; 6; 0; 0; 0; 0] ++ repeat 0 16 ++ [0; 0; 0; 3; 0; 0; 0; 2] ++ repeat 0 8 ++
   [128; 0; 0; 5; 0; 0; 1; 0] ++ [48] ++ [128; 0; 0; 3; 0; 0; 0; 7] ++ repeat 0 8 ++ [64]).
Definition ex_4 : list byte := bytes ([0; 0; 0; 0; 3; 5; 2; 0; 0; 0; 0; 0; 1; 0; 0; 0; 6; 100; 0; 0; 0; 3; 232; 255; 255; 255; 255; 255; 255]).
Definition ex_bytes : list byte := bytes
  ([71; 82; 73; 66; 0; 0; 0; 2; 0; 0; 0; 0; 0; 0; 0; 174] ++
   [0; 0; 0; 21; 1]) ++ ex_1 ++ bytes [0; 0; 0; 72; 3] ++ ex_3 ++ bytes [0; 0; 0; 34; 4] ++ ex_4 ++
   bytes ([0; 0; 0; 11; 5; 0; 0; 0; 6; 0; 0] ++ [0; 0; 0; 6; 6; 255] ++ [0; 0; 0; 10; 7; 1; 2; 3; 4; 5] ++ [55; 55; 55; 55]).
Definition ex_g : grib2 := match from_slice Checked 300 ex_bytes with Ret (Ok g) => g | _ => MkGrib2 (cursor []) [] [] end.
Example C38_ex : from_slice Checked 300 ex_bytes = Ret (Ok ex_g) /\ zlen ex_bytes = 174 /\
  map s_num (g_sections ex_g) = [0; 1; 3; 4; 5; 6; 7; 8] /\
  map (fun x => match s_body x with Some (B1 p) => [centre_id p; data_type p] | Some (B3 p) => [grid_num_points p; grid_tmpl_num p]
                | Some (B4 p) => [prod_tmpl_num p] | Some (B5 p) => [repr_num_points p] | _ => [] end) (g_sections ex_g) =
  [[]; [Ret 34; Ret 2]; [Ret 6; Ret 0]; [Ret 0]; [Ret 6]; []; []; []].
Proof. vm_compute. repeat split. Qed.

(** C39: templates 3.0, 3.20, 3.30 and 3.40, field by field. *)
Theorem C39_parsed : forall m p, reaches p 14 ->
  (grid_template p = 0 -> zlen p + 5 = 72 -> grid_of_payload m p = Ret (Ok (Template0 (latlon_fields p)))) /\
  (grid_template p = 40 -> zlen p + 5 = 72 -> grid_of_payload m p = Ret (Ok (Template40 (gaussian_fields p)))) /\
  (grid_template p = 20 -> reaches p 65 -> grid_of_payload m p = Ret (Ok (Template20 (polar_fields p)))) /\
  (grid_template p = 30 -> reaches p 73 -> grid_of_payload m p = Ret (Ok (Template30 (lambert_fields p)))).
Proof. exact FieldsX.grid_parsed. Qed.
Print Assumptions C39_parsed.

(** C39: exactly the other templates, and lists of points after templates 3.0 and 3.40,
    are not supported. *)
Theorem C39_not_supported : forall m p, reaches p 14 ->
  (grid_of_payload m p = Ret (Err NotSupported) <->
   (~ In (grid_template p) [0; 20; 30; 40]) \/ (In (grid_template p) [0; 40] /\ 72 < zlen p + 5)).
Proof. exact FieldsX.grid_not_supported. Qed.
Print Assumptions C39_not_supported.

(** C39: a section that ends before the template does makes the program panic. *)
Theorem C39_truncated_panics : forall m p, reaches p 14 -> In (grid_template p) [0; 20; 30; 40] ->
  ~ reaches p (grid_end (grid_template p)) -> grid_of_payload m p = Panic.
Proof. exact FieldsX.grid_truncated. Qed.
Print Assumptions C39_truncated_panics.
(** C39: [grid_shape], for the four templates. *)
Theorem C39_shape : forall m p, grid_complete p -> sub_grid_shape m p = Ret (Ok (field p 31 34, field p 35 38)).
Proof. exact ShapeX.shape_octets. Qed.
Print Assumptions C39_shape.
Example C39_shape_ex : grid_complete ex_3 /\ sub_grid_shape Checked ex_3 = Ret (Ok (3, 2)).
Proof. split; [|vm_compute; reflexivity]. unfold grid_complete, reaches. vm_compute. repeat split; (congruence || tauto). Qed.
Example C39_ex :
  reaches ex_3 14 /\ grid_template ex_3 = 0 /\ zlen ex_3 + 5 = 72 /\ latlon_fields ex_3 = MkLatlon 3 2 (-5) 256 (-3) 7 64 /\
  (reaches (bytes (repeat 0 20)) 14 /\ ~ reaches (bytes (repeat 0 20)) 72) /\
  72 < zlen (ex_3 ++ bytes [1]) + 5.
Proof. unfold reaches. vm_compute. repeat split; congruence. Qed.

(** C40: parameter category and number. *)
Theorem C40_parameter : forall p, reaches p 9 ->
  (In (prod_template p) prod_templates -> parameter_category p = Ret (octet_if p 10) /\ parameter_number p = Ret (octet_if p 11)) /\
  (~ In (prod_template p) prod_templates -> parameter_category p = Ret None /\ parameter_number p = Ret None).
Proof. exact ProductX.parameter_octets. Qed.
Print Assumptions C40_parameter.
(** C40: type of generating process, but for three templates. *)
Theorem C40_generating_process : forall p, reaches p 9 -> ~ In (prod_template p) [47; 83; 254] ->
  generating_process p = Ret (if existsb (Z.eqb (prod_template p)) prod_templates then
    match generating_octet (prod_template p) with Some a => octet_if p a | None => None end else None).
Proof. exact ProductX.generating_octets. Qed.
Print Assumptions C40_generating_process.
(** C40: in these three, octet 12 is shown: a part of the aerosol's description (4.47,
    4.83) or nothing that has to do with a generating process (4.254). *)
Theorem C40_generating_process_wrong : forall p, reaches p 9 -> In (prod_template p) [47; 83; 254] ->
  generating_process p = Ret (octet_if p 12).
Proof. exact ProductX.generating_wrong. Qed.
Print Assumptions C40_generating_process_wrong.
Example C40_generating_octets : generating_octet 47 = Some 25 /\ generating_octet 83 = Some 26 /\ generating_octet 254 = None.
Proof. repeat split. Qed.
(** C40: forecast time; a section that ends before it makes the program panic. *)
Theorem C40_forecast_time : forall p t, reaches p 9 -> prod_template p = t -> In t prod_templates -> t <> 44 ->
  match unit_octet t with
  | Some a => if a + 4 <=? zlen p + 5 then forecast_time p = Ret (Some (from_numbers (field p a a) (field p (a + 1) (a + 4))))
              else forecast_time p = Panic
  | None => forecast_time p = Ret None
  end.
Proof. exact ProductX.forecast_octets. Qed.
Print Assumptions C40_forecast_time.
(** C40: in template 4.44 the forecast time has the octets 32 and 33, but the type and
    scale factor of the first fixed surface are taken for parts of it. *)
Theorem C40_forecast_time_44 : forall p, reaches p 35 -> prod_template p = 44 ->
  forecast_time p = Ret (Some (from_numbers (field p 31 31) (field p 32 35))).
Proof. exact ProductX.forecast_44. Qed.
Print Assumptions C40_forecast_time_44.
(** C40: the two fixed surfaces; a section that ends before them makes the program panic. *)
Theorem C40_fixed_surfaces : forall m p t, reaches p 9 -> prod_template p = t -> In t prod_templates ->
  match surface_octet t with
  | Some a => if a + 11 <=? zlen p + 5 then fixed_surfaces m p = Ret (Some (surface_at p a, surface_at p (a + 6)))
              else fixed_surfaces m p = Panic
  | None => fixed_surfaces m p = Ret None
  end.
Proof. exact ProductX.surface_octets. Qed.
Print Assumptions C40_fixed_surfaces.
Example C40_ex : reaches ex_4 34 /\ prod_template ex_4 = 0 /\ unit_octet 0 = Some 18 /\ surface_octet 0 = Some 23 /\
  parameter_number ex_4 = Ret (Some 5) /\ forecast_time ex_4 = Ret (Some (MkForecast (Name Hour) 6)) /\
  fixed_surfaces Checked ex_4 = Ret (Some (MkSurface 100 0 1000, MkSurface 255 (-127) (-2147483647))).
Proof. unfold reaches. vm_compute. repeat split; congruence. Qed.

(** C41: a fixed surface's scale factor or scaled value counts as missing exactly if all
    the bits of its octets are ones. *)
Theorem C41_missing : forall p a,
  (scale_factor_is_nan (surface_at p a) = true <-> field p (a + 1) (a + 1) = 2 ^ 8 - 1) /\
  (value_is_nan (surface_at p a) = true <-> field p (a + 2) (a + 5) = 2 ^ 32 - 1).
Proof. exact SurfaceX.missing_bits. Qed.
Print Assumptions C41_missing.
(** C41: if the value is not missing, value() is the scaled value divided by 10 to the
    scale factor, up to rounding, even if the scale factor is missing. *)
Theorem C41_value : forall x, -127 <= scale_factor x <= 127 -> Z.abs (scaled_value x) < 2 ^ 31 ->
  scaled_value x <> - (2 ^ 31 - 1) ->
  finite (surface_value x) /\
  (Rabs (val (surface_value x) - IZR (scaled_value x) * powerRZ 10 (- scale_factor x))
   <= bpow radix2 (-47) * Rabs (IZR (scaled_value x) * powerRZ 10 (- scale_factor x)))%R.
Proof. exact SurfaceX.surface_value_spec. Qed.
Print Assumptions C41_value.
Theorem C41_missing_value : forall x, value_is_nan x = true -> surface_value x = SpecFloat.S754_nan.
Proof. exact SurfaceX.missing_value. Qed.
Print Assumptions C41_missing_value.
Example C41_ex :
  let x := surface_at (bytes [100; 2; 0; 0; 3; 232; 255; 255; 255; 255; 255; 255]) 6 in
  let y := surface_at (bytes [100; 2; 0; 0; 3; 232; 255; 255; 255; 255; 255; 255]) 12 in
  x = MkSurface 100 2 1000 /\ value_is_nan x = false /\ surface_value x = SpecFloat.S754_finite false (10 * 2 ^ 49) (-49) /\
  scale_factor_is_nan y = true /\ surface_value y = SpecFloat.S754_nan.
Proof. vm_compute. repeat split. Qed.

(** C42: the 13 unit codes of Code Table 4.4 and the others. *)
Theorem C42_units : forall n v,
  (forall u, n = unit_code u -> from_numbers n v = MkForecast (Name u) v) /\
  ((forall u, n <> unit_code u) -> from_numbers n v = MkForecast (Num n) v).
Proof. exact ViewX.units. Qed.
Print Assumptions C42_units.
Theorem C42_no_collisions : forall n v n' v', from_numbers n v = from_numbers n' v' -> n = n' /\ v = v'.
Proof. exact ViewX.units_injective. Qed.
Print Assumptions C42_no_collisions.
Example C42_ex : from_numbers 11 6 = MkForecast (Name SixHours) 6 /\ from_numbers 8 6 = MkForecast (Num 8) 6 /\ (forall u, 8 <> unit_code u).
Proof. split; [reflexivity|]. split; [reflexivity|]. intros []; cbn; lia. Qed.

(** C43: the 24-bit codes of parameters, and the comparison with codes of NCEP. *)
Theorem C43_code : forall m x, is_octet (discipline x) -> is_octet (category x) -> is_octet (pnum x) ->
  as_u32 m x = Ret (discipline x * 65536 + category x * 256 + pnum x).
Proof. exact ViewX.as_u32_spec. Qed.
Print Assumptions C43_code.
Theorem C43_injective : forall m x y n, is_octet (discipline x) -> is_octet (category x) -> is_octet (pnum x) ->
  is_octet (discipline y) -> is_octet (category y) -> is_octet (pnum y) ->
  as_u32 m x = Ret n -> as_u32 m y = Ret n -> (discipline x, category x, pnum x) = (discipline y, category y, pnum y).
Proof. exact ViewX.codes_injective. Qed.
Print Assumptions C43_injective.
(** Whatever the originating centre and the table versions are. *)
Theorem C43_identical : forall m x c, is_octet (discipline x) -> is_octet (category x) -> is_octet (pnum x) ->
  exists b, is_identical_to m x c = Ret b /\ (b = true <-> (discipline x, category x, pnum x) = ncep_triple c).
Proof. exact ViewX.identical_spec. Qed.
Print Assumptions C43_identical.
Example C43_ex : let x := MkParameter 0 34 5 1 3 5 in
  is_octet (discipline x) /\ as_u32 Checked x = Ret 773 /\ is_identical_to Checked x HGT = Ret true /\ is_identical_to Checked x PRES = Ret false.
Proof. unfold is_octet. vm_compute. repeat split; congruence. Qed.

(** C44: the reference time is a time exactly if the octets make a day of the Gregorian
    calendar and a time of day. *)
Theorem C44_ref_time : forall p, reaches p 19 ->
  let y := field p 13 14 in let mo := field p 15 15 in let d := field p 16 16 in
  let h := field p 17 17 in let mi := field p 18 18 in let s := field p 19 19 in
  ((exists n, civil n = (y, mo, d)) /\ h < 24 /\ mi < 60 /\ s < 60 -> ref_time p = Ret (Ok (MkDateTime y mo d h mi s))) /\
  (~ ((exists n, civil n = (y, mo, d)) /\ h < 24 /\ mi < 60 /\ s < 60) -> ref_time p = Ret (Err InvalidValueError)).
Proof. exact ViewX.ref_time_spec. Qed.
Print Assumptions C44_ref_time.
Example C44_ex :
  reaches ex_1 19 /\ ref_time ex_1 = Ret (Ok (MkDateTime 2023 2 28 23 59 59)) /\ civil 738884 = (2023, 2, 28) /\ civil 738885 = (2023, 3, 1) /\
  civil 0 = (0, 3, 1) /\ civil (-1) = (0, 2, 29) /\ civil 146096 = (400, 2, 29) /\ civil (36524 - 1) = (100, 2, 28).
Proof. unfold reaches. vm_compute. repeat split; congruence. Qed.

(** C54: the accessors of a submessage never panic and show the sections of the file
    that make it up. *)
Theorem C54_bodies : forall m fuel s g, grib2_read m fuel s = Ret (Ok g) -> zlen (data s) < 2 ^ 63 -> 0 <= pos s <= zlen (data s) ->
  forall w v, In w (g_subs g) -> make_view g w = Some v ->
  let pay (x : Z * section) := octets (data s) (s_offset (snd x) + 5) (s_size (snd x) - 5) in
  v_indicator v = Ret (file_field (data s) (s_offset (snd (u_0 v))) 7 7) /\ v_identification v = Ret (pay (u_1 v)) /\
  v_grid_def v = Ret (pay (u_3 v)) /\ v_prod_def v = Ret (pay (u_4 v)) /\ v_repr_def v = Ret (pay (u_5 v)).
Proof. exact ViewX.file_bodies. Qed.
Print Assumptions C54_bodies.
Theorem C54_parameter : forall m fuel s g, grib2_read m fuel s = Ret (Ok g) -> zlen (data s) < 2 ^ 63 -> 0 <= pos s <= zlen (data s) ->
  forall w v, In w (g_subs g) -> make_view g w = Some v ->
  let f (x : Z * section) a b := file_field (data s) (s_offset (snd x)) a b in
  v_parameter v = Ret (
    if existsb (Z.eqb (f (u_4 v) 8 9)) prod_templates && (11 <=? s_size (snd (u_4 v))) then
      Some (MkParameter (f (u_0 v) 7 7) (f (u_1 v) 6 7) (f (u_1 v) 10 10) (f (u_1 v) 11 11) (f (u_4 v) 10 10) (f (u_4 v) 11 11))
    else None).
Proof. exact ViewX.file_parameter. Qed.
Print Assumptions C54_parameter.
Example C54_ex : match g_subs ex_g with
  | [w] => match make_view ex_g w with
           | Some v => (v_indicator v, v_identification v, v_prod_def v, v_parameter v) = (Ret 0, Ret ex_1, Ret ex_4, Ret (Some (MkParameter 0 34 5 1 3 5)))
           | None => False end
  | _ => False end.
Proof. vm_compute. reflexivity. Qed.
