(** Property theorems C08-C11: complex packing and spatial differencing. *)
From Verif Require Import Model.Base Model.Errors Model.F32 Model.Diff Model.Complex Spec.Bits Spec.ComplexS.
From Verif Require Proofs.DiffP Proofs.ComplexP.

(** C08: template 7.2 data laid out group by group decode, in order, to
    reference + packed value (or missing), every group with its own length. *)
Theorem C08_complex_groups : forall m np refbits e d nbit mvm miss1 miss2 wref wnbit lnbit lref linc llast slens gs trailing,
  0 <= refbits < 2 ^ 32 -> Z.abs e < 2 ^ 15 -> Z.abs d < 2 ^ 15 ->
  encodable mvm 0 nbit wref wnbit lnbit lref linc llast slens gs ->
  exists it,
    decode_7_2_ints m
      (sect5_complex np 2 refbits e d (Z.of_nat nbit) mvm miss1 miss2 (zlen gs) (Z.of_nat wref) (Z.of_nat wnbit)
         lref linc llast (Z.of_nat lnbit) [])
      (layout nbit wref wnbit lnbit slens gs ++ trailing)
    = Ret (Ok (SimpleParam (f32_of_bits refbits) e d (Z.of_nat nbit), it))
    /\ Run it (flat_map (group_points mvm (Z.of_nat nbit) 0) gs) End.
Proof. exact ComplexP.decode_7_2_ok. Qed.
Print Assumptions C08_complex_groups.

Definition ex_groups : list group :=
  [Group 5 3 [1; 7; 0]; Group 15 0 [0; 0]; Group 2 0 [0]; Group 0 10 [1000; 1023; 1022]].
Example C08_complex_groups_ex :
  encodable 2 0 4 0 4 2 1 1 3 [2; 1; 0; 3] ex_groups
  /\ flat_map (group_points 2 4 0) ex_groups
     = [Normal 6; Missing1; Normal 5; Missing1; Missing1; Normal 2; Normal 1000; Missing1; Missing2].
Proof.
  split; [|vm_compute; reflexivity].
  unfold encodable, ex_groups. repeat split; repeat constructor; vm_compute;
    repeat (first [split|left]); try congruence; try reflexivity; try (intros; discriminate).
Qed.

(** C08: without missing value management the result is reference + packed value. *)
Theorem C08_complex_no_missing : forall m np refbits e d nbit miss1 miss2 wref wnbit lnbit lref linc llast slens gs trailing,
  0 <= refbits < 2 ^ 32 -> Z.abs e < 2 ^ 15 -> Z.abs d < 2 ^ 15 ->
  encodable 0 0 nbit wref wnbit lnbit lref linc llast slens gs ->
  exists it,
    decode_7_2_ints m
      (sect5_complex np 2 refbits e d (Z.of_nat nbit) 0 miss1 miss2 (zlen gs) (Z.of_nat wref) (Z.of_nat wnbit)
         lref linc llast (Z.of_nat lnbit) [])
      (layout nbit wref wnbit lnbit slens gs ++ trailing)
    = Ret (Ok (SimpleParam (f32_of_bits refbits) e d (Z.of_nat nbit), it))
    /\ Run it (flat_map (fun g => map (fun x => Normal (g_ref g + x)) (g_vals g)) gs) End.
Proof. exact ComplexP.decode_7_2_no_missing. Qed.
Print Assumptions C08_complex_no_missing.
Example C08_complex_no_missing_ex :
  flat_map (fun g => map (fun x => Normal (g_ref g + x)) (g_vals g)) ex_groups
  = [Normal 6; Normal 12; Normal 5; Normal 15; Normal 15; Normal 2; Normal 1000; Normal 1023; Normal 1022].
Proof. vm_compute; reflexivity. Qed.

(** C08 (finding): with overflow checks, a constant group cannot be decoded when the group
    references are 31 or more bits wide, nor any group whose values are 32 bits wide. *)
Theorem C08_wide_fields :
  (forall mvm nbit zmin ref length, 31 <= nbit -> group_constant Checked mvm nbit zmin ref length = Panic)
  /\ (forall mvm zmin data pos off ref width length, 32 <= width ->
        group_packed Checked mvm zmin data pos off ref width length = Panic).
Proof. exact (conj ComplexP.constant_group_wide_panic ComplexP.packed_group_wide_panic). Qed.
Print Assumptions C08_wide_fields.

(** C09: which points are missing, exactly. *)
Theorem C09_missing_exact : forall m np refbits e d nbit mvm miss1 miss2 wref wnbit lnbit lref linc llast slens gs trailing,
  0 <= refbits < 2 ^ 32 -> Z.abs e < 2 ^ 15 -> Z.abs d < 2 ^ 15 ->
  encodable mvm 0 nbit wref wnbit lnbit lref linc llast slens gs ->
  exists it outs,
    decode_7_2_ints m
      (sect5_complex np 2 refbits e d (Z.of_nat nbit) mvm miss1 miss2 (zlen gs) (Z.of_nat wref) (Z.of_nat wnbit)
         lref linc llast (Z.of_nat lnbit) [])
      (layout nbit wref wnbit lnbit slens gs ++ trailing)
    = Ret (Ok (SimpleParam (f32_of_bits refbits) e d (Z.of_nat nbit), it))
    /\ Run it (concat outs) End
    /\ Forall2 (fun g out => Forall2 (fun x pt =>
           let code := if (g_width g =? 0)%nat then g_ref g else x in
           let width := if (g_width g =? 0)%nat then Z.of_nat nbit else Z.of_nat (g_width g) in
           (pt = Missing1 <-> 1 <= mvm /\ code = 2 ^ width - 1)
           /\ (pt = Missing2 <-> mvm = 2 /\ code = 2 ^ width - 2)
           /\ (forall v, pt = Normal v -> v = g_ref g + x))
         (g_vals g) out) gs outs.
Proof. exact ComplexP.decode_7_2_missing. Qed.
Print Assumptions C09_missing_exact.
Example C09_missing_exact_ex :
  encodable 1 0 4 0 4 2 1 1 3 [2; 1; 0; 3] ex_groups
  /\ flat_map (group_points 1 4 0) ex_groups
     = [Normal 6; Missing1; Normal 5; Missing1; Missing1; Normal 2; Normal 1000; Missing1; Normal 1022].
Proof.
  split; [|vm_compute; reflexivity].
  unfold encodable, ex_groups. repeat split; repeat constructor; vm_compute;
    repeat (first [split|left]); try congruence; try reflexivity; try (intros; discriminate).
Qed.

(** C10: first-order differencing is undone, from the octets of sections 5 and 7. *)
Theorem C10_first_order_octets : forall m np refbits e d nbit mvm miss1 miss2 wref wnbit lnbit lref linc llast slens gs trailing
    (k : nat) zmin fld dummy d0,
  0 <= refbits < 2 ^ 32 -> Z.abs e < 2 ^ 15 -> Z.abs d < 2 ^ 15 -> (1 <= k <= 4)%nat ->
  Forall (fun v => Z.abs v < 2 ^ (8 * Z.of_nat k - 1)) [zmin; hd d0 (normals fld)] ->
  encodable mvm zmin nbit wref wnbit lnbit lref linc llast slens gs ->
  Forall is_i32 (normals fld) ->
  flat_map (group_points mvm (Z.of_nat nbit) zmin) gs = differences1 dummy None fld ->
  exists it,
    decode_7_3_ints m
      (sect5_complex np 3 refbits e d (Z.of_nat nbit) mvm miss1 miss2 (zlen gs) (Z.of_nat wref) (Z.of_nat wnbit)
         lref linc llast (Z.of_nat lnbit) (be_bytes 1 1 ++ be_bytes 1 (Z.of_nat k)))
      (sm_bytes k (hd d0 (normals fld)) ++ sm_bytes k zmin ++ layout nbit wref wnbit lnbit slens gs ++ trailing)
    = Ret (Ok (SimpleParam (f32_of_bits refbits) e d (Z.of_nat nbit), it))
    /\ Run it fld End.
Proof. exact ComplexP.decode_7_3_first. Qed.
Print Assumptions C10_first_order_octets.
(** Field 100, missing, 97, 101: differences (dummy 0) 0, missing, -3, 4, minimum -3. *)
Definition ex_fld1 : list dv := [Normal 100; Missing1; Normal 97; Normal 101].
Example C10_first_order_octets_ex :
  encodable 1 (-3) 1 0 3 3 1 1 4 [3] [Group 0 4 [3; 15; 0; 7]]
  /\ flat_map (group_points 1 1 (-3)) [Group 0 4 [3; 15; 0; 7]] = differences1 0 None ex_fld1
  /\ Forall is_i32 (normals ex_fld1)
  /\ Forall (fun v => Z.abs v < 2 ^ (8 * Z.of_nat 1 - 1)) [-3; hd 0 (normals ex_fld1)].
Proof.
  split; [|split; [vm_compute; reflexivity|split]].
  - unfold encodable. repeat split; repeat constructor; vm_compute;
    repeat (first [split|left]); try congruence; try reflexivity; try (intros; discriminate).
  - repeat constructor; vm_compute; congruence.
  - repeat constructor; vm_compute; congruence.
Qed.

(** C10: the differencing step alone, for any item source, both build profiles. *)
Theorem C10_first_order : forall m it fld dummy d0,
  Forall is_i32 (normals fld) -> Run it (differences1 dummy None fld) End ->
  Run (diff1_iter m it [hd d0 (normals fld)]) fld End.
Proof. exact DiffP.diff1_correct. Qed.
Print Assumptions C10_first_order.
Example C10_first_order_ex :
  Forall is_i32 (normals ex_fld1)
  /\ differences1 55 None ex_fld1 = [Normal 55; Missing1; Normal (-3); Normal 4].
Proof. split; [repeat constructor; vm_compute; congruence|vm_compute; reflexivity]. Qed.

(** C10: without overflow checks this also holds when differences exceed 32 bits and
    are stored reduced. *)
Theorem C10_first_order_wrapping : forall it fld dummy d0,
  Forall is_i32 (normals fld) ->
  Run it (map (red_dv (wrap I32)) (differences1 dummy None fld)) End ->
  Run (diff1_iter Wrapping it [hd d0 (normals fld)]) fld End.
Proof. exact DiffP.diff1_correct_wrapping. Qed.
Print Assumptions C10_first_order_wrapping.
Example C10_first_order_wrapping_ex :
  map (red_dv (wrap I32)) (differences1 0 None [Normal (-2147483648); Normal 2147483647])
  = [Normal 0; Normal (-1)].
Proof. vm_compute; reflexivity. Qed.

(** C11: second-order differencing is undone, from the octets of sections 5 and 7, in
    both build profiles, for fields of 32-bit values; with overflow checks the sums on the
    way must fit, too. *)
Theorem C11_second_order_octets : forall m np refbits e d nbit mvm miss1 miss2 wref wnbit lnbit lref linc llast slens gs trailing
    (k : nat) zmin fld dummy1 dummy2 d0 d1,
  0 <= refbits < 2 ^ 32 -> Z.abs e < 2 ^ 15 -> Z.abs d < 2 ^ 15 -> (1 <= k <= 4)%nat ->
  Forall (fun v => Z.abs v < 2 ^ (8 * Z.of_nat k - 1)) [zmin; nth 0 (normals fld) d0; nth 1 (normals fld) d1] ->
  encodable mvm zmin nbit wref wnbit lnbit lref linc llast slens gs ->
  Forall is_i32 (normals fld) -> (m = Checked -> sums_fit (normals fld)) ->
  flat_map (group_points mvm (Z.of_nat nbit) zmin) gs = differences2 dummy1 dummy2 None None fld ->
  exists it,
    decode_7_3_ints m
      (sect5_complex np 3 refbits e d (Z.of_nat nbit) mvm miss1 miss2 (zlen gs) (Z.of_nat wref) (Z.of_nat wnbit)
         lref linc llast (Z.of_nat lnbit) (be_bytes 1 2 ++ be_bytes 1 (Z.of_nat k)))
      (sm_bytes k (nth 0 (normals fld) d0) ++ sm_bytes k (nth 1 (normals fld) d1) ++ sm_bytes k zmin
       ++ layout nbit wref wnbit lnbit slens gs ++ trailing)
    = Ret (Ok (SimpleParam (f32_of_bits refbits) e d (Z.of_nat nbit), it))
    /\ Run it fld End.
Proof. exact ComplexP.decode_7_3_second. Qed.
Print Assumptions C11_second_order_octets.
(** Field 10, missing, 13, 11, 20: second differences -5 and 11, minimum -5. *)
Definition ex_fld2 : list dv := [Normal 10; Missing2; Normal 13; Normal 11; Normal 20].
Example C11_second_order_octets_ex :
  encodable 2 (-5) 1 5 0 3 1 1 5 [3] [Group 0 5 [5; 30; 5; 0; 16]]
  /\ flat_map (group_points 2 1 (-5)) [Group 0 5 [5; 30; 5; 0; 16]] = differences2 0 0 None None ex_fld2
  /\ Forall (fun v => Z.abs v < 2 ^ 30) (normals ex_fld2)
  /\ Forall (fun v => Z.abs v < 2 ^ (8 * Z.of_nat 1 - 1)) [-5; nth 0 (normals ex_fld2) 0; nth 1 (normals ex_fld2) 0].
Proof.
  split; [|split; [vm_compute; reflexivity|split]].
  - unfold encodable. repeat split; repeat constructor; vm_compute;
    repeat (first [split|left]); try congruence; try reflexivity; try (intros; discriminate).
  - repeat constructor; vm_compute; congruence.
  - repeat constructor; vm_compute; congruence.
Qed.

(** C11: without overflow checks, every 32-bit field (differences reduced to 32 bits). *)
Theorem C11_second_order_wrapping : forall it fld dummy1 dummy2 d0 d1,
  Forall is_i32 (normals fld) ->
  Run it (map (red_dv (wrap I32)) (differences2 dummy1 dummy2 None None fld)) End ->
  Run (diff2_iter Wrapping it [nth 0 (normals fld) d0; nth 1 (normals fld) d1]) fld End.
Proof. exact DiffP.diff2_correct_wrapping. Qed.
Print Assumptions C11_second_order_wrapping.
Example C11_second_order_wrapping_ex :
  Forall is_i32 (normals [Normal 2000000000; Normal 2000000000; Missing1; Normal (-2000000000)])
  /\ map (red_dv (wrap I32)) (differences2 1 2 None None [Normal 2000000000; Normal 2000000000; Missing1; Normal (-2000000000)])
     = [Normal 1; Normal 2; Missing1; Normal 294967296].
Proof. split; [repeat constructor; vm_compute; congruence|vm_compute; reflexivity]. Qed.

(** C11: with overflow checks, exactly the fields whose sums fit; for others the iterator
    panics at the first point whose sums do not, after all points before it. *)
Theorem C11_second_order_checked : forall it fld dummy1 dummy2 d0 d1,
  Forall is_i32 (normals fld) -> Run it (differences2 dummy1 dummy2 None None fld) End ->
  let out := diff2_iter Checked it [nth 0 (normals fld) d0; nth 1 (normals fld) d1] in
  (sums_fit (normals fld) -> Run out fld End) /\
  (~ sums_fit (normals fld) -> exists pre v post before p2 p1,
     fld = pre ++ Normal v :: post /\ normals pre = before ++ [p2; p1] /\ ~ (is_i32 (2 * p1) /\ is_i32 (v + p2)) /\
     Run out pre Crash).
Proof. exact DiffP.diff2_checked. Qed.
Print Assumptions C11_second_order_checked.
(** In particular, fields below 2^30 in absolute value. *)
Theorem C11_small_values_fit : forall vs, Forall (fun v => Z.abs v < 2 ^ 30) vs -> sums_fit vs.
Proof. exact DiffP.sums_fit_small. Qed.
Print Assumptions C11_small_values_fit.
(** The constant field 2000000000 panics at its third point. *)
Example C11_second_order_checked_ex : exists fld,
  Forall is_i32 (normals fld) /\ Forall is_i32 (normals (differences2 0 0 None None fld))
  /\ Run (diff2_iter Checked (iter_of_list (differences2 0 0 None None fld))
            [nth 0 (normals fld) 0; nth 1 (normals fld) 0])
         [Normal 2000000000; Normal 2000000000] Crash.
Proof. exact DiffP.diff2_checked_refuted. Qed.
