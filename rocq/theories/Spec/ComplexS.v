(** Specification of complex packing (GRIB2 data templates 7.2 and 7.3), written
    from the encoder's side. [dv] is the decoder's item type: a value or one of two
    kinds of missing point. *)
From Verif Require Import Model.Base Model.Diff Spec.Bits.

(** A group: its reference, the width in bits of its packed values, and its packed
    values (all 0 when the width is 0). *)
Record group := Group { g_ref : Z; g_width : nat; g_vals : list Z }.

(** What the packed value [x] of group [g] stands for.  With missing value management
    [mvm] = 1 or 2 an all-ones code is a primary missing value; with 2, all-ones minus
    one is a secondary missing value.  The code is the packed value, or the group
    reference (of [nbit] bits) in a group of width 0. *)
Definition point (mvm nbit zmin : Z) (g : group) (x : Z) : dv :=
  let '(code, n) := match g_width g with
                    | O => (g_ref g, nbit)
                    | S _ => (x, Z.of_nat (g_width g))
                    end in
  if (1 <=? mvm) && (code =? 2 ^ n - 1) then Missing1
  else if (mvm =? 2) && (code =? 2 ^ n - 2) then Missing2
  else Normal (g_ref g + x + zmin).

Definition group_points (mvm nbit zmin : Z) (g : group) : list dv :=
  map (point mvm nbit zmin g) (g_vals g).

(** Section 7 after the spatial differencing descriptors: references, widths, scaled
    lengths (one per group; the last one is ignored in favour of the true length of
    the last group in section 5), each padded to a whole octet, then all the packed
    values. *)
Definition group_data (gs : list group) : list byte :=
  bytes_of_bits (flat_map (fun g => flat_map (int_bits (g_width g)) (g_vals g)) gs).

Definition layout (nbit wref wnbit lnbit : nat) (slens : list Z) (gs : list group) : list byte :=
  pack nbit (map g_ref gs)
  ++ pack wnbit (map (fun g => Z.of_nat (g_width g) - Z.of_nat wref) gs)
  ++ pack lnbit slens
  ++ group_data gs.

(** The scaled lengths describe the group lengths, except for the last group. *)
Fixpoint lengths_ok (lref linc llast : Z) (slens : list Z) (gs : list group) : Prop :=
  match slens, gs with
  | [s], [g] => zlen (g_vals g) = llast
  | s :: slens', g :: gs' =>
      zlen (g_vals g) = lref + linc * s /\ lengths_ok lref linc llast slens' gs'
  | _, _ => False
  end.

(** A group that this decoder can represent: the code fields fit, and so do the
    decoded values and the intermediate sum [reference + packed value] (32-bit
    signed). *)
Definition group_ok (mvm zmin : Z) (nbit wref wnbit : nat) (g : group) : Prop :=
  0 <= g_ref g < 2 ^ Z.of_nat nbit
  /\ (wref <= g_width g <= 31)%nat
  /\ Z.of_nat (g_width g) - Z.of_nat wref < 2 ^ Z.of_nat wnbit
  /\ zlen (g_vals g) < 2 ^ 32
  /\ (g_vals g <> [] \/ - 2 ^ 31 <= g_ref g + zmin < 2 ^ 31)
  /\ Forall (fun x => 0 <= x < 2 ^ Z.of_nat (g_width g)
       /\ match point mvm (Z.of_nat nbit) zmin g x with
          | Normal v => g_ref g + x < 2 ^ 31 /\ - 2 ^ 31 <= v < 2 ^ 31
          | _ => True
          end) (g_vals g).

(** Section 5 payload of templates 5.2 (no [tail]) and 5.3 ([tail] = order and number
    of octets of the descriptors). *)
Definition sect5_complex (num_points template refbits : Z) (e d : Z) (nbit : Z)
    (mvm miss1 miss2 ngroup wref wnbit lref linc llast lnbit : Z) (tail : list byte) : list byte :=
  be_bytes 4 num_points ++ be_bytes 2 template
  ++ be_bytes 4 refbits ++ sm_bytes 2 e ++ sm_bytes 2 d ++ be_bytes 1 nbit ++ be_bytes 1 0
  ++ be_bytes 1 1 ++ be_bytes 1 mvm ++ be_bytes 4 miss1 ++ be_bytes 4 miss2
  ++ be_bytes 4 ngroup ++ be_bytes 1 wref ++ be_bytes 1 wnbit
  ++ be_bytes 4 lref ++ be_bytes 1 linc ++ be_bytes 4 llast ++ be_bytes 1 lnbit
  ++ tail.

(** ** Spatial differencing of a field with missing points *)

Definition normals (fld : list dv) : list Z :=
  flat_map (fun d => match d with Normal v => [v] | _ => [] end) fld.

(** First-order differences of the non-missing points; the first one carries any
    placeholder ([dummy]). *)
Fixpoint differences1 (dummy : Z) (prev : option Z) (fld : list dv) : list dv :=
  match fld with
  | [] => []
  | Normal v :: fld' =>
      Normal (match prev with None => dummy | Some p => v - p end)
      :: differences1 dummy (Some v) fld'
  | missing :: fld' => missing :: differences1 dummy prev fld'
  end.

(** Second-order differences; the first two carry placeholders. *)
Fixpoint differences2 (dummy1 dummy2 : Z) (prev2 prev1 : option Z) (fld : list dv) : list dv :=
  match fld with
  | [] => []
  | Normal v :: fld' =>
      Normal (match prev2, prev1 with
              | Some p2, Some p1 => (v - p1) - (p1 - p2)
              | None, Some _ => dummy2
              | _, None => dummy1
              end)
      :: differences2 dummy1 dummy2 prev1 (Some v) fld'
  | missing :: fld' => missing :: differences2 dummy1 dummy2 prev2 prev1 fld'
  end.

(** The items with their values reduced by [red] (e.g. modulo 2^32). *)
Definition red_dv (red : Z -> Z) (d : dv) : dv :=
  match d with Normal v => Normal (red v) | x => x end.

Definition is_i32 (v : Z) : Prop := - 2 ^ 31 <= v < 2 ^ 31.

(** On the way to a point [v] that follows the points [p2] and [p1], the decoder of
    second-order differences computes [2 * p1] and [v + p2] (missing points left out). *)
Definition sums_fit (vs : list Z) : Prop :=
  forall before p2 p1 v after, vs = before ++ p2 :: p1 :: v :: after -> is_i32 (2 * p1) /\ is_i32 (v + p2).

(** Everything an encoder must respect for template 5.2 / 5.3 data. *)
Definition encodable (mvm zmin : Z) (nbit wref wnbit lnbit : nat) (lref linc llast : Z) (slens : list Z) (gs : list group) : Prop :=
  0 <= mvm <= 2 /\ (nbit <= 30)%nat /\ (wref <= 31)%nat /\ (wnbit <= 32)%nat /\ (lnbit <= 32)%nat
  /\ 0 <= lref < 2 ^ 32 /\ 0 <= linc < 256 /\ 0 <= llast < 2 ^ 32
  /\ zlen gs < 2 ^ 32 /\ zlen gs * Z.of_nat nbit + 7 < 2 ^ 32 /\ zlen gs * Z.of_nat wnbit + 7 < 2 ^ 32
  /\ zlen gs * Z.of_nat lnbit + 7 < 2 ^ 32
  /\ lengths_ok lref linc llast slens gs
  /\ Forall (fun s => 0 <= s < 2 ^ Z.of_nat lnbit) slens
  /\ Forall (group_ok mvm zmin nbit wref wnbit) gs.
