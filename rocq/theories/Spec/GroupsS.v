(** The groups of complex packing, from arbitrary octets: [p] is section 5 from octet 6, [q]
    the octets of section 7 after the extra descriptors of spatial differencing (template
    5.2 has none). *)
From Verif Require Import Model.Base Spec.Bits Spec.ReaderS Spec.FieldsS.

(** Octets that [k] values of [n] bits occupy. *)
Definition octets_for (k n : Z) : Z := (k * n + 7) / 8.
(** [k] values of [n] bits, from octet [start] of [q] (of wide values the last 32 bits). *)
Definition raw (q : list byte) (start n k : Z) : list Z :=
  map (fun v => v mod 2 ^ 32) (fields (bits_of_bytes q) (Z.to_nat (8 * start)) (Z.to_nat n) (Z.to_nat k)).

(** Section 5: number of groups, bit width of the references, of the widths, of the scaled
    lengths. *)
Definition num_groups (p : list byte) : Z := field p 32 35.
Definition refs_bits (p : list byte) : Z := field p 20 20.
Definition widths_bits (p : list byte) : Z := field p 37 37.
Definition lengths_bits (p : list byte) : Z := field p 47 47.

Definition widths_start (p : list byte) : Z := octets_for (num_groups p) (refs_bits p).
Definition lengths_start (p : list byte) : Z := widths_start p + octets_for (num_groups p) (widths_bits p).
Definition values_start (p : list byte) : Z := lengths_start p + octets_for (num_groups p) (lengths_bits p).

(** Reference for group widths: octet 36; reference and increment of group lengths: octets
    38 to 41 and 42; length of the last group: octets 43 to 46. *)
Definition group_widths (p q : list byte) : list Z :=
  map (fun v => (field p 36 36 + v) mod 2 ^ 32) (raw q (widths_start p) (widths_bits p) (num_groups p)).
Definition group_lengths (p q : list byte) : list Z :=
  map (fun v => (field p 38 41 + field p 42 42 * v) mod 2 ^ 32) (raw q (lengths_start p) (lengths_bits p) (num_groups p - 1))
  ++ [field p 43 46].

(** The bits of the packed values of all groups, and the number of values. *)
Definition sum (l : list Z) : Z := fold_right Z.add 0 l.
Fixpoint products (ws ls : list Z) : list Z :=
  match ws, ls with w :: ws', l :: ls' => w * l :: products ws' ls' | _, _ => [] end.
Definition values_bits (p q : list byte) : Z := sum (products (group_widths p q) (group_lengths p q)).
Definition values_count (p q : list byte) : Z := sum (group_lengths p q).

(** Counts that do not overflow a 32-bit integer. *)
Definition counts_fit (p : list byte) : Prop :=
  1 <= num_groups p /\
  num_groups p * refs_bits p + 7 < 2 ^ 32 /\ num_groups p * widths_bits p + 7 < 2 ^ 32 /\
  num_groups p * lengths_bits p + 7 < 2 ^ 32.
(** Widths and lengths that do not overflow, and values that fit in 31 bits with the
    reference and the minimum of the differences added. *)
Definition moderate (p q : list byte) : Prop :=
  refs_bits p <= 29 /\ Forall (fun w => w <= 29) (group_widths p q) /\
  Forall (fun v => field p 36 36 + v < 2 ^ 32) (raw q (widths_start p) (widths_bits p) (num_groups p)) /\
  Forall (fun v => field p 38 41 + field p 42 42 * v < 2 ^ 32) (raw q (lengths_start p) (lengths_bits p) (num_groups p - 1)).

(** Octets of section 7 that the extra descriptors of template [t] occupy (octet 48: order,
    octet 49: octets of each descriptor). *)
Definition descriptors (p : list byte) (t : Z) : Z :=
  if t =? 3 then (field p 48 48 + 1) * field p 49 49 else 0.
