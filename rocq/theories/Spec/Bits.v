(** Specification vocabulary: bit strings and big-endian encodings.
    Independent of the model except for the conversion [bz] of an octet to 0..255. *)
From Verif Require Import Model.Base.

(** The eight bits of an octet, most significant first. *)
Definition byte_bits (b : byte) : list bool :=
  map (fun k => Z.testbit (bz b) (Z.of_nat (7 - k))) (seq 0 8).

(** The bits of a byte string, in reading order. *)
Definition bits_of_bytes (l : list byte) : list bool := flat_map byte_bits l.

(** The unsigned integer written by a bit string, most significant bit first. *)
Fixpoint bits_value (l : list bool) : Z :=
  match l with
  | [] => 0
  | b :: l' => (if b then 2 ^ Z.of_nat (length l') else 0) + bits_value l'
  end.

(** [count] consecutive [n]-bit fields starting at bit [off] of [bits]. *)
Definition fields (bits : list bool) (off n count : nat) : list Z :=
  map (fun k => bits_value (firstn n (skipn (off + k * n) bits))) (seq 0 count).

(** The [n] bits of the integer [v], most significant first. *)
Definition int_bits (n : nat) (v : Z) : list bool :=
  map (fun k => Z.testbit v (Z.of_nat (n - 1 - k))) (seq 0 n).

(** An octet from its bits (missing ones are 0). *)
Definition byte_of_bits (l : list bool) : byte :=
  zb (bits_value (firstn 8 (l ++ repeat false 8))).

(** Octets of a bit string, the last one padded with zeros. *)
Fixpoint bytes_of_bits_fuel (fuel : nat) (l : list bool) : list byte :=
  match fuel, l with
  | S f, _ :: _ => byte_of_bits l :: bytes_of_bits_fuel f (skipn 8 l)
  | _, _ => []
  end.
Definition bytes_of_bits (l : list bool) : list byte := bytes_of_bits_fuel (length l) l.

(** Pack integers as consecutive [n]-bit fields. *)
Definition pack (n : nat) (vs : list Z) : list byte := bytes_of_bits (flat_map (int_bits n) vs).

(** Big-endian encoding of [v] in [n] octets. *)
Fixpoint be_bytes (n : nat) (v : Z) : list byte :=
  match n with
  | O => []
  | S n' => zb (v / 256 ^ Z.of_nat n') :: be_bytes n' v
  end.

(** Sign-and-magnitude reading of an [8*n]-bit unsigned integer. *)
Definition sign_magnitude (n : Z) (x : Z) : Z :=
  if x <? 2 ^ (8 * n - 1) then x else - (x - 2 ^ (8 * n - 1)).

(** Sign-and-magnitude encoding in [n] octets. *)
Definition sm_bytes (n : nat) (v : Z) : list byte :=
  be_bytes n (if v <? 0 then 2 ^ (8 * Z.of_nat n - 1) - v else v).
