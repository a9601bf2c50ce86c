(** Targets with another [usize]: what is used to state C80. *)
From Verif Require Import Model.Base Model.Sections.

(** A data section is at least as long as its own header. *)
Definition seven_ok (x : section) : Prop := s_num x = 7 -> 5 <= s_size x.

(** ** C83 *)
From Verif Require Import Model.Decoder Spec.Bits Spec.ReaderS Spec.RunLengthS.

(** Run-length data whose runs have no more digits than can be weighed with 32 bits. *)
Definition digits_fit (d : decoder) : Prop :=
  let n := be (octets (d_sect5 d) 6 1) in let maxv := be (octets (d_sect5 d) 7 2) in
  1 <= n <= 15 /\ maxv + 1 < 2 ^ n /\
  Forall (fun r => base n maxv ^ zlen (snd r) < 2 ^ 32) (snd (split_runs maxv (codes_of (d_sect7 d) n))).

(** Data that an address of 32 bits can count in bits: less than 256 MiB of packed data (for
    template 41: of decompressed data), and a bitmap of less than 512 MiB. *)
Definition small_data (c : codecs) (d : decoder) : Prop :=
  zlen (d_sect7 d) < 2 ^ 28 /\ zlen (d_bitmap d) < 2 ^ 29 /\ (forall b, png_buffer c (d_sect7 d) = Some b -> zlen b < 2 ^ 28).
