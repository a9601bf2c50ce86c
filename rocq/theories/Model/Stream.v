(** Model of /repo/src/decoder/stream.rs. *)
From Verif Require Import Model.Base.

(** src/decoder/stream.rs:64-69 [NBitwiseIterator]. *)
Record nbit_state := NBit {
  nb_data : list byte;
  nb_size : Z;
  nb_pos : Z;
  nb_offset : Z
}.

(** src/decoder/stream.rs:72-79 [NBitwiseIterator::new]. *)
Definition nbit_new (data : list byte) (size : Z) : nbit_state := NBit data size 0 0.

(** src/decoder/stream.rs:81-86 [NBitwiseIterator::with_offset]. *)
Definition nbit_with_offset (s : nbit_state) (offset_bits : Z) : nbit_state :=
  NBit (nb_data s) (nb_size s) (nb_pos s) offset_bits.

(** src/decoder/stream.rs:113-116: the [while pos < new_pos] loop; [n] is the
    number of iterations left ([new_pos - pos]). *)
Fixpoint nbit_accumulate (n : nat) (m : mode) (data : list byte) (pos val : Z) : outcome Z :=
  match n with
  | O => Ret val
  | S n' =>
      let! b := index data pos in
      let! v := shl m U32 val 8 in
      nbit_accumulate n' m data (pos + 1) (Z.lor v (bz b))
  end.

(** src/decoder/stream.rs:95-127 [NBitwiseIterator::next].
    [self.offset + self.size] and [self.pos + ...] are [usize] sums of values far
    below 2^64 (size <= 255, or a group width < 2^33), so they are plain sums. *)
Definition nbit_next (m : mode) (s : nbit_state) : outcome (option Z * nbit_state) :=
  let '(NBit data size pos offset) := s in
  let new_offset := offset + size in
  let new_pos := pos + new_offset / 8 in
  let new_offset := new_offset mod 8 in
  if (zlen data <=? pos) || (zlen data <? new_pos)
     || ((new_pos =? zlen data) && (0 <? new_offset))
  then Ret (None, s)
  else
    let! b := index data pos in
    let! v := shl m U8 (bz b) offset in
    let! v := shr m U8 v offset in
    let! val :=
      (if new_pos =? pos then shr m U32 v (8 - new_offset)
       else
         let! v := nbit_accumulate (Z.to_nat (new_pos - (pos + 1))) m data (pos + 1) v in
         if 0 <? new_offset then
           let! lb := index data new_pos in
           let! last_val := shr m U32 (bz lb) (8 - new_offset) in
           let! v := shl m U32 v new_offset in
           Ret (Z.lor v last_val)
         else Ret v) in
    Ret (Some val, NBit data size new_pos new_offset).

Definition nbit_iter (m : mode) (s : nbit_state) : iter Z :=
  MkIter nbit_state s (nbit_next m).

(** src/decoder/stream.rs:32-61 [FixedValueIterator]: [next]; nothing looks at its [size_hint]. *)
Definition fixed_next {A} (val : A) (length : Z) : outcome (option A * Z) :=
  if 0 <? length then Ret (Some val, length - 1) else Ret (None, length).
Definition fixed_iter {A} (val : A) (length : Z) : iter A :=
  MkIter Z length (fixed_next val).

(** src/decoder/stream.rs:1-30 [BitStream::new] and its [next]. *)
Definition bit_stream (m : mode) (data : list byte) (unit_size length : Z) : iter Z :=
  if unit_size =? 0 then fixed_iter 0 length
  else nbit_iter m (nbit_new data unit_size).
