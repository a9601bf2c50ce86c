(** Model of /repo/src/decoder/bitmap.rs. *)
From Verif Require Import Model.Base.

(** src/decoder/bitmap.rs:63-68 [MASK], [has_zero_at_offset].
    [MASK >> offset] with [offset <= 7]. *)
Definition has_zero_at_offset (b : byte) (offset : Z) : bool :=
  Z.land (bz b) (Z.shiftr 128 offset) =? 0.

(** src/decoder/bitmap.rs:70-77 [create_bitmap_for_nonnullable_data]. *)
Definition create_bitmap_for_nonnullable_data (num_points : Z) : list byte :=
  let div := num_points / 8 in
  let mod_ := num_points mod 8 in
  if mod_ =? 0 then repeat xff (Z.to_nat div)
  else repeat xff (Z.to_nat (div + 1)).

Section BitmapDecode.
  Context {A : Type}.
  (** [f32::NAN] *)
  Variable nan : A.
  (** The packed-value iterator [I]: its state type and its [next]. *)
  Variable I : Type.
  Variable values_next : I -> outcome (option A * I).

  (** src/decoder/bitmap.rs:5-10 [BitmapDecodeIterator].  The peekable slice
      iterator over the bitmap is the list of octets not yet consumed. *)
  Record bitmap_state := BM {
    bm_bitmap : list byte;
    bm_values : I;
    bm_len : Z;
    bm_offset : Z
  }.

  (** src/decoder/bitmap.rs:16-27 [new]: [size_hint] of a slice iterator is its
      length; [bitmap_len * 8] does not overflow [usize] for an in-memory slice.
      [None] stands for [Err(DecodeError::LengthMismatch)]. *)
  Definition bitmap_new (bitmap : list byte) (values : I) (len : Z) : option bitmap_state :=
    if zlen bitmap * 8 <? len then None else Some (BM bitmap values len 0).

  (** src/decoder/bitmap.rs:37-55 [next]. *)
  Definition bitmap_next (s : bitmap_state) : outcome (option A * bitmap_state) :=
    let '(BM bitmap values len offset) := s in
    if len <=? offset then Ret (None, s)
    else
      let '(ob, bitmap', offset') :=
        if offset <? 7 then (hd_error bitmap, bitmap, offset + 1)
        else (hd_error bitmap, tl bitmap, 0) in
      match ob with
      | None => Ret (None, BM bitmap' values len offset')
      | Some b =>
          if has_zero_at_offset b offset
          then Ret (Some nan, BM bitmap' values len offset')
          else
            let! (o, values') := values_next values in
            Ret (o, BM bitmap' values' len offset')
      end.

  (** src/decoder/bitmap.rs:57-60 [size_hint]: [self.len - self.offset]. *)
  Definition bitmap_size_hint (m : mode) (s : bitmap_state) : outcome (Z * option Z) :=
    let! size := arith m Usize (bm_len s - bm_offset s) in
    Ret (size, Some size).
End BitmapDecode.
Arguments bitmap_state : clear implicits.
Arguments BM {I}.
Arguments bm_bitmap {I}.
Arguments bm_values {I}.
Arguments bm_len {I}.
Arguments bm_offset {I}.

(** The iterator a caller gets: [BitmapDecodeIterator] over any value iterator. *)
Definition bitmap_iter {A} (nan : A) (bitmap : list byte) (values : iter A) (len : Z) : option (iter A) :=
  match bitmap_new (ist values) bitmap (icur values) len with
  | None => None
  | Some s => Some (MkIter (bitmap_state (ist values)) s (bitmap_next nan (ist values) (istep values)))
  end.
