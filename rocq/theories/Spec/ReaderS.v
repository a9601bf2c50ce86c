(** What "the section table of a GRIB2 byte string" means, independently of the
    reader.  Only the data types of the answers (sections, errors) are shared with
    the model. *)
From Verif Require Import Model.Base Model.Errors Model.Sections.

(** The [n] octets of [d] starting at position [p] (fewer at the end of [d]). *)
Definition octets (d : list byte) (p n : Z) : list byte :=
  firstn (Z.to_nat n) (skipn (Z.to_nat p) d).

(** A complete indicator section could start at [k]: the octets "GRIB" and at least
    twelve more. *)
Definition magic_at (d : list byte) (k : Z) : Prop :=
  0 <= k /\ k + 16 <= zlen d /\ octets d k 4 = [x47; x52; x49; x42].

Definition first_magic (d : list byte) (p k : Z) : Prop :=
  p <= k /\ magic_at d k /\ forall j, p <= j < k -> ~ magic_at d j.

(** Contents [b] of the section of number [num] and length [size] at [off]. *)
Definition body_at (d : list byte) (off size num : Z) (b : body) : Prop :=
  let payload := octets d (off + 5) (size - 5) in
  (num <> 7 -> off + size <= zlen d) /\
  ((num = 1 /\ b = B1 payload /\ 16 <= size - 5) \/
   (num = 2 /\ b = B2 payload /\ 0 <= size - 5) \/
   (num = 3 /\ b = B3 payload /\ 9 <= size - 5) \/
   (num = 4 /\ b = B4 payload /\ 4 <= size - 5) \/
   (num = 5 /\ b = B5 payload /\ 6 <= size - 5) \/
   (num = 6 /\ b = B6 (be (octets d (off + 5) 1)) /\ 1 <= size - 5) \/
   (num = 7 /\ b = B7)).

(** [tiles strict d endp cur l endp' cur']: the list [l] is a correct section table
    of the octets of [d] from [cur] up to [cur'], where the message being read ends
    at [endp] before and at [endp'] after ([endp = cur] between messages).  With
    [strict], the lengths are also consistent with each other. *)
Inductive tiles (strict : Prop) (d : list byte) : Z -> Z -> list section -> Z -> Z -> Prop :=
| tiles_nil : forall endp cur, tiles strict d endp cur [] endp cur
| tiles_0 : forall cur k discipline total l endp' cur',
    (* a new message: the first "GRIB" at or after the end of the previous one *)
    first_magic d cur k ->
    be (octets d (k + 7) 1) = 2 ->
    discipline = be (octets d (k + 6) 1) ->
    total = be (octets d (k + 8) 8) ->
    (strict -> 16 <= total /\ k + total < 2 ^ 64) ->
    tiles strict d (k + total) (k + 16) l endp' cur' ->
    tiles strict d cur cur (MkSection 0 k 16 (Some (B0 discipline total)) :: l) endp' cur'
| tiles_8 : forall cur l endp' cur',
    (* the last four octets of the message *)
    cur + 4 <= zlen d ->
    octets d cur 4 = [x37; x37; x37; x37] ->
    tiles strict d (cur + 4) (cur + 4) l endp' cur' ->
    tiles strict d (cur + 4) cur (MkSection 8 cur 4 None :: l) endp' cur'
| tiles_n : forall endp cur size num b l endp' cur',
    endp <> cur -> endp <> cur + 4 ->
    cur + 5 <= zlen d ->
    size = be (octets d cur 4) ->
    num = be (octets d (cur + 4) 1) ->
    body_at d cur size num b ->
    (strict -> 5 <= size <= endp - cur) ->
    tiles strict d endp (cur + size) l endp' cur' ->
    tiles strict d endp cur (MkSection num cur size (Some b) :: l) endp' cur'.

(** What can follow the table entries up to [cur], in a message ending at [endp], other
    than one more entry.

    Nothing more: *)
Inductive ends (d : list byte) (endp cur : Z) : Prop :=
| ends_between : endp = cur -> (forall j, cur <= j -> ~ magic_at d j) -> ends d endp cur
| ends_inside : endp <> cur -> zlen d <= cur -> ends d endp cur.

(** the fewest octets that sections 1 to 5 may hold after their headers, *)
Definition least (num : Z) : Z :=
  match num with 1 => 16 | 3 => 9 | 4 => 4 | 5 => 6 | _ => 0 end.

(** an error: *)
Inductive fails (checked : Prop) (d : list byte) (endp cur : Z) : parse_error -> Prop :=
| fails_version : forall k v,
    endp = cur -> first_magic d cur k -> be (octets d (k + 7) 1) = v -> v <> 2 ->
    fails checked d endp cur (GRIBVersionMismatch v)
| fails_end_cut : endp = cur + 4 -> cur < zlen d < cur + 4 -> fails checked d endp cur ReadErrorEof
| fails_end : endp = cur + 4 -> cur + 4 <= zlen d -> octets d cur 4 <> [x37; x37; x37; x37] ->
    fails checked d endp cur EndSectionMismatch
| fails_header_cut : endp <> cur -> endp <> cur + 4 -> cur < zlen d < cur + 5 -> fails checked d endp cur ReadErrorEof
| fails_number : forall size num,
    endp <> cur -> endp <> cur + 4 -> cur + 5 <= zlen d ->
    size = be (octets d cur 4) -> num = be (octets d (cur + 4) 1) ->
    num = 0 \/ 7 < num -> (checked -> 5 <= size) ->
    fails checked d endp cur (UnknownSectionNumber num)
| fails_cut : forall size num,
    endp <> cur -> endp <> cur + 4 -> cur + 5 <= zlen d ->
    size = be (octets d cur 4) -> num = be (octets d (cur + 4) 1) ->
    1 <= num <= 5 -> 5 <= size -> zlen d < cur + size ->
    fails checked d endp cur ReadErrorEof
| fails_short : forall size num,
    endp <> cur -> endp <> cur + 4 -> cur + 5 <= zlen d ->
    size = be (octets d cur 4) -> num = be (octets d (cur + 4) 1) ->
    1 <= num <= 5 -> 5 <= size -> cur + size <= zlen d -> size - 5 < least num ->
    fails checked d endp cur (ReadErrorTooSmall (size - 5))
| fails_bitmap_cut : forall size num,
    endp <> cur -> endp <> cur + 4 -> cur + 5 <= zlen d ->
    size = be (octets d cur 4) -> num = be (octets d (cur + 4) 1) ->
    num = 6 -> (zlen d < cur + 6 /\ (checked -> 5 <= size)) \/ (5 < size /\ zlen d < cur + size) ->
    fails checked d endp cur ReadErrorEof.

(** or a length field that contradicts the lengths around it, which crashes the reader
    ([checked]: the build checks arithmetic for overflow). *)
Inductive crashes (checked : Prop) (d : list byte) (endp cur : Z) : Prop :=
| crash_total : forall k total,
    checked -> endp = cur -> first_magic d cur k -> be (octets d (k + 7) 1) = 2 ->
    total = be (octets d (k + 8) 8) ->
    total < 16 \/ 2 ^ 64 <= k + total ->
    crashes checked d endp cur
| crash_size : forall size num,
    endp <> cur -> endp <> cur + 4 -> cur + 5 <= zlen d ->
    size = be (octets d cur 4) -> num = be (octets d (cur + 4) 1) ->
    size < 5 -> checked \/ 1 <= num <= 5 \/ (num = 6 /\ cur + 6 <= zlen d) ->
    crashes checked d endp cur
| crash_bitmap : forall size num,
    endp <> cur -> endp <> cur + 4 -> cur + 6 <= zlen d ->
    size = be (octets d cur 4) -> num = be (octets d (cur + 4) 1) ->
    size = 5 -> num = 6 ->
    crashes checked d endp cur
| crash_overrun : forall size num b,
    checked -> endp <> cur -> endp <> cur + 4 -> cur + 5 <= zlen d ->
    size = be (octets d cur 4) -> num = be (octets d (cur + 4) 1) ->
    body_at d cur size num b -> 5 <= size -> endp - cur < size ->
    crashes checked d endp cur.

(** The octets of [d] at the reported offset are the header of the reported section. *)
Definition header_at (d : list byte) (x : section) : Prop :=
  0 <= s_offset x /\
  if s_num x =? 0 then
    s_size x = 16 /\ octets d (s_offset x) 4 = [x47; x52; x49; x42] /\
    s_body x = Some (B0 (be (octets d (s_offset x + 6) 1)) (be (octets d (s_offset x + 8) 8)))
  else if s_num x =? 8 then
    s_size x = 4 /\ s_body x = None /\ octets d (s_offset x) 4 = [x37; x37; x37; x37]
  else
    1 <= s_num x <= 7 /\
    be (octets d (s_offset x) 4) = s_size x /\ be (octets d (s_offset x + 4) 1) = s_num x /\
    exists b, s_body x = Some b /\ body_at d (s_offset x) (s_size x) (s_num x) b.

(** A complete table: all messages of [d] from [p] on, with nothing that looks like a
    message after the last one. *)
Definition full_table (strict : Prop) (d : list byte) (p : Z) (l : list section) : Prop :=
  exists e, tiles strict d p p l e e /\ forall j, e <= j -> ~ magic_at d j.
