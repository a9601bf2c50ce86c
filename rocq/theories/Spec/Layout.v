(** How a GRIB2 file is laid out, for building inputs: sections, messages, files with
    other octets around the messages.  Independent of the reader. *)
From Verif Require Import Model.Base Model.Sections Spec.Bits.

(** A section: its number and the octets after its five header octets. *)
Record raw := MkRaw { r_num : Z; r_payload : list byte }.

Definition section_bytes (r : raw) : list byte :=
  be_bytes 4 (zlen (r_payload r) + 5) ++ zb (r_num r) :: r_payload r.

Record raw_message := MkRawMessage { m_reserved : list byte; m_discipline : Z; m_sections : list raw }.

(** A message with one field, from the octets after the headers of its sections. *)
Definition one_field (reserved : list byte) (discipline : Z) (s1 s3 s4 s5 s6 s7 : list byte) : raw_message :=
  MkRawMessage reserved discipline [MkRaw 1 s1; MkRaw 3 s3; MkRaw 4 s4; MkRaw 5 s5; MkRaw 6 s6; MkRaw 7 s7].

Definition total_length (m : raw_message) : Z := 16 + zlen (flat_map section_bytes (m_sections m)) + 4.

Definition message_bytes (m : raw_message) : list byte :=
  [x47; x52; x49; x42] ++ m_reserved m ++ [zb (m_discipline m); x02] ++ be_bytes 8 (total_length m) ++
  flat_map section_bytes (m_sections m) ++ [x37; x37; x37; x37].

(** Messages, each preceded by other octets; [tail] follows the last one. *)
Definition file_bytes (f : list (list byte * raw_message)) (tail : list byte) : list byte :=
  flat_map (fun p => fst p ++ message_bytes (snd p)) f ++ tail.

(** What the section table of such a file has to be. *)
Definition raw_body (r : raw) : body :=
  match r_num r with
  | 1 => B1 (r_payload r) | 2 => B2 (r_payload r) | 3 => B3 (r_payload r) | 4 => B4 (r_payload r)
  | 5 => B5 (r_payload r) | 6 => B6 (be (firstn 1 (r_payload r))) | _ => B7
  end.

Fixpoint sections_table (off : Z) (l : list raw) : list section :=
  match l with
  | [] => []
  | r :: l' => MkSection (r_num r) off (zlen (r_payload r) + 5) (Some (raw_body r))
               :: sections_table (off + (zlen (r_payload r) + 5)) l'
  end.

Definition message_table (off : Z) (m : raw_message) : list section :=
  MkSection 0 off 16 (Some (B0 (m_discipline m) (total_length m)))
  :: sections_table (off + 16) (m_sections m) ++ [MkSection 8 (off + total_length m - 4) 4 None].

Fixpoint file_table (off : Z) (f : list (list byte * raw_message)) : list section :=
  match f with
  | [] => []
  | (junk, m) :: f' => message_table (off + zlen junk) m ++ file_table (off + zlen junk + total_length m) f'
  end.

(** Payloads long enough for the fixed part of their section, and not too long for the
    length fields. *)
Definition min_payload (num : Z) : Z :=
  match num with 1 => 16 | 3 => 9 | 4 => 4 | 5 => 6 | 6 => 1 | _ => 0 end.
Definition raw_ok (r : raw) : Prop :=
  1 <= r_num r <= 7 /\ min_payload (r_num r) <= zlen (r_payload r) /\ zlen (r_payload r) + 5 < 2 ^ 32.
Definition message_ok (m : raw_message) : Prop :=
  length (m_reserved m) = 2%nat /\ 0 <= m_discipline m < 256 /\ Forall raw_ok (m_sections m).

(** The octets "GRIB" do not occur. *)
Definition no_magic (l : list byte) : Prop := forall a b, l <> a ++ [x47; x52; x49; x42] ++ b.

(** The section numbers between section 1 and section 8: one group per submessage, the
    first one with a section 3. *)
Definition later_groups : list (list Z) := [[4; 5; 6; 7]; [3; 4; 5; 6; 7]; [2; 3; 4; 5; 6; 7]].
Definition first_groups : list (list Z) := [[3; 4; 5; 6; 7]; [2; 3; 4; 5; 6; 7]].
Definition grib_order (m : raw_message) (gs : list (list Z)) : Prop :=
  map r_num (m_sections m) = 1 :: concat gs /\
  exists g gs', gs = g :: gs' /\ In g first_groups /\ Forall (fun g => In g later_groups) gs'.
