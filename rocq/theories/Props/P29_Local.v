(** Property theorems C90, C91: what reading and decoding do not depend on. *)
From Coq Require Import Lia.
From Verif Require Import Model.Base Model.Errors Model.Sections Model.Reader Model.Parser Model.Context Model.Product Model.Decoder.
From Verif Require Import Spec.Bits Spec.ReaderS Spec.Layout Spec.FieldsS Spec.SessionS Spec.LocalS.
From Verif Require Proofs.LocalX Proofs.LocalD.
From Verif Require Import Props.P10_Decode.

(** C90: for octets that differ only inside the payloads of sections 7, the sections are the same ... *)
Theorem C90_sections : forall m d d' p, zlen d < 2 ^ 63 -> 0 <= p <= zlen d -> repacked (m = Checked) d d' p ->
  forall l e, Run (section_stream m (MkSrc d p [])) (map Ok l) e -> Run (section_stream m (MkSrc d' p [])) (map Ok l) e.
Proof. exact LocalX.run_same. Qed.
Print Assumptions C90_sections.
(** C90: ... up to an error, which is also the same ... *)
Theorem C90_errors : forall m d d' p, zlen d < 2 ^ 63 -> 0 <= p <= zlen d -> repacked (m = Checked) d d' p ->
  forall l x, (exists it, Steps (section_stream m (MkSrc d p [])) (map Ok l ++ [Err x]) it) ->
  exists it, Steps (section_stream m (MkSrc d' p [])) (map Ok l ++ [Err x]) it.
Proof. exact LocalX.error_same. Qed.
Print Assumptions C90_errors.
(** C90: ... and so is what reading a file returns: the same sections and submessages, error or panic. *)
Theorem C90_read : forall m d d' p, zlen d < 2 ^ 63 -> 0 <= p <= zlen d -> repacked (m = Checked) d d' p ->
  forall fuel, zlen d < Z.of_nat fuel ->
  match grib2_read m fuel (MkSrc d p []) with
  | Ret (Ok g) => exists g', grib2_read m fuel (MkSrc d' p []) = Ret (Ok g') /\ g_sections g' = g_sections g /\ g_subs g' = g_subs g
  | x => grib2_read m fuel (MkSrc d' p []) = x
  end.
Proof. exact LocalX.read_any. Qed.
Print Assumptions C90_read.
(** C90: a submessage whose own packed data are unchanged is decoded in the same way. *)
Theorem C90_decode : forall m fuel d d' p, zlen d < 2 ^ 63 -> 0 <= p <= zlen d -> zlen d < Z.of_nat fuel -> repacked (m = Checked) d d' p ->
  forall g, grib2_read m fuel (MkSrc d p []) = Ret (Ok g) -> forall w v, In w (g_subs g) -> make_view g w = Some v ->
  same_section d (snd (u_7 v)) d' (snd (u_7 v)) -> forall m', decoded_alone m' d' v = decoded_alone m' d v.
Proof. exact LocalD.decode_repacked. Qed.
Print Assumptions C90_decode.

(** Two messages; the packed data of the first one, octets 95 and 96, replaced. *)
Definition ex_pair : list byte := file_bytes [([x47], ex_one); ([x01], ex_one)] [x01].
Definition ex_g2 : grib2 := match from_slice Checked 300 ex_pair with Ret (Ok g) => g | _ => MkGrib2 (cursor []) [] [] end.
Definition ex_repacked : list byte := firstn 95 ex_pair ++ [x47; x52] ++ skipn 97 ex_pair.
Example C90_ex : repacked (Checked = Checked) ex_pair ex_repacked 0 /\ bytes_eqb ex_repacked ex_pair = false /\ zlen (g_sections ex_g2) = 16 /\
  match from_slice Checked 300 ex_repacked with Ret (Ok g) => g_sections g = g_sections ex_g2 /\ g_subs g = g_subs ex_g2 | _ => False end /\
  match map (make_view ex_g2) (g_subs ex_g2) with
  | [Some v; Some w] => same_section ex_pair (snd (u_7 w)) ex_repacked (snd (u_7 w)) /\
      octets ex_pair (s_offset (snd (u_7 v)) + 5) 2 = [x70; xf0] /\ octets ex_repacked (s_offset (snd (u_7 v)) + 5) 2 = [x47; x52] /\
      match decoded_alone Checked ex_repacked w, decoded_alone Checked ex_pair w with Ret (Ok a), Ret (Ok b) => a = b | _, _ => False end /\
      match decoded_alone Checked ex_repacked v, decoded_alone Checked ex_pair v with Ret (Ok a), Ret (Ok b) => d_sect7 a = [x47; x52] /\ d_sect7 b = [x70; xf0] | _, _ => False end
  | _ => False
  end.
Proof.
  split; [|vm_compute; repeat split].
  replace ex_pair with (firstn 95 ex_pair ++ [x70; xf0] ++ skipn 97 ex_pair) at 1 by (vm_compute; reflexivity).
  apply (LocalD.repacked_patch Checked 300 _ _ _ _ 0 ex_g2 (nth 6 (g_sections ex_g2) (MkSection 0 0 0 None))); try (vm_compute; reflexivity); vm_compute; intuition congruence.
Qed.

(** C91: two submessages of any files, wherever they are, whose sections 3, 5, 6 and 7 have the same octets are
    decoded alike. *)
Theorem C91_decode : forall m1 m2 f1 f2 s s' g g',
  grib2_read m1 f1 s = Ret (Ok g) -> zlen (data s) < 2 ^ 63 -> 0 <= pos s <= zlen (data s) ->
  grib2_read m2 f2 s' = Ret (Ok g') -> zlen (data s') < 2 ^ 63 -> 0 <= pos s' <= zlen (data s') ->
  forall w v w' v', In w (g_subs g) -> make_view g w = Some v -> In w' (g_subs g') -> make_view g' w' = Some v' ->
  let same (k : forall {A}, submessage A -> A) := same_section (data s) (snd (k v)) (data s') (snd (k v')) in
  same (@u_3) -> same (@u_5) -> same (@u_6) -> same (@u_7) ->
  forall m, decoded_alone m (data s') v' = decoded_alone m (data s) v.
Proof. exact LocalD.decode_twins. Qed.
Print Assumptions C91_decode.
(** C91: and each accessor returns the same for submessages that agree in the sections it is about. *)
Theorem C91_accessors : forall m1 m2 f1 f2 s s' g g',
  grib2_read m1 f1 s = Ret (Ok g) -> zlen (data s) < 2 ^ 63 -> 0 <= pos s <= zlen (data s) ->
  grib2_read m2 f2 s' = Ret (Ok g') -> zlen (data s') < 2 ^ 63 -> 0 <= pos s' <= zlen (data s') ->
  forall w v w' v', In w (g_subs g) -> make_view g w = Some v -> In w' (g_subs g') -> make_view g' w' = Some v' ->
  let same (k : forall {A}, submessage A -> A) := same_section (data s) (snd (k v)) (data s') (snd (k v')) in
  (same (@u_0) -> v_indicator v' = v_indicator v) /\ (same (@u_1) -> v_identification v' = v_identification v) /\
  (same (@u_3) -> v_grid_def v' = v_grid_def v) /\ (same (@u_4) -> v_prod_def v' = v_prod_def v) /\ (same (@u_5) -> v_repr_def v' = v_repr_def v) /\
  (same (@u_0) -> same (@u_1) -> same (@u_4) -> v_parameter v' = v_parameter v).
Proof. exact LocalD.accessor_twins. Qed.
Print Assumptions C91_accessors.

(** The message alone, after eleven other octets. *)
Definition ex_moved : list byte := file_bytes [(repeat x00 11, ex_one)] [].
Definition ex_h : grib2 := match from_slice Checked 300 ex_moved with Ret (Ok g) => g | _ => MkGrib2 (cursor []) [] [] end.
Example C91_ex : from_slice Checked 300 ex_moved = Ret (Ok ex_h) /\
  match map (make_view ex_g2) (g_subs ex_g2), map (make_view ex_h) (g_subs ex_h) with
  | [_; Some v], [Some v'] =>
      let same (k : forall {A}, submessage A -> A) := same_section ex_pair (snd (k v)) ex_moved (snd (k v')) in
      s_offset (snd (u_0 v)) = 102 /\ s_offset (snd (u_0 v')) = 11 /\
      same (@u_0) /\ same (@u_1) /\ same (@u_3) /\ same (@u_4) /\ same (@u_5) /\ same (@u_6) /\ same (@u_7) /\
      match decoded_alone Checked ex_moved v', decoded_alone Checked ex_pair v with Ret (Ok a), Ret (Ok b) => a = b /\ d_total a = 10 | _, _ => False end
  | _, _ => False
  end.
Proof. vm_compute. repeat split. Qed.
