(** Property theorems C95: reading from a position on. *)
From Coq Require Import Lia ZifyBool.
From Verif Require Import Model.Base Model.Errors Model.Sections Model.Reader Model.Parser Model.Context Model.Decoder.
From Verif Require Import Spec.ReaderS Spec.ParserS Spec.SessionS Spec.JoinS.
From Verif Require Proofs.StartF.
From Verif Require Import Props.P07_Context.

(** C95: if the octets from position [p] on are a file that can be read (where overflow is checked), then a reader at
    position [p] of the whole gives that file, with the same submessages, its offsets counted from the beginning
    of the whole; ... *)
Theorem C95_there : forall d p, zlen d < 2 ^ 63 -> 0 <= p <= zlen d ->
  forall f' g', grib2_read Checked f' (MkSrc (skipn (Z.to_nat p) d) 0 []) = Ret (Ok g') -> forall m fuel, zlen d < Z.of_nat fuel ->
  exists g, grib2_read m fuel (MkSrc d p []) = Ret (Ok g) /\ g_sections g = map (moved p) (g_sections g') /\ g_subs g = g_subs g'.
Proof. exact StartF.read_there. Qed.
Print Assumptions C95_there.
(** C95: ... and the other way round. *)
Theorem C95_rest : forall d p, zlen d < 2 ^ 63 -> 0 <= p <= zlen d ->
  forall f g, grib2_read Checked f (MkSrc d p []) = Ret (Ok g) -> forall m fuel, zlen (skipn (Z.to_nat p) d) < Z.of_nat fuel ->
  exists g', grib2_read m fuel (MkSrc (skipn (Z.to_nat p) d) 0 []) = Ret (Ok g') /\ g_sections g = map (moved p) (g_sections g') /\ g_subs g = g_subs g'.
Proof. exact StartF.read_rest. Qed.
Print Assumptions C95_rest.
(** C95: the submessages have the same values. *)
Theorem C95_decode : forall d p, zlen d < 2 ^ 63 -> 0 <= p <= zlen d ->
  forall f' g', grib2_read Checked f' (MkSrc (skipn (Z.to_nat p) d) 0 []) = Ret (Ok g') ->
  forall m fuel g, zlen d < Z.of_nat fuel -> grib2_read m fuel (MkSrc d p []) = Ret (Ok g) ->
  forall w v, In w (g_subs g') -> make_view g' w = Some v ->
  let v' := moved_view 0 0 p (fst (u_8 v), moved p (snd (u_8 v))) v in
  make_view g w = Some v' /\ forall mm, decoded_alone mm d v' = decoded_alone mm (skipn (Z.to_nat p) d) v.
Proof. exact StartF.values_from_there. Qed.
Print Assumptions C95_decode.

(** The example file from octet 100, inside of its first message, on: only its second message is found. *)
Example C95_ex : match grib2_read Checked 300 (MkSrc ex_all 100 []), grib2_read Checked 300 (MkSrc (skipn 100 ex_all) 0 []) with
  | Ret (Ok g), Ret (Ok g') => g_sections g = skipn 13 (g_sections ex_g) /\ g_sections g = map (moved 100) (g_sections g') /\ g_subs g = g_subs g' /\ zlen (g_subs g) = 1
  | _, _ => False end.
Proof. vm_compute. repeat split. Qed.
