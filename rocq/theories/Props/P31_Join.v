(** Property theorems C93: two files, one after the other. *)
From Coq Require Import Lia ZifyBool.
From Verif Require Import Model.Base Model.Errors Model.Sections Model.Reader Model.Parser Model.Context Model.Decoder.
From Verif Require Import Spec.ReaderS Spec.ParserS Spec.SessionS Spec.JoinS.
From Verif Require Proofs.JoinF.
From Verif Require Import Props.P07_Context.

(** C93: two files that can be read (where overflow is checked), one after the other, have the sections and
    submessages of the first file and then those of the second, unless a message seems to begin in the octets
    between the last message of the first file and the second file. *)
Theorem C93_read : forall d1 d2 f1 f2 g1 g2,
  grib2_read Checked f1 (MkSrc d1 0 []) = Ret (Ok g1) -> grib2_read Checked f2 (MkSrc d2 0 []) = Ret (Ok g2) ->
  zlen (d1 ++ d2) < 2 ^ 63 -> (forall j, table_end (g_sections g1) <= j < zlen d1 -> ~ magic_at (d1 ++ d2) j) ->
  forall m fuel, zlen (d1 ++ d2) < Z.of_nat fuel ->
  exists g, grib2_read m fuel (MkSrc (d1 ++ d2) 0 []) = Ret (Ok g) /\
    g_sections g = g_sections g1 ++ map (moved (zlen d1)) (g_sections g2) /\
    g_subs g = g_subs g1 ++ map (renumbered (messages_in (g_sections g1)) (zlen (g_sections g1))) (g_subs g2).
Proof. exact JoinF.read. Qed.
Print Assumptions C93_read.
(** C93: the submessages of the first file are the same ones as before, with the same values; ... *)
Theorem C93_first : forall d1 d2 f1 f2 g1 g2,
  grib2_read Checked f1 (MkSrc d1 0 []) = Ret (Ok g1) -> grib2_read Checked f2 (MkSrc d2 0 []) = Ret (Ok g2) ->
  zlen (d1 ++ d2) < 2 ^ 63 -> (forall j, table_end (g_sections g1) <= j < zlen d1 -> ~ magic_at (d1 ++ d2) j) ->
  forall m fuel g, zlen (d1 ++ d2) < Z.of_nat fuel -> grib2_read m fuel (MkSrc (d1 ++ d2) 0 []) = Ret (Ok g) ->
  forall w v, In w (g_subs g1) -> make_view g1 w = Some v ->
  In w (g_subs g) /\ make_view g w = Some v /\ forall m', decoded_alone m' (d1 ++ d2) v = decoded_alone m' d1 v.
Proof. exact JoinF.first_values. Qed.
Print Assumptions C93_first.
(** C93: ... those of the second file are the same but for the numbers of the message and the sections and
    for the offsets, and have the same values. *)
Theorem C93_second : forall d1 d2 f1 f2 g1 g2,
  grib2_read Checked f1 (MkSrc d1 0 []) = Ret (Ok g1) -> grib2_read Checked f2 (MkSrc d2 0 []) = Ret (Ok g2) ->
  zlen (d1 ++ d2) < 2 ^ 63 -> (forall j, table_end (g_sections g1) <= j < zlen d1 -> ~ magic_at (d1 ++ d2) j) ->
  forall m fuel g, zlen (d1 ++ d2) < Z.of_nat fuel -> grib2_read m fuel (MkSrc (d1 ++ d2) 0 []) = Ret (Ok g) ->
  let a := messages_in (g_sections g1) in let b := zlen (g_sections g1) in
  forall w v, In w (g_subs g2) -> make_view g2 w = Some v ->
  exists e, make_view g (renumbered a b w) = Some (moved_view a b (zlen d1) e v) /\
    forall m', decoded_alone m' (d1 ++ d2) (moved_view a b (zlen d1) e v) = decoded_alone m' d2 v.
Proof. exact JoinF.second_values. Qed.
Print Assumptions C93_second.

(** The example file twice. *)
Example C93_ex : match from_slice Checked 500 (ex_all ++ ex_all) with
  | Ret (Ok g) => g_len g = 6 /\ map u_mi (g_subs g) = [0; 0; 1; 2; 2; 3] /\ map s_offset (filter (fun x => s_num x =? 0) (g_sections g)) = [2; 130; 222; 350] /\
      g_sections g = g_sections ex_g ++ map (moved 220) (g_sections ex_g) /\ g_subs g = g_subs ex_g ++ map (renumbered 2 (zlen (g_sections ex_g))) (g_subs ex_g)
  | _ => False end.
Proof. vm_compute. repeat split. Qed.
Example C93_ex_between : grib2_read Checked 300 (MkSrc ex_all 0 []) = Ret (Ok ex_g) /\ zlen (ex_all ++ ex_all) < 2 ^ 63 /\
  forall j, table_end (g_sections ex_g) <= j < zlen ex_all -> ~ magic_at (ex_all ++ ex_all) j.
Proof.
  split; [vm_compute; reflexivity|]. split; [vm_compute; reflexivity|].
  assert (E : table_end (g_sections ex_g) = 218) by (vm_compute; reflexivity). assert (L : zlen ex_all = 220) by (vm_compute; reflexivity). rewrite E, L.
  intros j Hj (_ & _ & M). assert (N8 : octets (ex_all ++ ex_all) 218 4 <> [x47; x52; x49; x42]) by (vm_compute; discriminate).
  assert (N9 : octets (ex_all ++ ex_all) 219 4 <> [x47; x52; x49; x42]) by (vm_compute; discriminate).
  assert (J : j = 218 \/ j = 219) by lia. destruct J as [-> | ->]; [exact (N8 M)|exact (N9 M)].
Qed.
(** Four octets "GRIB" at the end of the first file are no message there, but seem to be one before another file. *)
Example C93_ex_necessary : let d1 := ex_all ++ [x47; x52; x49; x42] in
  match from_slice Checked 500 d1 with Ret (Ok g) => g_sections g = g_sections ex_g /\ g_subs g = g_subs ex_g | _ => False end /\
  from_slice Checked 500 (d1 ++ ex_all) = Ret (Err (EParse (GRIBVersionMismatch 82))).
Proof. vm_compute. repeat split. Qed.
