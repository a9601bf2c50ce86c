(** Property theorems C92: files that are cut off. *)
From Coq Require Import Lia.
From Verif Require Import Model.Base Model.Errors Model.Sections Model.Reader Model.Parser Model.Context Model.Decoder.
From Verif Require Import Spec.ReaderS Spec.ParserS Spec.SessionS Spec.CutS.
From Verif Require Proofs.CutF.
From Verif Require Import Props.P07_Context.

(** C92: the sections of the beginning of a file, read with whatever read sizes, are the first sections of the
    file, for any octets; ... *)
Theorem C92_sections : forall d n p, zlen d < 2 ^ 63 -> 0 <= p <= n -> n <= zlen d ->
  forall m sc l it, Steps (section_stream m (MkSrc (cut n d) p sc)) (map Ok l) it ->
  exists it', Steps (section_stream m (MkSrc d p [])) (map Ok l) it'.
Proof. exact CutF.sections. Qed.
Print Assumptions C92_sections.
(** C92: ... a panic is one that the whole file causes, too, ... *)
Theorem C92_crash : forall d n p, zlen d < 2 ^ 63 -> 0 <= p <= n -> n <= zlen d ->
  forall m sc l, Run (section_stream m (MkSrc (cut n d) p sc)) (map Ok l) Crash -> Run (section_stream m (MkSrc d p [])) (map Ok l) Crash.
Proof. exact CutF.crash. Qed.
Print Assumptions C92_crash.
(** C92: ... and so is an error other than the end of the data. *)
Theorem C92_errors : forall d n p, zlen d < 2 ^ 63 -> 0 <= p <= n -> n <= zlen d ->
  forall m sc l x, x <> ReadErrorEof -> (exists it, Steps (section_stream m (MkSrc (cut n d) p sc)) (map Ok l ++ [Err x]) it) ->
  exists it, Steps (section_stream m (MkSrc d p [])) (map Ok l ++ [Err x]) it.
Proof. exact CutF.error. Qed.
Print Assumptions C92_errors.
(** C92: reading the beginning of any octets. *)
Theorem C92_any : forall d n p, zlen d < 2 ^ 63 -> 0 <= p <= n -> n <= zlen d ->
  forall m fuel fuel', n < Z.of_nat fuel -> zlen d < Z.of_nat fuel' ->
  match grib2_read m fuel (MkSrc (cut n d) p []) with
  | Ret (Ok _) => True
  | Ret (Err (EParse e)) => e = ReadErrorEof \/ (exists k, e = UnexpectedEndOfData k) \/ grib2_read m fuel' (MkSrc d p []) = Ret (Err (EParse e))
  | Panic => grib2_read m fuel' (MkSrc d p []) = Panic
  | _ => False
  end.
Proof. exact CutF.outcome_any. Qed.
Print Assumptions C92_any.
(** C92: the beginning of a file that can be read (where overflow is checked) is read if and only if no
    message is cut, and then has the first sections and submessages of the file; otherwise reading it is
    refused, with one of two errors, and all messages before the cut are lost. *)
Theorem C92_read : forall d n p, zlen d < 2 ^ 63 -> 0 <= p <= n -> n <= zlen d ->
  forall f g, grib2_read Checked f (MkSrc d p []) = Ret (Ok g) ->
  forall m fuel, n < Z.of_nat fuel ->
  match grib2_read m fuel (MkSrc (cut n d) p []) with
  | Ret (Ok g') => cuts_no_message n (g_sections g) /\ exists l us, g_sections g = g_sections g' ++ l /\ g_subs g = g_subs g' ++ us
  | Ret (Err (EParse e)) => ~ cuts_no_message n (g_sections g) /\ (e = ReadErrorEof \/ exists k, e = UnexpectedEndOfData k)
  | _ => False
  end.
Proof. exact CutF.outcome_valid. Qed.
Print Assumptions C92_read.
(** C92: for short reads, too, whatever is read of the beginning is the first part of the file. *)
Theorem C92_short_reads : forall d n p, zlen d < 2 ^ 63 -> 0 <= p <= n -> n <= zlen d ->
  forall f g, grib2_read Checked f (MkSrc d p []) = Ret (Ok g) ->
  forall m fuel sc g', grib2_read m fuel (MkSrc (cut n d) p sc) = Ret (Ok g') ->
  exists l us, g_sections g = g_sections g' ++ l /\ g_subs g = g_subs g' ++ us.
Proof. exact CutF.any_schedule. Qed.
Print Assumptions C92_short_reads.
(** C92: its submessages are decoded as those of the file. *)
Theorem C92_decode : forall d n p, zlen d < 2 ^ 63 -> 0 <= p <= n -> n <= zlen d ->
  forall f g, grib2_read Checked f (MkSrc d p []) = Ret (Ok g) ->
  forall m fuel g', grib2_read m fuel (MkSrc (cut n d) p []) = Ret (Ok g') -> forall w v, In w (g_subs g') -> make_view g' w = Some v ->
  In w (g_subs g) /\ make_view g w = Some v /\ forall m', decoded_alone m' (cut n d) v = decoded_alone m' d v.
Proof. exact CutF.same_values. Qed.
Print Assumptions C92_decode.

(** The example file, of 220 octets with messages at 2 to 129 and 130 to 218, cut after its first message and
    some octets of the second one, in the second message and in the first one. *)
Example C92_ex : zlen ex_all = 220 /\
  match from_slice Checked 300 (cut 145 ex_all) with Ret (Ok g) => g_sections g = firstn 13 (g_sections ex_g) /\ g_subs g = firstn 2 (g_subs ex_g) /\ g_len g = 2 | _ => False end /\
  from_slice Checked 300 (cut 146 ex_all) = Ret (Err (EParse (UnexpectedEndOfData 13))) /\
  from_slice Checked 300 (cut 150 ex_all) = Ret (Err (EParse ReadErrorEof)) /\
  from_slice Wrapping 300 (cut 100 ex_all) = Ret (Err (EParse ReadErrorEof)) /\
  match from_slice Checked 300 (cut 17 ex_all) with Ret (Ok g) => g_sections g = [] /\ g_subs g = [] | _ => False end.
Proof. vm_compute. repeat split. Qed.
Example C92_ex_cuts : cuts_no_message 145 (g_sections ex_g) /\ ~ cuts_no_message 146 (g_sections ex_g).
Proof.
  assert (R : grib2_read Checked 300 (MkSrc ex_all 0 []) = Ret (Ok ex_g)) by (vm_compute; reflexivity).
  assert (L : zlen ex_all < 2 ^ 63) by (vm_compute; reflexivity).
  assert (N1 : 145 <= zlen ex_all) by (vm_compute; discriminate). assert (N2 : 146 <= zlen ex_all) by (vm_compute; discriminate).
  assert (E1 : exists g, grib2_read Checked 300 (MkSrc (cut 145 ex_all) 0 []) = Ret (Ok g)) by (eexists; vm_compute; reflexivity).
  assert (E2 : grib2_read Checked 300 (MkSrc (cut 146 ex_all) 0 []) = Ret (Err (EParse (UnexpectedEndOfData 13)))) by (vm_compute; reflexivity).
  split.
  - pose proof (C92_read ex_all 145 0 L ltac:(lia) N1 300%nat ex_g R Checked 300%nat ltac:(lia)) as H. destruct E1 as (g & E1). rewrite E1 in H. exact (proj1 H).
  - pose proof (C92_read ex_all 146 0 L ltac:(lia) N2 300%nat ex_g R Checked 300%nat ltac:(lia)) as H. rewrite E2 in H. exact (proj1 H).
Qed.
