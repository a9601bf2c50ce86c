(** Property theorems C49-C52, C58-C60: the tools. *)
From Coq Require Import Lia Strings.String Floats.SpecFloat.
From Verif Require Import Model.Base Model.Errors Model.F32 Model.F64 Model.Sections Model.Reader Model.Parser Model.Context Model.Product Model.Grid Model.Gaussian Model.Proj Model.Diff Model.Decoder Model.Tools Model.Text Model.Tables.
From Verif Require Import Spec.Bits Spec.BitmapS Spec.ReaderS Spec.ParserS Spec.ContextS Spec.FieldsS Spec.ComplexS Spec.FloatS Spec.SimpleS Spec.Layout Spec.DecodeS Spec.ToolsS Spec.TablesS.
From Verif Require Proofs.ToolsP Proofs.ToolsF Proofs.ToolsX Proofs.TextP Proofs.TablesX Proofs.DecodeX.
From Verif Require Props.P10_Decode.

(** C49: a message index is parsed; numbers of 2^64 and more make the program panic. *)
Theorem C49_index : forall s a b, index_string s a b ->
  cli_message_index s =
  if (decimal a <? 2 ^ 64) && (decimal b <? 2 ^ 64) then Ret (Ok (decimal a, decimal b)) else Panic.
Proof. exact ToolsP.index_parsed. Qed.
Print Assumptions C49_index.
(** C49: everything else is refused. *)
Theorem C49_refused : forall s, (forall a b, ~ index_string s a b) -> cli_message_index s = Ret (Err BadIndex).
Proof. exact ToolsP.index_refused. Qed.
Print Assumptions C49_refused.
(** C49: the submessage with this index, and no other, is selected. *)
Theorem C49_find : forall m fuel s g, grib2_read m fuel s = Ret (Ok g) -> zlen (data s) < 2 ^ 63 -> 0 <= pos s ->
  exists ms us vs, Forall wf_message ms /\ g_sections g = flat_map message_sections ms /\ submessages_of_all 0 ms us /\
    Forall2 (shows (g_sections g)) us vs /\ zlen vs = g_len g /\
    forall i rfuel, g_len g < Z.of_nat rfuel ->
    (forall v, In v vs -> (u_mi v, u_si v) = i -> cli_find rfuel g 0 i = Ret (Some v)) /\
    ((forall v, In v vs -> (u_mi v, u_si v) <> i) -> cli_find rfuel g 0 i = Ret None).
Proof. exact ToolsX.found. Qed.
Print Assumptions C49_find.
Example C49_ex : index_string (str "007.10") (str "007") (str "10") /\ decimal (str "007") = 7 /\ decimal (str "10") = 10 /\
  cli_message_index (str "007.10") = Ret (Ok (7, 10)) /\
  cli_message_index (str "1_1") = Ret (Err BadIndex) /\ cli_message_index (str "+1.1") = Ret (Err BadIndex) /\
  cli_message_index (str "1.18446744073709551616") = Panic.
Proof. repeat split; try (vm_compute; reflexivity); try discriminate; repeat constructor; vm_compute; discriminate. Qed.

(** C50: the files written hold, in order, the values of the decoder, four octets each. *)
Theorem C50_binary : forall c m d it vs e fuel, dispatch c m d = Ret (Ok it) -> Run it vs e -> (length vs < fuel)%nat ->
  (e = End -> exists lb ll, write_values fuel to_be_bytes it = Ret lb /\ write_values fuel to_le_bytes it = Ret ll /\
     zlen lb = 4 * zlen vs /\ zlen ll = 4 * zlen vs /\ be_floats lb = vs /\ le_floats ll = vs) /\
  (e = Crash -> write_values fuel to_be_bytes it = Panic /\ write_values fuel to_le_bytes it = Panic).
Proof. exact ToolsX.written. Qed.
Print Assumptions C50_binary.
Example C50_ex :
  match dispatch P10_Decode.no_codecs Checked (MkDecoder 2 1 0 P10_Decode.ex_s5 [x40] [x70]) with
  | Ret (Ok it) => collect 10 it = Ret ([f32_nan; f32_of_Z 15]) /\
      write_values 10 to_be_bytes it = Ret [x7f; xc0; x00; x00; x41; x70; x00; x00] /\
      write_values 10 to_le_bytes it = Ret [x00; x00; xc0; x7f; x00; x00; x70; x41]
  | _ => False
  end.
Proof. vm_compute. repeat split; reflexivity. Qed.

(** C51: code ranges. *)
Theorem C51_range : forall s lo hi, range_string s lo hi ->
  parse_range s = if (lo <? 2 ^ 64) && (hi <? 2 ^ 64) then Some (MkRange lo hi) else None.
Proof. exact ToolsP.range_parsed. Qed.
Print Assumptions C51_range.
Theorem C51_no_range : forall s, (forall lo hi, ~ range_string s lo hi) -> parse_range s = None.
Proof. exact ToolsP.range_refused. Qed.
Print Assumptions C51_no_range.
(** C51: whatever the rows are, no code gets a description that the table does not give it. *)
Theorem C51_sound : forall m rows, rows_ok rows ->
  exists t, to_vec m rows = Ret t /\
  forall c, 0 <= c ->
    (exists d, lookup t c = Ok d /\ (describes rows c d \/ d = [] /\ forall d', ~ describes rows c d')) \/ lookup t c = Err c.
Proof. exact ToolsP.table_sound. Qed.
Print Assumptions C51_sound.
(** C51: a table without gaps: each described code has its description; the others have an
    empty one or, after the last described code, are not implemented. *)
Theorem C51_complete : forall m rows e, rows_ok rows -> consecutive 0 rows e ->
  exists t, to_vec m rows = Ret t /\
  forall c, 0 <= c ->
    (forall d, describes rows c d -> lookup t c = Ok d) /\
    ((forall d, ~ describes rows c d) -> described_after rows c -> lookup t c = Ok []) /\
    ((forall d, ~ describes rows c d) -> ~ described_after rows c -> lookup t c = Err c).
Proof. exact ToolsP.table_complete. Qed.
Print Assumptions C51_complete.
(** C51: a table with a gap before a described code is empty. *)
Theorem C51_sparse : forall m rows e id d post lo hi, rows_ok (rows ++ (id, d) :: post) -> consecutive 0 rows e ->
  range_string id lo hi -> lo <> e -> ~ no_description d -> to_vec m (rows ++ (id, d) :: post) = Ret [].
Proof. exact ToolsP.table_sparse. Qed.
Print Assumptions C51_sparse.
Definition ex_rows : list row :=
  map (fun p => (str (fst p), str (snd p))) [("0", "a"); ("1-3", "Reserved"); ("4-5", "b"); ("note", "x"); ("6-191", "Reserved"); ("255", "Missing")]%string.
Example C51_ex : to_vec Checked ex_rows = Ret [str "a"; []; []; []; str "b"; str "b"] /\
  to_vec Checked (map (fun p => (str (fst p), str (snd p))) [("0", "a"); ("2", "b")]%string) = Ret [].
Proof. vm_compute. split; reflexivity. Qed.
Example C51_ex_hypotheses : consecutive 0 (firstn 5 ex_rows) 192 /\ range_string (str "6-191") 6 191.
Proof.
  assert (D : forall s : string, s <> EmptyString -> forallb is_digit (str s) = true -> digits (str s)).
  { intros s N H. split; [destruct s; [congruence|discriminate]|]. apply Forall_forall. intros b I. rewrite forallb_forall in H. apply ToolsP.is_digit_spec, H, I. }
  assert (R1 : forall s, s <> EmptyString -> forallb is_digit (str s) = true -> range_string (str s) (decimal (str s)) (decimal (str s))) by (intros; apply range_one, D; assumption).
  assert (R2 : forall s t, s <> EmptyString -> t <> EmptyString -> forallb is_digit (str s) = true -> forallb is_digit (str t) = true ->
    range_string (str s ++ [x2d] ++ str t ++ []) (decimal (str s)) (decimal (str t))) by (intros; apply range_two; [apply D; assumption..|discriminate]).
  split; [|exact (R2 "6"%string "191"%string ltac:(discriminate) ltac:(discriminate) eq_refl eq_refl)].
  apply (cons_range 0 _ _ 0); [exact (R1 "0"%string ltac:(discriminate) eq_refl)|lia|].
  apply (cons_range 1 _ _ 3); [exact (R2 "1"%string "3"%string ltac:(discriminate) ltac:(discriminate) eq_refl eq_refl)|lia|].
  apply (cons_range 4 _ _ 5); [exact (R2 "4"%string "5"%string ltac:(discriminate) ltac:(discriminate) eq_refl eq_refl)|lia|].
  apply cons_other.
  { intros lo hi R. pose proof (ToolsP.range_string_nonneg _ _ _ R) as _. inversion R as [a [N F] E|a b r [N F] Db Nr E]; subst.
    - inversion F as [|? ? H _]. vm_compute in H. destruct H as [_ H]. apply H. reflexivity.
    - destruct a as [|x a]; [congruence|]. cbn in E. injection E as E _. subst x. inversion F as [|? ? H _]. vm_compute in H. destruct H as [_ H]. apply H. reflexivity. }
  apply (cons_range 6 _ _ 191); [exact (R2 "6"%string "191"%string ltac:(discriminate) ltac:(discriminate) eq_refl eq_refl)|lia|]. apply cons_nil.
Qed.

(** C52: sizes at a reduced resolution are rounded up. *)
Theorem C52_sizes : forall m u k, 0 <= u < 2 ^ 32 -> 0 <= k < 32 -> value_for_discard_level m u k = Ret (cdiv u k).
Proof. exact DecodeX.discard_level. Qed.
Print Assumptions C52_sizes.
(** C52: whatever the library asks for, the octets are delivered in order, each of them once,
    as many as asked for as long as there are any. *)
Theorem C52_reads : forall m buf calls, zlen buf < 2 ^ 63 -> Forall (fun c => 0 <= snd c) calls ->
  exists outs, reads m buf 0 calls outs /\ outs = deliveries buf calls /\ exists tail, buf = concat outs ++ tail.
Proof. exact ToolsX.stream_reads. Qed.
Print Assumptions C52_reads.
Theorem C52_reads_unique : forall m buf off calls outs outs', reads m buf off calls outs -> reads m buf off calls outs' -> outs = outs'.
Proof. exact ToolsX.reads_det. Qed.
Print Assumptions C52_reads_unique.
Example C52_ex : value_for_discard_level Checked 9 3 = Ret 2 /\ value_for_discard_level Checked 8 3 = Ret 1 /\
  value_for_discard_level Checked 8 32 = Panic /\
  deliveries [x01; x02; x03] [(false, 2); (true, 5); (false, 0); (false, 4); (false, 1)] = [[x01; x02]; []; []; [x03]; []].
Proof. vm_compute. repeat split. Qed.

(** C58: a line of a parameter table is accepted if and only if it has eleven or more words,
    seven of them numbers in range; its discipline, category, number and name are read. *)
Theorem C58_line : forall l e, parse_entry l = Some e <-> table_line l e.
Proof. exact TextP.entry_iff. Qed.
Print Assumptions C58_line.
(** C58: every text has lines; a table is accepted if and only if each of them, without white
    space at its end, is a line of a table. *)
Theorem C58_table : forall text, (exists ls, text_lines text ls) /\ forall ls, text_lines text ls -> forall es,
  parse_table text = Some es <-> Forall2 (fun l e => exists w, trimmed l w /\ table_line w e) ls es.
Proof. intros text. split; [exists (lines text); exact (TextP.lines_exist text)|exact (TextP.table_iff text)]. Qed.
Print Assumptions C58_table.
(** C58: a code stands for one discipline, category and number. *)
Theorem C58_codes : forall e e',
  (forall x, In x [w_discipline e; w_category e; w_number e; w_discipline e'; w_category e'; w_number e'] -> 0 <= x < 256) ->
  entry_id e = entry_id e' -> w_discipline e = w_discipline e' /\ w_category e = w_category e' /\ w_number e = w_number e'.
Proof. exact ToolsX.code_injective. Qed.
Print Assumptions C58_codes.
(** C58: codes are converted to the variant with their name, if no code is listed twice. *)
Theorem C58_conversion : forall codes, NoDup (map entry_id codes) -> forall value,
  (forall e, In e codes -> entry_id e = value -> exists v, variant_of (w_name e) v /\ enum_try_from codes value = Some v) /\
  ((forall e, In e codes -> entry_id e <> value) -> enum_try_from codes value = None).
Proof. exact TablesX.try_from_named. Qed.
Print Assumptions C58_conversion.
(** C58: the enumeration has one variant per name, with different numbers; a variant's number
    is the code of the first entry with this name and is converted to the variant. *)
Theorem C58_enumeration : forall codes, NoDup (map entry_id codes) ->
  NoDup (map fst (enum_variants codes)) /\ NoDup (map snd (enum_variants codes)) /\
  (forall v, In v (map fst (enum_variants codes)) <-> exists e, In e codes /\ variant_of (w_name e) v) /\
  (forall v d, In (v, d) (enum_variants codes) -> enum_try_from codes d = Some v /\
     exists pre e post, codes = pre ++ e :: post /\ entry_id e = d /\ variant_of (w_name e) v /\
       forall e', In e' pre -> ~ variant_of (w_name e') v).
Proof. exact TablesX.enum_named. Qed.
Print Assumptions C58_enumeration.
Definition ex_codes : list wgrib2_entry :=
  [MkEntry 0 0 0 (str "TMP"); MkEntry 0 3 16 (str "U-GWD"); MkEntry 0 3 194 (str "U-GWD")].
Example C58_ex : map entry_id ex_codes = [0; 784; 962] /\ enum_variants ex_codes = [(str "_TMP", 0); (str "_U_GWD", 784)] /\
  enum_try_from ex_codes 962 = Some (str "_U_GWD") /\ enum_try_from ex_codes 1 = None /\
  parse_entry (str "0:1:0:255:7:1:3:194:U-GWD:Zonal Flux:N/m^2") = Some (MkEntry 0 3 194 (str "U-GWD")) /\
  parse_entry (str "0:1:0:256:7:1:3:194:U-GWD:Zonal Flux:N/m^2") = None /\
  parse_table (str "0:1:0:255:0:0:0:0:TMP:Temperature:K" ++ [x0d; x0a] ++ str "+0:1:0:255:7:1:3:194:U-GWD:Zonal Flux:N/m^2:x") =
    Some [MkEntry 0 0 0 (str "TMP"); MkEntry 0 3 194 (str "U-GWD")] /\
  (* an empty line *)
  parse_table ([x0a] ++ str "0:1:0:255:0:0:0:0:TMP:Temperature:K") = None /\
  (* the same line twice: its variant is lost, the conversion refers to it *)
  enum_variants [MkEntry 0 0 0 (str "TMP"); MkEntry 0 0 0 (str "TMP")] = [] /\
  enum_try_from [MkEntry 0 0 0 (str "TMP"); MkEntry 0 0 0 (str "TMP")] 0 = Some (str "_TMP").
Proof. vm_compute. repeat split. Qed.

(** C59: the numbers of points listed; more packed than grid points: panic or a huge number. *)
Theorem C59_list : forall m fuel s g, grib2_read m fuel s = Ret (Ok g) -> zlen (data s) < 2 ^ 63 -> 0 <= pos s <= zlen (data s) ->
  forall w v, In w (g_subs g) -> make_view g w = Some v ->
  let n := grid_points (data s) v in let k := packed_points (data s) v in
  (k <= n -> forall m', cli_list_points m' v = Ret (n - k, n)) /\
  (n < k -> cli_list_points Checked v = Panic /\ cli_list_points Wrapping v = Ret (2 ^ 32 + n - k, n)).
Proof. exact ToolsX.list_points. Qed.
Print Assumptions C59_list.
Example C59_ex : match from_slice Checked 200 P10_Decode.ex_d with
  | Ret (Ok g) => match g_subs g with
                  | [w] => match make_view g w with Some v => cli_list_points Checked v = Ret (7, 10) | None => False end
                  | _ => False
                  end
  | _ => False
  end.
Proof. vm_compute. reflexivity. Qed.

(** C60: what the decode command writes: the values, without or with the points of the grid;
    no coordinates are shown (NaN) if the grid is not supported. *)
Theorem C60_values : forall m rfuel s g, grib2_read m rfuel s = Ret (Ok g) -> zlen (data s) < 2 ^ 63 -> 0 <= pos s <= zlen (data s) ->
  0 < g_len g < Z.of_nat rfuel ->
  forall index a b, index_string index a b -> decimal a < 2 ^ 64 -> decimal b < 2 ^ 64 ->
  forall w v, In w (g_subs g) -> make_view g w = Some v -> (u_mi v, u_si v) = (decimal a, decimal b) -> 5 <= s_size (snd (u_7 v)) ->
  forall c refbits e dec pts, 0 <= refbits < 2 ^ 32 -> ieee_finite refbits -> -127 <= e <= 127 -> -38 <= dec <= 37 ->
  encodes c refbits e dec (packing (data s) v) (packed_data (data s) v) pts ->
  mask_ok (data s) v -> ones (mask (data s) v) = length pts ->
  forall lm pl gfuel latlons,
  sub_latlons m lm pl gfuel (octets (data s) (s_offset (snd (u_3 v)) + 5) (s_size (snd (u_3 v)) - 5)) = Ret latlons ->
  exists N out, decodes_to (data s) v (item refbits e dec) pts out /\
  forall fuel, (N <= fuel)%nat ->
  (exists l, cli_decode m lm pl c rfuel gfuel fuel BigEndian s index = Ret (Ok (Octets l)) /\ zlen l = 4 * zlen out /\ be_floats l = out) /\
  (exists l, cli_decode m lm pl c rfuel gfuel fuel LittleEndian s index = Ret (Ok (Octets l)) /\ zlen l = 4 * zlen out /\ le_floats l = out) /\
  match latlons with
  | Ok points => forall ps, Run (points_iter m points) ps End ->
      cli_decode m lm pl c rfuel gfuel fuel Text s index = Ret (Ok (Lines (combine ps out)))
  | Err NotSupported =>
      cli_decode m lm pl c rfuel gfuel fuel Text s index = Ret (Ok (Lines (map (fun x => ((f32_nan, f32_nan), x)) out)))
  | Err err => cli_decode m lm pl c rfuel gfuel fuel Text s index = Ret (Err (Unexpected err))
  end.
Proof. exact ToolsX.cli_values. Qed.
Print Assumptions C60_values.
(** C60: the same for whatever the decoder returns. *)
Theorem C60_output : forall m rfuel s g, grib2_read m rfuel s = Ret (Ok g) -> zlen (data s) < 2 ^ 63 -> 0 <= pos s <= zlen (data s) ->
  0 < g_len g < Z.of_nat rfuel ->
  forall index a b, index_string index a b -> decimal a < 2 ^ 64 -> decimal b < 2 ^ 64 ->
  forall w v, In w (g_subs g) -> make_view g w = Some v -> (u_mi v, u_si v) = (decimal a, decimal b) ->
  forall lm pl c gfuel fuel latlons dec s' it out,
  sub_latlons m lm pl gfuel (octets (data s) (s_offset (snd (u_3 v)) + 5) (s_size (snd (u_3 v)) - 5)) = Ret latlons ->
  decoder_from m (g_src g) v = Ret (Ok dec, s') -> dispatch c m dec = Ret (Ok it) -> Run it out End -> (length out < fuel)%nat ->
  (exists l, cli_decode m lm pl c rfuel gfuel fuel BigEndian s index = Ret (Ok (Octets l)) /\ zlen l = 4 * zlen out /\ be_floats l = out) /\
  (exists l, cli_decode m lm pl c rfuel gfuel fuel LittleEndian s index = Ret (Ok (Octets l)) /\ zlen l = 4 * zlen out /\ le_floats l = out) /\
  match latlons with
  | Ok pts => forall ps, Run (points_iter m pts) ps End ->
      cli_decode m lm pl c rfuel gfuel fuel Text s index = Ret (Ok (Lines (combine ps out)))
  | Err NotSupported =>
      cli_decode m lm pl c rfuel gfuel fuel Text s index = Ret (Ok (Lines (map (fun x => ((f32_nan, f32_nan), x)) out)))
  | Err e => cli_decode m lm pl c rfuel gfuel fuel Text s index = Ret (Err (Unexpected e))
  end.
Proof. exact ToolsX.cli_output_spec. Qed.
Print Assumptions C60_output.
(** C60: errors: of the decoder, of the index. *)
Theorem C60_errors : forall m rfuel s g, grib2_read m rfuel s = Ret (Ok g) -> zlen (data s) < 2 ^ 63 -> 0 <= pos s <= zlen (data s) ->
  0 < g_len g < Z.of_nat rfuel ->
  forall index a b, index_string index a b -> decimal a < 2 ^ 64 -> decimal b < 2 ^ 64 ->
  forall w v, In w (g_subs g) -> make_view g w = Some v -> (u_mi v, u_si v) = (decimal a, decimal b) ->
  forall lm pl c gfuel fuel fmt latlons e,
  sub_latlons m lm pl gfuel (octets (data s) (s_offset (snd (u_3 v)) + 5) (s_size (snd (u_3 v)) - 5)) = Ret latlons ->
  (exists s', decoder_from m (g_src g) v = Ret (Err e, s')) \/
  (exists dec s', decoder_from m (g_src g) v = Ret (Ok dec, s') /\ dispatch c m dec = Ret (Err e)) ->
  cli_decode m lm pl c rfuel gfuel fuel fmt s index = Ret (Err (Grib e)).
Proof. exact ToolsX.cli_errors_spec. Qed.
Print Assumptions C60_errors.
Theorem C60_no_such_index : forall m rfuel s g, grib2_read m rfuel s = Ret (Ok g) -> zlen (data s) < 2 ^ 63 -> 0 <= pos s <= zlen (data s) ->
  0 < g_len g < Z.of_nat rfuel ->
  forall index a b, index_string index a b -> decimal a < 2 ^ 64 -> decimal b < 2 ^ 64 ->
  forall lm pl c gfuel fuel fmt, (forall w v, In w (g_subs g) -> make_view g w = Some v -> (u_mi v, u_si v) <> (decimal a, decimal b)) ->
  cli_decode m lm pl c rfuel gfuel fuel fmt s index = Ret (Err NoSuchIndex).
Proof. exact ToolsX.cli_no_such. Qed.
Print Assumptions C60_no_such_index.
Theorem C60_bad_index : forall m rfuel s g, grib2_read m rfuel s = Ret (Ok g) -> 0 < g_len g ->
  forall index, (forall a b, ~ index_string index a b) ->
  forall lm pl c gfuel fuel fmt, cli_decode m lm pl c rfuel gfuel fuel fmt s index = Ret (Err BadIndex).
Proof. exact ToolsX.cli_bad_index. Qed.
Print Assumptions C60_bad_index.
Theorem C60_unreadable : forall m rfuel s r, grib2_read m rfuel s = Ret r -> (match r with Ok g => g_len g = 0 | Err _ => True end) ->
  forall index lm pl c gfuel fuel fmt, cli_decode m lm pl c rfuel gfuel fuel fmt s index =
    Ret (Err (match r with Ok _ => EmptyData | Err e => Grib e end)).
Proof. exact ToolsX.cli_unreadable. Qed.
Print Assumptions C60_unreadable.
(** The file of C46, whose grid definition is not long enough for coordinates: the command
    panics; with an unsupported grid template it writes the values. *)
Definition no_libm : libm := MkLibm (fun x => x) (fun x => x) (fun x _ => x).
Definition ex_grid (n : Z) : list byte := file_bytes [([], one_field [x00; x00] 0 (repeat x00 16) (x00 :: be_bytes 4 10 ++ [x00; x00] ++ be_bytes 2 n) (repeat x00 4) P10_Decode.ex_s5 P10_Decode.ex_s6 (pack 4 [7; 0; 15]))] [].
Example C60_ex :
  cli_decode Checked no_libm None P10_Decode.no_codecs 200 10 100 Text (cursor (ex_grid 0)) (str "0.0") = Panic /\
  cli_decode Checked no_libm None P10_Decode.no_codecs 200 10 100 BigEndian (cursor (ex_grid 90)) (str "0.1") = Ret (Err NoSuchIndex) /\
  match cli_decode Checked no_libm None P10_Decode.no_codecs 200 10 100 BigEndian (cursor (ex_grid 90)) (str "0.0") with
  | Ret (Ok (Octets l)) => zlen l = 64 /\ firstn 4 l = [x41; x70; x00; x00]
  | _ => False
  end.
Proof. vm_compute. repeat split; reflexivity. Qed.
