(** Property theorems C69-C72: what gribber prints. *)
From Coq Require Import Lia Strings.String Sorting.Sorted Sorting.Permutation.
From Verif Require Import Model.Base Model.Errors Model.Sections Model.Reader Model.Parser Model.Context Model.Product Model.Grid Model.Tools Model.Text Model.Tables Model.Cli.
From Verif Require Import Spec.ToolsS Spec.ReaderS Spec.ParserS Spec.ContextS Spec.Layout Spec.CliS.
From Verif Require Proofs.CliX Proofs.CliL Props.P07_Context.
Import P07_Context(ex_g, ex_all, ex_read).

(** Code tables for the examples: every constant exists, some have entries. *)
Definition ex_names : list (list byte) :=
  map text ["COMMON_CODE_TABLE_00"; "COMMON_CODE_TABLE_11"; "CODE_TABLE_0_0"; "CODE_TABLE_1_1"; "CODE_TABLE_1_2"; "CODE_TABLE_1_3"; "CODE_TABLE_1_4";
    "CODE_TABLE_4_3"; "CODE_TABLE_4_4"; "CODE_TABLE_5_0"]%string ++
  map (fun d => text "CODE_TABLE_4_1_" ++ show_uint d) disciplines_4_1 ++
  map (fun c => text "CODE_TABLE_4_2_" ++ show_uint (fst c) ++ text "_" ++ show_uint (snd c)) (tl categories_4_2).
Definition ex_e : printer := MkPrinter
  ([(text "CODE_TABLE_3_1", [text "Latitude/longitude"]); (text "CODE_TABLE_4_0", [text "Analysis or forecast"]);
    (text "CODE_TABLE_4_2_0_0", [text "Temperature"]); (text "CODE_TABLE_4_5", [text "Reserved"; text "Ground"])] ++
   map (fun n => (n, [])) ex_names) (fun _ => text "1.5").
Lemma ex_compiles : compiles ex_e.
Proof.
  assert (K : forall t name, table_constant t = Some name -> In name (map fst (pr_tables ex_e))).
  { intros t name H.
    assert (D : forallb (fun d => if in_dec bytes_dec (text "CODE_TABLE_4_1_" ++ show_uint d) (map fst (pr_tables ex_e)) then true else false) disciplines_4_1 = true)
      by (vm_compute; reflexivity).
    assert (C : forallb (fun c => if in_dec bytes_dec (text "CODE_TABLE_4_2_" ++ show_uint (fst c) ++ text "_" ++ show_uint (snd c)) (map fst (pr_tables ex_e)) then true else false) categories_4_2 = true)
      by (vm_compute; reflexivity).
    rewrite forallb_forall in C, D.
    assert (SI : forall a b : list byte, Some a = Some b -> b = a) by congruence.
    destruct t; unfold table_constant in H.
    10: { destruct (in_dec Z.eq_dec discipline disciplines_4_1) as [I|]; [|discriminate]. specialize (D _ I). rewrite (SI _ _ H).
          match type of D with (if ?b then _ else _) = _ => destruct b as [J|]; [exact J|discriminate] end. }
    10: { destruct (in_dec pair_dec (discipline, category) categories_4_2) as [I|]; [|discriminate]. specialize (C _ I).
          rewrite (SI _ _ H). cbn [fst snd] in C.
          match type of C with (if ?b then _ else _) = _ => destruct b as [J|]; [exact J|discriminate] end. }
    all: rewrite (SI _ _ H);
      match goal with |- In ?a ?l => 
        assert (Q : (if in_dec bytes_dec a l then true else false) = true) by (vm_compute; reflexivity); destruct (in_dec bytes_dec a l) as [J|]; [exact J|discriminate] end. }
  intros t c. unfold table_lookup. destruct (table_constant t) as [name|] eqn:T; [|discriminate]. specialize (K t name T).
  destruct (assoc name_eqb name (pr_tables ex_e)) as [v|] eqn:A; [discriminate|]. exfalso. clear - K A.
  induction (pr_tables ex_e) as [|[k v] l IH]; [exact K|]. cbn [assoc] in A. unfold name_eqb in A at 1. destruct (bytes_dec name k) as [|N]; [discriminate|].
  destruct K as [E|K]; [cbn in E; congruence|auto].
Qed.
Lemma ex_single : single_lines ex_e.
Proof.
  split.
  - intros name v d H1 H2 H3.
    assert (C : forallb (fun p => forallb (fun d => if in_dec Byte.byte_eq_dec x0a d then false else true) (snd p)) (pr_tables ex_e) = true) by (vm_compute; reflexivity).
    rewrite forallb_forall in C. specialize (C _ H1). cbn [snd] in C. rewrite forallb_forall in C. specialize (C _ H2). destruct (in_dec _ _ _); [discriminate|contradiction].
  - intros f H. revert H. vm_compute. intuition discriminate.
Qed.

(** A message with one submessage: an analysis of temperature (4.0) on a regular grid (3.0) with
    four points, three of them with a value. *)
Definition ex_sections : list raw :=
  [MkRaw 1 [x00; x22; x00; x00; x02; x01; x01; x07; xe0; x08; x16; x02; x00; x00; x00; x00];
   MkRaw 3 ([x00; x00; x00; x00; x04; x00; x00; x00; x00] ++ repeat x00 58);
   MkRaw 4 ([x00; x00; x00; x00; x00; x00; x02; x00; x1f; x00; x00; x00; x01; x00; x00; x00; x06; x64; x82; x00; x00; x00; x55; xff] ++ repeat xff 5);
   MkRaw 5 [x00; x00; x00; x03; x00; x00; x00; x00; x00; x00; x00; x00; x00; x00; x00; x00];
   MkRaw 6 [xff]; MkRaw 7 []].
Definition ex_one : list byte := file_bytes [([], MkRawMessage [x00; x00] 0 ex_sections)] [].
Definition ex_1 : grib2 := match from_slice Checked 300 ex_one with Ret (Ok g) => g | _ => MkGrib2 (cursor []) [] [] end.
Example ex_1_read : from_slice Checked 300 ex_one = Ret (Ok ex_1) /\ g_len ex_1 = 1.
Proof. vm_compute. split; reflexivity. Qed.

(** C69: gribber list prints a heading and one line per submessage, in order; it panics iff some
    submessage has no line. *)
Theorem C69_list : forall m fuel s g, grib2_read m fuel s = Ret (Ok g) -> zlen (data s) < 2 ^ 63 -> 0 <= pos s <= zlen (data s) ->
  exists ms us vs, Forall wf_message ms /\ g_sections g = flat_map message_sections ms /\ submessages_of_all 0 ms us /\
    Forall2 (shows (g_sections g)) us vs /\ zlen vs = g_len g /\
    forall e m' color, compiles e ->
    (forall t, list_text e m' color false g = Ret t <->
       exists ls, Forall2 (list_line e m') vs ls /\ t = bold color list_heading ++ [x0a] ++ concat ls) /\
    (list_text e m' color false g = Panic <-> exists v, In v vs /\ forall line, ~ list_line e m' v line) /\
    list_text e m' color false g <> Diverge.
Proof. exact CliX.listed. Qed.
Print Assumptions C69_list.
(** C69: which submessages have no line. *)
Theorem C69_no_line : forall m fuel s g, grib2_read m fuel s = Ret (Ok g) -> zlen (data s) < 2 ^ 63 -> 0 <= pos s <= zlen (data s) ->
  forall w v, In w (g_subs g) -> make_view g w = Some v ->
  exists p p3, v_prod_def v = Ret p /\ v_grid_def v = Ret p3 /\
  forall e m', compiles e ->
    ((forall line, ~ list_line e m' v line) <->
     forecast_time p = Panic \/ fixed_surfaces m' p = Panic \/ grid_of_payload m' p3 = Panic \/
     (m' = Checked /\ DecodeS.grid_points (data s) v < DecodeS.packed_points (data s) v)).
Proof. exact CliX.no_line. Qed.
Print Assumptions C69_no_line.
(** C69: the number in the first column selects the submessage for gribber decode. *)
Theorem C69_id : forall m fuel s g, grib2_read m fuel s = Ret (Ok g) -> zlen (data s) < 2 ^ 63 -> 0 <= pos s <= zlen (data s) ->
  forall w v t, In w (g_subs g) -> make_view g w = Some v -> shows_id v t ->
  exists i, cli_message_index t = Ret (Ok i) /\ forall rfuel, g_len g < Z.of_nat rfuel -> cli_find rfuel g 0 i = Ret (Some v).
Proof. exact CliX.listed_id. Qed.
Print Assumptions C69_id.
(** C69: gribber list -d prints the description of every submessage. *)
Theorem C69_dump : forall m fuel s g, grib2_read m fuel s = Ret (Ok g) -> zlen (data s) < 2 ^ 63 -> 0 <= pos s <= zlen (data s) ->
  exists ms us vs, Forall wf_message ms /\ g_sections g = flat_map message_sections ms /\ submessages_of_all 0 ms us /\
    Forall2 (shows (g_sections g)) us vs /\ zlen vs = g_len g /\
    forall e m' color, compiles e ->
    (forall t, list_text e m' color true g = Ret t <-> exists ls, Forall2 (dump_of e m') vs ls /\ t = concat ls) /\
    (list_text e m' color true g = Panic <->
       exists v p, In v vs /\ v_prod_def v = Ret p /\ (forecast_time p = Panic \/ fixed_surfaces m' p = Panic)) /\
    list_text e m' color true g <> Diverge.
Proof. exact CliX.dumped. Qed.
Print Assumptions C69_dump.
Example C69_ex : compiles ex_e /\ list_text ex_e Checked false false ex_1 = Ret (text "      id │ Parameter                       Generating process  Forecast time                 1st fixed surface                 2nd fixed surface │   #points (nan/total) grid type
     0.0 │ Temperature                     code '2' is not implemented          6 [h]                          1.5 [Pa]                               1.5 │          1/         4 regular_ll           
") /\
  list_text ex_e Checked false true ex_1 = Ret (text "0.0
Grid:                                   Latitude/longitude
  Number of points:                     4
Product:                                Analysis or forecast
  Parameter Category:                   code '0' is not implemented
  Parameter:                            Temperature
  Generating Proceess:                  code '2' is not implemented
  Forecast Time:                        6
  Forecast Time Unit:                   Hour
  1st Fixed Surface Type:               code '100' is not implemented
  1st Scale Factor:                     -2
  1st Scaled Value:                     85
  2nd Fixed Surface Type:               code '255' is not implemented
  2nd Scale Factor:                     Missing
  2nd Scaled Value:                     Missing
Data Representation:                    code '0' is not implemented
  Number of represented values:         3

") /\ 
  (* three values on no points *)
  match from_slice Checked 300 (firstn 46 ex_one ++ [x00] ++ skipn 47 ex_one) with
  | Ret (Ok g) => list_text ex_e Checked false false g = Panic /\ match list_text ex_e Wrapping true false g with Ret t => 0 < zlen t | _ => False end
  | _ => False
  end.
Proof. split; [exact ex_compiles|]. vm_compute. repeat split. Qed.

(** C70: gribber list prints as many lines as it predicts. *)
Theorem C70_list : forall m fuel s g, grib2_read m fuel s = Ret (Ok g) -> zlen (data s) < 2 ^ 63 -> 0 <= pos s <= zlen (data s) ->
  forall e m' color t, single_lines e -> list_text e m' color false g = Ret t ->
  line_feeds t = 1 + g_len g /\ list_num_lines m' false g = Ret (1 + g_len g).
Proof. exact CliL.list_lines. Qed.
Print Assumptions C70_list.
(** C70: gribber list -d prints 18 lines per submessage; it predicts 10 per submessage less one
    (for a file without submessages: it panics, or predicts 2^64 - 1 lines). *)
Theorem C70_dump : forall m fuel s g, grib2_read m fuel s = Ret (Ok g) -> zlen (data s) < 2 ^ 63 -> 0 <= pos s <= zlen (data s) ->
  forall e m' color t, single_lines e -> list_text e m' color true g = Ret t ->
  line_feeds t = 18 * g_len g /\
  list_num_lines m' true g = if 0 <? g_len g then Ret (10 * g_len g - 1) else match m' with Checked => Panic | Wrapping => Ret (2 ^ 64 - 1) end.
Proof. exact CliL.dump_text_lines. Qed.
Print Assumptions C70_dump.
(** C70: so on a terminal of at least 10 n - 1, less than 18 n lines, n submessages scroll away. *)
Theorem C70_no_pager : forall m fuel s g, grib2_read m fuel s = Ret (Ok g) -> zlen (data s) < 2 ^ 63 -> 0 <= pos s <= zlen (data s) ->
  forall e m' color t height, single_lines e -> list_text e m' color true g = Ret t -> 0 < g_len g -> 10 * g_len g - 1 <= height < 18 * g_len g ->
  exists n, list_num_lines m' true g = Ret n /\ starts_pager height n = false /\ height < line_feeds t.
Proof. exact CliL.scrolls. Qed.
Print Assumptions C70_no_pager.
(** C70: gribber inspect prints as many lines as it predicts, or one more (the heading of the
    submessages). *)
Theorem C70_inspect : forall m fuel s g, grib2_read m fuel s = Ret (Ok g) -> zlen (data s) < 2 ^ 63 -> 0 <= pos s <= zlen (data s) ->
  forall e m' order color a b c t, single_lines e -> (forall l, Permutation (order l) l) -> 
  inspect_text e m' order color g (inspect_items a b c) = Ret t ->
  exists n, inspect_num_lines m' order g (inspect_items a b c) = Ret n /\
    line_feeds t = if asked a b c SubMessages then n + 1 else n.
Proof. exact CliL.inspect_lines. Qed.
Print Assumptions C70_inspect.
Example C70_ex : single_lines ex_e /\
  match list_text ex_e Checked true false ex_g with Ret t => line_feeds t = 4 | _ => False end /\ list_num_lines Checked false ex_g = Ret 4 /\
  match list_text ex_e Checked true true ex_g with Ret t => line_feeds t = 54 | _ => False end /\ list_num_lines Checked true ex_g = Ret 29 /\
  match inspect_text ex_e Checked (fun l => l) true ex_g (inspect_items false false false) with Ret t => line_feeds t = 21 + 4 + 3 + 3 + 2 | _ => False end /\
  inspect_num_lines Checked (fun l => l) ex_g (inspect_items false false false) = Ret (21 + 3 + 3 + 3 + 2) /\
  (* no submessages *)
  match from_slice Checked 10 [] with
  | Ret (Ok g) => list_text ex_e Checked false true g = Ret [] /\ list_num_lines Checked true g = Panic /\ list_num_lines Wrapping true g = Ret 18446744073709551615
  | _ => False
  end.
Proof. split; [exact ex_single|]. vm_compute. repeat split. Qed.

(** C71: what gribber inspect prints. *)
Theorem C71_inspect : forall m fuel s g, grib2_read m fuel s = Ret (Ok g) -> zlen (data s) < 2 ^ 63 -> 0 <= pos s <= zlen (data s) ->
  exists ms us, Forall wf_message ms /\ g_sections g = flat_map message_sections ms /\ submessages_of_all 0 ms us /\ zlen us = g_len g /\
  forall e m' order color items, compiles e -> (forall l, Permutation (order l) l) ->
    exists parts, Forall2 (shows_part e color (g_sections g) us (2 <=? zlen items)) items parts /\
      inspect_text e m' order color g items = Ret (separated parts).
Proof. exact CliL.inspection. Qed.
Print Assumptions C71_inspect.
(** C71: what is shown: everything, if nothing is asked for. *)
Theorem C71_items : forall a b c, inspect_items a b c = filter (asked a b c) [Sections; SubMessages; Templates].
Proof. exact CliL.items_asked. Qed.
Print Assumptions C71_items.
Example C71_ex : compiles ex_e /\ inspect_text ex_e Checked (fun l => rev l) false ex_1 (inspect_items false false false) = Ret (text "Sections:
    0 │ 0000000000000000 - 0000000000000010 │ Section 0
    1 │ 0000000000000010 - 0000000000000025 │ Section 1
    2 │ 0000000000000025 - 000000000000006d │ Section 3
    3 │ 000000000000006d - 000000000000008f │ Section 4
    4 │ 000000000000008f - 00000000000000a4 │ Section 5
    5 │ 00000000000000a4 - 00000000000000aa │ Section 6
    6 │ 00000000000000aa - 00000000000000af │ Section 7
    7 │ 00000000000000af - 00000000000000b3 │ Section 8

SubMessages:
      id │    S2    S3    S4    S5    S6    S7 │ Tmpl3   Tmpl4   Tmpl5
     0.0 │     -     2     3     4     5     6 │ 3.0     4.0     5.0    

Templates:
3.0      - Latitude/longitude
4.0      - Analysis or forecast
5.0      - code '0' is not implemented
") /\
  inspect_text ex_e Checked (fun l => rev l) false ex_1 (inspect_items false false true) = Ret (text "3.0      - Latitude/longitude
4.0      - Analysis or forecast
5.0      - code '0' is not implemented
").
Proof. split; [exact ex_compiles|]. vm_compute. split; reflexivity. Qed.

(** C72: what gribber info prints: a block for each message, up to one whose reference time is not
    a date and time; that one is an error. *)
Theorem C72_info : forall m fuel s g, grib2_read m fuel s = Ret (Ok g) -> zlen (data s) < 2 ^ 63 -> 0 <= pos s <= zlen (data s) ->
  exists ms, Forall wf_message ms /\ g_sections g = flat_map message_sections ms /\
  forall e, compiles e -> exists blocks x, info_text e g = Ret (concat blocks, x) /\
    (forall i b, nth_error blocks i = Some b -> exists msg, nth_error ms i = Some msg /\ info_of e (Z.of_nat i) (ms0 msg) (ms1 msg) b) /\
    match x with
    | None => length blocks = length ms
    | Some err => exists msg p, nth_error ms (length blocks) = Some msg /\ s_body (ms1 msg) = Some (B1 p) /\ ref_time p = Ret (Err err)
    end.
Proof. exact CliL.information. Qed.
Print Assumptions C72_info.
Definition ex_info : list byte := text "Message 0

    Discipline:                             code '0' is not implemented
    Total Length:                           179
    Originating/generating centre:          code '34' is not implemented
    Originating/generating sub-centre:      0
    GRIB Master Tables Version Number:      2 (code '2' is not implemented)
    GRIB Local Tables Version Number:       1 (code '1' is not implemented)
    Significance of Reference Time:         code '1' is not implemented
    Reference time of data:                 2016-08-22 02:00:00 UTC
    Production status of processed data:    code '0' is not implemented
    Type of processed data:                 code '0' is not implemented

".
Example C72_ex : compiles ex_e /\ info_text ex_e ex_1 = Ret (ex_info, None) /\
  match from_slice Checked 300 (ex_one ++ firstn 30 ex_one ++ [x0d] ++ skipn 31 ex_one) with
  | Ret (Ok g) => info_text ex_e g = Ret (ex_info, Some InvalidValueError)
  | _ => False
  end.
Proof. split; [exact ex_compiles|]. vm_compute. repeat split. Qed.
