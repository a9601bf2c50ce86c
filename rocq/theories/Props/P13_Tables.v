(** Property theorems C66-C68: code tables, from the CSV files to the look-up. *)
From Coq Require Import Lia Sorting.Sorted Strings.String.
From Verif Require Import Model.Base Model.Tools Model.Text Model.Tables Spec.ToolsS Spec.TablesS.
From Verif Require Proofs.ToolsP Proofs.TextP Proofs.TablesP Proofs.TablesX Proofs.TablesO.

(** C66: subtitles. *)
Theorem C66_subtitle : forall s a, parse_opt_arg s = Some a <-> subtitle s a.
Proof. exact TablesP.subtitle_iff. Qed.
Print Assumptions C66_subtitle.
(** C66: a file's tables: for each discipline and category the last block of records, under the
    title of the first of them.  Other tables remain as they are. *)
Theorem C66_load : forall stem s n rs d, file_name stem s n -> Forall (fun r => exists a, is_for a r) rs ->
  exists d', db_load stem (map Some rs) d = Some d' /\
  (forall a r block, last_block a rs r block -> db_get (s, n, a) d' = Some (block_table r block)) /\
  (forall s' n' a, (s', n') <> (s, n) \/ Forall (fun r => ~ is_for a r) rs -> db_get (s', n', a) d' = db_get (s', n', a) d).
Proof. exact TablesP.load_ok. Qed.
Print Assumptions C66_load.
(** C66: if there are records for a discipline and category, there is a last block of them. *)
Theorem C66_blocks : forall a rs, (exists r, In r rs /\ is_for a r) -> exists r block, last_block a rs r block.
Proof. exact TablesP.block_exists. Qed.
Print Assumptions C66_blocks.
(** C66: the build fails if and only if a file for code tables has no numbers in its name, or a
    record that cannot be read or whose subtitle is none of the known ones. *)
Theorem C66_build : forall m ccts files, build_tables m ccts files <> None <->
  (forall stem rs, In (stem, rs) ccts -> In stem [text "C00"; text "C11"] -> ~ In None rs) /\
  (forall stem rs, In (stem, rs) files -> codeflag_name stem ->
     (exists s n, file_name stem s n) /\ forall r, In r rs -> exists r' a, r = Some r' /\ is_for a r').
Proof. exact TablesX.build_iff. Qed.
Print Assumptions C66_build.

Definition rec4 (p : string * string * string * string) : csv_record :=
  let '(a, b, c, d) := p in MkRecord (str a) (str b) (str c) (str d).
Definition ex_42 : list csv_record := map rec4
  [("Code table 4.2", "Product discipline 0 - Meteorological products, parameter category 0: temperature", "0", "Temperature");
   ("Code table 4.2", "Product discipline 0 - Meteorological products, parameter category 0: temperature", "1", "Virtual temperature");
   ("Code table 4.2", "Product discipline 0 - Meteorological products, parameter category 1: moisture", "0", "Specific humidity");
   ("Code table 4.2", "Product discipline 0 - Meteorological products, parameter category 1: moisture", "1-191", "Reserved");
   ("Code table 4.2 bis", "Product discipline 0 - Meteorological products, parameter category 0: temperature", "0", "Potential temperature")]%string.
Definition ex_50 : list csv_record := map rec4 [("Code table 5.0", "", "0", "Grid point data"); ("Code table 5.0", "", "2-3", "Complex packing")]%string.
Definition ex_files := [(str "GRIB2_CodeFlag_4_2_CodeTable_en", map Some ex_42); (str "README", [None]); (str "GRIB2_CodeFlag_5_0_CodeTable_en", map Some ex_50)].
Definition ex_ccts := [(str "C00", map Some [(str "0", str "Experimental"); (str "1", str "7 November 2001")])].
(** The second block for category 0 replaces the first one. *)
Example C66_ex : match db_load (str "GRIB2_CodeFlag_4_2_CodeTable_en") (map Some ex_42) [] with
  | Some d => db_get (4, 2, ArgL2 0 0) d = Some (MkTable (str "Code table 4.2 bis") [(str "0", str "Potential temperature")]) /\
              db_get (4, 2, ArgL2 0 1) d = Some (MkTable (str "Code table 4.2") [(str "0", str "Specific humidity"); (str "1-191", str "Reserved")]) /\
              db_get (4, 2, ArgNone) d = None
  | None => False
  end.
Proof. vm_compute. repeat split. Qed.
Lemma ex_file_name : file_name (str "GRIB2_CodeFlag_4_2_CodeTable_en") 4 2.
Proof.
  exists [x34], [x32], (str "_CodeTable_en"). split; [reflexivity|]. split; [|split].
  - exists [x34]. split; [split; [discriminate|repeat constructor; vm_compute; discriminate]|]. split; [now left|]. split; [reflexivity|vm_compute; discriminate].
  - exists [x32]. split; [split; [discriminate|repeat constructor; vm_compute; discriminate]|]. split; [now left|]. split; [reflexivity|vm_compute; discriminate].
  - right. eexists _, _. split; [reflexivity|now left].
Qed.
Lemma ex_last_block : last_block (ArgL2 0 1) ex_42 (nth 2 ex_42 (rec4 ("", "", "", "")%string)) [nth 3 ex_42 (rec4 ("", "", "", "")%string)].
Proof.
  exists (firstn 2 ex_42), (skipn 4 ex_42). split; [reflexivity|].
  assert (D : forall a x, parse_opt_arg (rec_subtitle x) <> Some a -> ~ is_for a x) by (intros a x N H; apply N, TablesP.subtitle_iff, H).
  split; [repeat constructor; apply TablesP.subtitle_iff; reflexivity|]. split.
  - intros pre' x E. apply D. assert (x = nth 1 ex_42 (rec4 ("", "", "", "")%string)) as ->; [|vm_compute; discriminate].
    change (firstn 2 ex_42) with ([nth 0 ex_42 (rec4 ("", "", "", "")%string)] ++ [nth 1 ex_42 (rec4 ("", "", "", "")%string)]) in E. apply app_inj_tail in E. symmetry. apply E.
  - repeat constructor. apply D. vm_compute. discriminate.
Qed.

(** C67: the names of the constants: decimal numbers without superfluous zeros, with an
    underscore before each; different tables have different names. *)
Theorem C67_names : forall s n a, (forall x, In x [s; n] -> 0 <= x) ->
  match a with ArgNone => True | ArgL1 d => 0 <= d | ArgL2 d c => 0 <= d /\ 0 <= c end ->
  let numbers := [s; n] ++ match a with ArgNone => [] | ArgL1 d => [d] | ArgL2 d c => [d; c] end in
  exists ws, variable_name (s, n, a) = text "CODE_TABLE" ++ concat (map (cons x5f) ws) /\
    Forall2 (fun w x => digits w /\ decimal w = x /\ forall w', w = x30 :: w' -> x = 0 /\ w' = []) ws numbers.
Proof. exact TablesX.names_spec. Qed.
Print Assumptions C67_names.
Theorem C67_unambiguous : forall s n a s' n' a',
  (forall x, In x [s; n; s'; n'] -> 0 <= x < 256) ->
  (forall b, In b [a; a'] -> match b with ArgNone => True | ArgL1 d => 0 <= d < 256 | ArgL2 d c => 0 <= d < 256 /\ 0 <= c < 256 end) ->
  variable_name (s, n, a) = variable_name (s', n', a') -> (s, n, a) = (s', n', a').
Proof. exact TablesX.names_distinct. Qed.
Print Assumptions C67_unambiguous.
(** No constant is defined twice, so the generated code compiles; there is one for each table
    that the files provide, and they come in the order of their numbers, whatever the order of
    the files. *)
Theorem C67_once : forall m ccts files cs, build_tables m ccts files = Some (Ret cs) -> NoDup (map fst cs).
Proof. exact TablesO.build_once. Qed.
Print Assumptions C67_once.
Theorem C67_order : forall m ccts files cs, build_tables m ccts files = Some (Ret cs) -> exists common tables,
  map fst cs = map cct_variable_name common ++ map variable_name tables /\
  StronglySorted Z.lt common /\ Forall (fun k => k = 0 \/ k = 11) common /\
  StronglySorted table_before tables /\ (forall s n a, In (s, n, a) tables <-> exists t, provides files s n a t).
Proof. exact TablesO.build_exactly. Qed.
Print Assumptions C67_order.
Example C67_order_ex : exists cs, build_tables Checked ex_ccts (rev ex_files) = Some (Ret cs) /\
  map fst cs = map str ["COMMON_CODE_TABLE_00"; "CODE_TABLE_4_2_0_0"; "CODE_TABLE_4_2_0_1"; "CODE_TABLE_5_0"]%string.
Proof. eexists. split; vm_compute; reflexivity. Qed.
Example C67_ex : variable_name (4, 2, ArgL2 0 190) = str "CODE_TABLE_4_2_0_190" /\ variable_name (4, 2, ArgL1 0) = str "CODE_TABLE_4_2_0" /\
  variable_name (5, 0, ArgNone) = str "CODE_TABLE_5_0".
Proof. vm_compute. repeat split. Qed.

(** C68: the codes of a supported table are described by the table that the files provide for
    it, and by no other; other tables describe no code. *)
Theorem C68_described : forall m ccts files cs, build_tables m ccts files = Some (Ret cs) -> forall t s n a, wmo_table t = Some (s, n, a) ->
  (supported t -> forall tbl, provides files s n a tbl -> rows_ok (ct_rows tbl) -> forall code, 0 <= code ->
     exists r, table_lookup cs t code = Some r /\
       ((exists d, r = Ok d /\ (describes (ct_rows tbl) code d \/ d = [] /\ forall d', ~ describes (ct_rows tbl) code d')) \/ r = Err code) /\
       (forall e, consecutive 0 (ct_rows tbl) e -> forall d, describes (ct_rows tbl) code d -> r = Ok d)) /\
  (~ supported t -> forall code, 0 <= code -> table_lookup cs t code = Some (Err code)).
Proof. exact TablesX.codes_described. Qed.
Print Assumptions C68_described.
(** C68: the common code tables C-0 and C-11. *)
Theorem C68_common : forall m ccts files cs, build_tables m ccts files = Some (Ret cs) -> forall t stem rows,
  (t, stem) = (CommonCodeTable00, text "C00") \/ (t, stem) = (CommonCodeTable11, text "C11") -> provides_cct ccts stem rows -> rows_ok rows ->
  forall code, 0 <= code ->
     exists r, table_lookup cs t code = Some r /\
       ((exists d, r = Ok d /\ (describes rows code d \/ d = [] /\ forall d', ~ describes rows code d')) \/ r = Err code) /\
       (forall e, consecutive 0 rows e -> forall d, describes rows code d -> r = Ok d).
Proof. exact TablesX.common_described. Qed.
Print Assumptions C68_common.
(** C68: the description of a parameter is what code table 4.2 says for its discipline and
    category; the text of a look-up is the description or says which code is not implemented. *)
Theorem C68_parameter : forall m ccts files cs, build_tables m ccts files = Some (Ret cs) -> forall discipline category num,
  0 <= num -> supported (CodeTable4_2 discipline category) ->
  forall tbl, provides files 4 2 (ArgL2 discipline category) tbl -> rows_ok (ct_rows tbl) ->
  forall e, consecutive 0 (ct_rows tbl) e ->
  (forall d, describes (ct_rows tbl) num d -> parameter_description cs discipline category num = Some (Some d)) /\
  ((forall d, ~ describes (ct_rows tbl) num d) -> described_after (ct_rows tbl) num -> parameter_description cs discipline category num = Some (Some [])) /\
  ((forall d, ~ describes (ct_rows tbl) num d) -> ~ described_after (ct_rows tbl) num -> parameter_description cs discipline category num = Some None).
Proof. exact TablesX.parameter_described. Qed.
Print Assumptions C68_parameter.
Theorem C68_text : forall d c, 0 <= c -> lookup_text (Ok d) = d /\
  exists w, lookup_text (Err c) = text "code '" ++ w ++ text "' is not implemented" /\ digits w /\ decimal w = c.
Proof. exact TablesX.lookup_texts. Qed.
Print Assumptions C68_text.
Example C68_ex : match build_tables Checked ex_ccts ex_files with
  | Some (Ret cs) =>
      parameter_description cs 0 0 0 = Some (Some (str "Potential temperature")) /\ parameter_description cs 0 0 1 = Some None /\
      parameter_description cs 0 1 0 = Some (Some (str "Specific humidity")) /\ parameter_description cs 0 8 0 = Some None /\
      table_lookup cs CommonCodeTable00 1 = Some (Ok (str "7 November 2001")) /\
      (* a gap: code table 5.0 is empty *)
      table_lookup cs CodeTable5_0 0 = Some (Err 0) /\
      (* missing: the library does not compile *)
      table_lookup cs CodeTable4_4 0 = None
  | _ => False
  end.
Proof. vm_compute. repeat split. Qed.
Lemma ex_provides : provides ex_files 4 2 (ArgL2 0 1) (MkTable (str "Code table 4.2") [(str "0", str "Specific humidity"); (str "1-191", str "Reserved")]).
Proof.
  exists [], (str "GRIB2_CodeFlag_4_2_CodeTable_en"), ex_42, (tl ex_files). do 2 eexists. split; [reflexivity|]. split; [exact ex_file_name|].
  split; [exact ex_last_block|]. split; [reflexivity|]. intros stem' rs' x I N.
  assert (P := TablesP.name_parsed _ _ _ N). destruct P as (u & v & E & A & B). cbn [tl ex_files In] in I.
  destruct I as [I|[I|[]]]; injection I as <- <-; vm_compute in E; [discriminate|].
  injection E as <- <-. vm_compute in A. discriminate.
Qed.
Lemma ex_rows_ok : rows_ok [(str "0", str "Specific humidity"); (str "1-191", str "Reserved")] /\
  consecutive 0 [(str "0", str "Specific humidity"); (str "1-191", str "Reserved")] 192.
Proof.
  split.
  - split; [reflexivity|]. intros id d lo hi I R. apply ToolsP.range_parsed in R.
    destruct I as [I|[I|[]]]; injection I as <- <-; (destruct ((lo <? 2 ^ 64) && (hi <? 2 ^ 64)); [|vm_compute in R; discriminate]);
      match type of R with ?x = _ => let y := eval vm_compute in x in change x with y in R end; injection R as <- <-; lia.
  - assert (D0 : digits (str "0")) by (split; [discriminate|repeat constructor; vm_compute; discriminate]).
    assert (D1 : digits (str "1")) by (split; [discriminate|repeat constructor; vm_compute; discriminate]).
    assert (D2 : digits (str "191")) by (split; [discriminate|repeat constructor; vm_compute; discriminate]).
    apply (cons_range 0 _ _ 0); [exact (range_one _ D0)|lia|]. apply (cons_range 1 _ _ 191); [|lia|constructor].
    exact (range_two (str "1") (str "191") [] D1 D2 ltac:(discriminate)).
Qed.
