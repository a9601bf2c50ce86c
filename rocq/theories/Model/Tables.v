(** Model of the build-time table tools: /repo/gen/src/grib2_codeflag_csv.rs, cct_csv.rs (code
    table databases from the WMO's CSV files), the look-up of src/codetables/old.rs in the
    generated tables, and the whole-file part of /repo/codegen/src/param_codes.rs. *)
From Coq Require Import Strings.String.
From Verif Require Import Model.Base Model.Tools Model.Text.

(** codegen/src/param_codes.rs:26-31 [Wgrib2Table::from_str_impl]: one line that is no entry
    refuses the table. *)
Fixpoint parse_lines (ls : list (list byte)) : option (list wgrib2_entry) :=
  match ls with
  | [] => Some []
  | l :: ls' =>
      match parse_entry (trim_end l) with
      | Some e => match parse_lines ls' with Some es => Some (e :: es) | None => None end
      | None => None
      end
  end.
Definition parse_table (text : list byte) : option (list wgrib2_entry) := parse_lines (lines text).

(** ** Code table databases *)

(** gen/src/grib2_codeflag_csv.rs:142-147 [OptArg]. *)
Inductive opt_arg := ArgNone | ArgL1 (discipline : Z) | ArgL2 (discipline category : Z).

Definition opt_arg_dec : forall a b : opt_arg, {a = b} + {a <> b}.
Proof. decide equality; apply Z.eq_dec. Defined.

(** gen/src/grib2_codeflag_csv.rs:157-162, 165-170: three words, the first two given, the
    third one a [u8]. *)
Definition labelled (w1 w2 : list byte) (s : list byte) : option Z :=
  match firstn 3 (split_on 32 s) with
  | [a; b; num] => if bytes_dec a w1 then if bytes_dec b w2 then parse_uint 255 num else None else None
  | _ => None
  end.

(** gen/src/grib2_codeflag_csv.rs:149-179 [OptArg::from_str]. *)
Definition parse_opt_arg (s : list byte) : option opt_arg :=
  match s with
  | [] => Some ArgNone
  | _ =>
      match split_on2 44 32 s with
      | first :: more =>
          match labelled (str "Product") (str "discipline") first with
          | None => None
          | Some d =>
              match more with
              | [] => Some (ArgL1 d)
              | second :: _ =>
                  match split_on 58 second with
                  | second' :: _ =>
                      match labelled (str "parameter") (str "category") second' with
                      | Some c => Some (ArgL2 d c)
                      | None => None
                      end
                  | [] => None
                  end
              end
          end
      | [] => None
      end
  end.

(** gen/src/grib2_codeflag_csv.rs:7-29 [Record], the columns that are used. *)
Record csv_record := MkRecord { rec_title : list byte; rec_subtitle : list byte; rec_code : list byte; rec_desc : list byte }.
(** gen/src/lib.rs:65-68 [CodeTable]. *)
Record code_table := MkTable { ct_desc : list byte; ct_rows : list (list byte * list byte) }.

(** gen/src/grib2_codeflag_csv.rs:69-96 [parse_file] on the records of the file ([None]: one
    that the csv crate cannot read).  [acc]: [out_tables], the last one first. *)
Fixpoint parse_records (acc : list (opt_arg * code_table)) (rs : list (option csv_record)) : option (list (opt_arg * code_table)) :=
  match rs with
  | [] => Some (rev acc)
  | None :: _ => None
  | Some r :: rs' =>
      match parse_opt_arg (rec_subtitle r) with
      | None => None
      | Some a =>
          let row := (rec_code r, rec_desc r) in
          let start := parse_records ((a, MkTable (rec_title r) [row]) :: acc) rs' in
          match acc with
          | (a', t) :: acc' =>
              if opt_arg_dec a a' then parse_records ((a', MkTable (ct_desc t) (ct_rows t ++ [row])) :: acc') rs'
              else start
          | [] => start
          end
      end
  end.

(** gen/src/grib2_codeflag_csv.rs:31-33 [CodeDB]: a [BTreeMap], as the list of its entries in
    the order of the keys. *)
Definition key : Type := (Z * Z * opt_arg)%type.
Definition arg_code (a : opt_arg) : Z * (Z * Z) :=
  match a with ArgNone => (0, (0, 0)) | ArgL1 d => (1, (d, 0)) | ArgL2 d c => (2, (d, c)) end.
Definition lex_ltb (l l' : list Z) : bool :=
  (fix go (l l' : list Z) := match l, l' with
    | x :: l, y :: l' => (x <? y) || ((x =? y) && go l l')
    | _, _ => false
    end) l l'.
Definition key_code (k : key) : list Z :=
  let '(s, n, a) := k in let '(t, (d, c)) := arg_code a in [s; n; t; d; c].
Definition key_ltb (k k' : key) : bool := lex_ltb (key_code k) (key_code k').
Definition db := list (key * code_table).
(** [BTreeMap::insert], [get]. *)
Fixpoint db_insert (k : key) (t : code_table) (d : db) : db :=
  match d with
  | [] => [(k, t)]
  | (k', t') :: d' =>
      if key_ltb k k' then (k, t) :: d
      else if key_ltb k' k then (k', t') :: db_insert k t d'
      else (k, t) :: d'
  end.
Definition key_dec : forall a b : key, {a = b} + {a <> b}.
Proof. decide equality; [apply opt_arg_dec|decide equality; apply Z.eq_dec]. Defined.
Fixpoint db_get (k : key) (d : db) : option code_table :=
  match d with [] => None | (k', t) :: d' => if key_dec k k' then Some t else db_get k d' end.

(** gen/src/grib2_codeflag_csv.rs:48-67 [load]: [stem] is the file name without extension;
    [None] for an error, a file with another kind of name is skipped. *)
Definition db_load (stem : list byte) (rs : list (option csv_record)) (d : db) : option db :=
  match firstn 4 (split_on 95 stem) with
  | [g; cf; section; number] =>
      if bytes_dec g (str "GRIB2") then
        if bytes_dec cf (str "CodeFlag") then
          match parse_uint 255 section, parse_uint 255 number with
          | Some s, Some n =>
              match parse_records [] rs with
              | Some ts => Some (fold_left (fun d t => db_insert (s, n, fst t) (snd t) d) ts d)
              | None => None
              end
          | _, _ => None
          end
        else Some d
      else Some d
  | _ => Some d
  end.

(** gen/src/grib2_codeflag_csv.rs:108-118 [get_variable_name]. *)
Definition variable_name (k : key) : list byte :=
  let '(s, n, a) := k in
  str "CODE_TABLE_" ++ show_uint s ++ str "_" ++ show_uint n ++
  match a with
  | ArgNone => []
  | ArgL1 d => str "_" ++ show_uint d
  | ArgL2 d c => str "_" ++ show_uint d ++ str "_" ++ show_uint c
  end.

(** gen/src/grib2_codeflag_csv.rs:125-140 [Display], with gen/src/lib.rs:78-87
    [export]: the constants of the generated file and their values, in order.  (The text
    [{:#?}] of a vector of strings is a Rust literal for the same strings.) *)
Fixpoint constants (m : mode) (d : db) : outcome (list (list byte * list (list byte))) :=
  match d with
  | [] => Ret []
  | (k, t) :: d' =>
      let! v := to_vec m (ct_rows t) in
      let! cs := constants m d' in
      Ret ((variable_name k, v) :: cs)
  end.

(** ** Common code tables *)

(** gen/src/cct_csv.rs:38-40, 55-75 [CodeDB::load] and 77-107 [parse_file_c00], [parse_file_c11];
    a record is the pair of the columns that are used. *)
Definition cct_db := list (Z * code_table).
Fixpoint cct_insert (k : Z) (t : code_table) (d : cct_db) : cct_db :=
  match d with
  | [] => [(k, t)]
  | (k', t') :: d' =>
      if k <? k' then (k, t) :: d else if k' <? k then (k', t') :: cct_insert k t d' else (k, t) :: d'
  end.
Fixpoint all_records {A} (rs : list (option A)) : option (list A) :=
  match rs with
  | [] => Some []
  | Some r :: rs' => match all_records rs' with Some l => Some (r :: l) | None => None end
  | None :: _ => None
  end.
Definition cct_load (stem : list byte) (rs : list (option (list byte * list byte))) (d : cct_db) : option cct_db :=
  let put k name := match all_records rs with Some l => Some (cct_insert k (MkTable name l) d) | None => None end in
  if bytes_dec stem (str "C00") then put 0 (str "Common Code Table C-0")
  else if bytes_dec stem (str "C11") then put 11 (str "Common Code Table C-11")
  else Some d.

(** gen/src/cct_csv.rs:119-121 [get_variable_name]: at least two digits. *)
Definition cct_variable_name (k : Z) : list byte :=
  str "COMMON_CODE_TABLE_" ++ (if k <? 10 then str "0" else []) ++ show_uint k.
(** gen/src/cct_csv.rs:128-143 [Display]: the constants. *)
Fixpoint cct_constants (m : mode) (d : cct_db) : outcome (list (list byte * list (list byte))) :=
  match d with
  | [] => Ret []
  | (k, t) :: d' =>
      let! v := to_vec m (ct_rows t) in
      let! cs := cct_constants m d' in
      Ret ((cct_variable_name k, v) :: cs)
  end.

(** ** Look-up in the generated tables *)

(** src/codetables/old.rs:40-241: the code tables. *)
Inductive table_id :=
| CommonCodeTable00 | CommonCodeTable11 | CodeTable0_0 | CodeTable1_1 | CodeTable1_2 | CodeTable1_3 | CodeTable1_4
| CodeTable3_1 | CodeTable4_0 | CodeTable4_1 (discipline : Z) | CodeTable4_2 (discipline category : Z)
| CodeTable4_3 | CodeTable4_4 | CodeTable4_5 | CodeTable5_0.

(** src/codetables/old.rs:122-135: the disciplines [CodeTable4_1] knows. *)
Definition disciplines_4_1 : list Z := [0; 1; 2; 3; 4; 10; 20].
(** src/codetables/old.rs:151-210: the disciplines and categories [CodeTable4_2] knows. *)
Definition categories_4_2 : list (Z * Z) :=
  map (pair 0) [0; 1; 2; 3; 4; 5; 6; 7; 13; 14; 15; 16; 17; 18; 19; 20; 190; 191] ++
  map (pair 1) [0; 1; 2] ++ map (pair 2) [0; 3; 4; 5] ++ map (pair 3) [0; 1; 2; 3; 4; 5; 6] ++
  map (pair 4) [0; 1; 2; 3; 4; 5; 6; 7; 8; 9; 10] ++ map (pair 10) [0; 1; 2; 3; 4; 191] ++ map (pair 20) [0; 1; 2].
Definition pair_dec : forall a b : Z * Z, {a = b} + {a <> b}.
Proof. decide equality; apply Z.eq_dec. Defined.

(** src/codetables/old.rs:40-241 [data]: the name of the constant; [None] is
    [CODE_TABLE_UNSUPPORTED] (261), which is empty. *)
Definition table_constant (t : table_id) : option (list byte) :=
  match t with
  | CommonCodeTable00 => Some (str "COMMON_CODE_TABLE_00")
  | CommonCodeTable11 => Some (str "COMMON_CODE_TABLE_11")
  | CodeTable0_0 => Some (str "CODE_TABLE_0_0")
  | CodeTable1_1 => Some (str "CODE_TABLE_1_1")
  | CodeTable1_2 => Some (str "CODE_TABLE_1_2")
  | CodeTable1_3 => Some (str "CODE_TABLE_1_3")
  | CodeTable1_4 => Some (str "CODE_TABLE_1_4")
  | CodeTable3_1 => Some (str "CODE_TABLE_3_1")
  | CodeTable4_0 => Some (str "CODE_TABLE_4_0")
  | CodeTable4_1 d => if in_dec Z.eq_dec d disciplines_4_1 then Some (str "CODE_TABLE_4_1_" ++ show_uint d) else None
  | CodeTable4_2 d c =>
      if in_dec pair_dec (d, c) categories_4_2 then Some (str "CODE_TABLE_4_2_" ++ show_uint d ++ str "_" ++ show_uint c) else None
  | CodeTable4_3 => Some (str "CODE_TABLE_4_3")
  | CodeTable4_4 => Some (str "CODE_TABLE_4_4")
  | CodeTable4_5 => Some (str "CODE_TABLE_4_5")
  | CodeTable5_0 => Some (str "CODE_TABLE_5_0")
  end.

(** src/codetables/old.rs:37-38, 251-259 [lookup], with the constants of the two generated
    files; [None]: there is no such constant, the library does not compile. *)
Definition table_lookup (cs : list (list byte * list (list byte))) (t : table_id) (code : Z) : option (result (list byte) Z) :=
  match table_constant t with
  | None => Some (lookup [] code)
  | Some name => option_map (fun v => lookup v code) (assoc name_eqb name cs)
  end.

(** src/codetables/old.rs:5-12 [LookupResult::description]. *)
Definition description (r : result (list byte) Z) : option (list byte) :=
  match r with Ok s => Some s | Err _ => None end.
(** src/codetables/old.rs:14-22, 29-35 [Display]. *)
Definition lookup_text (r : result (list byte) Z) : list byte :=
  match r with Ok s => s | Err c => str "code '" ++ show_uint c ++ str "' is not implemented" end.
(** src/datatypes/product_attributes.rs:48-52 [Parameter::description]. *)
Definition parameter_description (cs : list (list byte * list (list byte))) (discipline category num : Z) : option (option (list byte)) :=
  option_map description (table_lookup cs (CodeTable4_2 discipline category) num).

(** /repo/build.rs:13-42: what the build makes of the CSV files ([None]: the build fails). *)
Definition build_tables (m : mode) (ccts : list (list byte * list (option (list byte * list byte))))
    (files : list (list byte * list (option csv_record))) : option (outcome (list (list byte * list (list byte)))) :=
  match fold_left (fun d f => match d with Some d => cct_load (fst f) (snd f) d | None => None end) ccts (Some []) with
  | None => None
  | Some dc =>
      match fold_left (fun d f => match d with Some d => db_load (fst f) (snd f) d | None => None end) files (Some []) with
      | None => None
      | Some d => Some (let! a := cct_constants m dc in let! b := constants m d in Ret (a ++ b))
      end
  end.
