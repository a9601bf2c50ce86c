(** What the example programs print. *)
From Coq Require Import Strings.String Floats.SpecFloat.
From Verif Require Import Model.Base Model.Errors Model.F32 Model.Sections Model.Reader Model.Context Model.Product Model.Decoder Model.Text Model.Tables Model.Cli.
From Verif Require Import Spec.ToolsS Spec.SessionS Spec.CliS.

(** ** find_layers *)

(** The output for a submessage: its entry in a dump if its forecast time is [hours] hours. *)
Definition found (e : printer) (m : mode) (hours : Z) (v : view) (t : list byte) : Prop :=
  exists p o, v_prod_def v = Ret p /\ forecast_time p = Ret o /\
  (o = Some (from_numbers 1 hours) -> dump_of e m v t) /\ (o <> Some (from_numbers 1 hours) -> t = []).

(** ** list_layers *)

Definition surface_suffix (s : surface) (t : list byte) : Prop :=
  (exists u codes, In (u, codes) units_4_5 /\ In (surface_type s) codes /\ t = text " [" ++ u ++ text "]") \/
  ((forall u codes, In (u, codes) units_4_5 -> ~ In (surface_type s) codes) /\ t = []).
(** The line of a submessage: parameter, forecast time, first fixed surface. *)
Definition layer (e : printer) (m : mode) (v : view) (line : list byte) : Prop :=
  exists p discipline category number time first second,
    v_prod_def v = Ret p /\ v_indicator v = Ret discipline /\ parameter_category p = Ret (Some category) /\ parameter_number p = Ret (Some number) /\
    forecast_time p = Ret (Some time) /\ fixed_surfaces m p = Ret (Some (first, second)) /\
  exists parameter parameter' t value unit,
    looked_up e (CodeTable4_2 discipline category) number parameter /\ left 31 parameter parameter' /\ shows_time time t /\
    right 17 (pr_f64 e (surface_value first)) value /\ surface_suffix first unit /\
    line = parameter' ++ sp ++ t ++ sp ++ value ++ unit ++ [x0a].

(** ** decode_layer *)

(** The line of a point; [shortest]: std's decimal numbers. *)
Definition point_text (shortest : f32 -> list byte) (x : (f32 * f32) * f32) : list byte :=
  shortest (fst (fst x)) ++ sp ++ shortest (snd (fst x)) ++ sp ++ shortest (snd x) ++ [x0a].

(** ** check_decoding_of_files *)

(** What decoding a submessage of the octets [d] gives: values or an error, *)
Definition decoding (m : mode) (c : codecs) (d : list byte) (v : view) (r : result (list f32) grib_error) : Prop :=
  match r with
  | Ok out => exists dec it, decoded_alone m d v = Ret (Ok dec) /\ dispatch c m dec = Ret (Ok it) /\ Run it out End
  | Err e => decoded_alone m d v = Ret (Err e) \/ exists dec, decoded_alone m d v = Ret (Ok dec) /\ dispatch c m dec = Ret (Err e)
  end.
(** or a panic. *)
Definition decoding_panics (m : mode) (c : codecs) (d : list byte) (v : view) : Prop :=
  decoded_alone m d v = Panic \/ (exists dec, decoded_alone m d v = Ret (Ok dec) /\ dispatch c m dec = Panic) \/
  exists dec it out, decoded_alone m d v = Ret (Ok dec) /\ dispatch c m dec = Ret (Ok it) /\ Run it out Crash.
(** [n] is more than the number of values of each submessage. *)
Definition enough (m : mode) (c : codecs) (d : list byte) (vs : list view) (n : nat) : Prop :=
  forall v dec it out end_, In v vs -> decoded_alone m d v = Ret (Ok dec) -> dispatch c m dec = Ret (Ok it) -> Run it out end_ -> (length out < n)%nat.
(** The first submessage that is not decoded. *)
Definition first_failure (m : mode) (c : codecs) (d : list byte) (vs : list view) (fails : view -> Prop) : Prop :=
  exists pre v post, vs = pre ++ v :: post /\ Forall (fun v => exists out, decoding m c d v (Ok out)) pre /\ fails v.
