(** Property theorems C85: the demo in a browser. *)
From Coq Require Import Lia Strings.String.
From Verif Require Import Model.Base Model.Errors Model.F32 Model.Sections Model.Reader Model.Parser Model.Context Model.Decoder Model.Word Model.Cli Model.Demo Model.Browser.
From Verif Require Import Spec.Bits Spec.Layout Spec.DecodeS Spec.ProgramsS Spec.WordS Spec.BrowserS.
From Verif Require Proofs.BrowserX Props.P10_Decode Props.P14_Cli Props.P15_Programs Props.P17_Demo.

(** C85: a file of less than 256 MiB that can be read with 64 bits is read in the browser, and a click
    that shows a picture there (C77) shows the same in the browser, unless the data are JPEG 2000
    data or too many for 32 bits. *)
Theorem C85_shown : forall m rfuel d p g, zlen d < 2 ^ 28 -> 0 <= p <= zlen d -> grib2_read m rfuel (MkSrc d p []) = Ret (Ok g) -> (m = Wrapping -> Forall seven_ok (g_sections g)) ->
  word_read U32 m rfuel (MkSrc d p []) = Ret (Ok g) /\
  forall c fuel s k i s', data s = d -> (forall w v, nth_error (g_subs g) k = Some w -> make_view g w = Some v -> browser_fits c d v /\ packing_template d v <> 40) ->
  demo_click m c fuel g s (Z.of_nat k) = Ret (i, s') -> browser_click U32 m c fuel g s false (Z.of_nat k) = Ret (Shown i, (s', false)).
Proof. exact BrowserX.file_shows. Qed.
Print Assumptions C85_shown.
(** C85: a click that panics there traps in the browser (a build without overflow checks: if the data
    are refused); JPEG 2000 data always trap.  The reader is given back. *)
Theorem C85_traps : forall m rfuel d p g, zlen d < 2 ^ 28 -> 0 <= p <= zlen d -> grib2_read m rfuel (MkSrc d p []) = Ret (Ok g) -> (m = Wrapping -> Forall seven_ok (g_sections g)) ->
  forall c fuel s k w v, data s = d -> nth_error (g_subs g) k = Some w -> make_view g w = Some v ->
  (forall e t, demo_table e m g = Ret t -> browser_fits c d v -> packing_template d v <> 40 -> demo_click m c fuel g s (Z.of_nat k) = Panic -> m = Checked \/ (exists x, decoding m c d v (Err x)) ->
     exists s', browser_click U32 m c fuel g s false (Z.of_nat k) = Ret (Trap, (s', false))) /\
  (forall i s', packing_template d v = 40 -> demo_click m c fuel g s (Z.of_nat k) = Ret (Some i, s') -> exists s'', browser_click U32 m c fuel g s false (Z.of_nat k) = Ret (Trap, (s'', false))).
Proof. exact BrowserX.file_traps. Qed.
Print Assumptions C85_traps.
(** C85: if the table of the file is shown, whatever rows are clicked one after the other, each click
    does what it does as the first click, also after clicks that trap. *)
Theorem C85_history : forall m rfuel d p g, zlen d < 2 ^ 28 -> 0 <= p <= zlen d -> grib2_read m rfuel (MkSrc d p []) = Ret (Ok g) -> (m = Wrapping -> Forall seven_ok (g_sections g)) ->
  forall e t, demo_table e m g = Ret t -> forall c fuel clicks rs,
  browser_clicks U32 m c fuel g (g_src g) false (map Z.of_nat clicks) = Ret rs <->
  Forall2 (fun k r => exists s', browser_click U32 m c fuel g (g_src g) false (Z.of_nat k) = Ret (r, (s', false))) clicks rs.
Proof. exact BrowserX.file_history. Qed.
Print Assumptions C85_history.
(** C85: while a panic keeps the borrow of the reader, each click on a row of the table traps (no
    history of clicks leads there: C85_history). *)
Theorem C85_held : forall u m c fuel g s k w v, nth_error (g_subs g) k = Some w -> make_view g w = Some v ->
  browser_click u m c fuel g s true (Z.of_nat k) = Ret (Trap, (s, true)).
Proof. exact BrowserX.held_traps. Qed.
Print Assumptions C85_held.

(** Two messages: two points of 270 and 285 K (C77_ex), and data of a template that is not supported. *)
Definition ex_part (sect5 : list byte) : raw_message := one_field [x00; x00] 0 (repeat x00 16) P17_Demo.ex_3 (repeat x00 29) sect5 [xff] [x0f].
Definition ex_both : list byte := file_bytes [([], ex_part P17_Demo.ex_5); ([], ex_part (be_bytes 4 2 ++ be_bytes 2 99 ++ skipn 6 P17_Demo.ex_5))] [].
Definition ex_run (r : outcome (result grib2 grib_error)) (l : list Z) : outcome (list (option (option (Z * Z)))) :=
  let! r := r in
  match r with
  | Ok g => let! is := browser_clicks U32 Checked P10_Decode.no_codecs 100 g (g_src g) false l in
            Ret (map (fun x => match x with Trap => None | Shown i => Some (option_map (fun i => (im_width i, im_height i)) i) end) is)
  | Err _ => Panic
  end.
Example C85_ex :
  ex_run (word_read U32 Checked 600 (cursor ex_both)) [0; 1; 0; 2; 1] = Ret [Some (Some (2, 1)); None; Some (Some (2, 1)); Some None; None] /\
  match grib2_read Checked 600 (cursor ex_both) with
  | Ret (Ok g) => match demo_table P14_Cli.ex_e Checked g with Ret (_, rows) => length rows = 2%nat | _ => False end /\ zlen ex_both < 2 ^ 28
  | _ => False
  end.
Proof. vm_compute. repeat split. Qed.
Example C85_held_ex : match word_read U32 Checked 600 (cursor ex_both) with
  | Ret (Ok g) => match nth_error (g_subs g) 1 with Some w => make_view g w <> None | None => False end /\
                  match browser_click U32 Checked P10_Decode.no_codecs 100 g (g_src g) true 1 with Ret (Trap, (_, h)) => h = true | _ => False end
  | _ => False
  end.
Proof. vm_compute. split; [congruence|reflexivity]. Qed.
