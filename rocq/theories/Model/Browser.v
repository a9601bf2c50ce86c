(** Model of the demo where it runs: in a browser, as wasm32 code.  [usize] has [u] bits, and a panic
    is a trap: the event handler ends there, no destructor runs, and the page goes on.  Model/Demo.v
    is the demo on 64 bits up to its first panic. *)
From Verif Require Import Model.Base Model.Errors Model.Sections Model.Reader Model.Context Model.Product Model.Grid Model.Decoder Model.Word Model.WordDecode Model.Demo.

(** What a click does: it sets the picture, or traps. *)
Inductive shown := Shown (i : option image) | Trap.

(** demo/src/main.rs:101-134: a click on row [index].  [s] is the reader of the file; [held] says that
    its borrow (src/context.rs:324) has not been given back.  The submessage holds the borrow until
    [Grib2SubmessageDecoder::from] (src/decoder.rs:77-123), which takes it, is left; a panic before
    keeps it for ever.  What is after a click: the reader and [held]. *)
Definition browser_click (u : ity) (m : mode) (c : codecs) (fuel : nat) (g : grib2) (s : src) (held : bool) (index : Z) : outcome (shown * (src * bool)) :=
  match sub_iter_nth g index 0 held with
  | Diverge => Diverge
  | Panic => Ret (Trap, (s, held))
  | Ret r =>
      match fst (fst r) with
      | None => Ret (Shown None, (s, held))
      | Some v =>
          match (let! p3 := v_grid_def v in sub_grid_shape m p3) with
          | Diverge => Diverge
          | Panic => Ret (Trap, (s, true))
          | Ret (Err _) => Ret (Shown None, (s, false))
          | Ret (Ok (w, h)) =>
              match word_decoder u m s v with
              | Diverge => Diverge
              | Panic => Ret (Trap, (s, true))
              | Ret (Err _, s') => Ret (Trap, (s', false))
              | Ret (Ok d, s') =>
                  match (try! it := wdispatch u true c m d in let! l := collect fuel it in Ret (Ok l)) with
                  | Diverge => Diverge
                  | Panic | Ret (Err _) => Ret (Trap, (s', false))
                  | Ret (Ok out) =>
                      match image_data (flat_map jma_amedas_temperature out) (w mod 2 ^ 32) (h mod 2 ^ 32) with
                      | Some i => Ret (Shown (Some i), (s', false))
                      | None => Ret (Trap, (s', false))
                      end
                  end
              end
          end
      end
  end.
(** Clicks one after the other: what each of them does. *)
Fixpoint browser_clicks (u : ity) (m : mode) (c : codecs) (fuel : nat) (g : grib2) (s : src) (held : bool) (l : list Z) : outcome (list shown) :=
  match l with
  | [] => Ret []
  | k :: l' =>
      let! x := browser_click u m c fuel g s held k in
      let! rs := browser_clicks u m c fuel g (fst (snd x)) (snd (snd x)) l' in Ret (fst x :: rs)
  end.
