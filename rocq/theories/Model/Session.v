(** Model of a whole program that works with one file that has been read: any number of
    iterators over it, clones of iterators, submessages held, dropped and decoded, in any
    order.  All of them share the one reader of the file, in a [RefCell]. *)
From Verif Require Import Model.Base Model.Errors Model.Sections Model.Reader Model.Parser Model.Context Model.Decoder.

(** What the program does.  Iterators and submessages are numbered in the order in which
    it obtained them. *)
Inductive op :=
| ONew                      (* src/context.rs:196-206: [grib2.iter()], [grib2.submessages()] *)
| OClone (k : nat)          (* src/context.rs:281, 340-350: [it.clone()], [(&it).into_iter()] *)
| ONext (k : nat)           (* src/context.rs:306-327 *)
| ONth (k : nat) (n : Z)    (* src/context.rs:334-337 *)
| OSize (k : nat)           (* src/context.rs:329-332 *)
| ODrop (i : nat)           (* the submessage [i] goes out of scope *)
| ODecode (i : nat).        (* src/decoder.rs:77-123: [Grib2SubmessageDecoder::from(submessage)] *)

Inductive answer :=
| ADone | AView (v : option view) | ASize (n : Z) | ADecoder (r : result decoder grib_error).

(** The reader, whether it is mutably borrowed (the flag of the [RefCell] of
    src/context.rs:137-141), the positions of the iterators, the submessages obtained
    ([None]: dropped or decoded). *)
Record session := MkSession { se_src : src; se_borrowed : bool; se_its : list Z; se_views : list (option view) }.

Fixpoint set_nth {A} (n : nat) (x : A) (l : list A) : list A :=
  match l, n with
  | [], _ => []
  | _ :: l', O => x :: l'
  | y :: l', S n' => y :: set_nth n' x l'
  end.

(** A [next] or [nth] of the iterator [k] that returned [r]. *)
Definition se_obtained (s : session) (k : nat) (r : option view * Z * bool) : answer * session :=
  let '(v, p, b) := r in
  (AView v, MkSession (se_src s) b (set_nth k p (se_its s))
              (match v with Some x => se_views s ++ [Some x] | None => se_views s end)).

(** Releasing the submessage [i]: the [RefMut] it holds ends the borrow. *)
Definition se_release (s : session) (src' : src) (i : nat) : session :=
  MkSession src' false (se_its s) (set_nth i None (se_views s)).

(** One operation.  An operation on an iterator that does not exist or on a submessage
    that is gone, which the Rust compiler does not let through, does nothing. *)
Definition se_step (m : mode) (g : grib2) (s : session) (o : op) : outcome (answer * session) :=
  match o with
  | ONew => Ret (ADone, MkSession (se_src s) (se_borrowed s) (se_its s ++ [0]) (se_views s))
  | OClone k =>
      match nth_error (se_its s) k with
      | Some p => Ret (ADone, MkSession (se_src s) (se_borrowed s) (se_its s ++ [p]) (se_views s))
      | None => Ret (ADone, s)
      end
  | ONext k =>
      match nth_error (se_its s) k with
      | Some p => let! r := sub_iter_next g p (se_borrowed s) in Ret (se_obtained s k r)
      | None => Ret (ADone, s)
      end
  | ONth k n =>
      match nth_error (se_its s) k with
      | Some p => let! r := sub_iter_nth g n p (se_borrowed s) in Ret (se_obtained s k r)
      | None => Ret (ADone, s)
      end
  | OSize k =>
      match nth_error (se_its s) k with
      | Some p => let! n := sub_iter_size m g p in Ret (ASize n, s)
      | None => Ret (ADone, s)
      end
  | ODrop i =>
      match nth_error (se_views s) i with
      | Some (Some _) => Ret (ADone, se_release s (se_src s) i)
      | _ => Ret (ADone, s)
      end
  | ODecode i =>
      match nth_error (se_views s) i with
      | Some (Some v) =>
          let! (r, src') := decoder_from m (se_src s) v in
          Ret (ADecoder r, se_release s src' i)
      | _ => Ret (ADone, s)
      end
  end.

(** The program: its answers, unless it panics. *)
Fixpoint se_run (m : mode) (g : grib2) (s : session) (ops : list op) : outcome (list answer) :=
  match ops with
  | [] => Ret []
  | o :: ops' =>
      let! (a, s') := se_step m g s o in
      let! l := se_run m g s' ops' in Ret (a :: l)
  end.

(** The file just after [from_reader] (src/context.rs:244-249). *)
Definition se_start (g : grib2) : session := MkSession (g_src g) false [] [].
