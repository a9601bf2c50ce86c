(** What a program that works with one file should see: no reader, no borrow flag. *)
From Verif Require Import Model.Base Model.Errors Model.Sections Model.Reader Model.Parser Model.Context Model.Decoder Model.Session.

Definition alive (v : option view) : bool := match v with Some _ => true | None => false end.

(** [vs]: the submessages of the file; [dec]: what decoding a submessage gives;
    [its]: the place of each iterator; [got]: the submessages obtained, [None] if gone.
    A submessage can only be had while no other one is alive. *)
Fixpoint expected (m : mode) (vs : list view) (dec : view -> outcome (result decoder grib_error))
    (its : list nat) (got : list (option view)) (ops : list op) : outcome (list answer) :=
  let then_ (a : answer) (r : outcome (list answer)) := let! l := r in Ret (a :: l) in
  match ops with
  | [] => Ret []
  | o :: ops' =>
      let same := expected m vs dec its got ops' in
      let item (k n : nat) :=
        match nth_error vs n with
        | None => then_ (AView None) (expected m vs dec (set_nth k n its) got ops')
        | Some v => if existsb alive got then Panic
                    else then_ (AView (Some v)) (expected m vs dec (set_nth k (S n) its) (got ++ [Some v]) ops')
        end in
      match o with
      | ONew => then_ ADone (expected m vs dec (its ++ [O]) got ops')
      | OClone k => match nth_error its k with
                    | Some p => then_ ADone (expected m vs dec (its ++ [p]) got ops')
                    | None => then_ ADone same
                    end
      | ONext k => match nth_error its k with Some p => item k p | None => then_ ADone same end
      | ONth k n => match nth_error its k with Some p => item k (Z.to_nat n) | None => then_ ADone same end
      | OSize k => match nth_error its k with
                   | Some p => if Z.of_nat p <=? zlen vs then then_ (ASize (zlen vs - Z.of_nat p)) same
                               else match m with
                                    | Checked => Panic
                                    | Wrapping => then_ (ASize (2 ^ 64 + zlen vs - Z.of_nat p)) same
                                    end
                   | None => then_ ADone same
                   end
      | ODrop i => match nth_error got i with
                   | Some (Some _) => then_ ADone (expected m vs dec its (set_nth i None got) ops')
                   | _ => then_ ADone same
                   end
      | ODecode i => match nth_error got i with
                     | Some (Some v) => let! r := dec v in then_ (ADecoder r) (expected m vs dec its (set_nth i None got) ops')
                     | _ => then_ ADone same
                     end
      end
  end.

(** The arguments of [nth] are [usize]. *)
Definition op_ok (o : op) : Prop := match o with ONth _ n => 0 <= n < 2 ^ 64 | _ => True end.

(** Decoding a submessage of the octets [d] when it is the first thing one does with them. *)
Definition decoded_alone (m : mode) (d : list byte) (v : view) : outcome (result decoder grib_error) :=
  let! (r, _) := decoder_from m (cursor d) v in Ret r.

(** ** One iterator among others *)

(** The calls the program makes on the iterator [k]. *)
Definition own (k : nat) (o : op) : bool :=
  match o with ONext k' | ONth k' _ | OSize k' => Nat.eqb k k' | _ => false end.

(** What the iterator alone, at [p], answers to its calls. *)
Fixpoint alone (vs : list view) (p : nat) (ops : list op) : list answer :=
  match ops with
  | [] => []
  | ONext _ :: ops' => AView (nth_error vs p) :: alone vs (match nth_error vs p with Some _ => S p | None => p end) ops'
  | ONth _ n :: ops' => AView (nth_error vs (Z.to_nat n)) ::
      alone vs (match nth_error vs (Z.to_nat n) with Some _ => S (Z.to_nat n) | None => Z.to_nat n end) ops'
  | OSize _ :: ops' => ASize (if Z.of_nat p <=? zlen vs then zlen vs - Z.of_nat p else 2 ^ 64 + zlen vs - Z.of_nat p) :: alone vs p ops'
  | _ :: ops' => alone vs p ops'
  end.

(** Where each iterator stands after the calls [ops]. *)
Fixpoint places (vs : list view) (its : list nat) (ops : list op) : list nat :=
  let moved (k n : nat) := set_nth k (match nth_error vs n with Some _ => S n | None => n end) its in
  match ops with
  | [] => its
  | ONew :: ops' => places vs (its ++ [O]) ops'
  | OClone k :: ops' => places vs (match nth_error its k with Some p => its ++ [p] | None => its end) ops'
  | ONext k :: ops' => places vs (match nth_error its k with Some p => moved k p | None => its end) ops'
  | ONth k n :: ops' => places vs (match nth_error its k with Some _ => moved k (Z.to_nat n) | None => its end) ops'
  | _ :: ops' => places vs its ops'
  end.

(** The answers to the calls on iterator [k]. *)
Fixpoint answers_of (k : nat) (ops : list op) (l : list answer) : list answer :=
  match ops, l with
  | o :: ops', a :: l' => if own k o then a :: answers_of k ops' l' else answers_of k ops' l'
  | _, _ => []
  end.
