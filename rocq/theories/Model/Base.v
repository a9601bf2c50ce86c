(** Machine-level vocabulary used by the whole model.

    Nothing here models a particular function of /repo; it fixes how Rust's
    primitive operations (fixed-width integers, slices, panics, iterators)
    are represented.  See DESIGN.md section 2. *)
From Coq Require Export List ZArith Bool.
From Coq Require Export Init.Byte.
From Coq Require Strings.Byte.
Export ListNotations.
Open Scope Z_scope.

(** ** Outcomes of running Rust code *)

(** [Ret a]: the code finished with value [a]; [Panic]: it panicked;
    [Diverge]: the fuel given to a loop that need not terminate ran out. *)
Inductive outcome (A : Type) : Type :=
| Ret (a : A)
| Panic
| Diverge.
Arguments Ret {A} a.
Arguments Panic {A}.
Arguments Diverge {A}.

Definition bind {A B} (x : outcome A) (f : A -> outcome B) : outcome B :=
  match x with
  | Ret a => f a
  | Panic => Panic
  | Diverge => Diverge
  end.

Notation "'let!' x ':=' e 'in' k" := (bind e (fun x => k))
  (at level 200, x pattern, e at level 100, k at level 200, right associativity).

(** Rust's [Result<A, E>]. *)
Inductive result (A E : Type) : Type :=
| Ok (a : A)
| Err (e : E).
Arguments Ok {A E} a.
Arguments Err {A E} e.

(** [e?] inside a function returning [Result]. *)
Notation "'try!' x ':=' e 'in' k" :=
  (bind e (fun r => match r with Ok x => k | Err err => Ret (Err err) end))
  (at level 200, x pattern, e at level 100, k at level 200, right associativity).

(** ** Fixed-width integers *)

(** Build profile: [Checked] = overflow checks on (debug), [Wrapping] = off
    (release): overflow wraps and shift amounts are masked. *)
Inductive mode := Checked | Wrapping.

Inductive ity := U8 | U16 | U32 | U64 | I8 | I16 | I32 | I64.
(** [usize] is modelled as 64 bits wide. *)
Notation Usize := U64.

Definition bits_of (t : ity) : Z :=
  match t with
  | U8 | I8 => 8 | U16 | I16 => 16 | U32 | I32 => 32 | U64 | I64 => 64
  end.

Definition is_signed (t : ity) : bool :=
  match t with U8 | U16 | U32 | U64 => false | _ => true end.

Definition min_of (t : ity) : Z :=
  if is_signed t then - 2 ^ (bits_of t - 1) else 0.
Definition max_of (t : ity) : Z :=
  if is_signed t then 2 ^ (bits_of t - 1) - 1 else 2 ^ bits_of t - 1.

Definition in_range (t : ity) (z : Z) : bool :=
  (min_of t <=? z) && (z <=? max_of t).

(** Two's complement reduction (also what an [as] cast between integer types
    does). *)
Definition wrap (t : ity) (z : Z) : Z :=
  let r := z mod 2 ^ bits_of t in
  if is_signed t && (2 ^ (bits_of t - 1) <=? r) then r - 2 ^ bits_of t else r.

(** Result of [+], [-], [*], unary [-] at type [t] whose exact value is [z]. *)
Definition arith (m : mode) (t : ity) (z : Z) : outcome Z :=
  if in_range t z then Ret z
  else match m with Checked => Panic | Wrapping => Ret (wrap t z) end.

(** [x << k] and [x >> k] at type [t]. *)
Definition shift_amount (m : mode) (t : ity) (k : Z) : outcome Z :=
  if (0 <=? k) && (k <? bits_of t) then Ret k
  else match m with Checked => Panic | Wrapping => Ret (k mod bits_of t) end.

Definition shl (m : mode) (t : ity) (x k : Z) : outcome Z :=
  let! s := shift_amount m t k in Ret (wrap t (Z.shiftl x s)).
Definition shr (m : mode) (t : ity) (x k : Z) : outcome Z :=
  let! s := shift_amount m t k in Ret (Z.shiftr x s).

(** ** Bytes and slices *)

Definition bz (b : byte) : Z := Z.of_N (Strings.Byte.to_N b).
Definition zb (z : Z) : byte :=
  match Strings.Byte.of_N (Z.to_N (z mod 256)) with Some b => b | None => x00 end.

Definition zlen {A} (l : list A) : Z := Z.of_nat (length l).

(** [&data[a..b]] *)
Definition slice {A} (data : list A) (a b : Z) : outcome (list A) :=
  if (0 <=? a) && (a <=? b) && (b <=? zlen data)
  then Ret (firstn (Z.to_nat (b - a)) (skipn (Z.to_nat a) data))
  else Panic.

(** [&data[a..]] *)
Definition slice_from {A} (data : list A) (a : Z) : outcome (list A) :=
  slice data a (zlen data).

(** [data[i]] *)
Definition index {A} (data : list A) (i : Z) : outcome A :=
  if 0 <=? i then
    match nth_error data (Z.to_nat i) with Some x => Ret x | None => Panic end
  else Panic.

(** [data.get(i)] *)
Definition get {A} (data : list A) (i : Z) : option A :=
  if 0 <=? i then nth_error data (Z.to_nat i) else None.

(** [uN::from_be_bytes]: big-endian value of a byte string. *)
Definition be (l : list byte) : Z :=
  fold_left (fun acc b => acc * 256 + bz b) l 0.

(** ** Iterators

    A Rust value of type [impl Iterator<Item = A>]: hidden state plus [next]. *)
Record iter (A : Type) : Type := MkIter {
  ist : Type;
  icur : ist;
  istep : ist -> outcome (option A * ist)
}.
Arguments MkIter {A} _ _ _.
Arguments ist {A} _.
Arguments icur {A} _.
Arguments istep {A} _ _.

(** [it.next()] *)
Definition next {A} (it : iter A) : outcome (option A * iter A) :=
  match istep it (icur it) with
  | Ret (o, s) => Ret (o, MkIter (ist it) s (istep it))
  | Panic => Panic
  | Diverge => Diverge
  end.

(** [Vec::into_iter] / [slice::iter] *)
Definition iter_of_list {A} (l : list A) : iter A :=
  MkIter (list A) l
    (fun s => match s with [] => Ret (None, []) | a :: s' => Ret (Some a, s') end).

(** [it.map(f)] where the closure may panic *)
Definition imap {A B} (f : A -> outcome B) (it : iter A) : iter B :=
  MkIter (ist it) (icur it)
    (fun s => let! r := istep it s in
              match r with
              | (None, s') => Ret (None, s')
              | (Some a, s') => let! b := f a in Ret (Some b, s')
              end).

(** [it.take(n)]: counts down, does not call the inner iterator at 0. *)
Definition itake {A} (n : Z) (it : iter A) : iter A :=
  MkIter (Z * ist it) (n, icur it)
    (fun '(n, s) =>
       if n <=? 0 then Ret (None, (n, s))
       else let! r := istep it s in
            let '(o, s') := r in Ret (o, (n - 1, s'))).

(** [it.chain(iter::once(x))] *)
Definition ichain_once {A} (it : iter A) (x : A) : iter A :=
  MkIter (option (ist it) * bool) (Some (icur it), true)
    (fun '(os, todo) =>
       let second (todo : bool) :=
         if todo then Ret (Some x, (None, false)) else Ret (None, (None, false)) in
       match os with
       | Some s =>
           let! r := istep it s in
           match r with
           | (Some a, s') => Ret (Some a, (Some s', todo))
           | (None, _) => second todo
           end
       | None => second todo
       end).

(** [it.collect::<Vec<_>>()], with fuel for iterators that do not end. *)
Fixpoint collect {A} (fuel : nat) (it : iter A) : outcome (list A) :=
  match fuel with
  | O => Diverge
  | S fuel' =>
      let! r := next it in
      match r with
      | (None, _) => Ret []
      | (Some a, it') => let! l := collect fuel' it' in Ret (a :: l)
      end
  end.

(** How an iteration ends. *)
Inductive ending := End | Crash.

(** [Run it l e]: repeatedly calling [next] on [it] returns the items of [l] in
    order and then [None] ([e = End]) or panics ([e = Crash]). *)
Inductive Run {A} : iter A -> list A -> ending -> Prop :=
| Run_end : forall it it', next it = Ret (None, it') -> Run it [] End
| Run_crash : forall it, next it = Panic -> Run it [] Crash
| Run_cons : forall it it' a l e,
    next it = Ret (Some a, it') -> Run it' l e -> Run it (a :: l) e.

(** [Steps it l it']: the first [length l] calls of [next] on [it] return the
    items of [l]; [it'] is the iterator afterwards. *)
Inductive Steps {A} : iter A -> list A -> iter A -> Prop :=
| Steps_nil : forall it, Steps it [] it
| Steps_cons : forall it it1 it' a l,
    next it = Ret (Some a, it1) -> Steps it1 l it' -> Steps it (a :: l) it'.

(** The same for a bare state machine, exposing the state reached. *)
Inductive SSteps {S A} (step : S -> outcome (option A * S)) : S -> list A -> S -> Prop :=
| SSteps_nil : forall s, SSteps step s [] s
| SSteps_cons : forall s s1 s' a l,
    step s = Ret (Some a, s1) -> SSteps step s1 l s' -> SSteps step s (a :: l) s'.
