(** Builds with and without overflow checks: what is used to state C87. *)
From Verif Require Import Model.Base.

(** What a build with overflow checks does ([checked]) and what a build without them
    does: the same, unless the first one panics. *)
Definition same_unless_panic {A} (checked unchecked : outcome A) : Prop := checked = Panic \/ unchecked = checked.

(** The same for iterators: whatever items one yields, the other one yields, and if it
    ends without a panic, the other one ends there, too. *)
Definition same_items {A} (checked unchecked : iter A) : Prop :=
  (forall l, Run checked l End -> Run unchecked l End) /\
  (forall l it, Steps checked l it -> exists it', Steps unchecked l it').
(** The same for functions that return iterators. *)
Definition same_iter {A E} (checked unchecked : outcome (result (iter A) E)) : Prop :=
  match checked with
  | Ret (Ok it) => exists it', unchecked = Ret (Ok it') /\ same_items it it'
  | Panic => True
  | x => unchecked = x
  end.
