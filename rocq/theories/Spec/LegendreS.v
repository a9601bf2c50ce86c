(** Legendre polynomials over the real numbers, by Bonnet's recursion
    [n P_n = (2 n - 1) x P_(n-1) - (n - 1) P_(n-2)]. *)
From Coq Require Import Reals.
From Verif Require Import Model.Base Model.Gaussian.
Local Open Scope R_scope.

Fixpoint P (n : nat) (x : R) : R :=
  match n with
  | O => 1
  | S n1 => match n1 with
            | O => x
            | S n2 => ((2 * INR n - 1) * x * P n1 x - (INR n - 1) * P n2 x) / INR n
            end
  end.

(** Arithmetic without rounding. *)
Definition exact_ops : ops R := MkOps R Rminus Rmult Rdiv IZR.
