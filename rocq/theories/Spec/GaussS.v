(** Newton's method with at most eleven evaluations, as a specification. *)
From Coq Require Import Floats.SpecFloat.
From Verif Require Import Model.Base Model.F32 Model.F64 Model.Grid Spec.GridS.

(** The [k]-th iterate from [x]: each step subtracts the value of [f]. *)
Fixpoint iterate (f : f64 -> f64) (x : f64) (k : nat) : f64 :=
  match k with O => x | S k => let y := iterate f x k in f64_sub y (f y) end.
(** The step at [y] is smaller than 2^-52. *)
Definition settled (f : f64 -> f64) (y : f64) : bool := f64_ltb (f64_abs (f y)) (S754_finite false (2 ^ 52) (-104)).

(** Legendre polynomials of degree [n] and [n] - 1 by Bonnet's recursion
    [k P_k = (2 k - 1) x P_(k-1) - (k - 1) P_(k-2)], computed in binary64. *)
Fixpoint legendre (x : f64) (n : nat) : f64 :=
  match n with
  | O => f64_of_Z 1
  | S n1 =>
      match n1 with
      | O => x
      | S n2 =>
          let k := Z.of_nat n in
          f64_div (f64_sub (f64_mul (f64_mul (f64_of_Z (2 * k - 1)) x) (legendre x n1)) (f64_mul (f64_of_Z (k - 1)) (legendre x n2))) (f64_of_Z k)
      end
  end.
(** Newton's step [P_n / P_n'], with [P_n' = n (P_(n-1) - x P_n) / (1 - x^2)]. *)
Definition newton_step (n : nat) (x : f64) : f64 :=
  f64_div (legendre x n)
    (f64_div (f64_mul (f64_of_Z (Z.of_nat n)) (f64_sub (legendre x (n - 1)) (f64_mul x (legendre x n)))) (f64_sub (f64_of_Z 1) (f64_mul x x))).

(** Row [j] of a Gaussian grid, among the latitudes from north to south. *)
Definition gauss_row (nj mode j : Z) : Z := if flag 2 mode then nj - 1 - j else j.

(** First guess for root [i] of degree [n]:
    [(1 - 1 / (8 n^2) + 1 / (8 n^3)) cos (pi (4 i + 3) / (4 n + 2))], computed in binary64 with
    the cosine of the platform. *)
Definition first_guess (lm : libm) (n i : Z) : f64 :=
  f64_mul (f64_add (f64_sub (f64_of_Z 1) (f64_div (f64_of_Z 1) (f64_of_Z (8 * n * n)))) (f64_div (f64_of_Z 1) (f64_of_Z (8 * n * n * n))))
    (cos lm (f64_div (f64_mul (f64_of_Z (4 * i + 3)) f64_pi) (f64_of_Z (4 * n + 2)))).

(** The search from [x] stops with [y], after the first settled iterate of at most eleven. *)
Definition root_found (f : f64 -> f64) (x y : f64) : Prop :=
  exists k, (k <= 10)%nat /\ settled f (iterate f x k) = true /\ (forall i, (i < k)%nat -> settled f (iterate f x i) = false) /\ y = iterate f x (S k).
(** None of the eleven is settled. *)
Definition root_missed (f : f64 -> f64) (x : f64) : Prop := forall k, (k <= 10)%nat -> settled f (iterate f x k) = false.

(** The greatest [n] with [8 n^3 < 2^64]. *)
Definition cube_limit : Z := 1321122.
