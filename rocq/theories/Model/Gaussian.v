(** Model of the Gaussian latitudes: /repo/src/grid/gaussian.rs. *)
From Coq Require Import Floats.SpecFloat.
From Verif Require Import Model.Base Model.Errors Model.F32 Model.F64 Model.Grid.

(** The arithmetic the polynomials are computed with: binary64 in the program; exact
    arithmetic ([R]) to say what it approximates. *)
Record ops (T : Type) := MkOps { o_sub : T -> T -> T; o_mul : T -> T -> T; o_div : T -> T -> T; o_int : Z -> T }.
Arguments o_sub {T}. Arguments o_mul {T}. Arguments o_div {T}. Arguments o_int {T}.
Definition f64_ops : ops f64 := MkOps f64 f64_sub f64_mul f64_div f64_of_Z.

(** src/grid/gaussian.rs:169-179 [legendre_polynomial]: the loop over [k] in [2..=n];
    [k] and [n] are small enough for [2 * k - 1] not to overflow once the coefficient of
    [legendre_roots_iterator] has been computed. *)
Fixpoint legendre_loop {T} (o : ops T) (cnt : nat) (k : Z) (x p0 p1 : T) : T * T :=
  match cnt with
  | O => (p0, p1)
  | S c =>
      let pk := o_div o (o_sub o (o_mul o (o_mul o (o_int o (2 * k - 1)) x) p1) (o_mul o (o_int o (k - 1)) p0)) (o_int o k) in
      legendre_loop o c (k + 1) x p1 pk
  end.
Definition legendre_polynomial {T} (o : ops T) (n : Z) (x : T) : T * T :=
  legendre_loop o (Z.to_nat (n - 1)) 2 x (o_int o 1) x.

(** src/grid/gaussian.rs:181-183. *)
Definition legendre_polynomial_derivative {T} (o : ops T) (n : Z) (x p_prev p : T) : T :=
  o_div o (o_mul o (o_int o n) (o_sub o p_prev (o_mul o x p))) (o_sub o (o_int o 1) (o_mul o x x)).

(** src/grid/gaussian.rs:23 [MAX_ITER] and 185-208 [find_root]. *)
Definition MAX_ITER : nat := 10.
Fixpoint find_root_loop (count : nat) (x : f64) (f : f64 -> f64) : option f64 :=
  let dx := f x in
  let x' := f64_sub x dx in
  if f64_ltb (f64_abs dx) f64_epsilon then Some x'
  else match count with S c => find_root_loop c x' f | O => None end.
Definition find_root (guess : f64) (f : f64 -> f64) : option f64 := find_root_loop MAX_ITER guess f.

(** src/grid/gaussian.rs:157-168 [legendre_roots_iterator].  The coefficient is computed
    when the iterator is made, the roots when it is advanced: all items are listed. *)
Definition legendre_step {T} (o : ops T) (n : Z) (x : T) : T :=
  let '(p_prev, p) := legendre_polynomial o n x in
  o_div o p (legendre_polynomial_derivative o n x p_prev p).
Definition legendre_guess (lm : libm) (n : Z) (coeff : f64) (i : Z) : f64 :=
  f64_mul coeff (cos lm (f64_div (f64_mul (f64_of_Z (4 * i + 3)) f64_pi) (f64_of_Z (4 * n + 2)))).
Definition legendre_roots (m : mode) (lm : libm) (n : Z) : outcome (list (option f64)) :=
  let! a := arith m Usize (8 * n) in
  let! b := arith m Usize (a * n) in
  let! a' := arith m Usize (8 * n) in
  let! b' := arith m Usize (a' * n) in
  let! c := arith m Usize (b' * n) in
  let coeff := f64_add (f64_sub (f64_of_Z 1) (f64_div (f64_of_Z 1) (f64_of_Z b))) (f64_div (f64_of_Z 1) (f64_of_Z c)) in
  Ret (map (fun i => find_root (legendre_guess lm n coeff (Z.of_nat i)) (legendre_step f64_ops n)) (seq 0 (Z.to_nat n))).

(** src/grid/gaussian.rs:143-145 [compute_gaussian_latitudes]. *)
Definition compute_gaussian_latitudes (m : mode) (lm : libm) (div : Z) : outcome (list (option f64)) :=
  let! l := legendre_roots m lm div in Ret (map (option_map (asin lm)) l).

(** [collect::<Option<Vec<_>>>]. *)
Fixpoint all_some {A} (l : list (option A)) : option (list A) :=
  match l with
  | [] => Some []
  | None :: _ => None
  | Some a :: l' => match all_some l' with Some r => Some (a :: r) | None => None end
  end.

(** src/grid/gaussian.rs:114-119 [compute_gaussian_latitudes_in_degrees]. *)
Definition gaussian_degrees (m : mode) (lm : libm) (div : Z) : outcome (option (list f64)) :=
  let! l := compute_gaussian_latitudes m lm div in
  Ret (all_some (map (option_map f64_to_degrees) l)).

(** src/grid/gaussian.rs:59-83 [GaussianGridDefinition::latlons]. *)
Definition gaussian_latlons (m : mode) (lm : libm) (d : gaussian) : outcome (result regular grib_error) :=
  let! c := is_consistent_for_j m (ga_lat1 d) (ga_lat2 d) (ga_mode d) in
  if negb c then Ret (Err InvalidValueError)
  else
    match ij_of (ga_ni d) (ga_nj d) (ga_mode d) with
    | Err e => Ret (Err e)
    | Ok ij =>
        let! l := gaussian_degrees m lm (ga_nj d) in
        match l with
        | None => Ret (Err Unknown)
        | Some l =>
            let l := if scans_positively_for_j (ga_mode d) then rev l else l in
            let lat := map f64_to_f32 l in
            let! ni1 := arith m U32 (ga_ni d - 1) in
            let! lon := evenly_spaced_longitudes m (ga_lon1 d) (ga_lon2 d) ni1 (ga_mode d) in
            Ret (Ok (MkRegular lat lon ij))
        end
    end.
