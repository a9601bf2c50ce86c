(** The calendar. *)
From Coq Require Import Lia ZifyBool ZifyNat.
From Verif Require Import Model.Base Model.Product Spec.FieldsS.
Ltac Zify.zify_post_hook ::= Z.div_mod_to_equations.

Definition valid_date (y m d : Z) : bool := (1 <=? m) && (m <=? 12) && (1 <=? d) && (d <=? days_in_month y m).

(** [f] holds of [lo, lo + n). *)
Fixpoint all_from (n : nat) (lo : Z) (f : Z -> bool) : bool :=
  match n with O => true | S n' => if f lo then all_from n' (lo + 1) f else false end.
Lemma all_from_spec : forall n lo f, all_from n lo f = true -> forall z, lo <= z < lo + Z.of_nat n -> f z = true.
Proof.
  induction n as [|n IH]; intros lo f H z Hz; [lia|]. cbn [all_from] in H. destruct (f lo) eqn:E; [|discriminate].
  destruct (Z.eq_dec z lo) as [->|Hne]; [exact E|]. apply (IH (lo + 1)); [exact H|lia].
Qed.

Definition n_days : nat := Z.to_nat 146097.
Lemma n_days_Z : Z.of_nat n_days = 146097.
Proof. apply Z2Nat.id. apply Z.leb_le. reflexivity. Qed.
Definition day_ok (n : Z) : bool := let '(y, m, d) := civil n in valid_date y m d.
Lemma days_ok : all_from n_days 0 day_ok = true.
Proof. vm_compute. reflexivity. Qed.
Lemma days_all : forall z, 0 <= z < 146097 -> day_ok z = true.
Proof. intros z Hz. apply (all_from_spec n_days 0 day_ok days_ok z). rewrite n_days_Z. exact Hz. Qed.

Definition month_start (m : Z) : Z :=
  match m with 3 => 0 | 4 => 31 | 5 => 61 | 6 => 92 | 7 => 122 | 8 => 153 | 9 => 184 | 10 => 214 | 11 => 245 | 12 => 275 | 1 => 306 | _ => 337 end.
Definition day_of (y m d : Z) : Z :=
  let yoe := if m <=? 2 then y - 1 else y in yoe * 365 + yoe / 4 - yoe / 100 + month_start m + d - 1.
Definition eq3 (a b : Z * Z * Z) : bool := let '(x, y, z) := a in let '(x', y', z') := b in (x =? x') && (y =? y') && (z =? z').
Definition date_ok (y m d : Z) : bool := (0 <=? day_of y m d) && (day_of y m d <? 146097) && eq3 (civil (day_of y m d)) (y, m, d).
Definition month_ok (yoe m : Z) : bool :=
  let y := if m <=? 2 then yoe + 1 else yoe in all_from (Z.to_nat (days_in_month y m)) 1 (date_ok y m).
Definition year_ok (yoe : Z) : bool := all_from 12 1 (month_ok yoe).
Lemma dates_ok : all_from 400 0 year_ok = true.
Proof. vm_compute. reflexivity. Qed.
Lemma dates_all : forall yoe m d, 0 <= yoe < 400 -> 1 <= m <= 12 ->
  let y := if m <=? 2 then yoe + 1 else yoe in 1 <= d <= days_in_month y m -> date_ok y m d = true.
Proof.
  intros yoe m d H1 H2 y H3. pose proof (all_from_spec 400 0 year_ok dates_ok yoe ltac:(lia)) as C1.
  pose proof (all_from_spec 12 1 (month_ok yoe) C1 m ltac:(lia)) as C2. unfold month_ok in C2. fold y in C2.
  apply (all_from_spec _ _ _ C2 d). lia.
Qed.

Lemma civil_shift : forall n k, civil (n + 146097 * k) = let '(y, m, d) := civil n in (y + 400 * k, m, d).
Proof.
  intros n k. unfold civil. replace ((n + 146097 * k) / 146097) with (n / 146097 + k) by lia. replace ((n + 146097 * k) mod 146097) with (n mod 146097) by lia.
  cbv zeta. set (doe := n mod 146097). set (c := Z.min 3 (doe / 36524)). set (doc := doe - c * 36524). set (dop := doc mod 1461). set (yop := Z.min 3 (dop / 365)).
  destruct (fold_left _ _ _) as (m, s). destruct (m <=? 2); f_equal; f_equal; lia.
Qed.
Lemma leap_shift : forall y k, is_leap_year (y + 400 * k) = is_leap_year y.
Proof. intros. unfold is_leap_year. f_equal; [f_equal; lia|]. f_equal; [do 2 f_equal; lia|f_equal; lia]. Qed.
Lemma valid_shift : forall y m d k, valid_date (y + 400 * k) m d = valid_date y m d.
Proof. intros. unfold valid_date, days_in_month. rewrite leap_shift. reflexivity. Qed.

(** The dates of the calendar are exactly the valid dates. *)
Lemma civil_valid : forall y m d, valid_date y m d = true <-> exists n, civil n = (y, m, d).
Proof.
  intros y m d. split.
  - intros H. set (k := (if m <=? 2 then y - 1 else y) / 400). set (y0 := y - 400 * k).
    assert (Hy0 : valid_date y0 m d = true). { rewrite <- (valid_shift y0 m d k). replace (y0 + 400 * k) with y by lia. exact H. }
    exists (day_of y0 m d + 146097 * k). rewrite civil_shift. clear H.
    unfold valid_date in Hy0. apply andb_true_iff in Hy0 as (Hy0 & D2). apply andb_true_iff in Hy0 as (Hy0 & D1). apply andb_true_iff in Hy0 as (M1 & M2).
    set (yoe := if m <=? 2 then y0 - 1 else y0).
    assert (R1 : 0 <= yoe < 400) by (unfold yoe, y0, k; destruct (m <=? 2); lia).
    assert (Ey : (if m <=? 2 then yoe + 1 else yoe) = y0) by (unfold yoe; destruct (m <=? 2); lia).
    pose proof (dates_all yoe m d R1 ltac:(lia)) as C. cbv zeta in C. rewrite Ey in C. specialize (C ltac:(lia)).
    unfold date_ok in C. apply andb_true_iff in C as (_ & C). destruct (civil (day_of y0 m d)) as ((a, b), c). cbn [eq3] in C.
    f_equal; [f_equal|]; lia.
  - intros (n & E). assert (R : 0 <= n mod 146097 < 146097) by lia. pose proof (civil_shift (n mod 146097) (n / 146097)) as S. replace (n mod 146097 + 146097 * (n / 146097)) with n in S by lia. rewrite E in S. clear E.
    pose proof (days_all (n mod 146097) R) as C1. unfold day_ok in C1.
    destruct (civil (n mod 146097)) as ((a, b), c). assert (y = a + 400 * (n / 146097) /\ m = b /\ d = c) as (-> & -> & ->) by (repeat split; congruence). rewrite valid_shift. exact C1.
Qed.
