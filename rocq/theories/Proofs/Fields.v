(** Tactics for reading fields out of a concatenation of encoded fields. *)
From Coq Require Import Lia ZifyBool ZifyNat.
From Verif Require Import Model.Base Model.Helpers Spec.Bits Proofs.BaseLemmas Proofs.HelpersP Proofs.Bits2.
Ltac Zify.zify_post_hook ::= Z.div_mod_to_equations.

Lemma slice_skip : forall A (l1 l2 : list A) a b, zlen l1 <= a -> a <= b ->
  slice (l1 ++ l2) a b = slice l2 (a - zlen l1) (b - zlen l1).
Proof.
  intros A l1 l2 a b Ha Hab. pose proof (zlen_nonneg _ l1).
  unfold slice. rewrite zlen_app.
  replace ((0 <=? a) && (a <=? b) && (b <=? zlen l1 + zlen l2))
    with ((0 <=? a - zlen l1) && (a - zlen l1 <=? b - zlen l1) && (b - zlen l1 <=? zlen l2)) by lia.
  destruct ((0 <=? a - zlen l1) && (a - zlen l1 <=? b - zlen l1) && (b - zlen l1 <=? zlen l2)); [|reflexivity].
  f_equal. replace (b - zlen l1 - (a - zlen l1)) with (b - a) by lia. f_equal.
  unfold zlen in *. replace (Z.to_nat a) with (length l1 + Z.to_nat (a - Z.of_nat (length l1)))%nat by lia.
  rewrite skipn_app, skipn_all2 by lia. cbn [app]. f_equal. lia.
Qed.

Lemma read_be_skip : forall n (l1 l2 : list byte) s s', 0 <= n -> zlen l1 + s' = s -> 0 <= s' ->
  read_be n (l1 ++ l2) s = read_be n l2 s'.
Proof.
  intros. unfold read_be. rewrite slice_skip by lia. do 2 f_equal; lia.
Qed.

Lemma read_be_skip_be : forall n k v l s s', 0 <= n -> Z.of_nat k + s' = s -> 0 <= s' ->
  read_be n (be_bytes k v ++ l) s = read_be n l s'.
Proof. intros. apply read_be_skip; try assumption. rewrite zlen_be_bytes. assumption. Qed.

Lemma read_be_head : forall n k v l, Z.of_nat k = n -> 0 <= v < 256 ^ n ->
  read_be n (be_bytes k v ++ l) 0 = Ret v.
Proof.
  intros n k v l E H. change (be_bytes k v ++ l) with ([] ++ be_bytes k v ++ l).
  rewrite (read_be_ok n [] (be_bytes k v) l); [|reflexivity|rewrite zlen_be_bytes; lia].
  rewrite be_be_bytes; [reflexivity|]. rewrite E. exact H.
Qed.
Lemma read_be_last : forall n k v, Z.of_nat k = n -> 0 <= v < 256 ^ n ->
  read_be n (be_bytes k v) 0 = Ret v.
Proof. intros n k v E H. rewrite <- (app_nil_r (be_bytes k v)). apply read_be_head; assumption. Qed.

(** [rd]: evaluate one [read_be] of a concatenation of [be_bytes]; leaves the range
    condition to the given tactic. *)
Ltac rd_skip :=
  match goal with
  | |- context [read_be ?n (be_bytes ?k ?v ++ ?l) ?s] =>
      let s' := eval vm_compute in (s - Z.of_nat k) in
      match s' with
      | Zneg _ => fail 1
      | _ => rewrite (read_be_skip_be n k v l s s') by (vm_compute; congruence)
      end
  end.
Ltac rd tac :=
  repeat rd_skip;
  first [ rewrite read_be_head by (first [reflexivity | tac])
        | rewrite read_be_last by (first [reflexivity | tac]) ].

Lemma sm_value_range : forall n v, (1 <= n)%nat -> Z.abs v < 2 ^ (8 * Z.of_nat n - 1) ->
  0 <= (if v <? 0 then 2 ^ (8 * Z.of_nat n - 1) - v else v) < 256 ^ Z.of_nat n.
Proof.
  intros n v Hn H. rewrite pow256 by lia.
  assert (E : 2 ^ (8 * Z.of_nat n) = 2 * 2 ^ (8 * Z.of_nat n - 1)).
  { rewrite <- Z.pow_succ_r by lia. f_equal. lia. }
  rewrite E. destruct (v <? 0) eqn:E'; lia.
Qed.
