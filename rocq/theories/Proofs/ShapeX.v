(** The shape of a grid and the order of its points, from the octets of section 3. *)
From Coq Require Import Lia ZifyBool ZifyNat.
From Verif Require Import Model.Base Model.Errors Model.Helpers Model.Grid Spec.FieldsS Spec.GridS.
From Verif Require Import Proofs.BaseLemmas Proofs.HelpersP Proofs.FieldsP Proofs.FieldsX Proofs.PointsP.

Lemma complete_reaches p : grid_complete p -> reaches p 14.
Proof.
  intros (Ht & Hr & _). cbn [In] in Ht.
  assert (14 <= grid_end (grid_template p)) by (destruct Ht as [<-|[<-|[<-|[<-|[]]]]]; cbn; lia). unfold reaches in *. lia.
Qed.

Lemma complete_grid m p : grid_complete p -> exists g, grid_of_payload m p = Ret (Ok g) /\
  grid_shape g = (field p 31 34, field p 35 38) /\ grid_mode g = field p (mode_octet (grid_template p)) (mode_octet (grid_template p)).
Proof.
  intros G. pose proof (complete_reaches p G) as R14. destruct G as (Ht & Hr & Hl).
  destruct (grid_parsed m p R14) as (P0 & P40 & P20 & P30). cbn [In] in Ht, Hl.
  destruct Ht as [T|[T|[T|[T|[]]]]]; symmetry in T; rewrite T in *; cbn [grid_end mode_octet] in *.
  - eexists. split; [apply P0; [reflexivity|apply Hl; auto]|split; reflexivity].
  - eexists. split; [apply P20; [reflexivity|exact Hr]|split; reflexivity].
  - eexists. split; [apply P30; [reflexivity|exact Hr]|split; reflexivity].
  - eexists. split; [apply P40; [reflexivity|apply Hl; auto]|split; reflexivity].
Qed.

Lemma shape_octets : forall m p, grid_complete p -> sub_grid_shape m p = Ret (Ok (field p 31 34, field p 35 38)).
Proof. intros m p G. destruct (complete_grid m p G) as (g & E & S & _). unfold sub_grid_shape. rewrite E. cbn [bind]. rewrite S. reflexivity. Qed.

Lemma ij_octets : forall m p, grid_complete p ->
  let ni := field p 31 34 in let nj := field p 35 38 in
  let mode := field p (mode_octet (grid_template p)) (mode_octet (grid_template p)) in
  (low_flag mode -> sub_ij m p = Ret (Err NotSupported)) /\
  (~ low_flag mode -> field p 7 10 <> ni * nj -> sub_ij m p = Ret (Err InvalidValueError)) /\
  (~ low_flag mode -> field p 7 10 = ni * nj -> sub_ij m p = Ret (Ok (gpi_new ni nj mode))).
Proof.
  intros m p G. destruct (complete_grid m p G) as (g & E & S & M). pose proof (complete_reaches p G) as R.
  assert (R10 : reaches p 10) by (unfold reaches in *; lia).
  pose proof (sub_ij_spec m p g R10 E) as H. rewrite S, M in H. exact H.
Qed.
