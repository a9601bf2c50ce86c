(** Reading fields. *)
From Coq Require Import Lia ZifyBool ZifyNat.
From Verif Require Import Model.Base Model.Helpers Model.Errors Model.Sections Model.Product.
From Verif Require Import Spec.Bits Spec.ReaderS Spec.FieldsS Proofs.BaseLemmas Proofs.HelpersP Proofs.ReaderP.
Ltac Zify.zify_post_hook ::= Z.div_mod_to_equations.

Lemma read_field : forall n p o a b, a = o + 6 -> b = a + n - 1 -> 1 <= n -> 0 <= o -> reaches p b -> read_be n p o = Ret (field p a b).
Proof.
  intros n p o a b -> -> Hn Ho Hr. unfold reaches in Hr. rewrite read_be_spec by lia. unfold field, octets. do 4 f_equal; lia.
Qed.
Lemma field_range : forall p a b, a <= b -> 0 <= field p a b < 256 ^ (b - a + 1).
Proof.
  intros p a b H. unfold field. apply octets_be_range. lia.
Qed.
Lemma read_sfield : forall m p o a b, a = o + 6 -> b = a + 3 -> 0 <= o -> reaches p b -> read_i32 m p o = Ret (sfield p a b).
Proof.
  intros m p o a b Ha Hb Ho Hr. unfold read_i32, read_u32. rewrite (read_field 4 p o a b) by (assumption || lia). cbn [bind].
  pose proof (field_range p a b ltac:(lia)) as R. unfold sfield. replace (b - a + 1) with 4 in * by lia.
  apply (as_grib_int_spec m U32 I32); [unfold grib_pair; auto|]. change (bits_of U32) with 32. lia.
Qed.
Lemma read_field_panic : forall n p o a b, a = o + 6 -> b = a + n - 1 -> 1 <= n -> 0 <= o -> ~ reaches p b -> read_be n p o = Panic.
Proof. intros n p o a b -> -> Hn Ho Hr. apply read_be_panic; unfold reaches in Hr; lia. Qed.

Lemma nth_error_octet : forall (p : list byte) i b, nth_error p i = Some b -> firstn 1 (skipn i p) = [b].
Proof.
  intros p i. revert p. induction i as [|i IH]; intros [|x p] b H; cbn in H; try discriminate; [injection H as ->; reflexivity|].
  cbn [skipn]. apply IH. exact H.
Qed.
Lemma be_one : forall b, be [b] = bz b.
Proof. intros. rewrite be_cons, be_nil. change (zlen (@nil byte)) with 0. lia. Qed.

Lemma octet_field : forall p i a, a = i + 6 -> 0 <= i -> reaches p a -> octet p i = Ret (field p a a).
Proof.
  intros p i a -> Hi Hr. unfold reaches in Hr. unfold octet, index, field, octets. replace (0 <=? i) with true by lia.
  replace (i + 6 - 6) with i by lia. replace (i + 6 - (i + 6) + 1) with 1 by lia. change (Z.to_nat 1) with 1%nat.
  destruct (nth_error p (Z.to_nat i)) as [b|] eqn:E.
  - cbn [bind]. rewrite (nth_error_octet _ _ _ E), be_one. reflexivity.
  - apply nth_error_None in E. unfold zlen in Hr. lia.
Qed.
Lemma get_octet_field : forall p i a, a = i + 6 -> 0 <= i -> reaches p a -> get_octet p i = Some (field p a a).
Proof.
  intros p i a -> Hi Hr. pose proof (octet_field p i (i + 6) eq_refl Hi Hr) as H. unfold octet, index in H. unfold get_octet, get.
  replace (0 <=? i) with true in * by lia. destruct (nth_error p (Z.to_nat i)); [|discriminate H]. cbn [bind] in H. injection H as <-. reflexivity.
Qed.
Lemma get_octet_none : forall p i a, a = i + 6 -> 0 <= i -> ~ reaches p a -> get_octet p i = None.
Proof.
  intros p i a -> Hi Hr. unfold reaches in Hr. unfold get_octet, get. replace (0 <=? i) with true by lia.
  destruct (nth_error p (Z.to_nat i)) eqn:E; [|reflexivity]. assert (nth_error p (Z.to_nat i) <> None) as N by congruence.
  apply nth_error_Some in N. unfold zlen in Hr. lia.
Qed.

(** A field of a payload is the same field in the file. *)
Lemma skipn_twice : forall A a b (l : list A), skipn a (skipn b l) = skipn (b + a) l.
Proof. intros A a b. induction b as [|b IH]; intros l; [reflexivity|]. destruct l as [|x l]; [rewrite !skipn_nil; reflexivity|]. apply IH. Qed.
Lemma octets_octets : forall d o n i k, 0 <= o -> 0 <= i -> 0 <= k -> i + k <= n ->
  octets (octets d o n) i k = octets d (o + i) k.
Proof.
  intros d o n i k Ho Hi Hk H. unfold octets. rewrite skipn_firstn_comm, skipn_twice, firstn_firstn.
  f_equal; [lia|]. f_equal. lia.
Qed.
Lemma field_in_file : forall d off size a b, 0 <= off -> 6 <= a <= b -> b <= size ->
  field (octets d (off + 5) (size - 5)) a b = file_field d off a b.
Proof.
  intros d off size a b Ho Ha Hb. unfold field, file_field. rewrite octets_octets by lia. f_equal. f_equal. lia.
Qed.
