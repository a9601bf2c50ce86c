From Coq Require Import Lia ZifyBool ZifyNat.
From Verif Require Import Model.Base Model.Bitmap Spec.Bits Spec.BitmapS Proofs.BaseLemmas Proofs.BitsP.
Ltac Zify.zify_post_hook ::= Z.div_mod_to_equations.

Lemma has_zero_spec : forall b (o : nat), (o < 8)%nat ->
  has_zero_at_offset b (Z.of_nat o) = negb (nth o (byte_bits b) false).
Proof.
  intros b o H. do 8 (destruct o as [|o]; [destruct b; reflexivity|]). lia.
Qed.

Lemma skipn_nth : forall A (d : A) l n, (n < length l)%nat -> skipn n l = nth n l d :: skipn (S n) l.
Proof.
  intros A d l. induction l as [|x l IH]; intros n H; cbn [length] in H; [lia|].
  destruct n as [|n]; [reflexivity|]. cbn [skipn nth]. rewrite IH by lia. reflexivity.
Qed.

Section P.
  Context {A : Type} (nan : A) (I : Type) (step : I -> outcome (option A * I)).
  Let bit (s : bitmap_state I) := skipn (Z.to_nat (bm_offset s)) (bits_of_bytes (bm_bitmap s)).

  (** The bits the iterator will still look at. *)
  Definition live_bits (s : bitmap_state I) : list bool :=
    if bm_len s <? 8 then firstn (Z.to_nat (bm_len s - bm_offset s)) (bit s) else bit s.

  Definition bm_wf (s : bitmap_state I) : Prop :=
    0 <= bm_offset s < 8 /\ 0 <= bm_len s
    /\ (bm_len s < 8 -> bm_offset s <= bm_len s /\ (bm_len s <= zlen (bits_of_bytes (bm_bitmap s)))).

  Lemma bitmap_step : forall s b bs, bm_wf s -> live_bits s = b :: bs ->
    exists bitmap' offset',
      (forall v, bm_wf (BM bitmap' v (bm_len s) offset') /\ live_bits (BM bitmap' v (bm_len s) offset') = bs)
      /\ bitmap_next nan I step s =
        if b then let! (o, v) := step (bm_values s) in Ret (o, BM bitmap' v (bm_len s) offset')
        else Ret (Some nan, BM bitmap' (bm_values s) (bm_len s) offset').
  Proof.
    intros [bitmap values len offset] b bs (Ho & Hl & Hw) HL.
    unfold live_bits, bit in HL. cbn [bm_bitmap bm_values bm_len bm_offset] in *.
    assert (Hlt : offset < len).
    { destruct (Z.ltb_spec len 8) as [H8|H8]; [|lia].
      destruct (Z.lt_ge_cases offset len) as [Hx|Hx]; [exact Hx|exfalso].
      replace (Z.to_nat (len - offset)) with 0%nat in HL by lia. discriminate. }
    destruct bitmap as [|c bitmap].
    { exfalso. cbn [bits_of_bytes flat_map] in HL. rewrite skipn_nil, firstn_nil in HL.
      destruct (len <? 8); discriminate. }
    rewrite bits_of_bytes_cons in *.
    pose proof (byte_bits_length c) as L8.
    assert (Eb : b = nth (Z.to_nat offset) (byte_bits c) false).
    { rewrite (skipn_app_less _ (byte_bits c)) in HL by lia.
      rewrite (skipn_nth _ false (byte_bits c)) in HL by lia. cbn [app] in HL.
      destruct (len <? 8).
      - replace (Z.to_nat (len - offset)) with (S (Z.to_nat (len - offset) - 1)) in HL by lia.
        cbn [firstn] in HL. congruence.
      - congruence. }
    unfold bitmap_next. replace (len <=? offset) with false by lia.
    assert (Hz : has_zero_at_offset c offset = negb b).
    { rewrite Eb. rewrite <- has_zero_spec by lia. rewrite Z2Nat.id by lia. reflexivity. }
    assert (Ebs : forall k : nat, bs = if len <? 8 then firstn (Z.to_nat (len - offset) - 1) (skipn (S (Z.to_nat offset)) (byte_bits c ++ bits_of_bytes bitmap))
                            else skipn (S (Z.to_nat offset)) (byte_bits c ++ bits_of_bytes bitmap)).
    { intros _. rewrite (skipn_nth _ false) in HL by (rewrite app_length; lia).
      destruct (len <? 8).
      - replace (Z.to_nat (len - offset)) with (S (Z.to_nat (len - offset) - 1)) in HL by lia.
        cbn [firstn] in HL. congruence.
      - congruence. }
    specialize (Ebs 0%nat).
    destruct (Z.ltb_spec offset 7) as [H7|H7].
    - exists (c :: bitmap), (offset + 1). split.
      + intros v. split.
        * unfold bm_wf. cbn [bm_bitmap bm_values bm_len bm_offset].
          rewrite bits_of_bytes_cons. split; [lia|]. split; [lia|]. intros H8. specialize (Hw H8). lia.
        * unfold live_bits, bit. cbn [bm_bitmap bm_values bm_len bm_offset]. rewrite bits_of_bytes_cons.
          rewrite Ebs. replace (Z.to_nat (offset + 1)) with (S (Z.to_nat offset)) by lia.
          destruct (len <? 8); [|reflexivity]. f_equal. lia.
      + cbn [hd_error]. rewrite Hz. destruct b; cbn [negb bm_values]; reflexivity.
    - assert (offset = 7) by lia. subst offset.
      exists bitmap, 0. split.
      + intros v. split.
        * unfold bm_wf. cbn [bm_bitmap bm_values bm_len bm_offset]. lia.
        * unfold live_bits, bit. cbn [bm_bitmap bm_values bm_len bm_offset].
          rewrite Ebs. replace (len <? 8) with false by lia.
          symmetry. change (skipn (Z.to_nat 0) (bits_of_bytes bitmap)) with (bits_of_bytes bitmap).
          apply (skipn_app_exact _ (byte_bits c) (bits_of_bytes bitmap)). reflexivity.
      + cbn [hd_error tl]. rewrite Hz. destruct b; cbn [negb bm_values]; reflexivity.
  Qed.

  Lemma bitmap_stop : forall s, bm_wf s -> live_bits s = [] ->
    exists s', bitmap_next nan I step s = Ret (None, s').
  Proof.
    intros [bitmap values len offset] (Ho & Hl & Hw) HL.
    unfold live_bits, bit in HL. cbn [bm_bitmap bm_values bm_len bm_offset] in *.
    unfold bitmap_next. destruct (Z.leb_spec len offset) as [Hle|Hgt]; [eauto|].
    destruct bitmap as [|c bitmap].
    - destruct (offset <? 7); cbn [hd_error]; eauto.
    - exfalso. rewrite bits_of_bytes_cons in HL.
      rewrite (skipn_nth _ false) in HL by (rewrite app_length, byte_bits_length; lia).
      destruct (len <? 8); [|discriminate].
      replace (Z.to_nat (len - offset)) with (S (Z.to_nat (len - offset) - 1)) in HL by lia.
      discriminate.
  Qed.

  Definition out_ending (bits : list bool) (vals : list A) (e : ending) : ending :=
    if (ones bits <=? length vals)%nat then End else e.

  Lemma bitmap_run_state : forall bs s vals e,
    bm_wf s -> live_bits s = bs ->
    Run (MkIter I (bm_values s) step) vals e ->
    Run (MkIter (bitmap_state I) s (bitmap_next nan I step)) (place nan bs vals) (out_ending bs vals e).
  Proof.
    induction bs as [|b bs IH]; intros s vals e Hwf HL HV.
    - destruct (bitmap_stop s Hwf HL) as (s' & E). cbn [place].
      eapply Run_end. rewrite next_mk, E. reflexivity.
    - destruct (bitmap_step s b bs Hwf HL) as (bm' & o' & Hnext & E).
      destruct b.
      + unfold out_ending, ones. cbn [filter length place].
        inversion HV as [it it' Hn|it Hn|it it' a l e0 Hn HR]; subst; rewrite next_mk in Hn.
        * cbn [length Nat.leb]. destruct (step (bm_values s)) as [[o v]| |] eqn:Es; cbn [bind] in Hn; try discriminate.
          injection Hn as -> <-. eapply Run_end. rewrite next_mk, E. reflexivity.
        * cbn [length Nat.leb]. destruct (step (bm_values s)) as [[o v]| |] eqn:Es; cbn [bind] in Hn; try discriminate.
          eapply Run_crash. rewrite next_mk, E. reflexivity.
        * destruct (step (bm_values s)) as [[o v]| |] eqn:Es; cbn [bind] in Hn; try discriminate.
          injection Hn as -> <-. cbn [length Nat.leb].
          eapply Run_cons; [rewrite next_mk, E; reflexivity|].
          destruct (Hnext v) as [Hwf' HL'].
          exact (IH _ _ _ Hwf' HL' HR).
      + cbn [place]. eapply Run_cons; [rewrite next_mk, E; reflexivity|].
        destruct (Hnext (bm_values s)) as [Hwf' HL'].
        exact (IH _ _ _ Hwf' HL' HV).
  Qed.
End P.

Lemma bitmap_new_wf : forall I bitmap (v : I) len s, 0 <= len -> bitmap_new I bitmap v len = Some s ->
  bm_wf I s /\ live_bits I s = (if len <? 8 then firstn (Z.to_nat len) (bits_of_bytes bitmap) else bits_of_bytes bitmap)
  /\ bm_values s = v /\ len <= 8 * zlen bitmap.
Proof.
  intros I bitmap v len s Hl H. unfold bitmap_new in H.
  destruct (Z.ltb_spec (zlen bitmap * 8) len) as [Hlt|Hge]; [discriminate|].
  injection H as <-. unfold bm_wf, live_bits. cbn [bm_bitmap bm_values bm_len bm_offset].
  rewrite zlen_bits_of_bytes. change (Z.to_nat 0) with 0%nat. cbn [skipn].
  replace (len - 0) with len by lia. repeat split; try lia.
Qed.

Lemma bitmap_iter_run : forall A (nan : A) bitmap values vals e len,
  0 <= len <= 8 * zlen bitmap -> Run values vals e ->
  let bits := if len <? 8 then firstn (Z.to_nat len) (bits_of_bytes bitmap) else bits_of_bytes bitmap in
  exists it, bitmap_iter nan bitmap values len = Some it
    /\ Run it (place nan bits vals) (if (ones bits <=? length vals)%nat then End else e).
Proof.
  intros A nan bitmap values vals e len Hl HV bits. unfold bitmap_iter.
  destruct (bitmap_new (ist values) bitmap (icur values) len) as [s|] eqn:E.
  2:{ unfold bitmap_new in E. destruct (Z.ltb_spec (zlen bitmap * 8) len); [lia|discriminate]. }
  apply bitmap_new_wf in E; [|lia]. destruct E as (Hwf & HL & Hv & _).
  eexists. split; [reflexivity|].
  apply bitmap_run_state; [exact Hwf|exact HL|].
  rewrite Hv. destruct values; exact HV.
Qed.

Lemma bitmap_iter_none : forall A (nan : A) bitmap values len,
  bitmap_iter nan bitmap values len = None <-> 8 * zlen bitmap < len.
Proof.
  intros A nan bitmap values len. unfold bitmap_iter, bitmap_new.
  destruct (Z.ltb_spec (zlen bitmap * 8) len); split; intros; try discriminate; try lia; reflexivity.
Qed.

Lemma ones_app : forall a b, ones (a ++ b) = (ones a + ones b)%nat.
Proof. intros. unfold ones. rewrite filter_app, app_length. reflexivity. Qed.

Lemma ones_repeat_false : forall n, ones (repeat false n) = 0%nat.
Proof. intros n. unfold ones. induction n; [reflexivity|]. cbn [repeat filter]. exact IHn. Qed.
Lemma ones_repeat_true : forall n, ones (repeat true n) = n.
Proof. intros n. unfold ones. induction n; [reflexivity|]. cbn [repeat filter length]. f_equal. exact IHn. Qed.

Lemma place_app : forall A (nan : A) b1 b2 v1 v2, length v1 = ones b1 ->
  place nan (b1 ++ b2) (v1 ++ v2) = place nan b1 v1 ++ place nan b2 v2.
Proof.
  intros A nan b1 b2. induction b1 as [|b b1 IH]; intros v1 v2 H.
  - destruct v1; [reflexivity|discriminate].
  - unfold ones in H. destruct b; cbn [app place filter length] in *.
    + destruct v1 as [|x v1]; [discriminate|]. cbn [app length] in *. injection H as H.
      rewrite IH by exact H. reflexivity.
    + rewrite IH by exact H. reflexivity.
Qed.

Lemma place_length : forall A (nan : A) bits vals, (ones bits <= length vals)%nat ->
  length (place nan bits vals) = length bits.
Proof.
  intros A nan bits. induction bits as [|b bits IH]; intros vals H; [reflexivity|].
  unfold ones in H. destruct b; cbn [place filter length] in *.
  - destruct vals as [|v vals]; cbn [length] in *; [lia|]. f_equal. apply IH. unfold ones. lia.
  - f_equal. apply IH. exact H.
Qed.

Lemma place_repeat_false : forall A (nan : A) n vals, place nan (repeat false n) vals = repeat nan n.
Proof. intros A nan n vals. induction n as [|n IH]; [reflexivity|]. cbn [repeat place]. rewrite IH. reflexivity. Qed.

Lemma place_repeat_true : forall A (nan : A) n vals, place nan (repeat true n) vals = firstn n vals.
Proof.
  intros A nan n. induction n as [|n IH]; intros vals; [reflexivity|].
  cbn [repeat place firstn]. destruct vals as [|v vals]; [reflexivity|]. rewrite IH. reflexivity.
Qed.

Lemma place_prefix : forall A (nan : A) n bits vals,
  firstn n (place nan bits vals) = place nan (firstn n bits) vals.
Proof.
  intros A nan n. induction n as [|n IH]; intros bits vals; [destruct bits as [|[] bits]; destruct vals; reflexivity|].
  destruct bits as [|b bits]; [reflexivity|]. cbn [firstn place]. destruct b.
  - destruct vals as [|v vals]; [reflexivity|]. cbn [firstn]. rewrite IH. reflexivity.
  - cbn [firstn]. rewrite IH. reflexivity.
Qed.

(** ** The all-ones bitmap of messages without bitmap *)

Lemma create_bitmap_length : forall n, 0 <= n ->
  zlen (create_bitmap_for_nonnullable_data n) = (n + 7) / 8.
Proof.
  intros n Hn. unfold create_bitmap_for_nonnullable_data.
  destruct (Z.eqb_spec (n mod 8) 0); rewrite zlen_repeat; lia.
Qed.

Lemma bits_of_ff : forall n, bits_of_bytes (repeat xff n) = repeat true (8 * n).
Proof.
  induction n as [|n IH]; [reflexivity|].
  cbn [repeat]. rewrite bits_of_bytes_cons, IH.
  replace (8 * S n)%nat with (8 + 8 * n)%nat by lia. rewrite repeat_app. reflexivity.
Qed.

Lemma create_bitmap_bits : forall n, 0 <= n ->
  bits_of_bytes (create_bitmap_for_nonnullable_data n) = repeat true (Z.to_nat (8 * ((n + 7) / 8))).
Proof.
  intros n Hn. unfold create_bitmap_for_nonnullable_data.
  destruct (Z.eqb_spec (n mod 8) 0); rewrite bits_of_ff; f_equal; lia.
Qed.

(** ** The size hint *)

Lemma bitmap_step_offset : forall A (nan : A) I step s a s',
  bitmap_next nan I step s = Ret (Some a, s') -> 0 <= bm_offset s < 8 ->
  bm_offset s' = (bm_offset s + 1) mod 8 /\ bm_len s' = bm_len s.
Proof.
  intros A nan I step [bitmap values len offset] a s' H Ho.
  unfold bitmap_next in H. cbn [bm_offset bm_len] in *.
  destruct (Z.leb_spec len offset) as [Hle|Hgt]; [discriminate|].
  destruct (Z.ltb_spec offset 7) as [H7|H7].
  - destruct (hd_error bitmap) as [b|]; [|discriminate].
    destruct (has_zero_at_offset b offset).
    + injection H as _ <-. cbn [bm_offset bm_len]. lia.
    + destruct (step values) as [[o v]| |]; cbn [bind] in H; try discriminate.
      injection H as _ <-. cbn [bm_offset bm_len]. lia.
  - destruct (hd_error bitmap) as [b|]; [|discriminate].
    destruct (has_zero_at_offset b offset).
    + injection H as _ <-. cbn [bm_offset bm_len]. lia.
    + destruct (step values) as [[o v]| |]; cbn [bind] in H; try discriminate.
      injection H as _ <-. cbn [bm_offset bm_len]. lia.
Qed.

Lemma bitmap_ssteps_offset : forall A (nan : A) I step s l s',
  SSteps (bitmap_next nan I step) s l s' -> 0 <= bm_offset s < 8 ->
  bm_offset s' = (bm_offset s + zlen l) mod 8 /\ bm_len s' = bm_len s.
Proof.
  intros A nan I step s l s' H. induction H as [s|s s1 s' a l Hn HS IH]; intros Ho.
  - rewrite zlen_nil. split; [lia|reflexivity].
  - apply bitmap_step_offset in Hn; [|exact Ho]. destruct Hn as [E1 E2].
    destruct IH as [E3 E4]; [lia|]. rewrite zlen_cons. split; [|congruence].
    rewrite E3, E1. rewrite Z.add_mod_idemp_l by lia. f_equal. lia.
Qed.

(** After [i] items the hint is [len - i mod 8]. *)
Lemma bitmap_hint : forall A (nan : A) I step m bitmap v len s l s',
  0 <= len < 2 ^ 64 -> bitmap_new I bitmap v len = Some s ->
  SSteps (bitmap_next nan I step) s l s' ->
  bitmap_size_hint I m s' = (let! h := arith m Usize (len - zlen l mod 8) in Ret (h, Some h)).
Proof.
  intros A nan I step m bitmap v len s l s' Hl Hn HS.
  unfold bitmap_new in Hn. destruct (zlen bitmap * 8 <? len); [discriminate|]. injection Hn as <-.
  apply bitmap_ssteps_offset in HS; [|cbn; lia]. destruct HS as [E1 E2].
  unfold bitmap_size_hint. rewrite E1, E2. cbn [bm_len bm_offset]. 
  replace (0 + zlen l) with (zlen l) by lia. reflexivity.
Qed.
