(** What the decoder refuses, and where it panics. *)
From Coq Require Import Lia ZifyBool ZifyNat.
From Verif Require Import Model.Base Model.Helpers Model.Errors Model.F32 Model.Stream Model.Bitmap Model.Diff Model.Complex Model.Simple Model.RunLength.
From Verif Require Import Model.Sections Model.Reader Model.Parser Model.Context Model.Decoder.
From Verif Require Import Spec.Bits Spec.BitmapS Spec.ReaderS Spec.FieldsS Spec.RefuseS.
From Verif Require Import Proofs.BaseLemmas Proofs.HelpersP Proofs.BitsP Proofs.StreamP Proofs.BitmapP Proofs.Bits2 Proofs.ReaderP Proofs.FieldsP Proofs.FieldsX.
From Verif Require Proofs.RunLengthP Proofs.ComplexP.
Ltac Zify.zify_post_hook ::= Z.div_mod_to_equations.

(** ** Parameter blocks *)
Lemma read_i16_octets : forall m q o, 0 <= o -> o + 2 <= zlen q -> read_i16 m q o = Ret (sign_magnitude 2 (be (octets q o 2))).
Proof.
  intros m q o Ho Hl. unfold read_i16, read_u16. rewrite read_be_spec by lia. cbn [bind].
  change (be (firstn (Z.to_nat 2) (skipn (Z.to_nat o) q))) with (be (octets q o 2)).
  apply (as_grib_int_spec m U16 I16); [unfold grib_pair; auto|]. pose proof (octets_be_range q o 2 ltac:(lia)). change (bits_of U16) with 16. lia.
Qed.
Lemma read_octets : forall n q o, 0 <= n -> 0 <= o -> o + n <= zlen q -> read_be n q o = Ret (be (octets q o n)).
Proof. intros n q o Hn Ho Hl. rewrite read_be_spec by lia. reflexivity. Qed.
Lemma be_inner : forall p o n i k a b, 0 <= o -> 0 <= i -> 0 <= k -> i + k <= n -> a = o + i + 6 -> b = a + k - 1 ->
  be (octets (octets p o n) i k) = field p a b.
Proof. intros p o n i k a b Ho Hi Hk H -> ->. rewrite octets_octets by assumption. unfold field. f_equal. f_equal; lia. Qed.

Definition simple_of (p : list byte) : simple_param :=
  SimpleParam (f32_of_bits (field p 12 15)) (sfield p 16 17) (sfield p 18 19) (field p 20 20).
Lemma simple_from : forall m p, reaches p 21 -> exists b, slice p 6 16 = Ret b /\
  simple_param_from_buf m b = Ret (if field p 21 21 =? 0 then Ok (simple_of p) else Err (EDecode (SimplePackingError OriginalFieldValueTypeNotSupported))).
Proof.
  intros m p H. unfold reaches in H. exists (octets p 6 10). split; [apply (slice_octets p 6 16); lia|].
  assert (L : zlen (octets p 6 10) = 10) by (apply zlen_octets; lia).
  unfold simple_param_from_buf, read_u32, read_u8. rewrite read_octets by lia. cbn [bind]. rewrite !read_i16_octets by lia. cbn [bind].
  rewrite !read_octets by lia. cbn [bind].
  rewrite (be_inner p 6 10 0 4 12 15), (be_inner p 6 10 8 1 20 20), (be_inner p 6 10 9 1 21 21) by lia.
  rewrite (be_inner p 6 10 4 2 16 17), (be_inner p 6 10 6 2 18 19) by lia. unfold simple_of, sfield.
  destruct (field p 21 21 =? 0); reflexivity.
Qed.
Lemma simple_from_short : forall p, ~ reaches p 21 -> slice p 6 16 = Panic.
Proof. intros p H. unfold reaches in H. apply slice_panic. lia. Qed.

Definition complex_of (p : list byte) : complex_param :=
  ComplexParam (field p 22 22) (field p 23 23) (field p 32 35) (field p 36 36) (field p 37 37) (field p 38 41) (field p 42 42) (field p 43 46) (field p 47 47).
Lemma complex_from : forall p, reaches p 47 -> exists b, slice p 16 42 = Ret b /\ complex_param_from_buf b = Ret (complex_of p).
Proof.
  intros p H. unfold reaches in H. exists (octets p 16 26). split; [apply (slice_octets p 16 42); lia|].
  assert (L : zlen (octets p 16 26) = 26) by (apply zlen_octets; lia).
  unfold complex_param_from_buf, read_u32, read_u8. rewrite !read_octets by lia. cbn [bind].
  rewrite (be_inner p 16 26 0 1 22 22), (be_inner p 16 26 1 1 23 23), (be_inner p 16 26 10 4 32 35), (be_inner p 16 26 14 1 36 36), (be_inner p 16 26 15 1 37 37),
    (be_inner p 16 26 16 4 38 41), (be_inner p 16 26 20 1 42 42), (be_inner p 16 26 21 4 43 46), (be_inner p 16 26 25 1 47 47) by lia.
  reflexivity.
Qed.
Lemma complex_from_short : forall p, ~ reaches p 47 -> slice p 16 42 = Panic.
Proof. intros p H. unfold reaches in H. apply slice_panic. lia. Qed.
Lemma read_u8_field : forall p o a, a = o + 6 -> 0 <= o -> reaches p a -> read_u8 p o = Ret (field p a a).
Proof. intros. apply read_field; lia || assumption. Qed.

(** ** The errors of the integer decoders *)
Lemma bind_cases : forall A B (o : outcome A) (k : A -> outcome B) b, bind o k = Ret b -> exists a, o = Ret a /\ k a = Ret b.
Proof. intros A B [a| |] k b H; try discriminate H. exists a. auto. Qed.

Lemma spdiff_errors : forall m parent order n, spdiff_new m parent order n =
  if (n =? 0) || (4 <? n) then Ret (Err (EDecode (ComplexPackingError ComplexNotSupported)))
  else (let! o1 := arith m U8 (order + 1) in let! s := slice parent 0 (o1 * n) in Ret (Ok (SpDiff s n))).
Proof. reflexivity. Qed.

Section Decoder.
  Variables (c : codecs) (m : mode) (d : decoder).
  Notation p := (d_sect5 d).
  Notation t := (d_template d).

  Lemma refused_values : forall e, reaches p (sect5_end p t) -> refused p t e -> template_values c m d = Ret (Err e).
  Proof.
    intros e Hr H. unfold template_values.
    assert (S21 : reaches p 21 -> field p 21 21 <> 0 -> exists b, slice p 6 16 = Ret b /\ simple_param_from_buf m b = Ret (Err (EDecode (SimplePackingError OriginalFieldValueTypeNotSupported)))).
    { intros R N. destruct (simple_from m p R) as (b & E1 & E2). exists b. split; [exact E1|]. rewrite E2. replace (field p 21 21 =? 0) with false by lia. reflexivity. }
    assert (S0 : reaches p 21 -> field p 21 21 = 0 -> exists b, slice p 6 16 = Ret b /\ simple_param_from_buf m b = Ret (Ok (simple_of p))).
    { intros R N. destruct (simple_from m p R) as (b & E1 & E2). exists b. split; [exact E1|]. rewrite E2, N. reflexivity. }
    assert (L : forall n, reaches p n -> forall k, k <= n -> reaches p k). { intros n Hn k Hk. unfold reaches in *. lia. }
    destruct H as [Ht|Ht Ho|Ht Ho Hg|Ht Ho Hg|Ht Ho Hg|Ht Ho Hg Hd].
    - unfold supported_templates in Ht. cbn [In] in Ht.
      destruct t as [|q|q]; [exfalso; lia| |reflexivity].
      repeat (destruct q as [q|q|]; try reflexivity; try (exfalso; lia)).
    - cbn [In] in Ht. destruct Ht as [E|[E|[E|[E|[E|[]]]]]]; rewrite <- E in *; cbn [sect5_end] in Hr;
        unfold simple_decode, decode_7_2, decode_7_3, decode_7_2_ints, decode_7_3_ints, jpeg2000_decode, png_decode;
        destruct (S21 (L _ Hr 21 ltac:(lia)) Ho) as (b & -> & E2); cbn [bind]; rewrite E2; reflexivity.
    - destruct Ht as [E|(E & Hin)]; rewrite E in *; cbn [sect5_end] in Hr; unfold decode_7_2, decode_7_3, decode_7_2_ints, decode_7_3_ints;
        destruct (S0 (L _ Hr 21 ltac:(lia)) Ho) as (b & -> & E2); cbn [bind]; rewrite E2; cbn [bind];
        destruct (complex_from p (L _ Hr 47 ltac:(lia))) as (b' & -> & E3); cbn [bind]; rewrite E3; cbn [bind].
      + unfold complex_unsupported, complex_of. cbn [cp_split cp_missing]. replace (negb (field p 22 22 =? 1) || (2 <? field p 23 23)) with true by lia. reflexivity.
      + rewrite (read_u8_field p 42 48) by (lia || exact (L _ Hr 48 ltac:(lia))). cbn [bind].
        assert (U : complex_unsupported (complex_of p) = true) by (unfold complex_unsupported, complex_of; cbn [cp_split cp_missing]; lia).
        rewrite (read_u8_field p 43 49) by (lia || exact Hr). unfold table5_6_of. cbn [In] in Hin.
        destruct Hin as [<-|[<-|[]]]; cbn [Z.eqb Pos.eqb bind]; rewrite U; reflexivity.
    - rewrite Ht in *. cbn [sect5_end] in Hr; unfold decode_7_3, decode_7_3_ints;
        destruct (S0 (L _ Hr 21 ltac:(lia)) Ho) as (b & -> & E2); cbn [bind]; rewrite E2; cbn [bind];
        destruct (complex_from p (L _ Hr 47 ltac:(lia))) as (b' & -> & E3); cbn [bind]; rewrite E3; cbn [bind].
      rewrite (read_u8_field p 42 48) by (lia || exact (L _ Hr 48 ltac:(lia))). cbn [bind]. rewrite Hg.
      rewrite (read_u8_field p 43 49) by (lia || exact Hr). cbn [table5_6_of Z.eqb Pos.eqb bind]. rewrite Bool.orb_true_r. reflexivity.
    - rewrite Ht in *. cbn [sect5_end] in Hr; unfold decode_7_3, decode_7_3_ints;
        destruct (S0 (L _ Hr 21 ltac:(lia)) Ho) as (b & -> & E2); cbn [bind]; rewrite E2; cbn [bind];
        destruct (complex_from p (L _ Hr 47 ltac:(lia))) as (b' & -> & E3); cbn [bind]; rewrite E3; cbn [bind].
      rewrite (read_u8_field p 42 48) by (lia || exact (L _ Hr 48 ltac:(lia))). cbn [bind]. cbn [In] in Hg. unfold table5_6_of.
      replace (field p 48 48 =? 1) with false by lia. replace (field p 48 48 =? 2) with false by lia. replace (field p 48 48 =? 255) with false by lia. reflexivity.
    - rewrite Ht in *. cbn [sect5_end] in Hr; unfold decode_7_3, decode_7_3_ints;
        destruct (S0 (L _ Hr 21 ltac:(lia)) Ho) as (b & -> & E2); cbn [bind]; rewrite E2; cbn [bind];
        destruct (complex_from p (L _ Hr 47 ltac:(lia))) as (b' & -> & E3); cbn [bind]; rewrite E3; cbn [bind].
      rewrite (read_u8_field p 42 48) by (lia || exact (L _ Hr 48 ltac:(lia))). cbn [bind].
      rewrite (read_u8_field p 43 49) by (lia || exact Hr). unfold table5_6_of. cbn [In] in Hg.
      assert (X : (field p 49 49 =? 0) || (4 <? field p 49 49) = true) by lia.
      destruct Hg as [<-|[<-|[]]]; cbn [Z.eqb Pos.eqb bind]; destruct (complex_unsupported (complex_of p)); cbn [orb]; try reflexivity;
        rewrite spdiff_errors, X; reflexivity.
  Qed.

  (** Nothing else is refused. *)
  Lemma values_refused : forall e, template_values c m d = Ret (Err e) -> refused p t e \/ data_error t e.
  Proof.
    intros e H. unfold template_values in H.
    assert (S : forall b (P : simple_param), slice p 6 16 = Ret b -> reaches p 21 /\ (
       (field p 21 21 = 0 /\ simple_param_from_buf m b = Ret (Ok (simple_of p))) \/
       (field p 21 21 <> 0 /\ simple_param_from_buf m b = Ret (Err (EDecode (SimplePackingError OriginalFieldValueTypeNotSupported)))))).
    { intros b _ E. destruct (Z_le_gt_dec 21 (zlen p + 5)) as [R|R]; [|rewrite simple_from_short in E by (unfold reaches; lia); discriminate E].
      split; [exact R|]. destruct (simple_from m p R) as (b' & E1 & E2). assert (b' = b) by congruence. subst b'. rewrite E2.
      destruct (field p 21 21 =? 0) eqn:Z0; [left|right]; (split; [lia|reflexivity]). }
    assert (C2 : t = 2 \/ t = 3 -> forall b, slice p 16 42 = Ret b -> reaches p 47 /\ complex_param_from_buf b = Ret (complex_of p)).
    { intros _ b E. destruct (Z_le_gt_dec 47 (zlen p + 5)) as [R|R]; [|rewrite complex_from_short in E by (unfold reaches; lia); discriminate E].
      split; [exact R|]. destruct (complex_from p R) as (b' & E1 & E2). assert (b' = b) by congruence. subst b'. exact E2. }
    destruct (Z.eq_dec t 0) as [E|N0].
    { rewrite E in H. unfold simple_decode in H. apply bind_cases in H. destruct H as (b & E1 & H).
      destruct (S b (simple_of p) E1) as (R & [(Z0 & E2)|(Z0 & E2)]); rewrite E2 in H; cbn [bind] in H.
      - destruct (sp_nbit (simple_of p) =? 0); discriminate H.
      - injection H as <-. left. apply refused_original; [rewrite E; cbn; auto|exact Z0]. }
    destruct (Z.eq_dec t 40) as [E|N40].
    { rewrite E in H. unfold jpeg2000_decode in H. apply bind_cases in H. destruct H as (b & E1 & H).
      destruct (S b (simple_of p) E1) as (R & [(Z0 & E2)|(Z0 & E2)]); rewrite E2 in H; cbn [bind] in H.
      - destruct (sp_nbit (simple_of p) =? 0); [discriminate H|]. apply bind_cases in H. destruct H as (r & _ & H). destruct r as [l|x]; [discriminate H|].
        injection H as <-. right. apply data_jpeg2000. exact E.
      - injection H as <-. left. apply refused_original; [rewrite E; cbn; auto|exact Z0]. }
    destruct (Z.eq_dec t 41) as [E|N41].
    { rewrite E in H. unfold png_decode in H. apply bind_cases in H. destruct H as (b & E1 & H).
      destruct (S b (simple_of p) E1) as (R & [(Z0 & E2)|(Z0 & E2)]); rewrite E2 in H; cbn [bind] in H.
      - destruct (png_buffer c (d_sect7 d)); [destruct (sp_nbit (simple_of p) =? 0); discriminate H|]. injection H as <-. right. apply data_png. exact E.
      - injection H as <-. left. apply refused_original; [rewrite E; cbn; auto 6|exact Z0]. }
    destruct (Z.eq_dec t 200) as [E|N200].
    { rewrite E in H. apply bind_cases in H. destruct H as (r & E1 & H). destruct r as [l|x]; [discriminate H|]. injection H as <-. right.
      unfold rle_decode in E1. do 5 (apply bind_cases in E1; destruct E1 as (? & _ & E1)). apply bind_cases in E1. destruct E1 as (r & _ & E1).
      destruct r as [l|y]; [|injection E1 as <-; apply data_run_length; exact E].
      injection E1 as E1. revert x E1. induction l as [|a l IH]; intros x E1; cbn [map_levels] in E1; [discriminate E1|].
      destruct (get _ a); [|injection E1 as <-; apply data_run_length; exact E].
      destruct (map_levels _ l) as [vs|y]; [discriminate E1|]. injection E1 as <-. apply IH. reflexivity. }
    destruct (Z.eq_dec t 2) as [E|N2].
    { rewrite E in H. unfold decode_7_2, decode_7_2_ints in H. apply bind_cases in H. destruct H as (r & H & H').
      destruct r as [[sp it]|x]; [discriminate H'|]. injection H' as <-.
      apply bind_cases in H. destruct H as (b & E1 & H).
      destruct (S b (simple_of p) E1) as (R & [(Z0 & E2)|(Z0 & E2)]); rewrite E2 in H; cbn [bind] in H.
      - apply bind_cases in H. destruct H as (b2 & E3 & H). destruct (C2 ltac:(auto) b2 E3) as (R' & E4). rewrite E4 in H. cbn [bind] in H.
        destruct (complex_unsupported (complex_of p)) eqn:U.
        + injection H as <-. left. apply refused_groups; [auto|exact Z0|]. unfold complex_unsupported, complex_of in U. cbn [cp_split cp_missing] in U. lia.
        + apply bind_cases in H. destruct H as (it & _ & H). discriminate H.
      - injection H as <-. left. apply refused_original; [rewrite E; cbn; auto 6|exact Z0]. }
    destruct (Z.eq_dec t 3) as [E|N3].
    { rewrite E in H. unfold decode_7_3, decode_7_3_ints in H. apply bind_cases in H. destruct H as (r & H & H').
      destruct r as [[sp it]|x]; [discriminate H'|]. injection H' as <-.
      apply bind_cases in H. destruct H as (b & E1 & H).
      destruct (S b (simple_of p) E1) as (R & [(Z0 & E2)|(Z0 & E2)]); rewrite E2 in H; cbn [bind] in H.
      2: { injection H as <-. left. apply refused_original; [rewrite E; cbn; auto 6|exact Z0]. }
      apply bind_cases in H. destruct H as (b2 & E3 & H). destruct (C2 ltac:(auto) b2 E3) as (R' & E4). rewrite E4 in H. cbn [bind] in H.
      apply bind_cases in H. destruct H as (order & E5 & H).
      assert (O48 : order = field p 48 48).
      { destruct (Z_le_gt_dec 48 (zlen p + 5)) as [R48|R48].
        - rewrite (read_u8_field p 42 48) in E5 by (lia || exact R48). congruence.
        - unfold read_u8 in E5. rewrite read_be_panic in E5 by lia. discriminate E5. }
      subst order. left. unfold table5_6_of in H.
      destruct (field p 48 48 =? 1) eqn:O1; [|destruct (field p 48 48 =? 2) eqn:O2; [|destruct (field p 48 48 =? 255) eqn:O3]].
      4: { injection H as <-. apply refused_order_unknown; [exact E|exact Z0|cbn [In]; lia]. }
      all: apply bind_cases in H; destruct H as (oct & E6 & H).
      all: assert (O49 : oct = field p 49 49) by
        (destruct (Z_le_gt_dec 49 (zlen p + 5)) as [R49|R49];
          [rewrite (read_u8_field p 43 49) in E6 by (lia || exact R49); congruence
          |unfold read_u8 in E6; rewrite read_be_panic in E6 by lia; discriminate E6]).
      all: subst oct; destruct (complex_unsupported (complex_of p)) eqn:U; cbn [orb] in H.
      all: try (injection H as <-).
      5, 6: apply refused_order; lia.
      all: unfold complex_unsupported, complex_of in U; cbn [cp_split cp_missing] in U.
      1, 3: apply refused_groups; [right; split; [exact E|cbn [In]; lia]|exact Z0|lia].
      all: rewrite spdiff_errors in H; destruct ((field p 49 49 =? 0) || (4 <? field p 49 49)) eqn:D.
      1, 3: cbn [bind] in H; injection H as <-; apply refused_descriptors; [exact E|exact Z0|cbn [In]; lia|lia].
      all: apply bind_cases in H; destruct H as (r & Hs & H); destruct r as [dd|x']; [|apply bind_cases in Hs; destruct Hs as (? & _ & Hs); apply bind_cases in Hs; destruct Hs as (? & _ & Hs); discriminate Hs].
      all: do 3 (apply bind_cases in H; destruct H as (? & _ & H)); discriminate H. }
    left. assert (NI : ~ In t supported_templates) by (unfold supported_templates; cbn [In]; lia).
    assert (He : e = EDecode TemplateNumberUnsupported); [|subst e; apply refused_template; exact NI].
    clear -H N0 N2 N3 N40 N41 N200. destruct t as [|q|q]; [congruence| |injection H as <-; reflexivity].
    repeat (destruct q as [q|q|]; try congruence; try (injection H as <-; reflexivity)).
  Qed.

  (** C47 *)
  Lemma dispatch_refused : forall e, reaches p (sect5_end p t) -> refused p t e -> dispatch c m d = Ret (Err e).
  Proof. intros e Hr H. unfold dispatch. rewrite (refused_values e Hr H). reflexivity. Qed.
  Lemma dispatch_errors : forall e, dispatch c m d = Ret (Err e) ->
    refused p t e \/ data_error t e \/ (e = EDecode LengthMismatch /\ 8 * zlen (d_bitmap d) < d_total d).
  Proof.
    intros e H. unfold dispatch in H. apply bind_cases in H. destruct H as (r & E & H). destruct r as [vals|x].
    - destruct (bitmap_iter f32_nan (d_bitmap d) vals (d_total d)) as [it|] eqn:B; [discriminate H|]. injection H as <-. right. right.
      split; [reflexivity|]. apply bitmap_iter_none in B. exact B.
    - injection H as <-. destruct (values_refused x E); auto.
  Qed.
End Decoder.
