(** Where the decoder panics. *)
From Coq Require Import Lia ZifyBool ZifyNat.
From Verif Require Import Model.Base Model.Helpers Model.Errors Model.F32 Model.Stream Model.Bitmap Model.Diff Model.Complex Model.Simple Model.RunLength.
From Verif Require Import Model.Sections Model.Reader Model.Parser Model.Context Model.Decoder.
From Verif Require Import Spec.Bits Spec.BitmapS Spec.ReaderS Spec.FieldsS Spec.RefuseS.
From Verif Require Import Proofs.BaseLemmas Proofs.HelpersP Proofs.BitsP Proofs.StreamP Proofs.BitmapP Proofs.Bits2 Proofs.DiffP Proofs.SimpleP Proofs.ReaderP Proofs.FieldsP Proofs.FieldsX Proofs.RefuseX.
From Verif Require Proofs.RunLengthP Proofs.ComplexP.
Ltac Zify.zify_post_hook ::= Z.div_mod_to_equations.

(** A template whose values are there before the iterator is returned, or are read from a
    buffer: the iterator does not panic. *)
Lemma no_lazy_panic : forall c m d it, 0 <= d_total d -> 0 <= d_encoded d -> In (d_template d) [0; 40; 41; 200] ->
  dispatch c m d = Ret (Ok it) -> exists out, Run it out End.
Proof.
  intros c m d it Ht He Hin H. unfold dispatch in H. apply bind_cases in H. destruct H as (r & E & H). destruct r as [vals|x]; [|discriminate H].
  destruct (bitmap_iter f32_nan (d_bitmap d) vals (d_total d)) as [it'|] eqn:B; [|discriminate H]. injection H as ->.
  assert (Hv : exists l, Run vals l End).
  { assert (S : forall b sp, slice (d_sect5 d) 6 16 = Ret b -> simple_param_from_buf m b = Ret (Ok sp) -> 0 <= sp_nbit sp).
    { intros b sp E1 E2. destruct (Z_le_gt_dec 21 (zlen (d_sect5 d) + 5)) as [R|R]; [|rewrite simple_from_short in E1 by (unfold reaches; lia); discriminate E1].
      destruct (simple_from m _ R) as (b' & E3 & E4). assert (b' = b) by congruence. subst b'. rewrite E4 in E2.
      destruct (field (d_sect5 d) 21 21 =? 0); [|discriminate E2]. injection E2 as <-. cbn [sp_nbit simple_of].
      pose proof (field_range (d_sect5 d) 20 20 ltac:(lia)). lia. }
    assert (F : forall a, exists l, Run (fixed_iter a (d_encoded d)) l (A := f32) End).
    { intros a. eexists. rewrite <- (Z2Nat.id (d_encoded d)) by lia. apply Run_fixed. }
    assert (N : forall sp buf, 0 <= sp_nbit sp -> (sp_nbit sp =? 0) = false -> exists l, Run (simple_iter f32_of_Z sp (nbit_iter m (nbit_new buf (sp_nbit sp)))) l End).
    { intros sp buf H1 H2. eexists. unfold simple_iter. apply (Run_imap_total _ _ (fun x => simple_value sp (f32_of_Z x))).
      change (nbit_new buf (sp_nbit sp)) with (nbit_with_offset (nbit_new buf (sp_nbit sp)) 0). apply nbit_wide; lia. }
    unfold template_values in E. cbn [In] in Hin. destruct Hin as [T|[T|[T|[T|[]]]]]; rewrite <- T in E.
    - unfold simple_decode in E. apply bind_cases in E. destruct E as (b & E1 & E). apply bind_cases in E. destruct E as (r & E2 & E). destruct r as [sp|x]; [|discriminate E].
      specialize (S b sp E1 E2). destruct (sp_nbit sp =? 0) eqn:Z0; injection E as <-; [apply F|apply N; assumption].
    - unfold jpeg2000_decode in E. apply bind_cases in E. destruct E as (b & E1 & E). apply bind_cases in E. destruct E as (r & E2 & E). destruct r as [sp|x]; [|discriminate E].
      destruct (sp_nbit sp =? 0) eqn:Z0; [injection E as <-; apply F|]. apply bind_cases in E. destruct E as (r & _ & E). destruct r as [l|x]; [|discriminate E].
      injection E as <-. eexists. unfold simple_iter. apply (Run_imap_total _ _ (fun x => simple_value sp (f32_of_Z x))). apply Run_iter_of_list.
    - unfold png_decode in E. apply bind_cases in E. destruct E as (b & E1 & E). apply bind_cases in E. destruct E as (r & E2 & E). destruct r as [sp|x]; [|discriminate E].
      specialize (S b sp E1 E2). destruct (png_buffer c (d_sect7 d)); [|discriminate E].
      destruct (sp_nbit sp =? 0) eqn:Z0; injection E as <-; [apply F|apply N; assumption].
    - apply bind_cases in E. destruct E as (r & _ & E). destruct r as [l|x]; [|discriminate E]. injection E as <-. exists l. apply Run_iter_of_list. }
  destruct Hv as (l & Hl).
  assert (Hlen : 0 <= d_total d <= 8 * zlen (d_bitmap d)).
  { split; [exact Ht|]. destruct (Z_le_gt_dec (d_total d) (8 * zlen (d_bitmap d))) as [Q|Q]; [exact Q|]. exfalso.
    assert (bitmap_iter f32_nan (d_bitmap d) vals (d_total d) = None) by (apply bitmap_iter_none; lia). congruence. }
  destruct (bitmap_iter_run _ f32_nan (d_bitmap d) vals l End (d_total d) Hlen Hl) as (it2 & E2 & HR).
  assert (it2 = it) by congruence. subst it2. eexists. destruct (ones _ <=? _)%nat; exact HR.
Qed.

(** Simple packing, from any octets whatsoever. *)
Lemma simple_total : forall c m d, 0 <= d_total d -> 0 <= d_encoded d -> d_template d = 0 ->
  (reaches (d_sect5 d) 21 ->
     (exists e, dispatch c m d = Ret (Err e)) \/ (exists it out, dispatch c m d = Ret (Ok it) /\ Run it out End)) /\
  (~ reaches (d_sect5 d) 21 -> dispatch c m d = Panic).
Proof.
  intros c m d Ht He T. split; intros R.
  - assert (D : exists r, dispatch c m d = Ret r).
    { unfold dispatch, template_values. rewrite T. unfold simple_decode. destruct (simple_from m (d_sect5 d)) as (b & E1 & E2); [exact R|].
      rewrite E1. cbn [bind]. rewrite E2. destruct (field (d_sect5 d) 21 21 =? 0); cbn [bind]; [|eexists; reflexivity].
      destruct (sp_nbit (simple_of (d_sect5 d)) =? 0); cbn [bind]; (match goal with |- context [match ?x with _ => _ end] => destruct x end); eexists; reflexivity. }
    destruct D as ([it|e] & D); [right|left; eauto]. destruct (no_lazy_panic c m d it Ht He ltac:(rewrite T; cbn; auto) D) as (out & HR). eauto.
  - unfold dispatch, template_values. rewrite T. unfold simple_decode. rewrite simple_from_short by exact R. reflexivity.
Qed.

(** Sections 5 that are too short. *)
Lemma truncated_panics : forall c m d,
  (In (d_template d) [0; 2; 3; 40; 41] -> ~ reaches (d_sect5 d) 21 -> dispatch c m d = Panic) /\
  (In (d_template d) [2; 3] -> field (d_sect5 d) 21 21 = 0 -> ~ reaches (d_sect5 d) 47 -> dispatch c m d = Panic) /\
  (d_template d = 3 -> field (d_sect5 d) 21 21 = 0 -> ~ reaches (d_sect5 d) 48 -> dispatch c m d = Panic) /\
  (d_template d = 3 -> field (d_sect5 d) 21 21 = 0 -> In (field (d_sect5 d) 48 48) [1; 2; 255] -> ~ reaches (d_sect5 d) 49 -> dispatch c m d = Panic) /\
  (d_template d = 200 -> ~ reaches (d_sect5 d) (sect5_end (d_sect5 d) 200) -> dispatch c m d = Panic).
Proof.
  intros c m d. set (p := d_sect5 d) in *.
  assert (P21 : In (d_template d) [0; 2; 3; 40; 41] -> ~ reaches p 21 -> dispatch c m d = Panic).
  { intros H N. unfold dispatch, template_values. fold p. cbn [In] in H. destruct H as [E|[E|[E|[E|[E|[]]]]]]; rewrite <- E;
      unfold simple_decode, decode_7_2, decode_7_3, decode_7_2_ints, decode_7_3_ints, jpeg2000_decode, png_decode; rewrite (simple_from_short p N); reflexivity. }
  assert (P47 : In (d_template d) [2; 3] -> field p 21 21 = 0 -> ~ reaches p 47 -> dispatch c m d = Panic).
  { intros H Z0 N. destruct (Z_le_gt_dec 21 (zlen p + 5)) as [R|R]; [|apply P21; [cbn [In] in *; intuition|unfold reaches; lia]].
    destruct (simple_from m p R) as (b & E1 & E2). rewrite Z0 in E2. cbn [Z.eqb] in E2.
    unfold dispatch, template_values. fold p. cbn [In] in H. destruct H as [E|[E|[]]]; rewrite <- E;
      unfold decode_7_2, decode_7_3, decode_7_2_ints, decode_7_3_ints; rewrite E1; cbn [bind]; rewrite E2; cbn [bind]; rewrite (complex_from_short p N); reflexivity. }
  assert (P48 : d_template d = 3 -> field p 21 21 = 0 -> ~ reaches p 48 -> dispatch c m d = Panic).
  { intros E Z0 N. destruct (Z_le_gt_dec 47 (zlen p + 5)) as [R|R]; [|apply P47; [cbn [In]; auto|exact Z0|unfold reaches; lia]].
    assert (R21 : reaches p 21) by (unfold reaches; lia). destruct (simple_from m p R21) as (b & E1 & E2). rewrite Z0 in E2. cbn [Z.eqb] in E2.
    destruct (complex_from p R) as (b2 & E3 & E4).
    unfold dispatch, template_values. fold p. rewrite E. unfold decode_7_3, decode_7_3_ints. rewrite E1. cbn [bind]. rewrite E2. cbn [bind]. rewrite E3. cbn [bind]. rewrite E4. cbn [bind].
    unfold read_u8. rewrite read_be_panic; [reflexivity|lia|]. unfold reaches in N. lia. }
  split; [exact P21|]. split; [exact P47|]. split; [exact P48|]. split.
  - intros E Z0 Ho N. destruct (Z_le_gt_dec 48 (zlen p + 5)) as [R|R]; [|apply P48; [auto|exact Z0|unfold reaches; lia]].
    assert (R21 : reaches p 21) by (unfold reaches; lia). destruct (simple_from m p R21) as (b & E1 & E2). rewrite Z0 in E2. cbn [Z.eqb] in E2.
    assert (R47 : reaches p 47) by (unfold reaches; lia). destruct (complex_from p R47) as (b2 & E3 & E4).
    unfold dispatch, template_values. fold p. rewrite E. unfold decode_7_3, decode_7_3_ints. rewrite E1. cbn [bind]. rewrite E2. cbn [bind]. rewrite E3. cbn [bind]. rewrite E4. cbn [bind].
    rewrite (read_u8_field p 42 48) by (lia || exact R). cbn [bind]. unfold read_u8. rewrite (read_be_panic 1 p 43) by (unfold reaches in N; lia).
    cbn [In] in Ho. destruct Ho as [<-|[<-|[<-|[]]]]; reflexivity.
  - intros E N. unfold dispatch, template_values. fold p. rewrite E. unfold rle_decode, read_u8, read_u16.
    cbn [sect5_end] in N.
    destruct (read_be_total 1 p 6 ltac:(lia)) as [(x1 & ->)| ->]; [|reflexivity]. cbn [bind].
    destruct (read_be_total 2 p 7 ltac:(lia)) as [(x2 & ->)| ->]; [|reflexivity]. cbn [bind].
    destruct (read_be_total 2 p 9 ltac:(lia)) as [(x3 & E3)|E3]; rewrite E3; [|reflexivity]. cbn [bind].
    destruct (read_be_total 1 p 11 ltac:(lia)) as [(x4 & E4)|E4]; rewrite E4; [|reflexivity]. cbn [bind].
    assert (R11 : 12 <= zlen p).
    { destruct (Z_le_gt_dec 12 (zlen p)) as [Q|Q]; [exact Q|]. rewrite read_be_panic in E4 by lia. discriminate E4. }
    assert (X3 : x3 = field p 15 16). { rewrite (read_field 2 p 9 15 16) in E3 by (unfold reaches; lia). congruence. }
    assert (LV : forall n pos, 0 <= pos <= zlen p -> zlen p < pos + 2 * Z.of_nat n -> level_values n p pos x4 = Panic).
    { induction n as [|n IH]; intros pos Hp Hn; [lia|]. cbn [level_values]. unfold read_u16. 
      destruct (Z_le_gt_dec (pos + 2) (zlen p)) as [Q|Q].
      - rewrite read_be_spec by lia. cbn [bind]. rewrite IH by lia. reflexivity.
      - rewrite read_be_panic by lia. reflexivity. }
    pose proof (field_range p 15 16 ltac:(lia)). unfold reaches in N. rewrite LV by lia. reflexivity.
Qed.
