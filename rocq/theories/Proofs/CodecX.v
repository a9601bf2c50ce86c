(** What the decoder does with what OpenJPEG and the png crate answer. *)
From Coq Require Import Lia ZifyBool ZifyNat.
From Verif Require Import Model.Base Model.Helpers Model.Errors Model.F32 Model.Stream Model.Bitmap Model.Diff Model.Complex Model.Simple Model.RunLength.
From Verif Require Import Model.Sections Model.Reader Model.Parser Model.Context Model.Decoder.
From Verif Require Import Spec.Bits Spec.BitmapS Spec.ReaderS Spec.FieldsS Spec.RefuseS Spec.DecodeS.
From Verif Require Import Proofs.BaseLemmas Proofs.HelpersP Proofs.FieldsP Proofs.FieldsX Proofs.RefuseX Proofs.DecodeX.
Ltac Zify.zify_post_hook ::= Z.div_mod_to_equations.

Lemma jp2_values c m d : d_template d = 40 -> reaches (d_sect5 d) 21 -> field (d_sect5 d) 21 21 = 0 -> field (d_sect5 d) 20 20 <> 0 ->
  dispatch c m d =
  bind (decode_jp2 c m (d_sect7 d)) (fun r => match r with
    | Err e => Ret (Err (EDecode (Jpeg2000Error e)))
    | Ok l => match bitmap_iter f32_nan (d_bitmap d) (simple_iter f32_of_Z (simple_of (d_sect5 d)) (iter_of_list l)) (d_total d) with
              | Some it => Ret (Ok it) | None => Ret (Err (EDecode LengthMismatch)) end
    end).
Proof.
  intros T R Z0 N. unfold dispatch, template_values. rewrite T. unfold jpeg2000_decode.
  destruct (simple_from m (d_sect5 d) R) as (b & E1 & E2). rewrite E1. cbn [bind]. rewrite E2, Z0. cbn [Z.eqb bind].
  assert (H : (sp_nbit (simple_of (d_sect5 d)) =? 0) = false). { cbn [sp_nbit simple_of]. lia. }
  rewrite H. destruct (decode_jp2 c m (d_sect7 d)) as [[l|e]| |]; reflexivity.
Qed.

Lemma components m i : image_size_ok i -> 2 <= zlen (j_comps i) -> j2k_samples m i = Ret (Err J2kNotSupported).
Proof.
  intros (Hf & Hx & Hy) Hc. unfold j2k_samples, j2k_width, j2k_height.
  rewrite !arith_ok by (mlia). cbn [bind].
  replace (zlen (j_comps i) =? 0) with false by lia. rewrite !discard_level by assumption. cbn [bind].
  destruct (j_comps i) as [|a [|b l]]; [cbn in Hc; lia|cbn in Hc; lia|reflexivity].
Qed.

Lemma codec_refused : forall c m d, let p := d_sect5 d in reaches p 21 -> field p 21 21 = 0 ->
  (d_template d = 40 -> field p 20 20 <> 0 -> forall x, opj_image c (d_sect7 d) = Err x ->
     dispatch c m d = Ret (Err (EDecode (Jpeg2000Error x)))) /\
  (d_template d = 40 -> field p 20 20 <> 0 -> forall i, opj_image c (d_sect7 d) = Ok i -> image_size_ok i -> 2 <= zlen (j_comps i) ->
     dispatch c m d = Ret (Err (EDecode (Jpeg2000Error J2kNotSupported)))) /\
  (d_template d = 40 -> field p 20 20 <> 0 -> forall it, dispatch c m d = Ret (Ok it) ->
     exists i gray, opj_image c (d_sect7 d) = Ok i /\ j_comps i = [gray]) /\
  (d_template d = 41 -> png_buffer c (d_sect7 d) = None -> dispatch c m d = Ret (Err (EDecode PngError))).
Proof.
  intros c m d p R Z0. subst p. split; [|split; [|split]].
  - intros T N x E. rewrite jp2_values by assumption. unfold decode_jp2. rewrite E. reflexivity.
  - intros T N i E S C. rewrite jp2_values by assumption. unfold decode_jp2. rewrite E, (components m i S C). reflexivity.
  - intros T N it. rewrite jp2_values by assumption. unfold decode_jp2. destruct (opj_image c (d_sect7 d)) as [i|x]; [|discriminate].
    intros H. apply bind_cases in H. destruct H as (r & E & H). destruct r as [l|x]; [|discriminate H]. exists i.
    unfold j2k_samples in E. apply bind_cases in E. destruct E as (w & _ & E). apply bind_cases in E. destruct E as (h & _ & E).
    destruct (zlen (j_comps i) =? 0); [discriminate E|].
    apply bind_cases in E. destruct E as (w' & _ & E). apply bind_cases in E. destruct E as (h' & _ & E).
    destruct (j_comps i) as [|gray [|? ?]]; [discriminate E| |discriminate E]. eauto.
  - intros T E. unfold dispatch, template_values. rewrite T. unfold png_decode.
    destruct (simple_from m (d_sect5 d) R) as (b & E1 & E2). rewrite E1. cbn [bind]. rewrite E2, Z0. cbn [Z.eqb bind]. rewrite E. reflexivity.
Qed.
