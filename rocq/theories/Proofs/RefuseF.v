(** Refusals and panics of the decoder of a submessage of a file. *)
From Coq Require Import Lia ZifyBool ZifyNat.
From Verif Require Import Model.Base Model.Errors Model.F32 Model.Bitmap Model.Sections Model.Reader Model.Parser Model.Context Model.Decoder.
From Verif Require Import Spec.Bits Spec.BitmapS Spec.ReaderS Spec.FieldsS Spec.DecodeS Spec.RefuseS.
From Verif Require Import Proofs.BaseLemmas Proofs.BitmapP Proofs.DecodeP Proofs.RefuseX Proofs.PanicX.
Ltac Zify.zify_post_hook ::= Z.div_mod_to_equations.

Section View.
  Variables (m : mode) (fuel : nat) (s : src) (g : grib2) (w : submessage Z) (v : view).
  Hypothesis Hr : grib2_read m fuel s = Ret (Ok g).
  Hypothesis Hd : zlen (data s) < 2 ^ 63.
  Hypothesis Hp : 0 <= pos s <= zlen (data s).
  Hypothesis Hw : In w (g_subs g).
  Hypothesis Hv : make_view g w = Some v.
  Hypothesis H7 : 5 <= s_size (snd (u_7 v)).
  Let d := data s.

  Lemma decoder_made : forall m' p sc, exists r s', decoder_from m' (MkSrc d p sc) v = Ret (r, s') /\ data s' = d /\
    (~ In (bitmap_indicator d v) [0; 255] -> r = Err (EDecode BitMapIndicatorUnsupported)) /\
    (In (bitmap_indicator d v) [0; 255] -> exists dec, r = Ok dec /\
      d_total dec = grid_points d v /\ d_encoded dec = packed_points d v /\ d_template dec = packing_template d v /\
      d_sect5 dec = packing d v /\ d_sect7 dec = packed_data d v /\
      (bitmap_indicator d v = 0 -> d_bitmap dec = bitmap_octets d v) /\
      (bitmap_indicator d v = 255 -> bits_of_bytes (d_bitmap dec) = repeat true (Z.to_nat (8 * ((grid_points d v + 7) / 8))))).
  Proof.
    intros m' p sc. destruct (decoder_spec m fuel s g w v Hr Hd Hp Hw Hv H7 m' p sc) as (s' & Hs & E). fold d in E, Hs.
    destruct (decoder_fields m fuel s g w v Hr Hd Hp Hw Hv) as (_ & _ & _ & _ & _ & _ & Hg & _). fold d in Hg.
    eexists _, s'. split; [exact E|]. split; [exact Hs|]. cbn [In]. cbv zeta. destruct (bitmap_indicator d v =? 0) eqn:Z0.
    - split; [intros N; exfalso; lia|]. intros _. eexists. split; [reflexivity|]. cbn [d_total d_encoded d_template d_sect5 d_sect7 d_bitmap]. repeat split; try reflexivity. intros; exfalso; lia.
    - destruct (bitmap_indicator d v =? 255) eqn:Z1.
      + split; [intros N; exfalso; lia|]. intros _. eexists. split; [reflexivity|]. cbn [d_total d_encoded d_template d_sect5 d_sect7 d_bitmap].
        repeat split; try reflexivity; [intros; exfalso; lia|]. intros _. apply create_bitmap_bits. lia.
      + split; [reflexivity|]. intros N. exfalso. lia.
  Qed.

  Lemma view_refused : forall c m' m'' p sc e, In (bitmap_indicator d v) [0; 255] ->
    reaches (packing d v) (sect5_end (packing d v) (packing_template d v)) -> refused (packing d v) (packing_template d v) e ->
    exists dec s', decoder_from m' (MkSrc d p sc) v = Ret (Ok dec, s') /\ dispatch c m'' dec = Ret (Err e).
  Proof.
    intros c m' m'' p sc e Hi Hre He. destruct (decoder_made m' p sc) as (r & s' & E & _ & _ & Ok').
    destruct (Ok' Hi) as (dec & -> & _ & _ & T & P & _). exists dec, s'. split; [exact E|].
    apply dispatch_refused; rewrite T, P; assumption.
  Qed.

  Lemma view_errors : forall c m' m'' p sc dec s' e, decoder_from m' (MkSrc d p sc) v = Ret (Ok dec, s') -> dispatch c m'' dec = Ret (Err e) ->
    refused (packing d v) (packing_template d v) e \/ data_error (packing_template d v) e \/
    (e = EDecode LengthMismatch /\ bitmap_indicator d v = 0 /\ 8 * zlen (bitmap_octets d v) < grid_points d v).
  Proof.
    intros c m' m'' p sc dec s' e E H. destruct (decoder_made m' p sc) as (r & s'' & E' & _ & Ne & Ok').
    assert (r = Ok dec) by congruence. subst r.
    destruct (in_dec Z.eq_dec (bitmap_indicator d v) [0; 255]) as [Hi|Hi]; [|specialize (Ne Hi); discriminate Ne].
    destruct (Ok' Hi) as (dec' & E2 & To & _ & T & P & _ & B0 & B1). injection E2 as <-.
    destruct (dispatch_errors c m'' dec e H) as [R|[R|(R & L)]]; rewrite ?T, ?P in R.
    - left. exact R.
    - right. left. exact R.
    - right. right. split; [exact R|]. rewrite To in L. cbn [In] in Hi. destruct Hi as [Hi|[Hi|[]]].
      + rewrite (B0 ltac:(lia)) in L. split; [lia|exact L].
      + exfalso. specialize (B1 ltac:(lia)). apply (f_equal (@length bool)) in B1. rewrite BitsP.bits_of_bytes_length, repeat_length in B1.
        destruct (decoder_fields m fuel s g w v Hr Hd Hp Hw Hv) as (_ & _ & _ & _ & _ & _ & Hg & _). fold d in Hg. unfold zlen in L. lia.
  Qed.

  (** No panic in the iterator. *)
  Lemma view_no_lazy_panic : forall c m' m'' p sc dec s' it, decoder_from m' (MkSrc d p sc) v = Ret (Ok dec, s') ->
    In (packing_template d v) [0; 40; 41; 200] -> dispatch c m'' dec = Ret (Ok it) -> exists out, Run it out End.
  Proof.
    intros c m' m'' p sc dec s' it E Ht H. destruct (decoder_made m' p sc) as (r & s'' & E' & _ & Ne & Ok').
    assert (r = Ok dec) by congruence. subst r.
    destruct (in_dec Z.eq_dec (bitmap_indicator d v) [0; 255]) as [Hi|Hi]; [|specialize (Ne Hi); discriminate Ne].
    destruct (Ok' Hi) as (dec' & E2 & To & En & T & P & _). injection E2 as <-.
    destruct (decoder_fields m fuel s g w v Hr Hd Hp Hw Hv) as (_ & _ & _ & _ & _ & _ & Hg & Hk & _). fold d in Hg, Hk.
    apply (no_lazy_panic c m'' dec it); rewrite ?To, ?En, ?T; lia || assumption.
  Qed.

  (** Simple packing. *)
  Lemma view_simple : forall c m' m'' p sc, In (bitmap_indicator d v) [0; 255] -> packing_template d v = 0 ->
    exists dec s', decoder_from m' (MkSrc d p sc) v = Ret (Ok dec, s') /\
    (21 <= s_size (snd (u_5 v)) ->
       (exists e, dispatch c m'' dec = Ret (Err e)) \/ (exists it out, dispatch c m'' dec = Ret (Ok it) /\ Run it out End)) /\
    (s_size (snd (u_5 v)) < 21 -> dispatch c m'' dec = Panic).
  Proof.
    intros c m' m'' p sc Hi Ht. destruct (decoder_made m' p sc) as (r & s' & E & _ & _ & Ok').
    destruct (Ok' Hi) as (dec & -> & To & En & T & P & _). exists dec, s'. split; [exact E|].
    destruct (decoder_fields m fuel s g w v Hr Hd Hp Hw Hv) as (_ & _ & _ & _ & _ & _ & Hg & Hk & _ & H5). fold d in Hg, Hk.
    destruct (ViewX.file_views m fuel s g Hr Hd Hp w v Hw Hv) as (_ & _ & _ & _ & (_ & F5 & N5) & _).
    assert (L : zlen (packing d v) = s_size (snd (u_5 v)) - 5).
    { unfold packing, from_octet. replace (s_size (snd (u_5 v)) - 6 + 1) with (s_size (snd (u_5 v)) - 5) by lia.
      replace (s_offset (snd (u_5 v)) + 6 - 1) with (s_offset (snd (u_5 v)) + 5) by lia.
      pose proof (ViewX.body_by_num (data s) _ F5) as (_ & _ & _ & _ & B5' & _). destruct (B5' N5) as (E5 & _).
      pose proof (FieldsX.header_body (data s) _ F5) as L5. rewrite E5 in L5. pose proof (proj1 F5) as P5. apply ReaderP.zlen_octets; unfold d; lia. }
    destruct (simple_total c m'' dec) as (Sa & Sb); [lia|lia|congruence|]. rewrite P in Sa, Sb. unfold reaches in Sa, Sb.
    split; intros H; [apply Sa|apply Sb]; lia.
  Qed.
End View.
