(** Complex packing with room for a limited number of items: a small file that needs much memory. *)
From Coq Require Import Lia ZifyBool ZifyNat.
From Verif Require Import Model.Base Model.Helpers Model.Errors Model.F32 Model.Sections Model.Reader Model.Parser Model.Context Model.Product Model.Stream Model.Diff Model.Complex Model.Bitmap Model.Simple Model.Decoder Model.MemoryC.
From Verif Require Import Spec.Bits Spec.BitmapS Spec.ReaderS Spec.FieldsS Spec.ComplexS Spec.Layout Spec.DecodeS Spec.RefuseS Spec.GroupsS Spec.MemoryCS.
From Verif Require Proofs.GroupsX.
From Verif Require Import Proofs.BaseLemmas Proofs.HelpersP Proofs.BitsP Proofs.BitmapP Proofs.ComplexP Proofs.DecodeP Proofs.KeepP Proofs.WholeX Proofs.MemoryCX.
Ltac Zify.zify_post_hook ::= Z.div_mod_to_equations.

Notation packing_of n := (sect5_complex 1 2 0 0 0 0 0 0 0 1 0 0 0 0 n 0 []).

Lemma packing_of_fields n : 0 <= n < 2 ^ 32 -> let p := packing_of n in
  zlen p = 42 /\ field p 20 20 = 0 /\ field p 21 21 = 0 /\ field p 22 22 = 1 /\ field p 23 23 = 0 /\ field p 32 35 = 1 /\ field p 36 36 = 0 /\
  field p 37 37 = 0 /\ field p 38 41 = 0 /\ field p 42 42 = 0 /\ field p 43 46 = n /\ field p 47 47 = 0.
Proof.
  intros H. cbv zeta. unfold sect5_complex. pose proof (be_be_bytes 4 n ltac:(lia)) as B. pose proof (be_bytes_length 4 n) as L.
  destruct (be_bytes 4 n) as [|a [|b [|c [|e [|]]]]]; try discriminate L. repeat split; try reflexivity. exact B.
Qed.

Lemma not_refused n : 0 <= n < 2 ^ 32 -> forall e, ~ refused (packing_of n) 2 e.
Proof.
  intros H e R. destruct (packing_of_fields n H) as (_ & _ & F1 & F2 & F3 & _). cbv zeta in *. set (p := packing_of n) in *.
  destruct R as [R|_ R|_ _ R|R|R|R]; rewrite ?F1, ?F2, ?F3 in R; cbn [In] in R; try lia. apply R. unfold supported_templates. cbn [In]. auto.
Qed.

Lemma one_group_ok n : 0 <= n < 2 ^ 32 -> message_ok (one_group n).
Proof.
  intros H. destruct (packing_of_fields n H) as (L & _). unfold one_group, one_field, message_ok. cbn [m_reserved m_discipline m_sections]. split; [reflexivity|]. split; [lia|].
  repeat apply Forall_cons; [| | | | | |apply Forall_nil]; unfold raw_ok; cbn [r_num r_payload min_payload]; rewrite ?L; (split; [lia|]; split; [vm_compute; congruence|vm_compute; congruence]).
Qed.

Section Bomb.
  Variables (m : mode) (fuel : nat) (n : Z).
  Hypothesis Hn : 1 <= n < 2 ^ 32.
  Let d := file_bytes [([], one_group n)] [].
  Hypothesis Hf : zlen d < Z.of_nat fuel.

  Lemma bomb_size : zlen d = 204.
  Proof.
    destruct (packing_of_fields n ltac:(lia)) as (L & _). unfold d, file_bytes, one_group, one_field, message_bytes, section_bytes. cbn [flat_map fst snd app m_sections m_reserved m_discipline r_num r_payload].
    repeat rewrite ?zlen_app, ?zlen_cons, ?app_nil_r, ?zlen_be_bytes, ?L. vm_compute. reflexivity.
  Qed.

  Lemma bomb : forall c, exists g w v dec s' it x, from_slice m fuel d = Ret (Ok g) /\ g_subs g = [w] /\ make_view g w = Some v /\
    decoder_from m (g_src g) v = Ret (Ok dec, s') /\ dispatch c m dec = Ret (Ok it) /\ Run it [x] End /\
    forall left, 0 <= left -> exists it', mem_dispatch left c m dec = Ret (Ok it') /\
      if n <=? left then Run it' [x] End else forall l e, ~ Run it' l e.
  Proof.
    intros c. destruct (packing_of_fields n ltac:(lia)) as (P0 & F20 & F21 & F22 & F23 & F32' & F36 & F37 & F38 & F42 & F43 & F47). cbv zeta in *.
    pose proof bomb_size as Hsize. assert (Nm : no_magic []) by (intros a b E; destruct a; discriminate E).
    destruct (one_read m fuel [] [x00; x00] 0 (repeat x00 16) (x00 :: be_bytes 4 1 ++ repeat x00 60) (repeat x00 30) (packing_of n) [xff] [] [] Nm Nm (one_group_ok n ltac:(lia)))
      as (g & w & v & Eg & _ & Esub & Ev & H7 & Hg & Hpk & Hi & Hb & Hpd); fold (one_group n) in *; try fold d in Eg, Hg, Hpk, Hi, Hb, Hpd; [change (zlen d < 2 ^ 63); rewrite Hsize; lia|exact Hf|].
    assert (Hrd : data (g_src g) = d) by (exact (reader_data m fuel (cursor d) g Eg ltac:(change (data (cursor d)) with d; lia) ltac:(cbn [pos cursor data]; lia))).
    change (be (firstn 4 (skipn 1 (x00 :: be_bytes 4 1 ++ repeat x00 60)))) with 1 in Hg. change (be (firstn 1 [xff])) with 255 in Hi.
    destruct (g_src g) as [d0 q0 sc] eqn:Er. cbn [data] in Hrd. subst d0.
    pose proof (decoder_fields m fuel (cursor d) g w v Eg ltac:(change (data (cursor d)) with d; lia) ltac:(cbn [pos cursor data]; lia) ltac:(rewrite Esub; cbn; auto) Ev) as (_ & _ & _ & _ & Ep & Et & _).
    destruct (decoder_spec m fuel (cursor d) g w v Eg ltac:(change (data (cursor d)) with d; lia) ltac:(cbn [pos cursor data]; lia) ltac:(rewrite Esub; cbn; auto) Ev H7 m q0 sc) as (s' & _ & Ed).
    cbv zeta in Ed. change (data (cursor d)) with d in Ed, Ep, Et. rewrite Hi, Hg, Hpk, Hpd in Ed. cbn [Z.eqb Pos.eqb] in Ed. rewrite Hpk in Et.
    assert (T2 : repr_tmpl_num (packing_of n) = Ret 2) by (unfold sect5_complex; reflexivity). rewrite T2 in Et. injection Et as Et. rewrite <- Et in Ed.
    set (dec := MkDecoder 1 (packed_points d v) 2 (packing_of n) (create_bitmap_for_nonnullable_data 1) []) in *.
    exists g, w, v, dec, s'. rewrite Er.
    assert (Egr : group_lengths (packing_of n) [] = [n]) by (unfold group_lengths, num_groups; rewrite F32', F43; reflexivity).
    assert (Egw : group_widths (packing_of n) [] = [0]) by (unfold group_widths, num_groups, widths_bits, widths_start, num_groups, refs_bits; rewrite F20, F32', F36, F37; reflexivity).
    assert (Hc : counts_fit (packing_of n)) by (unfold counts_fit, num_groups, refs_bits, widths_bits, lengths_bits; rewrite F32', F20, F37, F47; vm_compute; repeat split; congruence).
    assert (Hmod : moderate (packing_of n) []).
    { unfold moderate. rewrite Egw. unfold num_groups, widths_start, lengths_start, widths_start, num_groups, refs_bits, widths_bits, lengths_bits. rewrite F20, F32', F36, F37, F38, F42, F47.
      split; [lia|]. split; [repeat constructor; lia|]. split; [|constructor]. apply Forall_forall. intros x Hx. unfold raw in Hx. apply in_map_iff in Hx. destruct Hx as (y & <- & _). pose proof (Z.mod_pos_bound y (2 ^ 32)). lia. }
    assert (Hones : ones (firstn (Z.to_nat 1) (bits_of_bytes (create_bitmap_for_nonnullable_data 1))) = 1%nat) by reflexivity.
    assert (Hvs : values_start (packing_of n) = 0) by (unfold values_start, lengths_start, widths_start, num_groups, refs_bits, widths_bits, lengths_bits; rewrite F20, F32', F37, F47; reflexivity).
    assert (Hv : values_bits (packing_of n) [] = 0) by (unfold values_bits; rewrite Egr, Egw; reflexivity).
    assert (Hcount : values_count (packing_of n) [] = n) by (unfold values_count; rewrite Egr; cbn [sum fold_right]; lia).
    assert (Big : forall left, 0 <= left -> left < n -> exists it out it', dispatch c m dec = Ret (Ok it) /\ Run it out End /\ mem_dispatch left c m dec = Ret (Ok it') /\ forall l e, ~ Run it' l e).
    { intros left L0 L1. apply too_big; cbn [d_sect5 d_template d_sect7 d_total d_bitmap dec]; change (skipn (Z.to_nat (descriptors (packing_of n) 2)) []) with (@nil byte).
      - left. reflexivity.
      - unfold reaches. cbn [sect5_end]. lia.
      - intros e. apply not_refused. lia.
      - exact Hc.
      - unfold refs_bits. lia.
      - right. split; [reflexivity|exact Hmod].
      - vm_compute. split; congruence.
      - change (descriptors (packing_of n) 2) with 0. rewrite Hvs. vm_compute. congruence.
      - rewrite Hv, Hvs. vm_compute. congruence.
      - exact L0.
      - rewrite Egr, Hcount. cbn [points_before]. replace (n <=? left) with false by lia. lia.
      - rewrite Egr, Hones. cbn [points_before]. replace (n <=? left) with false by lia. lia. }
    assert (Hx : exists it x, dispatch c m dec = Ret (Ok it) /\ Run it [x] End).
    { pose proof (GroupsX.complex_values c m dec) as V. cbn [d_sect5 d_template d_sect7 dec] in V. change (skipn (Z.to_nat (descriptors (packing_of n) 2)) []) with (@nil byte) in V. change (descriptors (packing_of n) 2) with 0 in V.
      specialize (V (or_introl eq_refl) ltac:(unfold reaches; cbn [sect5_end]; lia) (not_refused n ltac:(lia)) Hc ltac:(unfold refs_bits; lia) (or_intror (conj eq_refl Hmod))).
      rewrite Hvs in V. change (0 + 0 <=? zlen (@nil byte)) with true in V. cbv iota in V. destruct V as (vals & out & Evals & HR & L1 & _).
      unfold GroupsX.ending_of in *. rewrite Hv, Hvs in *. change (0 <=? 8 * (zlen (@nil byte) - 0)) with true in *. cbv iota in *. specialize (L1 eq_refl). rewrite Hcount in L1.
      destruct (bitmap_iter_run _ f32_nan (create_bitmap_for_nonnullable_data 1) vals out End 1 ltac:(vm_compute; split; congruence) HR) as (it & Ei & HI). cbv zeta in HI.
      exists it. destruct out as [|x out]; [change (zlen (@nil f32)) with 0 in L1; lia|]. exists x. split; [|exact HI].
      unfold dispatch. rewrite Evals. cbn [bind dec d_bitmap d_total]. rewrite Ei. reflexivity. }
    destruct Hx as (it & x & Edec & HR). exists it, x. repeat (split; [assumption|]). intros left L0. destruct (n <=? left) eqn:E.
    - destruct (enough c m dec left) with (it := it) (l := [x]) (e := End) as (it' & E' & R'); cbn [d_sect5 d_template d_sect7 dec]; auto.
      + change (skipn (Z.to_nat (descriptors (packing_of n) 2)) []) with (@nil byte). rewrite Egr. repeat constructor. lia.
      + exists it'. auto.
    - destruct (Big left L0 ltac:(lia)) as (it1 & out1 & it' & _ & _ & E' & H). exists it'. auto.
  Qed.
End Bomb.
