(** A file with one message and one field: from its octets to its values. *)
From Coq Require Import Lia ZifyBool ZifyNat.
From Verif Require Import Model.Base Model.Helpers Model.Errors Model.F32 Model.Sections Model.Reader Model.Parser Model.Context Model.Product Model.Diff Model.Decoder.
From Verif Require Import Spec.Bits Spec.BitmapS Spec.ReaderS Spec.ParserS Spec.ContextS Spec.FieldsS Spec.SimpleS Spec.Layout Spec.DecodeS.
From Verif Require Import Proofs.BaseLemmas Proofs.HelpersP Proofs.BitsP Proofs.LayoutP Proofs.FileP2 Proofs.KeepP Proofs.ContextX Proofs.ViewX Proofs.DecodeP Proofs.DecodeX.
Ltac Zify.zify_post_hook ::= Z.div_mod_to_equations.

Lemma payload_at : forall a r c (x : section), s_offset x = zlen a -> s_size x = zlen (r_payload r) + 5 -> forall i,
  from_octet (a ++ section_bytes r ++ c) (i, x) 6 = r_payload r /\
  forall k n, 1 <= k -> 0 <= n -> k - 1 + n <= zlen (r_payload r) ->
    field_of (a ++ section_bytes r ++ c) (i, x) (5 + k) (4 + k + n) = be (firstn (Z.to_nat n) (skipn (Z.to_nat (k - 1)) (r_payload r))).
Proof.
  intros a r c x Ho Hs i.
  assert (E : a ++ section_bytes r ++ c = (a ++ be_bytes 4 (zlen (r_payload r) + 5) ++ [zb (r_num r)]) ++ r_payload r ++ c).
  { unfold section_bytes. rewrite <- !app_assoc. reflexivity. }
  assert (L : zlen (a ++ be_bytes 4 (zlen (r_payload r) + 5) ++ [zb (r_num r)]) = zlen a + 5).
  { rewrite !zlen_app, zlen_be_bytes. reflexivity. }
  rewrite E. split.
  - unfold from_octet. cbn [snd]. apply (octets_at _ _ _ _ _ _ eq_refl); lia.
  - intros k n Hk Hn Hkn. unfold field_of, file_field. cbn [snd]. f_equal.
    apply (octets_at _ ((a ++ be_bytes 4 (zlen (r_payload r) + 5) ++ [zb (r_num r)]) ++ firstn (Z.to_nat (k - 1)) (r_payload r)) _
      (skipn (Z.to_nat n) (skipn (Z.to_nat (k - 1)) (r_payload r)) ++ c)).
    + rewrite <- (app_assoc _ (firstn _ _)). f_equal. rewrite !app_assoc. f_equal. rewrite <- app_assoc, firstn_skipn, firstn_skipn. reflexivity.
    + rewrite zlen_app, L. unfold zlen. rewrite firstn_length. unfold zlen in *. lia.
    + unfold zlen in *. rewrite firstn_length, skipn_length. lia.
Qed.

Ltac pick Hin Hn :=
  repeat (destruct Hin as [Hin|Hin]; [rewrite <- Hin in Hn |- *; cbn [s_num] in Hn; first [discriminate Hn | split; reflexivity]|]); destruct Hin.
Section One.
  Variables (m : mode) (fuel : nat) (junk res : list byte) (disc : Z) (s1 s3 s4 s5 s6 s7 tail : list byte).
  Notation one_message := (one_field res disc s1 s3 s4 s5 s6 s7).
  Let d := file_bytes [(junk, one_message)] tail.
  Hypothesis Hj : no_magic junk.
  Hypothesis Ht : no_magic tail.
  Hypothesis Hm : message_ok one_message.
  Hypothesis Hd : zlen d < 2 ^ 63.
  Hypothesis Hf : zlen d < Z.of_nat fuel.

  Lemma one_read : exists g w v, from_slice m fuel d = Ret (Ok g) /\ g_sections g = file_table 0 [(junk, one_message)] /\
    g_subs g = [w] /\ make_view g w = Some v /\ 5 <= s_size (snd (u_7 v)) /\
    grid_points d v = be (firstn 4 (skipn 1 s3)) /\ packing d v = s5 /\ bitmap_indicator d v = be (firstn 1 s6) /\
    bitmap_octets d v = skipn 1 s6 /\ packed_data d v = s7.
  Proof.
    destruct (read_file m fuel [(junk, one_message)] [[[3; 4; 5; 6; 7]]] tail) as (g & ms & us & Eg & Es & _ & _ & _ & _ & Hl); try assumption.
    { constructor; [|constructor]. split; assumption. }
    { constructor; [|constructor]. split; [reflexivity|]. eexists _, _. split; [reflexivity|]. unfold first_groups. cbn [In]. split; auto. }
    fold d in Eg. cbn [map length list_sum] in Hl.
    destruct (g_subs g) as [|w [|w' ws]] eqn:Esub; [discriminate| |discriminate].
    assert (Hp0 : 0 <= pos (cursor d) <= zlen d) by (cbn [pos cursor]; pose proof (zlen_nonneg _ d); lia).
    assert (Hv : exists v, make_view g w = Some v).
    { destruct (views m fuel (cursor d) g Eg Hd ltac:(lia)) as (_ & _ & vs & _ & _ & _ & _ & M).
      rewrite Esub in M. inversion M as [|? v ? ? E]; subst. eauto. }
    destruct Hv as (v & Ev). exists g, w, v.
    destruct (file_views m fuel (cursor d) g Eg Hd Hp0 w v ltac:(rewrite Esub; cbn; auto) Ev) as
      (_ & _ & (I3 & _ & N3) & _ & (I5 & _ & N5) & (I6 & _ & N6) & (I7 & _ & N7)).
    rewrite Es in I3, I5, I6, I7. destruct Hm as (Hres & _ & Hok). cbn [m_sections one_field m_reserved] in Hres, Hok.
    cbn [file_table message_table m_sections one_field sections_table app r_num r_payload] in I3, I5, I6, I7.
    set (o := 0 + zlen junk) in *.
    assert (Rok : raw_ok (MkRaw 3 s3) /\ raw_ok (MkRaw 6 s6)).
    { rewrite !Forall_cons_iff in Hok. split; apply Hok. }
    destruct Rok as ((_ & L3 & _) & (_ & L6 & _)). cbn [min_payload r_payload r_num] in L3, L6.
    assert (Y3 : s_offset (snd (u_3 v)) = o + 16 + (zlen s1 + 5) /\ s_size (snd (u_3 v)) = zlen s3 + 5).
    { pick I3 N3. }
    assert (Y5 : s_offset (snd (u_5 v)) = o + 16 + (zlen s1 + 5) + (zlen s3 + 5) + (zlen s4 + 5) /\ s_size (snd (u_5 v)) = zlen s5 + 5).
    { pick I5 N5. }
    assert (Y6 : s_offset (snd (u_6 v)) = o + 16 + (zlen s1 + 5) + (zlen s3 + 5) + (zlen s4 + 5) + (zlen s5 + 5) /\ s_size (snd (u_6 v)) = zlen s6 + 5).
    { pick I6 N6. }
    assert (Y7 : s_offset (snd (u_7 v)) = o + 16 + (zlen s1 + 5) + (zlen s3 + 5) + (zlen s4 + 5) + (zlen s5 + 5) + (zlen s6 + 5) /\ s_size (snd (u_7 v)) = zlen s7 + 5).
    { pick I7 N7. }
    set (h := junk ++ [x47; x52; x49; x42] ++ res ++ [zb disc; x02] ++ be_bytes 8 (total_length one_message)).
    assert (Lh : zlen h = o + 16).
    { unfold h. rewrite !zlen_app, zlen_be_bytes. replace (zlen res) with 2 by (unfold zlen; lia).
      change (zlen [x47; x52; x49; x42]) with 4. change (zlen [zb disc; x02]) with 2. unfold o. lia. }
    assert (Ed : d = h ++ section_bytes (MkRaw 1 s1) ++ section_bytes (MkRaw 3 s3) ++ section_bytes (MkRaw 4 s4) ++ section_bytes (MkRaw 5 s5)
       ++ section_bytes (MkRaw 6 s6) ++ section_bytes (MkRaw 7 s7) ++ [x37; x37; x37; x37] ++ tail).
    { unfold d, file_bytes, h, message_bytes. cbn [flat_map fst snd m_sections m_reserved m_discipline one_field]. rewrite ?app_nil_r, <- !app_assoc. reflexivity. }
    destruct (u_3 v) as [i3 x3] eqn:U3, (u_5 v) as [i5 x5] eqn:U5, (u_6 v) as [i6 x6] eqn:U6, (u_7 v) as [i7 x7] eqn:U7. cbn [snd] in *.
    destruct (payload_at (h ++ section_bytes (MkRaw 1 s1)) (MkRaw 3 s3) (section_bytes (MkRaw 4 s4) ++ section_bytes (MkRaw 5 s5)
       ++ section_bytes (MkRaw 6 s6) ++ section_bytes (MkRaw 7 s7) ++ [x37; x37; x37; x37] ++ tail) x3
       ltac:(rewrite zlen_app, zlen_section; cbn [r_payload]; lia) ltac:(cbn [r_payload]; lia) i3) as (_ & F3).
    destruct (payload_at (h ++ section_bytes (MkRaw 1 s1) ++ section_bytes (MkRaw 3 s3) ++ section_bytes (MkRaw 4 s4)) (MkRaw 5 s5) (
       section_bytes (MkRaw 6 s6) ++ section_bytes (MkRaw 7 s7) ++ [x37; x37; x37; x37] ++ tail) x5
       ltac:(rewrite !zlen_app, !zlen_section; cbn [r_payload]; lia) ltac:(cbn [r_payload]; lia) i5) as (P5 & _).
    destruct (payload_at (h ++ section_bytes (MkRaw 1 s1) ++ section_bytes (MkRaw 3 s3) ++ section_bytes (MkRaw 4 s4) ++ section_bytes (MkRaw 5 s5)) (MkRaw 6 s6) (
       section_bytes (MkRaw 7 s7) ++ [x37; x37; x37; x37] ++ tail) x6
       ltac:(rewrite !zlen_app, !zlen_section; cbn [r_payload]; lia) ltac:(cbn [r_payload]; lia) i6) as (P6 & F6).
    destruct (payload_at (h ++ section_bytes (MkRaw 1 s1) ++ section_bytes (MkRaw 3 s3) ++ section_bytes (MkRaw 4 s4) ++ section_bytes (MkRaw 5 s5) ++ section_bytes (MkRaw 6 s6)) (MkRaw 7 s7) (
       [x37; x37; x37; x37] ++ tail) x7
       ltac:(rewrite !zlen_app, !zlen_section; cbn [r_payload]; lia) ltac:(cbn [r_payload]; lia) i7) as (P7 & _).
    rewrite <- !app_assoc in *. rewrite <- Ed in *. cbn [r_payload] in *.
    split; [exact Eg|]. split; [exact Es|]. split; [exact Esub|]. split; [exact Ev|]. split; [pose proof (zlen_nonneg _ s7); lia|].
    unfold grid_points, packing, bitmap_indicator, bitmap_octets, packed_data. rewrite U3, U5, U6, U7.
    split; [exact (F3 2 4 ltac:(lia) ltac:(lia) ltac:(lia))|]. split; [exact P5|]. split; [exact (F6 1 1 ltac:(lia) ltac:(lia) ltac:(lia))|].
    split; [|exact P7]. rewrite <- P6. unfold from_octet. cbn [snd]. unfold octets.
    replace (Z.to_nat (s_offset x6 + 7 - 1)) with (1 + Z.to_nat (s_offset x6 + 6 - 1))%nat by (pose proof (zlen_nonneg _ h); pose proof (zlen_nonneg _ s1); pose proof (zlen_nonneg _ s3); pose proof (zlen_nonneg _ s4); pose proof (zlen_nonneg _ s5); lia).
    rewrite skipn_firstn_comm, ReaderP.skipn_skipn'. replace (Z.to_nat (s_size x6 - 6 + 1) - 1)%nat with (Z.to_nat (s_size x6 - 7 + 1)) by (pose proof (zlen_nonneg _ s6); lia). f_equal. f_equal. lia.
  Qed.

  (** C46: the grid of the one field of the file. *)
  Lemma one_decoded : forall c refbits e dec pts, 0 <= refbits < 2 ^ 32 -> ieee_finite refbits -> -127 <= e <= 127 -> -38 <= dec <= 37 ->
    encodes c refbits e dec s5 s7 pts ->
    let n := Z.to_nat (be (firstn 4 (skipn 1 s3))) in
    forall mask, (s6 = [xff] /\ mask = repeat true n) \/ (exists bm, s6 = x00 :: bm /\ (n <= length (bits_of_bytes bm))%nat /\ mask = firstn n (bits_of_bytes bm)) ->
    ones mask = length pts ->
    exists g w v decoder s' it out, from_slice m fuel d = Ret (Ok g) /\ g_sections g = file_table 0 [(junk, one_message)] /\
      g_subs g = [w] /\ make_view g w = Some v /\
      decoder_from m (g_src g) v = Ret (Ok decoder, s') /\ dispatch c m decoder = Ret (Ok it) /\ Run it out End /\
      Forall2 (item refbits e dec) (place None mask (map Some pts)) (firstn n out).
  Proof.
    intros c refbits e dec pts Hr Hfin He Hdec Henc n mask' Hmask Hones.
    destruct one_read as (g & w & v & Eg & Es & Esub & Ev & H7 & Hg & Hpk & Hi & Hb & Hpd).
    assert (Hrd : data (g_src g) = d).
    { exact (reader_data m fuel (cursor d) g Eg Hd ltac:(cbn [pos cursor]; lia)). }
    assert (Hp0 : 0 <= pos (cursor d) <= zlen d) by (cbn [pos cursor]; pose proof (zlen_nonneg _ d); lia).
    assert (Hmk : mask_ok d v /\ mask d v = mask').
    { unfold mask_ok, mask. rewrite Hi, Hb, Hg. fold n. destruct Hmask as [(-> & ->)|(bm & -> & Hl & ->)].
      - split; [left|]; reflexivity.
      - change (be (firstn 1 (x00 :: bm))) with 0. change (skipn 1 (x00 :: bm)) with bm. split; [right|reflexivity]. split; [reflexivity|].
        rewrite BitsP.bits_of_bytes_length in Hl. unfold zlen. unfold n in Hl. lia. }
    destruct Hmk as [Hok Hmk].
    destruct (g_src g) as [d0 p sc] eqn:Er. cbn [data] in Hrd. subst d0.
    destruct (decode_file m fuel (cursor d) g Eg Hd Hp0 w v ltac:(rewrite Esub; cbn; auto) Ev H7 c refbits e dec pts Hr Hfin He Hdec) with (m' := m) (m'' := m) (p := p) (sc := sc)
      as [decoder [s' [it [out (E1 & _ & E2 & E3 & E4 & _)]]]] .
    - cbn [data cursor]. rewrite Hpk, Hpd. exact Henc.
    - exact Hok.
    - cbn [data cursor]. rewrite Hmk. exact Hones.
    - exists g, w, v, decoder, s', it, out. rewrite Er. repeat (split; [eassumption|]).
      destruct E4 as (_ & E4 & _). unfold grid_of in E4. cbn [data cursor] in E4. rewrite Hmk, Hg in E4. exact E4.
  Qed.
End One.
