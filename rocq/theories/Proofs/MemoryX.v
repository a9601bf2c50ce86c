(** Memory for the contents of sections. *)
From Coq Require Import Lia ZifyBool ZifyNat.
From Verif Require Import Model.Base Model.Helpers Model.Errors Model.Sections Model.Reader Model.Parser Model.Context Model.Bitmap Model.Product Model.Decoder Model.Memory.
From Verif Require Import Spec.Bits Spec.ReaderS Spec.ParserS Spec.ContextS Spec.FieldsS Spec.DecodeS Spec.MemoryS.
From Verif Require Import Proofs.BaseLemmas Proofs.BitsP Proofs.ReaderP Proofs.SectionStreamP Proofs.TableP Proofs.FileP Proofs.ReadX Proofs.ContextX Proofs.ViewX Proofs.DecodeP Proofs.AgreeP Proofs.FieldsP Proofs.FieldsX Proofs.HelpersP Proofs.Bits2.
Ltac Zify.zify_post_hook ::= Z.div_mod_to_equations.

Section Lim.
  Variables (d : list byte) (E : Z).
  Hypothesis HE : 0 <= E.
  Hypothesis Hd : zlen d < 2 ^ 63.
  (** The source and the octets left. *)
  Definition enough (s : src) (b : Z) : Prop := data s = d /\ 0 <= pos s /\ (zlen d <= pos s \/ zlen d + E - pos s <= b).
  Definition short {A} (x : outcome (result A parse_error * src)) : Prop := E < 2 ^ 32 - 5 /\ exists e s, x = Ret (Err e, s).
  Definition Rc (s : src) (c : src * Z) : Prop := fst c = s /\ enough s (snd c).

  Lemma slice_fits n s b : 0 <= n <= 2 ^ 64 - 1 -> (2 ^ 63 - 1 < n \/ n < 2 ^ 32 - 5) -> data s = d -> 0 <= pos s <= zlen d -> zlen d + E - pos s <= b ->
    agree Rc short (read_slice n s) (mread_slice n (s, b)).
  Proof.
    intros Hn Hb Hs Hp Hl. unfold read_slice, mread_slice, mvec_alloc, mbind, lift, rbind, vec_alloc. cbn [fst snd].
    destruct (n <=? 2 ^ 63 - 1) eqn:En; [|right; reflexivity]. cbn [rret bind fst snd]. unfold take. cbn [fst snd].
    destruct (read_exact_spec n s ltac:(lia) ltac:(lia)) as (sc & _ & X). rewrite X, Hs.
    destruct (n <=? b) eqn:Eb; cbn [bind fst snd].
    - rewrite X, Hs. destruct ((n =? 0) || (pos s + n <=? zlen d)) eqn:Ef; cbn [bind fst snd]; right; eexists; (split; [reflexivity|]); split; try reflexivity; cbn [fst snd];
        split; try reflexivity; cbn [pos]; split; lia.
    - left. split; [lia|]. destruct ((n =? 0) || (pos s + n <=? zlen d)) eqn:Ef; [lia|]. eauto.
  Qed.

  Lemma payload_fits m size num s b : 0 <= size < 2 ^ 32 -> data s = d -> 5 <= pos s <= zlen d -> zlen d + E - (pos s - 5) <= b ->
    agree Rc short (read_sect_payload m (size, num) s) (mread_sect_payload m (size, num) (s, b)).
  Proof.
    intros Hz Hs Hp Hl. unfold read_sect_payload, mread_sect_payload, rbind at 1, mbind at 1, rpure at 1, mpure at 1.
    destruct (arith m U64 (size - 5)) as [n| |] eqn:Ea; cbn [bind]; try (right; reflexivity).
    assert (Hn : 0 <= n <= 2 ^ 64 - 1 /\ (n = size - 5 \/ n = size - 5 + 2 ^ 64 /\ size < 5)).
    { destruct (Z_lt_ge_dec size 5) as [H|H].
      - destruct m; [exfalso; unfold arith in Ea; destruct (in_range U64 (size - 5)) eqn:X; [apply in_range_spec in X; autorewrite with mm in X; lia|discriminate]|].
        rewrite arith_U64_W in Ea. injection Ea as <-. lia.
      - rewrite arith_U64_ok in Ea by lia. injection Ea as <-. lia. }
    destruct Hn as (Hn & Hn').
    destruct ((1 <=? num) && (num <=? 5)).
    { unfold rbind, mbind. destruct (slice_fits n s b ltac:(lia) ltac:(lia) Hs ltac:(lia) ltac:(lia)) as [(He & e & s' & X)|X].
      - left. split; [exact He|]. rewrite X. cbn [bind]. eauto.
      - destruct (mread_slice n (s, b)) as [[r c]| |].
        + destruct X as (s' & -> & Rs). cbn [bind]. destruct r as [l|e]; [|right; eexists; split; [reflexivity|exact Rs]].
          right. unfold lift, rres. cbn [bind fst snd]. eexists. split; [reflexivity|]. destruct Rs as (<- & Rs). split; [reflexivity|exact Rs].
        + rewrite X. right. reflexivity.
        + rewrite X. right. reflexivity. }
    destruct (num =? 6).
    { unfold read_sect6_payload, mread_sect6_payload. unfold rbind at 1, mbind at 1, lift at 1. cbn [fst snd].
      destruct (read_exact_spec 1 s ltac:(lia) ltac:(lia)) as (sc & _ & X). rewrite X, Hs. cbn [Z.eqb orb].
      destruct (pos s + 1 <=? zlen d) eqn:E1; cbn [bind fst snd].
      2:{ right. eexists. split; [reflexivity|]. split; [reflexivity|]. repeat split; cbn [pos fst snd]; lia. }
      unfold rbind at 1, mbind at 1, rpure at 1, mpure at 1.
      destruct (arith m U64 (n - 1)) as [k| |] eqn:Ek; cbn [bind]; try (right; reflexivity).
      assert (Hk : 0 <= k <= 2 ^ 64 - 1 /\ (k = 0 \/ 2 ^ 63 - 1 < k \/ k < 2 ^ 32 - 5)).
      { destruct (Z_lt_ge_dec n 1) as [H|H].
        - destruct m; [exfalso; unfold arith in Ek; destruct (in_range U64 (n - 1)) eqn:Y; [apply in_range_spec in Y; autorewrite with mm in Y; lia|discriminate]|].
          rewrite arith_U64_W in Ek. injection Ek as <-. lia.
        - rewrite arith_U64_ok in Ek by lia. injection Ek as <-. lia. }
      set (s1 := MkSrc d (pos s + 1) sc).
      assert (Z : forall s2 b2 l, enough s2 b2 ->
        agree Rc short ((do! ind := rpure (index l 0) in rret (B6 (bz ind))) s2) ((mem! ind := mpure (index l 0) in mret (B6 (bz ind))) (s2, b2))).
      { intros s2 b2 l0 H2. unfold rbind, mbind, rpure, mpure. destruct (index l0 0); cbn [bind]; try (right; reflexivity).
        right. eexists. split; [reflexivity|]. split; [reflexivity|exact H2]. }
      unfold rbind at 1, mbind at 1. destruct (0 <? k) eqn:Ek0.
      - unfold rbind at 1, mbind at 1.
        destruct (slice_fits k s1 b ltac:(lia) ltac:(lia) eq_refl ltac:(cbn; lia) ltac:(cbn; lia)) as [(He & e & s' & Y)|Y].
        + left. split; [exact He|]. rewrite Y. cbn [bind]. eauto.
        + destruct (mread_slice k (s1, b)) as [[r c]| |].
          * destruct Y as (s' & -> & Rs). destruct c as [s2 b2]. destruct Rs as (Q & Rs). cbn [fst snd] in Q, Rs. subst s'. cbn [bind].
            destruct r as [l|e]; cbn [bind rret mret]; [apply Z; exact Rs|]. right. eexists. split; [reflexivity|]. split; [reflexivity|exact Rs].
          * rewrite Y. right. reflexivity.
          * rewrite Y. right. reflexivity.
      - cbn [bind rret mret]. apply Z. repeat split; cbn [s1 pos]; lia. }
    destruct (num =? 7).
    { unfold skip_sect7_payload, lift, rbind, seek_current, seek_to. cbn [fst snd].
      assert (W : wrap I64 n = size - 5).
      { unfold wrap. cbn [bits_of is_signed andb]. change (64 - 1) with 63. destruct (2 ^ 63 <=? n mod 2 ^ 64) eqn:Q; lia. }
      rewrite W. destruct ((0 <=? pos s + (size - 5)) && (pos s + (size - 5) <? 2 ^ 64)) eqn:Es; cbn [bind fst snd rret]; right; eexists; (split; [reflexivity|]);
        (split; [reflexivity|]); repeat split; cbn [data pos fst snd]; try exact Hs; lia. }
    right. unfold rfail, lift. cbn [bind fst snd]. eexists. split; [reflexivity|]. split; [reflexivity|]. repeat split; cbn [fst snd]; [exact Hs|lia|lia].
  Qed.

  Definition Rs (s : sstate) (a : mstate) : Prop := mt_s a = s /\ enough (st_src s) (mt_left a).
  Definition Tight (e : parse_error) : Prop := E < 2 ^ 32 - 5.
  Lemma step_fits m s a : Rs s a -> agree Rs (halts Tight) (next_section m s) (mnext_section m a).
  Proof.
    destruct a as [s' b]. intros (Q & Hs & Hp & Hb). cbn [mt_s mt_left] in *. subst s'. unfold next_section, mnext_section. cbn [mt_s mt_left].
    destruct (rest s =? 0).
    { right. unfold next_sect0. destruct (read_sect0_spec (st_src s) Hp ltac:(rewrite Hs; exact Hd)) as (r & s' & X & D & _ & P). rewrite X, Hs in *. cbn [bind].
      assert (M : pos (st_src s) <= pos s').
      { destruct r as [[[off bo]|]|e]; cbn [read_sect0_post] in P; [|lia|].
        - destruct P as ((P1 & _) & _ & _ & P). lia.
        - destruct e; try contradiction. destruct P as (k & (P1 & _) & _ & _ & P). lia. }
      assert (K : enough s' b) by (repeat split; [exact D|lia|lia]).
      destruct r as [[[off bo]|]|e]; cbn [bind].
      - destruct (arith m U64 _) as [w1| |]; cbn [bind]; try reflexivity. cbv zeta.
        destruct (arith m U64 (w1 + _)) as [w2| |]; cbn [bind]; try reflexivity. destruct (arith m U64 (_ - 16)) as [w3| |]; cbn [bind]; try reflexivity.
        eexists. split; [reflexivity|]. split; [reflexivity|exact K].
      - eexists. split; [reflexivity|]. split; [reflexivity|exact K].
      - eexists. split; [reflexivity|]. split; [reflexivity|exact K]. }
    destruct (rest s =? 4).
    { right. unfold next_sect8. destruct (read_sect8_spec (st_src s) Hp) as (r & s' & X & D & _ & P). rewrite X, Hs in *. cbn [bind].
      assert (K : enough s' b) by (destruct r as [[u|]|e]; repeat split; (exact D || lia)).
      destruct r as [[u|]|e]; cbn [bind].
      - destruct (arith m U64 _) as [w1| |]; cbn [bind]; try reflexivity. destruct (arith m U64 (_ - 4)) as [w2| |]; cbn [bind]; try reflexivity.
        eexists. split; [reflexivity|]. split; [reflexivity|exact K].
      - eexists. split; [reflexivity|]. split; [reflexivity|exact K].
      - eexists. split; [reflexivity|]. split; [reflexivity|exact K]. }
    unfold next_sect, mnext_sect. cbv zeta. cbn [mt_s mt_left]. destruct (read_sect_header_spec (st_src s) Hp) as (r & s' & X & D & _ & P). rewrite X, Hs in *. cbn [bind].
    destruct r as [[[size num]|]|e].
    - destruct P as (Ph & P1 & P2). injection Ph as Es En. destruct (arith m U64 _) as [w1| |]; cbn [bind]; try (right; reflexivity).
      assert (Hz : 0 <= size < 2 ^ 32) by (subst size; apply (octets_be_range d (pos (st_src s)) 4); lia).
      destruct (payload_fits m size num s' b Hz D ltac:(lia) ltac:(lia)) as [(He & e & s2 & Y)|Y].
      + left. rewrite Y. cbn [bind]. do 2 eexists. split; [reflexivity|exact He].
      + right. destruct (mread_sect_payload m (size, num) (s', b)) as [[r2 [s2 b2]]| |].
        * destruct Y as (s3 & -> & Q & R). cbn [fst snd] in Q, R. subst s3. cbn [bind]. destruct r2 as [bo|e].
          -- destruct (arith m U64 _) as [w2| |]; cbn [bind]; try reflexivity. eexists. split; [reflexivity|]. split; [reflexivity|exact R].
          -- eexists. split; [reflexivity|]. split; [reflexivity|exact R].
        * rewrite Y. reflexivity.
        * rewrite Y. reflexivity.
    - right. eexists. split; [reflexivity|]. split; [reflexivity|]. repeat split; cbn [st_src mt_left]; [exact D|lia|lia].
    - right. eexists. split; [reflexivity|]. split; [reflexivity|]. repeat split; cbn [st_src mt_left]; [exact D|lia|lia].
  Qed.
  Lemma loop_fits m fuel : forall b c acc, IR Rs b c ->
    agree (IR Rs) (fun x => E < 2 ^ 32 - 5 /\ exists e b', x = Ret (Err e, b')) (read_loop m fuel b acc) (mread_loop m fuel c acc).
  Proof.
    induction fuel as [|fuel IH]; intros b c acc R; cbn [mread_loop read_loop]; [right; reflexivity|].
    destruct (inext_agrees Tight (next_section m) (mnext_section m) Rs (step_fits m) b c R) as [(e & b' & -> & G)|K].
    - left. cbn [bind]. split; [exact G|eauto].
    - destruct (isub_next (mnext_section m) c) as [[x c']| |]; [destruct K as (b' & -> & R'); cbn [bind] | right; rewrite K; reflexivity | right; rewrite K; reflexivity].
      destruct x as [[u|e]|]; [apply IH; exact R'| |]; right; eexists; (split; [reflexivity|exact R']).
  Qed.
End Lim.

Lemma read_fits : forall left m fuel s E, 0 <= E -> 0 <= pos s -> zlen (data s) < 2 ^ 63 -> zlen (data s) + E <= left ->
  (E < 2 ^ 32 - 5 /\ exists e, grib2_read m fuel s = Ret (Err e)) \/ mem_read left m fuel s = grib2_read m fuel s.
Proof.
  intros left m fuel s E HE Hp Hd HL.
  assert (R0 : IR (Rs (data s) E) (isub_new (MkSstate s 0 0)) (isub_new (MkMstate (MkSstate s 0 0) left))).
  { unfold IR, isub_new, VR, Rs, enough. cbn. repeat split; try reflexivity; lia. }
  unfold mem_read, grib2_read. destruct (loop_fits (data s) E HE Hd m fuel _ _ [] R0) as [(He & e & b' & ->)|K].
  - left. split; [exact He|]. cbn [bind]. eauto.
  - right. destruct (mread_loop m fuel _ []) as [[r c]| |]; cbn [bind].
    + destruct K as (b' & -> & R). cbn [bind]. destruct R as (((Q & _) & _) & El & _). destruct r as [subs|e]; [|reflexivity]. rewrite Q, El. reflexivity.
    + rewrite K. reflexivity.
    + rewrite K. reflexivity.
Qed.
Lemma read_any : forall left m fuel s, 0 <= pos s -> zlen (data s) < 2 ^ 63 -> zlen (data s) + 2 ^ 32 - 5 <= left ->
  mem_read left m fuel s = grib2_read m fuel s.
Proof. intros left m fuel s Hp Hd HL. destruct (read_fits left m fuel s (2 ^ 32 - 5) ltac:(lia) Hp Hd ltac:(lia)) as [(He & _)|X]; [lia|exact X]. Qed.

(** ** Decoders *)
Lemma as_slice_mem m x d p sc b l s' : 5 <= s_size x < 2 ^ 32 -> 0 <= s_offset x -> s_offset x + s_size x <= zlen d -> zlen d < 2 ^ 63 ->
  reread m (MkSrc d p sc) x = Ret (Ok l, s') ->
  mreread m x (MkSrc d p sc, b) = if s_size x - 5 <=? b then Ret (Ok l, (s', b - (s_size x - 5))) else Diverge.
Proof.
  intros Hz Ho Hl Hd H. unfold mreread, mread_sect_payload_as_slice. unfold reread, read_sect_payload_as_slice in H.
  unfold rbind at 1, rpure at 1 in H. rewrite arith_U64_ok in H by lia. cbn [bind] in H. unfold rbind at 1 in H.
  unfold mbind at 1, mpure at 1. rewrite arith_U64_ok by lia. cbn [bind]. unfold mbind at 1, lift. cbn [fst snd].
  destruct (seek_to (s_offset x + 5) (MkSrc d p sc)) as [[[u|e] s1]| |]; cbn [bind fst snd] in *; try discriminate.
  unfold rbind at 1, rpure at 1 in H. rewrite arith_U64_ok in H by lia. cbn [bind] in H.
  unfold mbind at 1, mpure at 1. rewrite arith_U64_ok by lia. cbn [bind].
  unfold read_slice, vec_alloc in H. replace (s_size x - 5 <=? 2 ^ 63 - 1) with true in H by lia. unfold rbind, rret in H. cbn [bind] in H.
  unfold mread_slice, mvec_alloc, mbind, lift, vec_alloc, rret, take. replace (s_size x - 5 <=? 2 ^ 63 - 1) with true by lia. cbn [bind fst snd].
  destruct (s_size x - 5 <=? b); [|reflexivity]. cbn [bind fst snd]. rewrite H. reflexivity.
Qed.
Lemma bitmap_length n : 0 <= n -> zlen (create_bitmap_for_nonnullable_data n) = (n + 7) / 8.
Proof.
  intros H. unfold create_bitmap_for_nonnullable_data, zlen. destruct (n mod 8 =? 0) eqn:E; rewrite repeat_length, Z2Nat.id; lia.
Qed.

Section View.
  Variables (m : mode) (fuel : nat) (s : src) (g : grib2) (w : submessage Z) (v : view).
  Hypothesis Hr : grib2_read m fuel s = Ret (Ok g).
  Hypothesis Hd : zlen (data s) < 2 ^ 63.
  Hypothesis Hp : 0 <= pos s <= zlen (data s).
  Hypothesis Hw : In w (g_subs g).
  Hypothesis Hv : make_view g w = Some v.
  Let d := data s.

  Lemma decoder_mem : 5 <= s_size (snd (u_7 v)) -> In (bitmap_indicator d v) [0; 255] -> forall m' p sc left,
    exists dec s', decoder_from m' (MkSrc d p sc) v = Ret (Ok dec, s') /\
    mem_decoder m' v (MkSrc d p sc, left) = if decoder_memory d v <=? left then Ret (Ok dec, (s', left - decoder_memory d v)) else Diverge.
  Proof.
    intros S7 Hi m' p sc left.
    destruct (file_views m fuel s g Hr Hd Hp w v Hw Hv) as (_ & _ & (_ & H3 & N3) & _ & (I5 & H5 & N5) & (I6 & H6 & N6) & (I7 & H7 & N7)).
    destruct (decoder_fields m fuel s g w v Hr Hd Hp Hw Hv) as (E3 & E5 & E6 & G3 & G5 & T5 & P3 & _ & S6 & S5). fold d in E3, E5, E6, G3, G5, T5, P3.
    destruct (file_reread m fuel s g Hr Hd Hp _ I5 ltac:(lia) ltac:(lia)) as (L5 & R5).
    destruct (file_reread m fuel s g Hr Hd Hp _ I6 ltac:(lia) ltac:(lia)) as (L6 & R6).
    destruct (file_reread m fuel s g Hr Hd Hp _ I7 ltac:(lia) ltac:(lia)) as (L7 & R7).
    fold d in R5, R6, R7, L5, L6, L7.
    assert (U : forall x, header_at d x -> 1 <= s_num x <= 7 -> s_size x < 2 ^ 32 /\ 0 <= s_offset x).
    { intros x (O & H) N. destruct (s_num x =? 0) eqn:Q0; [lia|]. destruct (s_num x =? 8) eqn:Q8; [lia|]. destruct H as (_ & <- & _).
      split; [apply (octets_be_range d (s_offset x) 4); lia|exact O]. }
    pose proof (U _ H5 ltac:(lia)) as U5. pose proof (U _ H6 ltac:(lia)) as U6. pose proof (U _ H7 ltac:(lia)) as U7.
    assert (Rest : forall b p sc left', exists dec s',
      (let! encoded := repr_num_points (packing d v) in
       let! template := repr_tmpl_num (packing d v) in
       try_src (reread_grib m' (MkSrc d p sc) (snd (u_5 v))) (fun sect5 s2 => try_src (reread_grib m' s2 (snd (u_7 v))) (fun sect7 s3 =>
        Ret (@Ok decoder grib_error (MkDecoder (grid_points d v) encoded template sect5 b sect7), s3)))) = Ret (Ok dec, s') /\
      (mem! encoded := mpure (repr_num_points (packing d v)) in
       mem! template := mpure (repr_tmpl_num (packing d v)) in
       mem! sect5 := mreread m' (snd (u_5 v)) in
       mem! sect7 := mreread m' (snd (u_7 v)) in
       mret (MkDecoder (grid_points d v) encoded template sect5 b sect7)) (MkSrc d p sc, left') =
      let n := (s_size (snd (u_5 v)) - 5) + (s_size (snd (u_7 v)) - 5) in
      if n <=? left' then Ret (@Ok decoder grib_error dec, (s', left' - n)) else Diverge).
    { intros b p1 sc1 left'. destruct (R5 m' p1 sc1) as ([d2 p2 sc2] & X5 & Hd2). cbn [data] in Hd2. subst d2.
      destruct (R7 m' p2 sc2) as (s3 & X7 & Hd3). rewrite G5, T5. cbn [bind]. unfold mbind at 1, mpure at 1. cbn [bind]. unfold mbind at 1, mpure at 1. cbn [bind].
      do 2 eexists. split; [unfold try_src, reread_grib; rewrite X5; cbn [bind]; rewrite X7; cbn [bind]; reflexivity|].
      unfold mbind, mret. rewrite (as_slice_mem m' (snd (u_5 v)) d p1 sc1 left' _ _ ltac:(lia) ltac:(lia) ltac:(lia) Hd X5). cbv zeta.
      destruct (s_size (snd (u_5 v)) - 5 <=? left') eqn:Q5; cbn [bind]; [|replace (_ <=? left') with false by lia; reflexivity].
      rewrite (as_slice_mem m' (snd (u_7 v)) d p2 sc2 (left' - (s_size (snd (u_5 v)) - 5)) _ _ ltac:(lia) ltac:(lia) ltac:(lia) Hd X7).
      destruct (s_size (snd (u_7 v)) - 5 <=? left' - (s_size (snd (u_5 v)) - 5)) eqn:Q7; cbn [bind].
      - replace (_ <=? left') with true by lia. do 3 f_equal. lia.
      - replace (_ <=? left') with false by lia. reflexivity. }
    unfold decoder_from, mem_decoder. rewrite E3, E5, E6, G3. cbn [bind]. unfold mbind at 1, mpure at 1. cbn [bind].
    unfold decoder_bitmap, mdecoder_bitmap, decoder_memory. destruct (bitmap_indicator d v =? 0) eqn:Z0.
    - destruct (R6 m' p sc) as ([d1 p1 sc1] & X6 & Hd1). cbn [data] in Hd1. subst d1.
      unfold try_src at 2, reread_grib at 1. rewrite X6. cbn [bind].
      pose proof (zlen_octets d (s_offset (snd (u_6 v)) + 5) (s_size (snd (u_6 v)) - 5) ltac:(lia) ltac:(lia)) as Z6.
      set (l6 := octets d (s_offset (snd (u_6 v)) + 5) (s_size (snd (u_6 v)) - 5)) in *.
      destruct (slice_from l6 1) as [b6| |] eqn:Sl; cbn [bind].
      2,3: exfalso; rewrite slice_from_octets in Sl by lia; discriminate.
      assert (Zb : zlen b6 = s_size (snd (u_6 v)) - 6).
      { rewrite slice_from_octets in Sl by lia. injection Sl as <-. rewrite zlen_octets by lia. lia. }
      unfold try_src at 1. cbn [bind]. destruct (Rest b6 p1 sc1 (left - (s_size (snd (u_6 v)) - 5) - (s_size (snd (u_6 v)) - 6))) as (dec & s' & X & Y).
      exists dec, s'. split; [exact X|]. unfold mbind at 1. unfold mbind at 1.
      rewrite (as_slice_mem m' (snd (u_6 v)) d p sc left _ _ ltac:(lia) ltac:(lia) ltac:(lia) Hd X6).
      destruct (s_size (snd (u_6 v)) - 5 <=? left) eqn:Q6; cbn [bind]; [|replace (_ <=? left) with false by lia; reflexivity].
      unfold mbind at 1, mpure at 1. rewrite Sl. cbn [bind]. unfold mbind at 1, take at 1. cbn [fst snd]. rewrite Zb.
      destruct (s_size (snd (u_6 v)) - 6 <=? left - (s_size (snd (u_6 v)) - 5)) eqn:Q6'; cbn [bind]; [|replace (_ <=? left) with false by lia; reflexivity].
      unfold mret at 1. cbn [bind]. rewrite Y. cbv zeta. match goal with |- (if ?a then _ else _) = (if ?b then _ else _) => replace b with a by lia; destruct a; [|reflexivity] end.
      do 3 f_equal. lia.
    - replace (bitmap_indicator d v =? 255) with true by (destruct Hi as [Q|[Q|[]]]; lia).
      unfold try_src at 1. cbn [bind]. set (b6 := create_bitmap_for_nonnullable_data (grid_points d v)).
      assert (Zb : zlen b6 = (grid_points d v + 7) / 8) by (apply bitmap_length; lia).
      destruct (Rest b6 p sc (left - (grid_points d v + 7) / 8)) as (dec & s' & X & Y). exists dec, s'. split; [exact X|].
      unfold mbind at 1. unfold mbind at 1, take at 1. cbn [fst snd]. rewrite Zb.
      destruct ((grid_points d v + 7) / 8 <=? left) eqn:Q6; cbn [bind]; [|replace (_ <=? left) with false by lia; reflexivity].
      unfold mret at 1. cbn [bind]. rewrite Y. cbv zeta. match goal with |- (if ?a then _ else _) = (if ?b then _ else _) => replace b with a by lia; destruct a; [|reflexivity] end.
      do 3 f_equal. lia.
  Qed.
End View.

Lemma in_groups : forall i ms us u, submessages_of_all i ms us -> In u us -> exists a b, flat_map message_sections ms = a ++ u_5 u :: u_6 u :: u_7 u :: b.
Proof.
  intros i ms us u H. induction H as [|i m ms us us' Hs _ IH]; intros Hu; [destruct Hu|].
  apply in_app_or in Hu. cbn [flat_map]. destruct Hu as [Hu|Hu].
  - destruct Hs as (_ & H). apply In_nth_error in Hu. destruct Hu as (k & Hk).
    destruct (H k u Hk) as (_ & _ & _ & _ & _ & _ & (g & Hg & _ & -> & -> & ->) & _). apply nth_error_In in Hg. apply in_split in Hg.
    destruct Hg as (g1 & g2 & Eg). unfold message_sections at 1. rewrite Eg, flat_map_app. cbn [flat_map]. unfold group_sections at 2.
    exists (ms0 m :: ms1 m :: flat_map group_sections g1 ++ opt_list (gr2 g) ++ opt_list (gr3 g) ++ [gr4 g]), ((flat_map group_sections g2 ++ [ms8 m]) ++ flat_map message_sections ms).
    cbn [app]. repeat (rewrite <- ?app_assoc; cbn [app]). reflexivity.
  - destruct (IH Hu) as (a & b & ->). exists (message_sections m ++ a), b. rewrite app_assoc. reflexivity.
Qed.
Lemma tiles_three P d l a x y z b e0 c0 e c : tiles P d e0 c0 l e c -> l = a ++ x :: y :: z :: b ->
  1 <= s_num x <= 7 -> 1 <= s_num y <= 7 -> 1 <= s_num z <= 7 -> s_offset y = s_offset x + s_size x /\ s_offset z = s_offset y + s_size y.
Proof.
  intros T -> Nx Ny Nz. destruct (tiles_app_inv _ _ _ _ _ _ _ _ T) as (e1 & c1 & _ & T1). clear T.
  inversion T1 as [|? ? ? ? ? ? ? F1 F2 F3 F4 F5 T2|? ? ? ? F1 F2 T2|? ? ? ? ? ? ? ? F1 F2 F3 F4 F5 F6 F7 T2]; subst; cbn [s_num] in *; try lia.
  inversion T2 as [|? ? ? ? ? ? ? G1 G2 G3 G4 G5 T3|? ? ? ? G1 G2 T3|? ? ? ? ? ? ? ? G1 G2 G3 G4 G5 G6 G7 T3]; subst; cbn [s_num] in *; try lia.
  inversion T3 as [|? ? ? ? ? ? ? K1 K2 K3 K4 K5 T4|? ? ? ? K1 K2 T4|? ? ? ? ? ? ? ? K1 K2 K3 K4 K5 K6 K7 T4]; subst; cbn [s_num] in *; try lia.
  cbn [s_offset s_size]. split; reflexivity.
Qed.

Lemma decoder_bound : forall m fuel s g w v, grib2_read m fuel s = Ret (Ok g) -> zlen (data s) < 2 ^ 63 -> 0 <= pos s <= zlen (data s) ->
  In w (g_subs g) -> make_view g w = Some v -> 5 <= s_size (snd (u_7 v)) ->
  decoder_memory (data s) v <= 2 * zlen (data s) \/ (bitmap_indicator (data s) v <> 0 /\ decoder_memory (data s) v <= zlen (data s) + 2 ^ 29).
Proof.
  intros m fuel s g w v Hr Hd Hp Hw Hv S7.
  destruct (file_views m fuel s g Hr Hd Hp w v Hw Hv) as (_ & _ & _ & _ & (I5 & H5 & N5) & (I6 & H6 & N6) & (I7 & H7 & N7)).
  destruct (decoder_fields m fuel s g w v Hr Hd Hp Hw Hv) as (_ & _ & _ & _ & _ & _ & P3 & _ & S6 & S5).
  destruct (file_reread m fuel s g Hr Hd Hp _ I7 ltac:(lia) ltac:(lia)) as (L7 & _).
  destruct (grib2_read_inv m fuel s g Hr Hd ltac:(lia)) as (R & _). destruct s as [d p sc]. cbn [data pos] in *.
  pose proof (Inv_start m d p sc ltac:(lia) Hp) as I.
  destruct (Run_Steps _ _ _ _ R) as (it2 & St). destruct (steps_tiles _ _ _ _ _ _ _ I St) as (s2 & e2 & c2 & T & _).
  destruct (views m fuel (MkSrc d p sc) g Hr Hd ltac:(cbn [pos]; lia)) as (ms & us & vs & W & Es & U & S & M).
  destruct (Forall2_in_l _ _ _ _ _ w M Hw) as (v' & Hv' & E). assert (v' = v) by congruence. subst v'.
  destruct (Forall2_in_r _ _ _ _ _ v S Hv') as (u & Hu & Hs). destruct (in_groups 0 ms us u U Hu) as (a & b & Eg).
  destruct Hs as (_ & _ & _ & _ & _ & _ & _ & Q5 & Q6 & Q7 & _). rewrite <- Q5, <- Q6, <- Q7 in Eg. rewrite <- Es in Eg.
  destruct (tiles_three _ _ _ _ _ _ _ _ _ _ _ _ T Eg ltac:(lia) ltac:(lia) ltac:(lia)) as (O6 & O7).
  pose proof (proj1 H5) as O5. unfold decoder_memory. destruct (bitmap_indicator d v =? 0) eqn:Z0; [left; lia|right; split; lia].
Qed.

(** ** A small file *)
Section Two.
  Context {S : Type} (step : S -> outcome (option (result section parse_error) * S)).
  Lemma v_first s0 s1 x : step s0 = Ret (Some (Ok x), s1) -> s_num x = 0 ->
    v_next step (v_new s0) = Ret (Some (Ok (0, 0, 0, x)), MkV s1 1 None 0 0 0 (EndOfSect 0) false).
  Proof.
    intros E N. unfold v_next, v_new. cbn [v_state]. unfold ensure_sect0, pk_next. cbn [v_peeked]. unfold enum_next. cbn [v_src]. rewrite E. cbn [bind]. rewrite N. reflexivity.
  Qed.
  Lemma v_second s1 : let v := MkV s1 1 None 0 0 0 (EndOfSect 0) false in
    (step s1 = Diverge -> v_next step v = Diverge) /\ (forall e s2, step s1 = Ret (Some (Err e), s2) -> exists v', v_next step v = Ret (Some (Err e), v')).
  Proof.
    cbv zeta. unfold v_next. cbn [v_state]. unfold ensure_sect_num, pk_next. cbn [v_peeked]. unfold enum_next. cbn [v_src].
    split; [intros ->; reflexivity|]. intros e s2 ->. cbn [bind]. eexists. reflexivity.
  Qed.
  Lemma loop_unfold n b c4 c5 c6 c7 v' x p : v_next step (is_v b) = Ret (Some (Ok (p, 0, 0, x)), v') -> s_num x = 0 ->
    exists b', is_v b' = v' /\ isub_loop step (Datatypes.S n) b c4 c5 c6 c7 = isub_loop step n b' c4 c5 c6 c7.
  Proof. intros E N. cbn [isub_loop]. rewrite E. cbn [bind]. rewrite N. eexists. split; [|reflexivity]. reflexivity. Qed.
  Lemma loop_ends n b c4 c5 c6 c7 : (v_next step (is_v b) = Diverge -> isub_loop step (Datatypes.S n) b c4 c5 c6 c7 = Diverge) /\
    (forall e v', v_next step (is_v b) = Ret (Some (Err e), v') -> exists b', isub_loop step (Datatypes.S n) b c4 c5 c6 c7 = Ret (Some (Err e), b')).
  Proof. cbn [isub_loop]. split; [intros ->; reflexivity|]. intros e v' ->. cbn [bind]. eexists. reflexivity. Qed.
  Lemma second_step s0 s1 x : step s0 = Ret (Some (Ok x), s1) -> s_num x = 0 ->
    (step s1 = Diverge -> isub_next step (isub_new s0) = Diverge) /\
    (forall e s2, step s1 = Ret (Some (Err e), s2) -> exists b, isub_next step (isub_new s0) = Ret (Some (Err e), b)).
  Proof.
    intros E N. unfold isub_next. destruct (loop_unfold 9 (isub_new s0) 0 0 0 0 _ _ _ (v_first s0 s1 x E N) N) as (b' & Eb & ->).
    destruct (v_second s1) as (D & Er). destruct (loop_ends 8 b' 0 0 0 0) as (D' & Er'). rewrite Eb in D', Er'. split; [auto|].
    intros e s2 H. destruct (Er e s2 H) as (v' & H'). eapply Er'. exact H'.
  Qed.
End Two.

Lemma tiny_bytes n : 0 <= n + 5 < 2 ^ 32 -> exists a b c e, be [a; b; c; e] = n + 5 /\
  tiny n = [x47; x52; x49; x42; x00; x00; x00; x02; x00; x00; x00; x00; x00; x00; x00; x64; a; b; c; e; x01].
Proof.
  intros H. pose proof (be_be_bytes 4 (n + 5) ltac:(cbn; lia)) as B. pose proof (be_bytes_length 4 (n + 5)) as L. unfold tiny.
  destruct (be_bytes 4 (n + 5)) as [|a [|b [|c [|e [|? ?]]]]]; try discriminate. exists a, b, c, e. split; [exact B|reflexivity].
Qed.
Lemma tiny_read : forall n, 0 < n < 2 ^ 32 - 5 -> forall m fuel, (0 < fuel)%nat ->
  grib2_read m fuel (cursor (tiny n)) = Ret (Err (EParse ReadErrorEof)) /\
  forall left, left < n -> mem_read left m fuel (cursor (tiny n)) = Diverge.
Proof.
  intros n Hn m fuel Hf. destruct (tiny_bytes n ltac:(lia)) as (a & b & c & e & B & Et). rewrite Et. set (d := _ :: _).
  assert (Zd : zlen d = 21) by reflexivity.
  set (s1 := MkSstate (MkSrc d 16 []) 100 84). set (x := MkSection 0 0 16 (Some (B0 0 100))).
  assert (F0 : next_section m (MkSstate (cursor d) 0 0) = Ret (Some (Ok x), s1)) by (destruct m; vm_compute; reflexivity).
  assert (Hh : exists s2, read_sect_header (st_src s1) = Ret (Ok (Some (n + 5, 1)), s2) /\ data s2 = d /\ pos s2 = 21).
  { destruct (read_sect_header_spec (st_src s1) ltac:(cbn; lia)) as (r & s2 & X & D & _ & P). exists s2. cbn [s1 st_src data pos] in *.
    destruct r as [[h|]|er]; rewrite ?Zd in P; [|lia|exfalso; destruct P as (_ & P & _); specialize (P eq_refl); lia].
    destruct P as (-> & _ & P). rewrite X. repeat split; [|exact D|exact P]. do 3 f_equal. rewrite <- B. reflexivity. }
  destruct Hh as (s2 & Hh & D2 & P2). destruct fuel as [|f]; [lia|]. split.
  - assert (F1 : exists s3, next_section m s1 = Ret (Some (Err ReadErrorEof), s3)).
    { unfold next_section. cbn [s1 rest Z.eqb]. unfold next_sect. rewrite Hh. cbn [bind]. rewrite (arith_U64_ok m) by (cbn; lia). cbn [bind].
      unfold read_sect_payload, rbind at 1, rpure. rewrite arith_U64_ok by lia. cbn [bind]. cbn [Z.leb Z.compare Pos.compare Pos.compare_cont andb].
      unfold rbind, read_slice, vec_alloc. replace (n + 5 - 5 <=? 2 ^ 63 - 1) with true by lia. unfold rbind, rret. cbn [bind].
      destruct (read_exact_spec (n + 5 - 5) s2 ltac:(lia) ltac:(lia)) as (sc & _ & X). rewrite X, D2, P2, Zd.
      replace ((n + 5 - 5 =? 0) || (21 + (n + 5 - 5) <=? 21)) with false by lia. cbn [bind]. eexists. reflexivity. }
    destruct F1 as (s3 & F1). destruct (second_step (next_section m) _ s1 x F0 eq_refl) as (_ & K). destruct (K _ _ F1) as (b' & Eb).
    unfold grib2_read. cbn [read_loop]. unfold cursor in *. rewrite Eb. reflexivity.
  - intros left Hl. assert (F0' : mnext_section m (MkMstate (MkSstate (cursor d) 0 0) left) = Ret (Some (Ok x), MkMstate s1 left)).
    { unfold mnext_section. cbn [mt_s mt_left rest Z.eqb]. unfold next_section in F0. cbn [rest Z.eqb] in F0. rewrite F0. reflexivity. }
    assert (F1 : mnext_section m (MkMstate s1 left) = Diverge).
    { unfold mnext_section. cbn [mt_s mt_left s1 rest Z.eqb]. unfold mnext_sect. cbv zeta. cbn [mt_s mt_left]. fold s1. rewrite Hh. cbn [bind]. rewrite (arith_U64_ok m) by (cbn; lia). cbn [bind].
      unfold mread_sect_payload, mbind at 1, mpure. rewrite arith_U64_ok by lia. cbn [bind]. cbn [Z.leb Z.compare Pos.compare Pos.compare_cont andb].
      unfold mbind, mread_slice, mvec_alloc, mbind, lift, vec_alloc. cbn [fst snd]. replace (n + 5 - 5 <=? 2 ^ 63 - 1) with true by lia. cbn [rret bind fst snd].
      unfold take. cbn [fst snd]. replace (n + 5 - 5 <=? left) with false by lia. reflexivity. }
    destruct (second_step (mnext_section m) _ _ x F0' eq_refl) as (K & _). unfold mem_read. cbn [mread_loop]. rewrite (K F1). reflexivity.
Qed.
Lemma read_own : forall left m fuel s, 0 <= pos s -> zlen (data s) < 2 ^ 63 -> zlen (data s) <= left ->
  (exists e, grib2_read m fuel s = Ret (Err e)) \/ mem_read left m fuel s = grib2_read m fuel s.
Proof. intros left m fuel s Hp Hd HL. destruct (read_fits left m fuel s 0 ltac:(lia) Hp Hd ltac:(lia)) as [(_ & X)|X]; auto. Qed.
