From Coq Require Import Lia ZifyBool ZifyNat.
From Verif Require Import Model.Base Model.Stream Spec.Bits Proofs.BaseLemmas Proofs.BitsP.
Ltac Zify.zify_post_hook ::= Z.div_mod_to_equations.

Lemma lor_disjoint : forall x y k, 0 <= k -> 0 <= y < 2 ^ k -> Z.lor (x * 2 ^ k) y = x * 2 ^ k + y.
Proof.
  intros x y k Hk Hy. rewrite <- Z.lxor_lor, <- Z.add_nocarry_lxor; try reflexivity.
  all: apply Z.bits_inj'; intros i Hi; rewrite Z.land_spec, Z.bits_0;
    destruct (Z.lt_ge_cases i k) as [H|H].
  1,3: rewrite Z.mul_pow2_bits_low by lia; reflexivity.
  all: replace y with (y mod 2 ^ k) by (apply Z.mod_small; lia);
    rewrite Z.mod_pow2_bits_high by lia; apply andb_false_r.
Qed.

(** One accumulation step of the u32 register, whatever it has lost already. *)
Lemma acc_step : forall m X y k, 0 <= k < 32 -> 0 <= y < 2 ^ k ->
  shl m U32 (X mod 2 ^ 32) k = Ret ((X * 2 ^ k) mod 2 ^ 32) /\
  Z.lor ((X * 2 ^ k) mod 2 ^ 32) y = (X * 2 ^ k + y) mod 2 ^ 32.
Proof.
  intros m X y k Hk Hy.
  assert (P : 0 < 2 ^ k) by (apply pow2_pos; lia).
  assert (E : 2 ^ 32 = 2 ^ (32 - k) * 2 ^ k) by (rewrite <- Z.pow_add_r by lia; f_equal; lia).
  assert (P' : 0 < 2 ^ (32 - k)) by (apply pow2_pos; lia).
  split.
  - rewrite shl_ok by (cbn [bits_of]; lia). rewrite wrap_unsigned by reflexivity.
    cbn [bits_of]. f_equal. rewrite Z.mul_mod_idemp_l by lia. reflexivity.
  - rewrite E. rewrite !Z.mul_mod_distr_r by lia.
    rewrite lor_disjoint by lia.
    set (p := 2 ^ k) in *. set (q := 2 ^ (32 - k)) in *. clearbody p q. clear E Hk.
    pose proof (Z.div_mod X q) as DM. pose proof (Z.mod_pos_bound X q P') as MB.
    set (d := X / q) in *. set (r := X mod q) in *. clearbody d r.
    apply (Z.mod_unique_pos _ _ d); nia.
Qed.

Lemma nbit_accumulate_spec : forall m mid l1 l3 X,
  nbit_accumulate (length mid) m (l1 ++ mid ++ l3) (zlen l1) (X mod 2 ^ 32)
  = Ret ((X * 2 ^ (8 * zlen mid) + bits_value (bits_of_bytes mid)) mod 2 ^ 32).
Proof.
  intros m mid. induction mid as [|b mid IH]; intros l1 l3 X.
  - cbn [length nbit_accumulate]. rewrite zlen_nil. change (2 ^ (8 * 0)) with 1.
    cbn [bits_of_bytes flat_map bits_value]. f_equal. f_equal. lia.
  - cbn [length nbit_accumulate app]. rewrite index_ok by reflexivity. cbn [bind].
    pose proof (bz_range b) as Rb.
    destruct (acc_step m X (bz b) 8) as [E1 E2]; [lia|exact Rb|].
    rewrite E1. cbn [bind]. rewrite E2.
    replace (l1 ++ b :: mid ++ l3) with ((l1 ++ [b]) ++ mid ++ l3) by (rewrite <- app_assoc; reflexivity).
    replace (zlen l1 + 1) with (zlen (l1 ++ [b])) by (rewrite zlen_app; reflexivity).
    rewrite IH. f_equal. f_equal.
    rewrite bits_of_bytes_cons, bits_value_app, bits_value_byte, zlen_bits_of_bytes, zlen_cons.
    rewrite Z.mul_add_distr_l, Z.pow_add_r by (pose proof (zlen_nonneg _ mid); lia).
    change (2 ^ (8 * 1)) with (2 ^ 8). ring.
Qed.

(** Bit position of the iterator. *)
Definition nb_bitpos (s : nbit_state) : Z := 8 * nb_pos s + nb_offset s.
Definition nb_wf (s : nbit_state) : Prop := 0 <= nb_pos s /\ 0 <= nb_offset s < 8 /\ 1 <= nb_size s.

Lemma nbit_next_none : forall m s, nb_wf s ->
  8 * zlen (nb_data s) < nb_bitpos s + nb_size s -> nbit_next m s = Ret (None, s).
Proof.
  intros m [data size pos offset] (Hp & Ho & Hs) H. unfold nb_bitpos in H. cbn [nb_data nb_size nb_pos nb_offset] in *.
  unfold nbit_next. cbv zeta.
  replace ((zlen data <=? pos) || (zlen data <? pos + (offset + size) / 8)
           || ((pos + (offset + size) / 8 =? zlen data) && (0 <? (offset + size) mod 8))) with true; [reflexivity|].
  symmetry. apply orb_true_iff.
  destruct (Z.lt_trichotomy (pos + (offset + size) / 8) (zlen data)) as [Hl|[He|Hg]]; [exfalso| |].
  - lia.
  - right. apply andb_true_iff. split; lia.
  - left. lia.
Qed.

Lemma nbit_next_some : forall m s, nb_wf s ->
  nb_bitpos s + nb_size s <= 8 * zlen (nb_data s) ->
  exists s', nbit_next m s =
    Ret (Some (bits_value (firstn (Z.to_nat (nb_size s))
                (skipn (Z.to_nat (nb_bitpos s)) (bits_of_bytes (nb_data s)))) mod 2 ^ 32), s')
  /\ nb_wf s' /\ nb_data s' = nb_data s /\ nb_size s' = nb_size s
  /\ nb_bitpos s' = nb_bitpos s + nb_size s.
Proof.
  intros m [data size pos offset] (Hp & Ho & Hs) H. unfold nb_bitpos in *. cbn [nb_data nb_size nb_pos nb_offset] in *.
  unfold nbit_next. cbv zeta.
  set (new_pos := pos + (offset + size) / 8). set (new_offset := (offset + size) mod 8).
  assert (Hno : 0 <= new_offset < 8) by (apply Z.mod_pos_bound; lia).
  assert (Hsum : 8 * new_pos + new_offset = 8 * pos + offset + size) by (unfold new_pos, new_offset; lia).
  assert (Hge : pos <= new_pos) by (unfold new_pos; lia).
  clearbody new_pos new_offset.
  replace ((zlen data <=? pos) || (zlen data <? new_pos)
           || ((new_pos =? zlen data) && (0 <? new_offset))) with false by lia.
  destruct (list_split_elem _ data pos) as (pre & b & rest & Ed & Lpre); [lia|].
  assert (Ei : index data pos = Ret b) by (rewrite Ed; apply index_ok; lia).
  rewrite Ei. cbn [bind].
  rewrite shl_ok by (cbn [bits_of]; lia). cbn [bind]. rewrite shr_ok by (cbn [bits_of]; lia). cbn [bind].
  rewrite wrap_unsigned by reflexivity. cbn [bits_of].
  pose proof (bz_range b) as Rb.
  set (h := skipn (Z.to_nat offset) (byte_bits b)).
  assert (Lh : length h = Z.to_nat (8 - offset)).
  { unfold h. rewrite skipn_length, byte_bits_length. lia. }
  assert (Eh : (bz b * 2 ^ offset) mod 2 ^ 8 / 2 ^ offset = bits_value h).
  { unfold h. rewrite bits_value_byte_skipn by lia. rewrite Z2Nat.id by lia.
    assert (Ep : 2 ^ 8 = 2 ^ (8 - offset) * 2 ^ offset) by (rewrite <- Z.pow_add_r by lia; f_equal; lia).
    assert (0 < 2 ^ offset) by (apply pow2_pos; lia).
    assert (0 < 2 ^ (8 - offset)) by (apply pow2_pos; lia).
    rewrite Ep, Z.mul_mod_distr_r by lia. apply Z.div_mul. lia. }
  rewrite Eh.
  assert (Esk : skipn (Z.to_nat (8 * pos + offset)) (bits_of_bytes data) = h ++ bits_of_bytes rest).
  { rewrite Ed, bits_of_bytes_app, bits_of_bytes_cons.
    rewrite skipn_app_more with (k := Z.to_nat offset).
    - apply skipn_app_less. rewrite byte_bits_length. lia.
    - rewrite bits_of_bytes_length. unfold zlen in Lpre. lia. }
  rewrite Esk.
  pose proof (bits_value_range h) as Rh. unfold zlen in Rh. rewrite Lh, Z2Nat.id in Rh by lia.
  assert (Rh8 : bits_value h < 2 ^ 8).
  { eapply Z.lt_le_trans; [apply Rh|]. apply Z.pow_le_mono_r; lia. }
  assert (Eh32 : bits_value h = bits_value h mod 2 ^ 32).
  { symmetry. apply Z.mod_small. split; [lia|]. eapply Z.lt_trans; [exact Rh8|]. reflexivity. }
  destruct (Z.eqb_spec new_pos pos) as [Heq|Hne].
  - (* the field lies inside one octet *)
    rewrite shr_ok by (cbn [bits_of]; lia). cbn [bind].
    eexists. split; [f_equal; f_equal; f_equal|].
    2:{ unfold nb_wf. cbn [nb_data nb_size nb_pos nb_offset]. repeat split; lia. }
    rewrite firstn_app_less by lia.
    set (n := Z.to_nat size).
    assert (En : h = firstn n h ++ skipn n h) by (symmetry; apply firstn_skipn).
    assert (Lf : zlen (firstn n h) = size) by (unfold zlen; rewrite firstn_length, Lh; lia).
    assert (Ls : zlen (skipn n h) = 8 - new_offset) by (unfold zlen; rewrite skipn_length, Lh; lia).
    pose proof (bits_value_range (firstn n h)) as Rf. rewrite Lf in Rf.
    pose proof (bits_value_range (skipn n h)) as Rs. rewrite Ls in Rs.
    rewrite En at 1. rewrite bits_value_app, Ls.
    assert (P : 0 < 2 ^ (8 - new_offset)) by (apply pow2_pos; lia).
    assert (Q : 2 ^ size <= 2 ^ 8) by (apply Z.pow_le_mono_r; lia).
    change (2 ^ 8) with 256 in *. change (2 ^ 32) with 4294967296.
    rewrite Z.div_add_l by lia. rewrite (Z.div_small (bits_value (skipn n h))) by lia.
    rewrite Z.mod_small by lia. lia.
  - set (nmid := Z.to_nat (new_pos - (pos + 1))).
    destruct (list_split_at _ rest (Z.of_nat nmid)) as (mid & rest2 & Er & Lmid).
    { rewrite Ed, zlen_app, zlen_cons in H. lia. }
    assert (Ln : nmid = length mid) by (unfold zlen in Lmid; lia).
    rewrite Ln, Eh32, Ed, Er.
    replace (pre ++ b :: mid ++ rest2) with ((pre ++ [b]) ++ mid ++ rest2) by (rewrite <- app_assoc; reflexivity).
    replace (pos + 1) with (zlen (pre ++ [b])) by (rewrite zlen_app; unfold zlen at 2; cbn [length]; lia).
    rewrite nbit_accumulate_spec. cbn [bind].
    set (X := bits_value h * 2 ^ (8 * zlen mid) + bits_value (bits_of_bytes mid)).
    assert (EX : X = bits_value (h ++ bits_of_bytes mid)).
    { rewrite bits_value_app, zlen_bits_of_bytes. reflexivity. }
    destruct (Z.ltb_spec 0 new_offset) as [Hpos|Hz].
    + destruct rest2 as [|lb post].
      { exfalso. rewrite Ed, Er in H. rewrite !zlen_app, zlen_cons, zlen_app, zlen_nil in H. lia. }
      replace ((pre ++ [b]) ++ mid ++ lb :: post) with (((pre ++ [b]) ++ mid) ++ lb :: post)
        by (rewrite <- !app_assoc; reflexivity).
      rewrite index_ok.
      2:{ rewrite !zlen_app. unfold zlen at 2. cbn [length]. lia. }
      cbn [bind]. rewrite shr_ok by (cbn [bits_of]; lia). cbn [bind].
      pose proof (bz_range lb) as Rlb.
      assert (El : bz lb / 2 ^ (8 - new_offset) = bits_value (firstn (Z.to_nat new_offset) (byte_bits lb))).
      { rewrite bits_value_byte_firstn by lia. rewrite Z2Nat.id by lia. reflexivity. }
      rewrite El.
      set (g := firstn (Z.to_nat new_offset) (byte_bits lb)).
      assert (Lg : zlen g = new_offset).
      { unfold g, zlen. rewrite firstn_length, byte_bits_length. lia. }
      pose proof (bits_value_range g) as Rg. rewrite Lg in Rg.
      destruct (acc_step m X (bits_value g) new_offset) as [E1 E2]; [lia|exact Rg|].
      rewrite E1. cbn [bind]. rewrite E2.
      eexists. split; [f_equal; f_equal; f_equal|].
      2:{ unfold nb_wf. cbn [nb_data nb_size nb_pos nb_offset]. repeat split; lia. }
      f_equal. rewrite bits_of_bytes_app, bits_of_bytes_cons.
      rewrite firstn_app_more with (k := (8 * length mid + Z.to_nat new_offset)%nat).
      2:{ rewrite Lh. lia. }
      rewrite firstn_app_more with (k := Z.to_nat new_offset).
      2:{ rewrite bits_of_bytes_length. lia. }
      rewrite firstn_app_less by (rewrite byte_bits_length; lia). fold g.
      rewrite app_assoc, bits_value_app, <- EX, Lg. reflexivity.
    + cbn [bind]. eexists. split; [f_equal; f_equal; f_equal|].
      2:{ unfold nb_wf. cbn [nb_data nb_size nb_pos nb_offset]. repeat split; lia. }
      f_equal. rewrite bits_of_bytes_app.
      rewrite firstn_app_more with (k := (8 * length mid)%nat) by (rewrite Lh; lia).
      rewrite firstn_app_less by (rewrite bits_of_bytes_length; lia).
      rewrite <- (bits_of_bytes_length mid), firstn_all. exact EX.
Qed.

(** Number of whole fields between a start bit and the end of the data. *)
Definition field_count (data : list byte) (off n : Z) : Z := (8 * zlen data - off) / n.

Lemma nbit_run_state : forall m c s, nb_wf s ->
  nb_bitpos s + Z.of_nat c * nb_size s <= 8 * zlen (nb_data s) ->
  8 * zlen (nb_data s) < nb_bitpos s + (Z.of_nat c + 1) * nb_size s ->
  Run (nbit_iter m s)
    (map (fun v => v mod 2 ^ 32)
       (fields (bits_of_bytes (nb_data s)) (Z.to_nat (nb_bitpos s)) (Z.to_nat (nb_size s)) c)) End.
Proof.
  intros m c. induction c as [|c IH]; intros s Hwf Hle Hgt.
  - eapply Run_end. unfold nbit_iter. rewrite next_mk, nbit_next_none by (try exact Hwf; lia). reflexivity.
  - pose proof Hwf as (Hp & Ho & Hs).
    destruct (nbit_next_some m s Hwf) as (s' & E & Hwf' & Ed & Es & Ep); [nia|].
    rewrite fields_S. cbn [map]. eapply Run_cons.
    + unfold nbit_iter. rewrite next_mk, E. reflexivity.
    + specialize (IH s' Hwf'). rewrite Ed, Es, Ep in IH.
      unfold nb_bitpos in *.
      replace (Z.to_nat (8 * nb_pos s + nb_offset s) + Z.to_nat (nb_size s))%nat
        with (Z.to_nat (8 * nb_pos s + nb_offset s + nb_size s)) by lia.
      apply IH; lia.
Qed.

Lemma nbit_run : forall m data n off, 0 <= off < 8 -> 1 <= n -> 
  Run (nbit_iter m (nbit_with_offset (nbit_new data n) off))
    (map (fun v => v mod 2 ^ 32)
      (fields (bits_of_bytes data) (Z.to_nat off) (Z.to_nat n) (Z.to_nat (field_count data off n)))) End.
Proof.
  intros m data n off Ho Hn. unfold field_count.
  set (s := nbit_with_offset (nbit_new data n) off).
  assert (Hwf : nb_wf s) by (unfold nb_wf, s; cbn; lia).
  pose proof (zlen_nonneg _ data) as Hz.
  destruct (Z.lt_ge_cases (8 * zlen data) off) as [Hlt|Hge].
  - (* offset beyond the (empty) data *)
    replace (Z.to_nat ((8 * zlen data - off) / n)) with 0%nat by nia.
    eapply Run_end. unfold nbit_iter. rewrite next_mk, nbit_next_none; [reflexivity|exact Hwf|].
    unfold nb_bitpos, s. cbn [nbit_with_offset nbit_new nb_data nb_size nb_pos nb_offset]. lia.
  - pose proof (nbit_run_state m (Z.to_nat ((8 * zlen data - off) / n)) s Hwf) as HR.
    unfold nb_bitpos, s in HR. cbn [nbit_with_offset nbit_new nb_data nb_size nb_pos nb_offset] in HR.
    replace (8 * 0 + off) with off in HR by lia.
    apply HR.
    + rewrite Z2Nat.id by (apply Z.div_pos; lia). nia.
    + rewrite Z2Nat.id by (apply Z.div_pos; lia). nia.
Qed.

Lemma bits_value_firstn_small : forall n l, (n <= 32)%nat -> bits_value (firstn n l) mod 2 ^ 32 = bits_value (firstn n l).
Proof.
  intros n l Hn. apply Z.mod_small. pose proof (bits_value_range (firstn n l)) as R.
  split; [lia|]. eapply Z.lt_le_trans; [apply R|]. apply Z.pow_le_mono_r; [lia|].
  unfold zlen. rewrite firstn_length. lia.
Qed.

Lemma fields_mod32 : forall bits off n c, (n <= 32)%nat ->
  map (fun v => v mod 2 ^ 32) (fields bits off n c) = fields bits off n c.
Proof.
  intros. unfold fields. rewrite map_map. apply map_ext. intros k. apply bits_value_firstn_small. assumption.
Qed.

Lemma nbit_run_32 : forall m data n off, 0 <= off < 8 -> 1 <= n <= 32 -> 
  Run (nbit_iter m (nbit_with_offset (nbit_new data n) off))
      (fields (bits_of_bytes data) (Z.to_nat off) (Z.to_nat n) (Z.to_nat (field_count data off n))) End.
Proof.
  intros m data n off Ho Hn. rewrite <- fields_mod32 by lia. apply nbit_run; lia.
Qed.

(** Exhausted means exhausted for good. *)
Lemma nbit_fused : forall m s s', nb_wf s -> nbit_next m s = Ret (None, s') -> s' = s.
Proof.
  intros m s s' Hwf H.
  destruct (Z.lt_ge_cases (8 * zlen (nb_data s)) (nb_bitpos s + nb_size s)) as [Hl|Hg].
  - rewrite nbit_next_none in H by assumption. congruence.
  - destruct (nbit_next_some m s Hwf) as (s'' & E & _); [lia|]. congruence.
Qed.

Lemma Run_fixed : forall A (v : A) n, Run (fixed_iter v (Z.of_nat n)) (repeat v n) End.
Proof.
  intros A v n. induction n as [|n IH].
  - eapply Run_end. reflexivity.
  - cbn [repeat]. eapply Run_cons.
    + unfold fixed_iter. rewrite next_mk. unfold fixed_next.
      replace (0 <? Z.of_nat (S n)) with true by lia. reflexivity.
    + replace (Z.of_nat (S n) - 1) with (Z.of_nat n) by lia. exact IH.
Qed.

Lemma field_count_pack : forall n vs, (1 <= n)%nat ->
  exists extra, field_count (pack n vs) 0 (Z.of_nat n) = Z.of_nat (length vs + extra) /\ (extra * n < 8)%nat
  /\ exists pad, bits_of_bytes (pack n vs) = flat_map (int_bits n) vs ++ repeat false pad.
Proof.
  intros n vs Hn. unfold pack.
  destruct (bytes_of_bits_spec (flat_map (int_bits n) vs)) as (pad & Hp & E).
  exists (pad / n)%nat. split; [|split].
  - unfold field_count. pose proof (zlen_bits_of_bytes (bytes_of_bits (flat_map (int_bits n) vs))) as L.
    rewrite E in L. rewrite zlen_app, zlen_repeat in L. unfold zlen at 1 in L.
    rewrite flat_map_int_bits_length in L. rewrite <- L.
    replace (Z.of_nat (length vs * n) + Z.of_nat pad - 0) with (Z.of_nat (length vs) * Z.of_nat n + Z.of_nat pad) by lia.
    rewrite Z.div_add_l by lia. rewrite Nat2Z.inj_add, Nat2Z.inj_div. lia.
  - pose proof (Nat.mul_div_le pad n). nia.
  - exists pad. exact E.
Qed.

Lemma fields_zeros : forall pre pad n c, (c * n <= pad)%nat -> 
  fields (pre ++ repeat false pad) (length pre) n c = repeat 0 c.
Proof.
  intros pre pad n c. revert pre pad. induction c as [|c IH]; intros pre pad H; [reflexivity|].
  rewrite fields_S. cbn [repeat]. f_equal.
  - rewrite skipn_app_exact by reflexivity.
    replace pad with (n + (pad - n))%nat by lia. rewrite repeat_app.
    rewrite firstn_app_exact by (rewrite repeat_length; reflexivity).
    clear. induction n as [|n IH]; [reflexivity|]. cbn [repeat bits_value]. lia.
  - replace pad with (n + (pad - n))%nat by lia. rewrite repeat_app, app_assoc.
    replace (length pre + n)%nat with (length (pre ++ repeat false n)) by (rewrite app_length, repeat_length; lia).
    apply IH. lia.
Qed.

Lemma pack_unpack : forall m n vs, (1 <= n <= 32)%nat -> Forall (fun v => 0 <= v < 2 ^ Z.of_nat n) vs ->
  exists extra, (extra * n < 8)%nat /\
    Run (bit_stream m (pack n vs) (Z.of_nat n) (zlen vs)) (vs ++ repeat 0 extra) End.
Proof.
  intros m n vs Hn HF.
  destruct (field_count_pack n vs) as (extra & Ec & He & pad & Eb); [lia|].
  exists extra. split; [exact He|].
  unfold bit_stream. replace (Z.of_nat n =? 0) with false by lia.
  pose proof (nbit_run_32 m (pack n vs) (Z.of_nat n) 0) as HR.
  change (nbit_with_offset (nbit_new (pack n vs) (Z.of_nat n)) 0) with (nbit_new (pack n vs) (Z.of_nat n)) in HR.
  rewrite Ec, !Nat2Z.id, Eb in HR. 
  assert (Hpad : (extra * n <= pad)%nat).
  { pose proof (zlen_bits_of_bytes (pack n vs)) as L. rewrite Eb, zlen_app, zlen_repeat in L.
    unfold zlen at 1 in L. rewrite flat_map_int_bits_length in L.
    unfold field_count in Ec. nia. }
  rewrite fields_app in HR. change (Z.to_nat 0) with 0%nat in HR.
  pose proof (fields_encode n vs [] (repeat false pad) HF) as EF. cbn [app length] in EF.
  rewrite EF in HR. cbn [Nat.add] in HR.
  rewrite <- (flat_map_int_bits_length n vs) in HR. rewrite fields_zeros in HR by exact Hpad.
  apply HR; lia.
Qed.
