From Coq Require Import Lia ZifyBool ZifyNat.
From Verif Require Import Model.Base Model.Helpers Model.Errors Model.F32 Model.Stream Model.Diff Model.Complex.
From Verif Require Import Spec.Bits Spec.ComplexS.
From Verif Require Import Proofs.BaseLemmas Proofs.HelpersP Proofs.BitsP Proofs.StreamP Proofs.Bits2 Proofs.Fields Proofs.DiffP.
Ltac Zify.zify_post_hook ::= Z.div_mod_to_equations.

Lemma fields_prefix : forall b b' off n c, (off + c * n <= length b)%nat ->
  fields (b ++ b') off n c = fields b off n c.
Proof.
  intros b b' off n c. revert off. induction c as [|c IH]; intros off H; [reflexivity|].
  rewrite !fields_S. rewrite IH by lia. f_equal. f_equal.
  rewrite skipn_app_less by lia. rewrite firstn_app_less; [reflexivity|]. rewrite skipn_length. lia.
Qed.

(** Reading [zlen vals] packed values at bit [8 * pos + off] of [data]. *)
Lemma group_read : forall m data pos off w vals rest,
  0 <= pos -> 0 <= off < 8 -> (1 <= w <= 32)%nat ->
  8 * pos + off <= 8 * zlen data ->
  skipn (Z.to_nat (8 * pos + off)) (bits_of_bytes data) = flat_map (int_bits w) vals ++ rest ->
  Forall (fun v => 0 <= v < 2 ^ Z.of_nat w) vals ->
  let bits := off + Z.of_nat w * zlen vals in
  exists d, slice data pos (pos + bits / 8 + (if 0 <? bits mod 8 then 1 else 0)) = Ret d
    /\ Run (itake (zlen vals) (nbit_iter m (nbit_with_offset (nbit_new d (Z.of_nat w)) off))) vals End.
Proof.
  intros m data pos off w vals rest Hpos Hoff Hw Hin Hbits HF bits.
  assert (HL : (length (bits_of_bytes data) = Z.to_nat (8 * pos + off) + length vals * w + length rest)%nat).
  { rewrite <- (firstn_skipn (Z.to_nat (8 * pos + off)) (bits_of_bytes data)), app_length, Hbits, app_length,
      flat_map_int_bits_length, firstn_length, bits_of_bytes_length.
    unfold zlen in Hin. lia. }
  rewrite bits_of_bytes_length in HL.
  assert (HB : 0 <= Z.of_nat w * zlen vals) by (unfold zlen; nia).
  assert (HB' : Z.of_nat w * zlen vals = Z.of_nat (length vals * w)) by (unfold zlen; nia).
  set (e := pos + bits / 8 + (if 0 <? bits mod 8 then 1 else 0)).
  assert (He : bits <= 8 * (e - pos) < bits + 8).
  { subst e. destruct (0 <? bits mod 8) eqn:E; subst bits; lia. }
  assert (Hend : e <= zlen data). { unfold zlen. subst bits. lia. }
  destruct (list_split_at _ data pos) as (d1 & t & Ed & L1). { unfold zlen; lia. }
  destruct (list_split_at _ t (e - pos)) as (d2 & d3 & Et & L2).
  { subst data. rewrite zlen_app in Hend. split; subst bits; lia. }
  subst t data. exists d2. split.
  - apply slice_split; lia.
  - pose proof (nbit_run_32 m d2 (Z.of_nat w) off Hoff) as HR. 
    assert (Hw' : 1 <= Z.of_nat w <= 32) by lia. specialize (HR Hw').
    apply Run_itake with (n := zlen vals) in HR; [|apply zlen_nonneg].
    replace (firstn _ _) with vals in HR; [exact HR|].
    rewrite Nat2Z.id. replace (Z.to_nat (zlen vals)) with (length vals) by (unfold zlen; lia).
    assert (HC : (length vals <= Z.to_nat (field_count d2 off (Z.of_nat w)))%nat).
    { unfold field_count. apply Nat2Z.inj_le. rewrite Z2Nat.id by (apply Z.div_pos; lia).
      apply Z.div_le_lower_bound; [lia|]. subst bits. unfold zlen in *. lia. }
    replace (Z.to_nat (field_count d2 off (Z.of_nat w)))
      with (length vals + (Z.to_nat (field_count d2 off (Z.of_nat w)) - length vals))%nat by lia.
    rewrite fields_app, firstn_app_exact by (rewrite fields_length; reflexivity).
    rewrite <- (fields_prefix _ (bits_of_bytes d3)).
    2:{ rewrite bits_of_bytes_length. subst bits. unfold zlen in *. lia. }
    rewrite <- bits_of_bytes_app.
    rewrite <- (fields_skip (bits_of_bytes d1)). rewrite <- bits_of_bytes_app.
    replace (length (bits_of_bytes d1) + Z.to_nat off)%nat with (Z.to_nat (8 * pos + off))
      by (rewrite bits_of_bytes_length; unfold zlen in L1; lia).
    set (D := bits_of_bytes (d1 ++ d2 ++ d3)) in *.
    rewrite <- (firstn_skipn (Z.to_nat (8 * pos + off)) D). rewrite Hbits.
    assert (LP : length (firstn (Z.to_nat (8 * pos + off)) D) = Z.to_nat (8 * pos + off)).
    { rewrite firstn_length. subst D. rewrite bits_of_bytes_length. lia. }
    set (k := Z.to_nat (8 * pos + off)) in *. rewrite <- LP at 2. rewrite fields_encode by assumption. reflexivity.
Qed.

Lemma Forall2_map_r : forall A B (R : A -> B -> Prop) (f : A -> B) l,
  Forall (fun a => R a (f a)) l -> Forall2 R l (map f l).
Proof. induction 1; cbn [map]; constructor; auto. Qed.

Lemma pow_le_mono : forall a b, 0 <= a <= b -> 2 ^ a <= 2 ^ b.
Proof. intros. apply Z.pow_le_mono_r; lia. Qed.

Lemma group_value_ok : forall m mvm nbit zmin g x, (1 <= g_width g <= 31)%nat ->
  0 <= g_ref g < 2 ^ 31 ->
  0 <= x < 2 ^ Z.of_nat (g_width g) ->
  match point mvm nbit zmin g x with
  | Normal v => g_ref g + x < 2 ^ 31 /\ - 2 ^ 31 <= v < 2 ^ 31
  | _ => True end ->
  group_value m mvm zmin (g_ref g) (2 ^ Z.of_nat (g_width g) - 1) (2 ^ Z.of_nat (g_width g) - 2) x
  = Ret (point mvm nbit zmin g x).
Proof.
  intros m mvm nbit zmin g x Hw Hr Hx HP. unfold group_value, point in *.
  destruct (g_width g) as [|w] eqn:Ew; [lia|].
  replace (0 <? mvm) with (1 <=? mvm) by lia.
  destruct ((1 <=? mvm) && (x =? 2 ^ Z.of_nat (S w) - 1)); [reflexivity|].
  destruct ((mvm =? 2) && (x =? 2 ^ Z.of_nat (S w) - 2)); [reflexivity|].
  destruct HP as [H1 H2]. rewrite p31 in *.
  unfold as_grib_int. change (2 ^ (bits_of U32 - 1)) with 2147483648.
  replace (2147483648 <=? x) with false by lia. cbn [bind].
  rewrite wrap_id by mlia. rewrite arith_ok by mlia. cbn [bind]. rewrite arith_ok by mlia. cbn [bind].
  f_equal. f_equal. lia.
Qed.

Section G.
  Variables R W L : Type.
  Variable ref_next : R -> outcome (option Z * R).
  Variable width_next : W -> outcome (option Z * W).
  Variable len_next : L -> outcome (option Z * L).
  Variable m : mode.
  Variables mvm zmin : Z.
  Variables nbit wref wnbit : nat.
  Variable data : list byte.
  Hypothesis Hnbit : (nbit <= 30)%nat.

  Notation gok := (group_ok mvm zmin nbit wref wnbit).
  Notation gpoints := (group_points mvm (Z.of_nat nbit) zmin).
  Notation gbits := (fun g => flat_map (int_bits (g_width g)) (g_vals g)).
  Notation gnext := (groups_next R W L ref_next width_next len_next m mvm (Z.of_nat nbit) zmin data).
  Notation fnext := (flat_next R W L ref_next width_next len_next m mvm (Z.of_nat nbit) zmin data).

  Lemma pow_nbit : 0 < 2 ^ Z.of_nat nbit <= 2 ^ 30.
  Proof. split; [apply pow2_pos; lia|apply pow_le_mono; lia]. Qed.

  Lemma groups_step : forall g gs r w l pos off rest r' w' l',
    gok g -> 0 <= pos -> 0 <= off < 8 -> 8 * pos + off <= 8 * zlen data ->
    skipn (Z.to_nat (8 * pos + off)) (bits_of_bytes data) = flat_map gbits (g :: gs) ++ rest ->
    ref_next r = Ret (Some (g_ref g), r') ->
    width_next w = Ret (Some (Z.of_nat (g_width g)), w') ->
    len_next l = Ret (Some (zlen (g_vals g)), l') ->
    exists pos' off', gnext (GS r w l pos off) = Ret (Some (gpoints g), GS r' w' l' pos' off')
      /\ 0 <= pos' /\ 0 <= off' < 8 /\ 8 * pos' + off' <= 8 * zlen data
      /\ skipn (Z.to_nat (8 * pos' + off')) (bits_of_bytes data) = flat_map gbits gs ++ rest.
  Proof.
    intros g gs r w l pos off rest r' w' l' (Href & Hw & Hwn & Hlen & Hne & HF) Hpos Hoff Hin Hbits Er Ew El.
    unfold groups_next. rewrite Er. cbn [bind]. rewrite Ew. cbn [bind]. rewrite El. cbn [bind].
    pose proof pow_nbit as PN. change (2 ^ 30) with 1073741824 in PN.
    destruct (Nat.eq_dec (g_width g) 0) as [E0|E0].
    - rewrite E0 in *. change (Z.of_nat 0 =? 0) with true. cbv iota.
      exists pos, off. split; [|repeat split; try assumption; try lia].
      + unfold group_constant. rewrite max_I32.
        replace (2147483647 <? g_ref g) with false by lia.
        rewrite shl_ok by (change (bits_of I32) with 32; lia). cbn [bind].
        rewrite wrap_id by mlia. rewrite Z.mul_1_l.
        rewrite arith_ok by mlia. cbn [bind]. rewrite arith_ok by mlia. cbn [bind].
        assert (EV : forall x, In x (g_vals g) -> x = 0).
        { intros x Hx. rewrite Forall_forall in HF. apply HF in Hx. destruct Hx as [Hx _]. change (2 ^ Z.of_nat 0) with 1 in Hx. lia. }
        assert (EP : gpoints g = repeat (point mvm (Z.of_nat nbit) zmin g 0) (Z.to_nat (zlen (g_vals g)))).
        { unfold group_points, zlen. rewrite Nat2Z.id. clear -EV.
          induction (g_vals g) as [|a v IH]; [reflexivity|]. cbn [map length repeat]. f_equal.
          - rewrite (EV a) by (left; reflexivity). reflexivity.
          - apply IH. intros x Hx. apply EV. right; exact Hx. }
        rewrite EP. unfold point. rewrite E0.
        replace (2 ^ Z.of_nat nbit - 1 - 1) with (2 ^ Z.of_nat nbit - 2) by lia.
        replace (0 <? mvm) with (1 <=? mvm) by lia.
        destruct ((1 <=? mvm) && (g_ref g =? 2 ^ Z.of_nat nbit - 1)) eqn:EM1; [reflexivity|].
        destruct ((mvm =? 2) && (g_ref g =? 2 ^ Z.of_nat nbit - 2)) eqn:EM2; [reflexivity|].
        destruct (g_vals g) as [|x vs] eqn:EG.
        * rewrite zlen_nil. cbn [Z.to_nat repeat].
          (* length 0: the sum is still evaluated *)
          destruct Hne as [Hne|Hne]; [congruence|]. rewrite p31 in Hne.
          rewrite arith_ok by mlia. reflexivity.
        * apply Forall_cons_iff in HF. destruct HF as [[Hx HP] _].
          assert (x = 0) by (apply EV; left; reflexivity). subst x.
          unfold point in HP. rewrite E0, EM1, EM2 in HP. rewrite p31 in HP.
          rewrite arith_ok by mlia. cbn [bind]. replace (g_ref g + 0 + zmin) with (g_ref g + zmin) by lia. reflexivity.
      + rewrite Hbits. cbn [flat_map]. rewrite E0.
        replace (flat_map (int_bits 0) (g_vals g)) with (@nil bool); [reflexivity|].
        clear. induction (g_vals g) as [|a l IH]; [reflexivity|]. cbn [flat_map]. rewrite <- IH. reflexivity.
    - replace (Z.of_nat (g_width g) =? 0) with false by lia.
      unfold group_packed. rewrite max_I32.
      replace (2147483647 <? g_ref g) with false by lia.
      assert (PW : 2 <= 2 ^ Z.of_nat (g_width g) <= 2147483648).
      { split; [change 2 with (2 ^ 1) at 1; apply pow_le_mono; lia|rewrite <- p31; apply pow_le_mono; lia]. }
      rewrite shl_ok by (change (bits_of U32) with 32; lia). cbn [bind]. rewrite Z.mul_1_l.
      rewrite wrap_id by mlia. rewrite arith_ok by mlia. cbn [bind]. rewrite arith_ok by mlia. cbn [bind].
      replace (2 ^ Z.of_nat (g_width g) - 1 - 1) with (2 ^ Z.of_nat (g_width g) - 2) by lia.
      cbn [flat_map] in Hbits. rewrite <- app_assoc in Hbits.
      destruct (group_read m data pos off (g_width g) (g_vals g) (flat_map gbits gs ++ rest)) as (d & Es & HR);
        try assumption; try lia.
      { eapply Forall_impl; [|exact HF]. cbv beta. intros a [H _]. exact H. }
      set (bits := off + Z.of_nat (g_width g) * zlen (g_vals g)) in *. cbv zeta in Es.
      rewrite Es. cbn [bind].
      assert (HRM : Run (imap (group_value m mvm zmin (g_ref g) (2 ^ Z.of_nat (g_width g) - 1) (2 ^ Z.of_nat (g_width g) - 2))
                (itake (zlen (g_vals g)) (nbit_iter m (nbit_with_offset (nbit_new d (Z.of_nat (g_width g))) off)))) (gpoints g) End).
      { eapply Run_imap; [exact HR|]. apply Forall2_map_r. eapply Forall_impl; [|exact HF].
        cbv beta. intros x [Hx HP]. apply group_value_ok; try assumption; try lia. }
      apply Run_collect in HRM. unfold group_points in HRM at 1. rewrite map_length in HRM.
      replace (Z.to_nat (zlen (g_vals g))) with (length (g_vals g)) by (unfold zlen; lia).
      rewrite HRM. cbn [bind].
      exists (pos + bits / 8), (bits mod 8).
      assert (HBN : 0 <= Z.of_nat (g_width g) * zlen (g_vals g)) by (unfold zlen; nia).
      assert (EB : 8 * (pos + bits / 8) + bits mod 8 = 8 * pos + off + Z.of_nat (g_width g) * zlen (g_vals g)) by (subst bits; lia).
      rewrite EB.
      assert (EZ : Z.to_nat (8 * pos + off + Z.of_nat (g_width g) * zlen (g_vals g))
                   = (length (g_vals g) * g_width g + Z.to_nat (8 * pos + off))%nat).
      { unfold zlen in *. nia. }
      assert (BB : 0 <= bits) by (subst bits; lia).
      split; [reflexivity|]. split; [apply Z.add_nonneg_nonneg; [lia|apply Z.div_pos; lia]|].
      split; [apply Z.mod_pos_bound; lia|]. split.
      + assert (HL : length (skipn (Z.to_nat (8 * pos + off)) (bits_of_bytes data))
                = (length (g_vals g) * g_width g + length (flat_map gbits gs ++ rest))%nat).
        { rewrite Hbits, app_length, flat_map_int_bits_length. reflexivity. }
        rewrite skipn_length, bits_of_bytes_length in HL. unfold zlen in *. nia.
      + rewrite EZ. replace (length (g_vals g) * g_width g + Z.to_nat (8 * pos + off))%nat with (Z.to_nat (8 * pos + off) + length (g_vals g) * g_width g)%nat by lia.
        rewrite <- (firstn_skipn (Z.to_nat (8 * pos + off)) (bits_of_bytes data)), Hbits.
        rewrite skipn_app_more with (k := (length (g_vals g) * g_width g)%nat).
        2:{ rewrite firstn_length, bits_of_bytes_length. unfold zlen in *. lia. }
        apply skipn_app_exact. rewrite flat_map_int_bits_length. reflexivity.
  Qed.

  Lemma flat_front : forall F vs st tl, 
    Run (MkIter (flat_state R W L) ([], st) (fnext F)) tl End ->
    Run (MkIter (flat_state R W L) (vs, st) (fnext F)) (vs ++ tl) End.
  Proof.
    intros F vs st tl H. induction vs as [|v vs IH]; [exact H|]. cbn [app].
    eapply Run_mk_cons; [|exact IH]. destruct F; reflexivity.
  Qed.

  Lemma flat_run_aux : forall F gs, (length gs < F)%nat -> Forall gok gs ->
    forall r w l pos off rest,
    Run (MkIter R r ref_next) (map g_ref gs) End ->
    Run (MkIter W w width_next) (map (fun g => Z.of_nat (g_width g)) gs) End ->
    Run (MkIter L l len_next) (map (fun g => zlen (g_vals g)) gs) End ->
    0 <= pos -> 0 <= off < 8 -> 8 * pos + off <= 8 * zlen data ->
    skipn (Z.to_nat (8 * pos + off)) (bits_of_bytes data) = flat_map gbits gs ++ rest ->
    forall f, (length gs < f)%nat ->
    exists o s', fnext f ([], Some (GS r w l pos off)) = Ret (o, s')
      /\ match o with
         | None => flat_map gpoints gs = []
         | Some v => exists tl, flat_map gpoints gs = v :: tl
                     /\ Run (MkIter (flat_state R W L) s' (fnext F)) tl End
         end.
  Proof.
    intros F gs. induction gs as [|g gs IH]; intros HF HG r w l pos off rest Hr Hw Hl Hpos Hoff Hin Hbits f Hf;
      (destruct f as [|f]; [lia|]).
    - cbn [map] in Hr, Hw, Hl. apply Run_mk_nil in Hr, Hw, Hl.
      destruct Hr as (r' & Er), Hw as (w' & Ew), Hl as (l' & El).
      cbn [flat_next]. unfold groups_next. rewrite Er. cbn [bind]. rewrite Ew. cbn [bind]. rewrite El. cbn [bind].
      eexists; eexists; split; [reflexivity|]. reflexivity.
    - cbn [map] in Hr, Hw, Hl. apply Run_mk_inv in Hr, Hw, Hl.
      destruct Hr as (r' & Er & Hr), Hw as (w' & Ew & Hw), Hl as (l' & El & Hl).
      apply Forall_cons_iff in HG. destruct HG as [Hg HG].
      destruct (groups_step g gs r w l pos off rest r' w' l' Hg Hpos Hoff Hin Hbits Er Ew El)
        as (pos' & off' & En & Hpos' & Hoff' & Hin' & Hbits').
      cbn [length] in HF, Hf.
      assert (HF' : (length gs < F)%nat) by lia.
      specialize (IH HF' HG r' w' l' pos' off' rest Hr Hw Hl Hpos' Hoff' Hin' Hbits').
      cbn [flat_next]. rewrite En. cbn [bind flat_map].
      destruct (gpoints g) as [|v vs] eqn:EP.
      + cbn [app]. apply IH. lia.
      + destruct f as [|f]; [lia|]. cbn [flat_next app]. eexists; eexists; split; [reflexivity|].
        exists (vs ++ flat_map gpoints gs). split; [reflexivity|].
        apply flat_front. destruct (IH F HF') as (o & s' & E & H).
        destruct o as [v'|].
        * destruct H as (tl & E' & H). rewrite E'. eapply Run_mk_cons; eassumption.
        * rewrite H. eapply Run_mk_end; eassumption.
  Qed.

  Lemma flat_run : forall F gs, (length gs < F)%nat -> Forall gok gs ->
    forall r w l rest,
    Run (MkIter R r ref_next) (map g_ref gs) End ->
    Run (MkIter W w width_next) (map (fun g => Z.of_nat (g_width g)) gs) End ->
    Run (MkIter L l len_next) (map (fun g => zlen (g_vals g)) gs) End ->
    bits_of_bytes data = flat_map gbits gs ++ rest ->
    Run (MkIter (flat_state R W L) ([], Some (GS r w l 0 0)) (fnext F)) (flat_map gpoints gs) End.
  Proof.
    intros F gs HF HG r w l rest Hr Hw Hl Hbits.
    destruct (flat_run_aux F gs HF HG r w l 0 0 rest Hr Hw Hl) with (f := F) as (o & s' & E & H);
      try lia; try assumption.
    - pose proof (zlen_nonneg _ data). lia.
    - destruct o as [v'|].
      + destruct H as (tl & E' & H). rewrite E'. eapply Run_mk_cons; eassumption.
      + rewrite H. eapply Run_mk_end; eassumption.
  Qed.
End G.

Lemma zlen_pack : forall n vs, zlen (pack n vs) = (zlen vs * Z.of_nat n + 7) / 8.
Proof.
  intros n vs. unfold pack. destruct (bytes_of_bits_spec (flat_map (int_bits n) vs)) as (pad & Hp & E).
  apply (f_equal (@length bool)) in E.
  rewrite bits_of_bytes_length, app_length, flat_map_int_bits_length, repeat_length in E.
  unfold zlen. nia.
Qed.

Lemma octet_length_pack : forall m n vs, zlen vs * Z.of_nat n + 7 < 2 ^ 32 ->
  get_octet_length m (Z.of_nat n) (zlen vs) = Ret (zlen (pack n vs)).
Proof.
  intros m n vs H. rewrite p32 in H. unfold get_octet_length.
  assert (0 <= zlen vs * Z.of_nat n) by (unfold zlen; nia).
  rewrite arith_ok by mlia. cbn [bind]. rewrite arith_ok by mlia. cbn [bind].
  rewrite shr_ok by (change (bits_of U32) with 32; lia). change (2 ^ 3) with 8. rewrite zlen_pack. reflexivity.
Qed.

Lemma take_stream : forall m n vs (k : nat), (n <= 32)%nat -> (k <= length vs)%nat ->
  Forall (fun v => 0 <= v < 2 ^ Z.of_nat n) vs ->
  Run (itake (Z.of_nat k) (bit_stream m (pack n vs) (Z.of_nat n) (Z.of_nat k))) (firstn k vs) End.
Proof.
  intros m n vs k Hn Hk HF. destruct n as [|n].
  - unfold bit_stream. change (Z.of_nat 0 =? 0) with true. cbv iota.
    replace (firstn k vs) with (firstn (Z.to_nat (Z.of_nat k)) (repeat 0 k)).
    + apply Run_itake; [apply Run_fixed|lia].
    + rewrite Nat2Z.id. rewrite firstn_all2 by (rewrite repeat_length; lia).
      clear m Hn. revert vs Hk HF. induction k as [|k IH]; intros vs Hk HF; [reflexivity|].
      destruct vs as [|v vs]; [cbn in Hk; lia|]. apply Forall_cons_iff in HF. destruct HF as [Hv HF].
      change (2 ^ Z.of_nat 0) with 1 in Hv. cbn [repeat firstn]. f_equal; [lia|]. apply IH; [cbn in Hk; lia|assumption].
  - destruct (pack_unpack m (S n) vs) as (extra & He & HR); [lia|assumption|].
    unfold bit_stream in *. replace (Z.of_nat (S n) =? 0) with false in * by lia.
    apply Run_itake with (n := Z.of_nat k) in HR; [|lia]. rewrite Nat2Z.id in HR.
    rewrite firstn_app_less in HR by assumption. exact HR.
Qed.

Lemma lengths_ok_len : forall lref linc llast slens gs, lengths_ok lref linc llast slens gs ->
  length slens = length gs /\ gs <> [].
Proof.
  intros lref linc llast. induction slens as [|s slens IH]; intros [|g gs] H; try contradiction.
  - destruct slens; contradiction.
  - destruct slens as [|s' slens], gs as [|g' gs]; try (split; [reflexivity|congruence]).
    + destruct H as [_ H]; contradiction.
    + destruct H as [_ H]. destruct slens; contradiction.
    + destruct H as [_ H]. apply IH in H. cbn [length] in *. split; [lia|congruence].
Qed.

Lemma lengths_ok_run : forall m lref linc llast slens gs, lengths_ok lref linc llast slens gs ->
  0 <= lref -> 0 <= linc -> Forall (fun s => 0 <= s) slens ->
  Forall (fun g => zlen (g_vals g) < 2 ^ 32) gs ->
  exists lens, Forall2 (fun v b => (let! t := arith m U32 (linc * v) in arith m U32 (lref + t)) = Ret b)
     (firstn (length gs - 1) slens) lens
   /\ lens ++ [llast] = map (fun g => zlen (g_vals g)) gs.
Proof.
  intros m lref linc llast. induction slens as [|s slens IH]; intros [|g gs] H Hr Hi HS HG; try contradiction.
  - destruct slens; contradiction.
  - destruct slens as [|s' slens], gs as [|g' gs].
    + exists []. cbn in *. split; [constructor|]. rewrite H. reflexivity.
    + destruct H as [_ H]; contradiction.
    + destruct H as [_ H]. destruct slens; contradiction.
    + destruct H as [H0 H]. apply Forall_cons_iff in HS, HG. destruct HS as [Hs HS], HG as [Hg HG].
      destruct (IH (g' :: gs) H Hr Hi HS HG) as (lens & HF & EL).
      exists (zlen (g_vals g) :: lens). split.
      * replace (length (g :: g' :: gs) - 1)%nat with (S (length (g' :: gs) - 1)) by (cbn [length]; lia).
        cbn [firstn]. constructor; [|exact HF]. rewrite p32 in Hg.
        assert (0 <= linc * s) by nia.
        rewrite arith_ok by mlia. cbn [bind]. rewrite arith_ok by mlia. f_equal. lia.
      * cbn [app]. rewrite EL. reflexivity.
Qed.

(** Template-level statement. *)
Lemma decode_complex_ok : forall m mvm nbit wref wnbit lnbit lref linc llast zmin slens gs split pre trailing,
  (nbit <= 30)%nat -> (wnbit <= 32)%nat -> (lnbit <= 32)%nat ->
  0 <= lref -> 0 <= linc ->
  zlen gs < 2 ^ 32 ->
  zlen gs * Z.of_nat nbit + 7 < 2 ^ 32 -> zlen gs * Z.of_nat wnbit + 7 < 2 ^ 32 ->
  zlen gs * Z.of_nat lnbit + 7 < 2 ^ 32 ->
  lengths_ok lref linc llast slens gs ->
  Forall (fun s => 0 <= s < 2 ^ Z.of_nat lnbit) slens ->
  Forall (group_ok mvm zmin nbit wref wnbit) gs ->
  exists it,
    decode_complex_packing m
      (ComplexParam split mvm (zlen gs) (Z.of_nat wref) (Z.of_nat wnbit) lref linc llast (Z.of_nat lnbit))
      (pre ++ layout nbit wref wnbit lnbit slens gs ++ trailing) (zlen pre) (Z.of_nat nbit) zmin = Ret it
    /\ Run it (flat_map (group_points mvm (Z.of_nat nbit) zmin) gs) End.
Proof.
  intros m mvm nbit wref wnbit lnbit lref linc llast zmin slens gs split pre trailing
    Hnb Hwn Hln Hlr Hli Hng H1 H2 H3 HL HS HG.
  destruct (lengths_ok_len _ _ _ _ _ HL) as [Elen Hne].
  assert (EZ : zlen slens = zlen gs) by (unfold zlen; lia).
  unfold layout. set (refs := map g_ref gs). set (ws := map (fun g => Z.of_nat (g_width g) - Z.of_nat wref) gs).
  assert (Er : zlen refs = zlen gs) by (unfold refs; apply zlen_map).
  assert (Ew : zlen ws = zlen gs) by (unfold ws; apply zlen_map).
  unfold decode_complex_packing. cbn [cp_ngroup cp_width_nbit cp_len_nbit cp_width_ref cp_len_ref cp_len_inc cp_len_last cp_missing].
  assert (O1 : get_octet_length m (Z.of_nat nbit) (zlen gs) = Ret (zlen (pack nbit refs))).
  { rewrite <- Er. apply octet_length_pack. rewrite Er. exact H1. }
  assert (O2 : get_octet_length m (Z.of_nat wnbit) (zlen gs) = Ret (zlen (pack wnbit ws))).
  { rewrite <- Ew. apply octet_length_pack. rewrite Ew. exact H2. }
  assert (O3 : get_octet_length m (Z.of_nat lnbit) (zlen gs) = Ret (zlen (pack lnbit slens))).
  { rewrite <- EZ. apply octet_length_pack. rewrite EZ. exact H3. }
  rewrite O1. cbn [bind]. rewrite O2. cbn [bind]. rewrite O3. cbn [bind].
  rewrite <- !app_assoc.
  rewrite slice_split by reflexivity. cbn [bind].
  replace (pre ++ pack nbit refs ++ pack wnbit ws ++ pack lnbit slens ++ group_data gs ++ trailing)
    with ((pre ++ pack nbit refs) ++ pack wnbit ws ++ (pack lnbit slens ++ group_data gs ++ trailing))
    by (rewrite <- !app_assoc; reflexivity).
  rewrite slice_split by (rewrite ?zlen_app; lia). cbn [bind].
  replace ((pre ++ pack nbit refs) ++ pack wnbit ws ++ (pack lnbit slens ++ group_data gs ++ trailing))
    with ((pre ++ pack nbit refs ++ pack wnbit ws) ++ pack lnbit slens ++ (group_data gs ++ trailing))
    by (rewrite <- !app_assoc; reflexivity).
  rewrite slice_split by (rewrite ?zlen_app; lia). cbn [bind].
  assert (HN : 1 <= zlen gs) by (destruct gs; [congruence|rewrite zlen_cons; pose proof (zlen_nonneg _ gs); lia]).
  rewrite p32 in Hng. rewrite arith_ok by mlia. cbn [bind].
  unfold slice_from.
  replace ((pre ++ pack nbit refs ++ pack wnbit ws) ++ pack lnbit slens ++ (group_data gs ++ trailing))
    with ((pre ++ pack nbit refs ++ pack wnbit ws ++ pack lnbit slens) ++ (group_data gs ++ trailing) ++ [])
    by (rewrite <- !app_assoc, app_nil_r; reflexivity).
  rewrite slice_split by (rewrite ?zlen_app, ?zlen_nil; lia). cbn [bind].
  eexists. split; [reflexivity|].
  destruct (bytes_of_bits_spec (flat_map (fun g => flat_map (int_bits (g_width g)) (g_vals g)) gs)) as (pad & Hpad & EB).
  eapply (flat_run _ _ _ _ _ _ m mvm zmin nbit wref wnbit) with (rest := repeat false pad ++ bits_of_bytes trailing).
  - exact Hnb.
  - unfold zlen. lia.
  - exact HG.
  - rewrite <- iter_eta. change (map g_ref gs) with refs.
    assert (T := take_stream m nbit refs (length refs)). rewrite firstn_all in T.
    change (Z.of_nat (length refs)) with (zlen refs) in T. rewrite Er in T. apply T; [lia|lia|].
    unfold refs. apply Forall_map. eapply Forall_impl; [|exact HG]. intros g (HH & _). exact HH.
  - rewrite <- iter_eta.
    assert (T := take_stream m wnbit ws (length ws)). rewrite firstn_all in T.
    change (Z.of_nat (length ws)) with (zlen ws) in T. rewrite Ew in T.
    eapply Run_imap.
    + apply T; [lia|lia|]. unfold ws. apply Forall_map. eapply Forall_impl; [|exact HG].
      intros g (_ & HH & HH' & _). cbv beta. lia.
    + unfold ws. clear -HG. induction gs as [|g gs IH]; cbn [map]; [constructor|].
      apply Forall_cons_iff in HG. destruct HG as [(_ & HH & _) HG]. constructor; [|apply IH; exact HG].
      rewrite arith_ok by mlia. f_equal. lia.
  - rewrite <- iter_eta.
    destruct (lengths_ok_run m lref linc llast slens gs HL Hlr Hli) as (lens & HF & EL).
    { eapply Forall_impl; [|exact HS]. cbv beta. intros; lia. }
    { eapply Forall_impl; [|exact HG]. intros g (_ & _ & _ & HH & _). exact HH. }
    rewrite <- EL. apply Run_ichain_once. eapply Run_imap; [|exact HF].
    replace (zlen gs - 1) with (Z.of_nat (length gs - 1)) by (unfold zlen in *; lia).
    apply take_stream; [lia|lia|exact HS].
  - unfold group_data. rewrite bits_of_bytes_app, EB, <- app_assoc. reflexivity.
Qed.

Lemma simple_params_read : forall m refbits e d nbit,
  0 <= refbits < 2 ^ 32 -> Z.abs e < 2 ^ 15 -> Z.abs d < 2 ^ 15 -> 0 <= nbit < 256 ->
  simple_param_from_buf m (be_bytes 4 refbits ++ sm_bytes 2 e ++ sm_bytes 2 d ++ be_bytes 1 nbit ++ be_bytes 1 0)
  = Ret (Ok (SimpleParam (f32_of_bits refbits) e d nbit)).
Proof.
  intros m refbits e d nbit Hr He Hd Hn. unfold simple_param_from_buf.
  assert (E1 : read_i16 m (be_bytes 4 refbits ++ sm_bytes 2 e ++ sm_bytes 2 d ++ be_bytes 1 nbit ++ be_bytes 1 0) 4 = Ret e).
  { replace 4 with (zlen (be_bytes 4 refbits)) by (rewrite zlen_be_bytes; reflexivity). apply read_signed. exact He. }
  assert (E2 : read_i16 m (be_bytes 4 refbits ++ sm_bytes 2 e ++ sm_bytes 2 d ++ be_bytes 1 nbit ++ be_bytes 1 0) 6 = Ret d).
  { rewrite (app_assoc (be_bytes 4 refbits)).
    replace 6 with (zlen (be_bytes 4 refbits ++ sm_bytes 2 e)) by (unfold sm_bytes; rewrite zlen_app, !zlen_be_bytes; reflexivity).
    apply read_signed. exact Hd. }
  rewrite E1, E2. cbn [bind]. unfold sm_bytes, read_u32, read_u8. 
  rd ltac:(change (256 ^ 4) with (2 ^ 32); lia). cbn [bind].
  rd ltac:(change (256 ^ 1) with 256; lia). cbn [bind].
  rd ltac:(change (256 ^ 1) with 256; lia). cbn [bind]. reflexivity.
Qed.

Lemma complex_params_read : forall mvm miss1 miss2 ngroup wref wnbit lref linc llast lnbit,
  0 <= mvm < 256 -> 0 <= ngroup < 2 ^ 32 -> 0 <= wref < 256 -> 0 <= wnbit < 256 ->
  0 <= lref < 2 ^ 32 -> 0 <= linc < 256 -> 0 <= llast < 2 ^ 32 -> 0 <= lnbit < 256 ->
  complex_param_from_buf (be_bytes 1 1 ++ be_bytes 1 mvm ++ be_bytes 4 miss1 ++ be_bytes 4 miss2
    ++ be_bytes 4 ngroup ++ be_bytes 1 wref ++ be_bytes 1 wnbit
    ++ be_bytes 4 lref ++ be_bytes 1 linc ++ be_bytes 4 llast ++ be_bytes 1 lnbit)
  = Ret (ComplexParam 1 mvm ngroup wref wnbit lref linc llast lnbit).
Proof.
  intros. unfold complex_param_from_buf, read_u32, read_u8.
  do 9 (rd ltac:(first [change (256 ^ 4) with (2 ^ 32)|change (256 ^ 1) with 256]; lia); cbn [bind]).
  reflexivity.
Qed.

Lemma sect5_slices : forall np t refbits e d nbit mvm miss1 miss2 ngroup wref wnbit lref linc llast lnbit tail,
  let s := sect5_complex np t refbits e d nbit mvm miss1 miss2 ngroup wref wnbit lref linc llast lnbit tail in
  slice s 6 16 = Ret (be_bytes 4 refbits ++ sm_bytes 2 e ++ sm_bytes 2 d ++ be_bytes 1 nbit ++ be_bytes 1 0)
  /\ slice s 16 42 = Ret (be_bytes 1 1 ++ be_bytes 1 mvm ++ be_bytes 4 miss1 ++ be_bytes 4 miss2
    ++ be_bytes 4 ngroup ++ be_bytes 1 wref ++ be_bytes 1 wnbit
    ++ be_bytes 4 lref ++ be_bytes 1 linc ++ be_bytes 4 llast ++ be_bytes 1 lnbit)
  /\ (forall k, 0 <= k -> read_u8 s (42 + k) = read_u8 tail k).
Proof.
  intros. subst s. unfold sect5_complex, sm_bytes. repeat split.
  - match goal with |- slice (?a ++ ?b ++ ?c1 ++ ?c2 ++ ?c3 ++ ?c4 ++ ?c5 ++ ?r) _ _ = Ret ?x =>
      replace (a ++ b ++ c1 ++ c2 ++ c3 ++ c4 ++ c5 ++ r) with ((a ++ b) ++ x ++ r)
        by (rewrite <- ?app_assoc; reflexivity) end.
    apply slice_split; rewrite !zlen_app, !zlen_be_bytes; reflexivity.
  - match goal with |- slice (?a ++ ?b ++ ?c1 ++ ?c2 ++ ?c3 ++ ?c4 ++ ?c5 ++ ?r) _ _ = Ret ?x =>
      replace (a ++ b ++ c1 ++ c2 ++ c3 ++ c4 ++ c5 ++ r) with ((a ++ b ++ c1 ++ c2 ++ c3 ++ c4 ++ c5) ++ x ++ tail)
        by (rewrite <- ?app_assoc; reflexivity) end.
    apply slice_split; rewrite !zlen_app, !zlen_be_bytes; reflexivity.
  - intros k Hk. unfold read_u8. rewrite !app_assoc. apply read_be_skip; [lia| |lia].
    rewrite !zlen_app, !zlen_be_bytes. lia.
Qed.

Lemma decode_7_2_ok : forall m np refbits e d nbit mvm miss1 miss2 wref wnbit lnbit lref linc llast slens gs trailing,
  0 <= refbits < 2 ^ 32 -> Z.abs e < 2 ^ 15 -> Z.abs d < 2 ^ 15 ->
  encodable mvm 0 nbit wref wnbit lnbit lref linc llast slens gs ->
  exists it,
    decode_7_2_ints m
      (sect5_complex np 2 refbits e d (Z.of_nat nbit) mvm miss1 miss2 (zlen gs) (Z.of_nat wref) (Z.of_nat wnbit)
         lref linc llast (Z.of_nat lnbit) [])
      (layout nbit wref wnbit lnbit slens gs ++ trailing)
    = Ret (Ok (SimpleParam (f32_of_bits refbits) e d (Z.of_nat nbit), it))
    /\ Run it (flat_map (group_points mvm (Z.of_nat nbit) 0) gs) End.
Proof.
  intros m np refbits e d nbit mvm miss1 miss2 wref wnbit lnbit lref linc llast slens gs trailing Hr He Hd
    (Hm & Hnb & Hwr & Hwn & Hln & Hlr & Hli & Hll & Hng & H1 & H2 & H3 & HL & HS & HG).
  pose proof (zlen_nonneg _ gs) as Hz.
  destruct (sect5_slices np 2 refbits e d (Z.of_nat nbit) mvm miss1 miss2 (zlen gs) (Z.of_nat wref) (Z.of_nat wnbit)
         lref linc llast (Z.of_nat lnbit) []) as (S1 & S2 & _).
  unfold decode_7_2_ints. rewrite S1. cbn [bind].
  rewrite simple_params_read by (try assumption; lia). cbn [bind].
  rewrite S2. cbn [bind]. rewrite complex_params_read by (try assumption; lia). cbn [bind].
  unfold complex_unsupported. cbn [cp_split cp_missing].
  replace (negb (1 =? 1) || (2 <? mvm)) with false by lia. cbn [sp_nbit].
  destruct (decode_complex_ok m mvm nbit wref wnbit lnbit lref linc llast 0 slens gs 1 [] trailing) as (it & E & HR);
    try assumption; try lia.
  cbn [app] in E. rewrite zlen_nil in E. rewrite E. cbn [bind]. exists it. split; [reflexivity|exact HR].
Qed.

Lemma decode_7_3_common : forall m np refbits e d nbit mvm miss1 miss2 wref wnbit lnbit lref linc llast slens gs trailing
    (k : nat) zmin firsts,
  0 <= refbits < 2 ^ 32 -> Z.abs e < 2 ^ 15 -> Z.abs d < 2 ^ 15 ->
  (1 <= k <= 4)%nat -> (1 <= length firsts <= 2)%nat ->
  Forall (fun v => Z.abs v < 2 ^ (8 * Z.of_nat k - 1)) (zmin :: firsts) ->
  encodable mvm zmin nbit wref wnbit lnbit lref linc llast slens gs ->
  exists it,
    decode_7_3_ints m
      (sect5_complex np 3 refbits e d (Z.of_nat nbit) mvm miss1 miss2 (zlen gs) (Z.of_nat wref) (Z.of_nat wnbit)
         lref linc llast (Z.of_nat lnbit) (be_bytes 1 (zlen firsts) ++ be_bytes 1 (Z.of_nat k)))
      (flat_map (sm_bytes k) firsts ++ sm_bytes k zmin ++ layout nbit wref wnbit lnbit slens gs ++ trailing)
    = Ret (Ok (SimpleParam (f32_of_bits refbits) e d (Z.of_nat nbit),
               match firsts with [_] => diff1_iter m it firsts | _ => diff2_iter m it firsts end))
    /\ Run it (flat_map (group_points mvm (Z.of_nat nbit) zmin) gs) End.
Proof.
  intros m np refbits e d nbit mvm miss1 miss2 wref wnbit lnbit lref linc llast slens gs trailing k zmin firsts Hr He Hd Hk Hf HF
    (Hm & Hnb & Hwr & Hwn & Hln & Hlr & Hli & Hll & Hng & H1 & H2 & H3 & HL & HS & HG).
  pose proof (zlen_nonneg _ gs) as Hz.
  assert (HZ : zlen firsts = 1 \/ zlen firsts = 2) by (unfold zlen; lia).
  destruct (sect5_slices np 3 refbits e d (Z.of_nat nbit) mvm miss1 miss2 (zlen gs) (Z.of_nat wref) (Z.of_nat wnbit)
         lref linc llast (Z.of_nat lnbit) (be_bytes 1 (zlen firsts) ++ be_bytes 1 (Z.of_nat k))) as (S1 & S2 & S3).
  unfold decode_7_3_ints. rewrite S1. cbn [bind].
  rewrite simple_params_read by (try assumption; lia). cbn [bind].
  rewrite S2. cbn [bind]. rewrite complex_params_read by (try assumption; lia). cbn [bind].
  assert (S30 := S3 0 ltac:(lia)). assert (S31 := S3 1 ltac:(lia)).
  change (42 + 0) with 42 in S30. change (42 + 1) with 43 in S31. rewrite S30, S31. unfold read_u8.
  rd ltac:(change (256 ^ 1) with 256; lia). cbn [bind].
  rd ltac:(change (256 ^ 1) with 256; lia). cbn [bind].
  unfold complex_unsupported. cbn [cp_split cp_missing].
  replace (negb (1 =? 1) || (2 <? mvm)) with false by lia. cbn [sp_nbit].
  destruct (spdiff_roundtrip m k firsts zmin (layout nbit wref wnbit lnbit slens gs ++ trailing) Hk Hf HF)
    as (sd & Esd & EL & Emin & Efst).
  destruct (decode_complex_ok m mvm nbit wref wnbit lnbit lref linc llast zmin slens gs 1
     (flat_map (sm_bytes k) firsts ++ sm_bytes k zmin) trailing) as (it & E & HR);
    try assumption; try lia.
  assert (EP : zlen (flat_map (sm_bytes k) firsts ++ sm_bytes k zmin) = spdiff_len sd).
  { rewrite EL. rewrite zlen_app. unfold sm_bytes at 2. rewrite zlen_be_bytes.
    assert (HL' : forall l, zlen (flat_map (sm_bytes k) l) = Z.of_nat k * zlen l).
    { induction l as [|a l IH]; cbn [flat_map]; [rewrite !zlen_nil; lia|].
      rewrite zlen_app, zlen_cons, IH. unfold sm_bytes at 1. rewrite zlen_be_bytes. lia. }
    rewrite HL'. unfold zlen. lia. }
  rewrite EP in E. rewrite <- app_assoc in E.
  exists it. split; [|exact HR].
  unfold collect_first_values.
  change (Z.of_nat (length firsts)) with (zlen firsts) in Esd.
  destruct HZ as [HZ|HZ]; rewrite HZ in *.
  - change (table5_6_of 1) with (Some FirstOrder). cbv iota. cbn [orb]. cbn [table5_6_code].
    rewrite Esd. cbn [bind]. rewrite Emin. cbn [bind]. rewrite E. cbn [bind]. rewrite Efst. cbn [bind].
    destruct firsts as [|a [|b l]]; [rewrite zlen_nil in HZ; lia|reflexivity|].
    rewrite !zlen_cons in HZ. pose proof (zlen_nonneg _ l). lia.
  - change (table5_6_of 2) with (Some SecondOrder). cbv iota. cbn [orb]. cbn [table5_6_code].
    rewrite Esd. cbn [bind]. rewrite Emin. cbn [bind]. rewrite E. cbn [bind]. rewrite Efst. cbn [bind].
    destruct firsts as [|a [|b l]]; [reflexivity|rewrite zlen_cons, zlen_nil in HZ; lia|reflexivity].
Qed.

Lemma decode_7_3_first : forall m np refbits e d nbit mvm miss1 miss2 wref wnbit lnbit lref linc llast slens gs trailing
    (k : nat) zmin fld dummy d0,
  0 <= refbits < 2 ^ 32 -> Z.abs e < 2 ^ 15 -> Z.abs d < 2 ^ 15 -> (1 <= k <= 4)%nat ->
  Forall (fun v => Z.abs v < 2 ^ (8 * Z.of_nat k - 1)) [zmin; hd d0 (normals fld)] ->
  encodable mvm zmin nbit wref wnbit lnbit lref linc llast slens gs ->
  Forall is_i32 (normals fld) ->
  flat_map (group_points mvm (Z.of_nat nbit) zmin) gs = differences1 dummy None fld ->
  exists it,
    decode_7_3_ints m
      (sect5_complex np 3 refbits e d (Z.of_nat nbit) mvm miss1 miss2 (zlen gs) (Z.of_nat wref) (Z.of_nat wnbit)
         lref linc llast (Z.of_nat lnbit) (be_bytes 1 1 ++ be_bytes 1 (Z.of_nat k)))
      (sm_bytes k (hd d0 (normals fld)) ++ sm_bytes k zmin ++ layout nbit wref wnbit lnbit slens gs ++ trailing)
    = Ret (Ok (SimpleParam (f32_of_bits refbits) e d (Z.of_nat nbit), it))
    /\ Run it fld End.
Proof.
  intros m np refbits e d nbit mvm miss1 miss2 wref wnbit lnbit lref linc llast slens gs trailing k zmin fld dummy d0
    Hr He Hd Hk HF HE HI HD.
  destruct (decode_7_3_common m np refbits e d nbit mvm miss1 miss2 wref wnbit lnbit lref linc llast slens gs trailing k zmin
    [hd d0 (normals fld)] Hr He Hd Hk) as (it & E & HR); try assumption.
  { cbn. lia. }
  eexists. split.
  - cbn [flat_map] in E. rewrite app_nil_r in E. exact E.
  - rewrite HD in HR. eapply diff1_correct; eassumption.
Qed.

Lemma decode_7_3_second : forall m np refbits e d nbit mvm miss1 miss2 wref wnbit lnbit lref linc llast slens gs trailing
    (k : nat) zmin fld dummy1 dummy2 d0 d1,
  0 <= refbits < 2 ^ 32 -> Z.abs e < 2 ^ 15 -> Z.abs d < 2 ^ 15 -> (1 <= k <= 4)%nat ->
  Forall (fun v => Z.abs v < 2 ^ (8 * Z.of_nat k - 1)) [zmin; nth 0 (normals fld) d0; nth 1 (normals fld) d1] ->
  encodable mvm zmin nbit wref wnbit lnbit lref linc llast slens gs ->
  Forall is_i32 (normals fld) -> (m = Checked -> sums_fit (normals fld)) ->
  flat_map (group_points mvm (Z.of_nat nbit) zmin) gs = differences2 dummy1 dummy2 None None fld ->
  exists it,
    decode_7_3_ints m
      (sect5_complex np 3 refbits e d (Z.of_nat nbit) mvm miss1 miss2 (zlen gs) (Z.of_nat wref) (Z.of_nat wnbit)
         lref linc llast (Z.of_nat lnbit) (be_bytes 1 2 ++ be_bytes 1 (Z.of_nat k)))
      (sm_bytes k (nth 0 (normals fld) d0) ++ sm_bytes k (nth 1 (normals fld) d1) ++ sm_bytes k zmin
       ++ layout nbit wref wnbit lnbit slens gs ++ trailing)
    = Ret (Ok (SimpleParam (f32_of_bits refbits) e d (Z.of_nat nbit), it))
    /\ Run it fld End.
Proof.
  intros m np refbits e d nbit mvm miss1 miss2 wref wnbit lnbit lref linc llast slens gs trailing k zmin fld dummy1 dummy2 d0 d1
    Hr He Hd Hk HF HE HI HS HD.
  destruct (decode_7_3_common m np refbits e d nbit mvm miss1 miss2 wref wnbit lnbit lref linc llast slens gs trailing k zmin
    [nth 0 (normals fld) d0; nth 1 (normals fld) d1] Hr He Hd Hk) as (it & E & HR); try assumption.
  { cbn. lia. }
  eexists. split.
  - cbn [flat_map] in E. rewrite app_nil_r, <- app_assoc in E. exact E.
  - rewrite HD in HR. eapply diff2_correct_fit; eassumption.
Qed.

(** Missing value management, point by point. *)
Lemma point_spec : forall mvm nbit zmin g x,
  let code := if (g_width g =? 0)%nat then g_ref g else x in
  let width := if (g_width g =? 0)%nat then nbit else Z.of_nat (g_width g) in
  (point mvm nbit zmin g x = Missing1 <-> 1 <= mvm /\ code = 2 ^ width - 1)
  /\ (point mvm nbit zmin g x = Missing2 <-> mvm = 2 /\ code = 2 ^ width - 2)
  /\ (forall v, point mvm nbit zmin g x = Normal v -> v = g_ref g + x + zmin).
Proof.
  intros. unfold point. subst code width.
  destruct (g_width g) as [|w]; cbn [Nat.eqb];
  match goal with |- context [(1 <=? mvm) && ?A] => destruct ((1 <=? mvm) && A) eqn:E1 end;
  try match goal with |- context [(mvm =? 2) && ?A] => destruct ((mvm =? 2) && A) eqn:E2 end;
  repeat split; intros; try congruence; try lia.
Qed.

Lemma Forall2_concat_map : forall A B (f : A -> list B) l, Forall2 (fun a b => b = f a) l (map f l).
Proof. induction l; cbn [map]; constructor; auto. Qed.

Lemma decode_7_2_missing : forall m np refbits e d nbit mvm miss1 miss2 wref wnbit lnbit lref linc llast slens gs trailing,
  0 <= refbits < 2 ^ 32 -> Z.abs e < 2 ^ 15 -> Z.abs d < 2 ^ 15 ->
  encodable mvm 0 nbit wref wnbit lnbit lref linc llast slens gs ->
  exists it outs,
    decode_7_2_ints m
      (sect5_complex np 2 refbits e d (Z.of_nat nbit) mvm miss1 miss2 (zlen gs) (Z.of_nat wref) (Z.of_nat wnbit)
         lref linc llast (Z.of_nat lnbit) [])
      (layout nbit wref wnbit lnbit slens gs ++ trailing)
    = Ret (Ok (SimpleParam (f32_of_bits refbits) e d (Z.of_nat nbit), it))
    /\ Run it (concat outs) End
    /\ Forall2 (fun g out => Forall2 (fun x pt =>
           let code := if (g_width g =? 0)%nat then g_ref g else x in
           let width := if (g_width g =? 0)%nat then Z.of_nat nbit else Z.of_nat (g_width g) in
           (pt = Missing1 <-> 1 <= mvm /\ code = 2 ^ width - 1)
           /\ (pt = Missing2 <-> mvm = 2 /\ code = 2 ^ width - 2)
           /\ (forall v, pt = Normal v -> v = g_ref g + x))
         (g_vals g) out) gs outs.
Proof.
  intros m np refbits e d nbit mvm miss1 miss2 wref wnbit lnbit lref linc llast slens gs trailing Hr He Hd HE.
  destruct (decode_7_2_ok m np refbits e d nbit mvm miss1 miss2 wref wnbit lnbit lref linc llast slens gs trailing Hr He Hd HE)
    as (it & E & HR).
  exists it, (map (group_points mvm (Z.of_nat nbit) 0) gs). split; [exact E|]. split.
  - rewrite <- flat_map_concat_map. exact HR.
  - clear. induction gs as [|g gs IH]; cbn [map]; constructor; [|exact IH].
    unfold group_points. induction (g_vals g) as [|x l IHl]; cbn [map]; constructor; [|exact IHl].
    cbv zeta. destruct (point_spec mvm (Z.of_nat nbit) 0 g x) as (P1 & P2 & P3).
    split; [exact P1|]. split; [exact P2|]. intros v Hv. rewrite (P3 v Hv). lia.
Qed.

Lemma decode_7_2_no_missing : forall m np refbits e d nbit miss1 miss2 wref wnbit lnbit lref linc llast slens gs trailing,
  0 <= refbits < 2 ^ 32 -> Z.abs e < 2 ^ 15 -> Z.abs d < 2 ^ 15 ->
  encodable 0 0 nbit wref wnbit lnbit lref linc llast slens gs ->
  exists it,
    decode_7_2_ints m
      (sect5_complex np 2 refbits e d (Z.of_nat nbit) 0 miss1 miss2 (zlen gs) (Z.of_nat wref) (Z.of_nat wnbit)
         lref linc llast (Z.of_nat lnbit) [])
      (layout nbit wref wnbit lnbit slens gs ++ trailing)
    = Ret (Ok (SimpleParam (f32_of_bits refbits) e d (Z.of_nat nbit), it))
    /\ Run it (flat_map (fun g => map (fun x => Normal (g_ref g + x)) (g_vals g)) gs) End.
Proof.
  intros m np refbits e d nbit miss1 miss2 wref wnbit lnbit lref linc llast slens gs trailing Hr He Hd HE.
  destruct (decode_7_2_ok m np refbits e d nbit 0 miss1 miss2 wref wnbit lnbit lref linc llast slens gs trailing Hr He Hd HE)
    as (it & E & HR).
  exists it. split; [exact E|].
  replace (flat_map _ gs) with (flat_map (group_points 0 (Z.of_nat nbit) 0) gs); [exact HR|].
  apply flat_map_ext. intros g. unfold group_points. apply map_ext. intros x. unfold point.
  destruct (g_width g); cbn [Z.leb Z.eqb andb]; change (1 <=? 0) with false; change (0 =? 2) with false; cbn [andb];
    rewrite Z.add_0_r; reflexivity.
Qed.

(** Inputs on which builds with overflow checks panic. *)
Lemma slice_cases : forall A (l : list A) a b, (exists s, slice l a b = Ret s) \/ slice l a b = Panic.
Proof. intros. unfold slice. destruct ((0 <=? a) && (a <=? b) && (b <=? zlen l)); eauto. Qed.

Lemma zero_groups_panic : forall p sect7 off nbit zmin, cp_ngroup p = 0 ->
  decode_complex_packing Checked p sect7 off nbit zmin = Panic.
Proof.
  intros p sect7 off nbit zmin H. unfold decode_complex_packing, get_octet_length. rewrite H.
  rewrite !Z.mul_0_l. rewrite !arith_ok by mlia. cbn [bind]. rewrite !arith_ok by mlia. cbn [bind].
  rewrite !shr_ok by (change (bits_of U32) with 32; lia). cbn [bind].
  match goal with |- context [slice sect7 ?a ?b] => destruct (slice_cases _ sect7 a b) as [(s1 & E1)|E1]; rewrite E1; cbn [bind]; [|reflexivity] end.
  match goal with |- context [slice sect7 ?a ?b] => destruct (slice_cases _ sect7 a b) as [(s2 & E2)|E2]; rewrite E2; cbn [bind]; [|reflexivity] end.
  match goal with |- context [slice sect7 ?a ?b] => destruct (slice_cases _ sect7 a b) as [(s3 & E3)|E3]; rewrite E3; cbn [bind]; reflexivity end.
Qed.

Lemma constant_group_wide_panic : forall mvm nbit zmin ref length, 31 <= nbit ->
  group_constant Checked mvm nbit zmin ref length = Panic.
Proof.
  intros mvm nbit zmin ref length H. unfold group_constant.
  destruct (max_of I32 <? ref); [reflexivity|].
  unfold shl, shift_amount. change (bits_of I32) with 32.
  destruct ((0 <=? nbit) && (nbit <? 32)) eqn:E; [|reflexivity].
  assert (nbit = 31) by lia. subst nbit. vm_compute. reflexivity.
Qed.

Lemma packed_group_wide_panic : forall mvm zmin data pos off ref width length, 32 <= width ->
  group_packed Checked mvm zmin data pos off ref width length = Panic.
Proof.
  intros. unfold group_packed. destruct (max_of I32 <? ref); [reflexivity|].
  unfold shl, shift_amount. change (bits_of U32) with 32.
  replace ((0 <=? width) && (width <? 32)) with false by lia. reflexivity.
Qed.
