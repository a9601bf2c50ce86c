(** Complex packing from arbitrary octets: where the groups panic. *)
From Coq Require Import Lia ZifyBool ZifyNat.
From Verif Require Import Model.Base Model.Helpers Model.Errors Model.F32 Model.Stream Model.Diff Model.Complex.
From Verif Require Import Spec.Bits Spec.ReaderS Spec.FieldsS Spec.GroupsS.
From Verif Require Import Proofs.BaseLemmas Proofs.HelpersP Proofs.BitsP Proofs.StreamP Proofs.Bits2 Proofs.Fields Proofs.DiffP Proofs.ComplexP.
Ltac Zify.zify_post_hook ::= Z.div_mod_to_equations.

(** Either overflow wraps, or it cannot happen. *)
Definition calm (m : mode) (nbit zmin : Z) (ws : list Z) : Prop :=
  m = Wrapping \/ (nbit <= 29 /\ Z.abs zmin < 2 ^ 31 - 2 ^ 30 /\ Forall (fun w => w <= 29) ws).

Lemma arith_W : forall t z, exists x, arith Wrapping t z = Ret x.
Proof. intros t z. unfold arith. destruct (in_range t z); eexists; reflexivity. Qed.
Lemma shl_W : forall t x n, exists y, shl Wrapping t x n = Ret y.
Proof. intros t x n. unfold shl, shift_amount. destruct (_ && _); eexists; reflexivity. Qed.

Lemma constant_total : forall m mvm nbit zmin ref len, m = Wrapping \/ (nbit <= 29 /\ Z.abs zmin < 2 ^ 31 - 2 ^ 30) ->
  0 <= nbit -> 0 <= ref < 2 ^ Z.min nbit 31 -> 0 <= len ->
  exists vs, group_constant m mvm nbit zmin ref len = Ret vs /\ zlen vs = len.
Proof.
  intros m mvm nbit zmin ref len Hm Hn Hr Hl.
  assert (R31 : ref < 2 ^ 31). { assert (2 ^ Z.min nbit 31 <= 2 ^ 31) by (apply pow_le_mono; lia). lia. }
  unfold group_constant. rewrite max_I32. rewrite p31 in R31. replace (2147483647 <? ref) with false by lia.
  assert (ZR : forall a : dv, zlen (repeat a (Z.to_nat len)) = len) by (intros a; unfold zlen; rewrite repeat_length; lia).
  destruct Hm as [->|(Hn' & Hz)].
  - destruct (shl_W I32 1 nbit) as (x & ->). cbn [bind]. destruct (arith_W I32 (x - 1)) as (y & ->). cbn [bind].
    destruct (arith_W I32 (y - 1)) as (z & ->). cbn [bind].
    destruct ((0 <? mvm) && (ref =? y)); [eexists; split; [reflexivity|apply ZR]|].
    destruct ((mvm =? 2) && (ref =? z)); [eexists; split; [reflexivity|apply ZR]|].
    destruct (arith_W I32 (ref + zmin)) as (u & ->). cbn [bind]. eexists; split; [reflexivity|apply ZR].
  - rewrite Z.min_l in Hr by lia. assert (P : 0 < 2 ^ nbit <= 2 ^ 29) by (split; [apply Z.pow_pos_nonneg; lia|apply pow_le_mono; lia]).
    change (2 ^ 29) with 536870912 in P. change (2 ^ 31 - 2 ^ 30) with 1073741824 in Hz.
    rewrite shl_ok by (change (bits_of I32) with 32; lia). cbn [bind]. rewrite Z.mul_1_l. rewrite wrap_id by mlia.
    rewrite arith_ok by mlia. cbn [bind]. rewrite arith_ok by mlia. cbn [bind].
    destruct (_ && _); [eexists; split; [reflexivity|apply ZR]|]. destruct (_ && _); [eexists; split; [reflexivity|apply ZR]|].
    rewrite arith_ok by mlia. cbn [bind]. eexists; split; [reflexivity|apply ZR].
Qed.

Lemma value_total : forall m mvm zmin ref m1 m2 v w, m = Wrapping \/ (Z.abs zmin < 2 ^ 31 - 2 ^ 30 /\ 0 <= ref < 2 ^ 29 /\ w <= 29) ->
  1 <= w -> 0 <= v < 2 ^ Z.min w 32 -> exists x, group_value m mvm zmin ref m1 m2 v = Ret x.
Proof.
  intros m mvm zmin ref m1 m2 v w Hm Hw Hv. unfold group_value.
  destruct (_ && _); [eexists; reflexivity|]. destruct (_ && _); [eexists; reflexivity|].
  assert (V32 : v < 2 ^ 32). { assert (2 ^ Z.min w 32 <= 2 ^ 32) by (apply pow_le_mono; lia). lia. }
  assert (Gp : grib_pair U32 I32) by (unfold grib_pair; auto). rewrite (proj1 (as_grib_int_spec m U32 I32 v Gp ltac:(change (bits_of U32) with 32; lia))). cbn [bind].
  destruct Hm as [->|(Hz & Hr & Hw')].
  - set (a := sign_magnitude _ v). destruct (arith_W I32 (a + ref)) as (x & ->). cbn [bind].
    destruct (arith_W I32 (x + zmin)) as (y & ->). cbn [bind]. eexists; reflexivity.
  - assert (V29 : v < 2 ^ 29). { assert (2 ^ Z.min w 32 <= 2 ^ 29) by (apply pow_le_mono; lia). lia. }
    assert (E : sign_magnitude (bits_of U32 / 8) v = v).
    { unfold sign_magnitude. change (bits_of U32 / 8) with 4. change (8 * 4 - 1) with 31. change (2 ^ 29) with 536870912 in V29. change (2 ^ 31) with 2147483648. 
      match goal with |- (if ?b then _ else _) = _ => destruct b eqn:B end; lia. }
    match goal with |- context [arith m I32 (?a + ref)] => replace a with v by (symmetry; exact E) end.
    change (2 ^ 29) with 536870912 in *. change (2 ^ 31 - 2 ^ 30) with 1073741824 in Hz.
    rewrite arith_ok by mlia. cbn [bind]. rewrite arith_ok by mlia. cbn [bind]. eexists; reflexivity.
Qed.

Lemma in_firstn : forall A n (l : list A) x, In x (firstn n l) -> In x l.
Proof. intros A n l x H. rewrite <- (firstn_skipn n l). apply in_or_app. left. exact H. Qed.
Lemma fields_range : forall bits off n c x, In x (fields bits off n c) -> 0 <= x < 2 ^ Z.of_nat n.
Proof.
  intros bits off n c x H. unfold fields in H. apply in_map_iff in H. destruct H as (k & <- & _).
  pose proof (bits_value_range (firstn n (skipn (off + k * n) bits))) as B. unfold zlen in B. rewrite firstn_length in B.
  assert (2 ^ Z.of_nat (Nat.min n (length (skipn (off + k * n) bits))) <= 2 ^ Z.of_nat n) by (apply pow_le_mono; lia). lia.
Qed.

(** The values of a packed group. *)
Lemma packed_values : forall m data pos off w len, 0 <= pos -> 0 <= off < 8 -> 1 <= w -> 0 <= len ->
  8 * pos + off + w * len <= 8 * zlen data ->
  let bits := off + w * len in
  exists d vals, slice data pos (pos + bits / 8 + (if 0 <? bits mod 8 then 1 else 0)) = Ret d /\ zlen vals = len /\
    Forall (fun v => 0 <= v < 2 ^ Z.min w 32) vals /\
    Run (itake len (nbit_iter m (nbit_with_offset (nbit_new d w) off))) vals End.
Proof.
  intros m data pos off w len Hpos Hoff Hw Hl Hfit bits.
  assert (HB : 0 <= w * len) by nia. set (e := pos + bits / 8 + (if 0 <? bits mod 8 then 1 else 0)).
  assert (He : bits <= 8 * (e - pos) < bits + 8). { subst e. destruct (0 <? bits mod 8) eqn:E; subst bits; lia. }
  assert (Hend : e <= zlen data) by (subst bits; lia).
  destruct (list_split_at _ data pos) as (d1 & t & Ed & L1); [subst bits; lia|].
  destruct (list_split_at _ t (e - pos)) as (d2 & d3 & Et & L2). { subst data. rewrite zlen_app in Hend. subst bits; lia. }
  subst t data. exists d2.
  pose proof (nbit_wide m d2 w off Hoff Hw) as HR. set (vs := map _ _) in HR. apply Run_itake with (n := len) in HR; [|exact Hl].
  exists (firstn (Z.to_nat len) vs). split; [apply slice_split; lia|]. split; [|split; [|exact HR]].
  - unfold zlen. rewrite firstn_length. unfold vs. rewrite map_length, fields_length.
    assert (len <= (8 * zlen d2 - off) / w). { apply Z.div_le_lower_bound; [lia|]. subst bits. lia. } lia.
  - apply Forall_forall. intros y Hy. apply in_firstn in Hy. unfold vs in Hy. apply in_map_iff in Hy. destruct Hy as (x & <- & Hx).
    assert (Rx : 0 <= x < 2 ^ w). { apply fields_range in Hx. rewrite Z2Nat.id in Hx by lia. exact Hx. }
    destruct (Z_le_gt_dec w 32) as [W|W].
    + rewrite Z.min_l by lia. assert (2 ^ w <= 2 ^ 32) by (apply pow_le_mono; lia). rewrite Z.mod_small by lia. exact Rx.
    + rewrite Z.min_r by lia. apply Z.mod_pos_bound. lia.
Qed.

(** A parameter block of section 7. *)
Lemma stream_raw : forall m q start n k k', 0 <= start -> 0 <= n -> 0 <= k' <= k -> start + octets_for k n <= zlen q ->
  exists d, slice q start (start + octets_for k n) = Ret d /\ Run (itake k' (bit_stream m d n k')) (raw q start n k') End.
Proof.
  intros m q start n k k' Hs Hn Hk Hl. unfold octets_for in *.
  destruct (list_split_at _ q start) as (d1 & t & Ed & L1); [assert (0 <= k * n) by nia; lia|].
  destruct (list_split_at _ t ((k * n + 7) / 8)) as (d2 & d3 & Et & L2). { subst q. rewrite zlen_app in Hl. assert (0 <= k * n) by nia. lia. }
  subst t q. exists d2. split; [apply slice_split; lia|].
  assert (HR : exists l, Run (bit_stream m d2 n k') l End /\ firstn (Z.to_nat k') l = raw (d1 ++ d2 ++ d3) start n k').
  { unfold raw, bit_stream. destruct (n =? 0) eqn:N0.
    - exists (repeat 0 (Z.to_nat k')). split; [rewrite <- (Z2Nat.id k') at 1 by lia; apply Run_fixed|].
      rewrite firstn_all2 by (rewrite repeat_length; lia). replace n with 0 by lia. change (Z.to_nat 0) with O. unfold fields.
      rewrite map_map. generalize (seq 0 (Z.to_nat k')) as l, (seq_length (Z.to_nat k') 0). intros l <-. induction l as [|a l IH]; [reflexivity|].
      cbn [length repeat map]. rewrite IH. reflexivity.
    - eexists. split; [change (nbit_new d2 n) with (nbit_with_offset (nbit_new d2 n) 0); apply nbit_wide; lia|].
      assert (C : k' <= (8 * zlen d2 - 0) / n). { apply Z.div_le_lower_bound; [lia|]. nia. }
      replace (Z.to_nat ((8 * zlen d2 - 0) / n)) with (Z.to_nat k' + Z.to_nat ((8 * zlen d2 - 0) / n - k'))%nat by lia.
      rewrite fields_app, map_app, firstn_app_exact by (rewrite map_length, fields_length; reflexivity). f_equal.
      change (Z.to_nat 0) with O. rewrite <- (fields_prefix _ (bits_of_bytes d3)).
      2:{ rewrite bits_of_bytes_length. assert (k' * n <= 8 * zlen d2) by nia. unfold zlen in *. nia. }
      rewrite <- bits_of_bytes_app. rewrite <- (fields_skip (bits_of_bytes d1)). rewrite <- bits_of_bytes_app. f_equal.
      rewrite bits_of_bytes_length. unfold zlen in L1. lia. }
  destruct HR as (l & HR & E). rewrite <- E. apply Run_itake; [exact HR|lia].
Qed.

Section G.
  Variables R W L : Type.
  Variable ref_next : R -> outcome (option Z * R).
  Variable width_next : W -> outcome (option Z * W).
  Variable len_next : L -> outcome (option Z * L).
  Variable m : mode.
  Variables mvm nbit zmin : Z.
  Variable data : list byte.
  Hypothesis Hnbit : 0 <= nbit <= 31.
  Notation fnext := (flat_next R W L ref_next width_next len_next m mvm nbit zmin data).
  Notation gnext := (groups_next R W L ref_next width_next len_next m mvm nbit zmin data).

  Lemma group_total : forall ref width len r w l r' w' l' pos off,
    0 <= ref < 2 ^ nbit -> 0 <= width -> 0 <= len -> calm m nbit zmin [width] ->
    0 <= pos -> 0 <= off < 8 -> 8 * pos + off <= 8 * zlen data ->
    ref_next r = Ret (Some ref, r') -> width_next w = Ret (Some width, w') -> len_next l = Ret (Some len, l') ->
    if 8 * pos + off + width * len <=? 8 * zlen data
    then exists vs pos' off', gnext (GS r w l pos off) = Ret (Some vs, GS r' w' l' pos' off') /\ zlen vs = len /\
           0 <= pos' /\ 0 <= off' < 8 /\ 8 * pos' + off' = 8 * pos + off + width * len
    else gnext (GS r w l pos off) = Panic.
  Proof.
    intros ref width len r w l r' w' l' pos off Href Hw Hl Hc Hpos Hoff Hin Er Ew El.
    unfold groups_next. rewrite Er. cbn [bind]. rewrite Ew. cbn [bind]. rewrite El. cbn [bind].
    assert (R31 : ref < 2 ^ 31). { assert (2 ^ nbit <= 2 ^ 31) by (apply pow_le_mono; lia). lia. }
    destruct (width =? 0) eqn:W0.
    - replace width with 0 by lia. rewrite Z.mul_0_l, Z.add_0_r. replace (8 * pos + off <=? 8 * zlen data) with true by lia.
      destruct (constant_total m mvm nbit zmin ref len) as (vs & E & Lv); try lia.
      { destruct Hc as [->|(A & B & _)]; auto. }
      { rewrite Z.min_l by lia. exact Href. }
      rewrite E. cbn [bind]. exists vs, pos, off. auto 8.
    - unfold group_packed. rewrite max_I32. rewrite p31 in R31. replace (2147483647 <? ref) with false by lia.
      assert (M : exists m1 m2, forall A (k : Z -> outcome A) (k' : Z -> Z -> outcome A), 
        (let! one := shl m U32 1 width in let! missing1 := arith m U32 (one - 1) in let! missing2 := arith m U32 (missing1 - 1) in k' missing1 missing2) = k' m1 m2).
      { destruct Hc as [->|(A & B & C)].
        - destruct (shl_W U32 1 width) as (x & Ex). destruct (arith_W U32 (x - 1)) as (y & Ey). destruct (arith_W U32 (y - 1)) as (z & Ez).
          exists y, z. intros A0 k k'. rewrite Ex. cbn [bind]. rewrite Ey. cbn [bind]. rewrite Ez. reflexivity.
        - apply Forall_cons_iff in C. destruct C as (C & _).
          assert (P : 2 <= 2 ^ width <= 2 ^ 29) by (split; [change 2 with (2 ^ 1) at 1|]; apply pow_le_mono; lia). change (2 ^ 29) with 536870912 in P.
          exists (2 ^ width - 1), (2 ^ width - 1 - 1). intros A0 k k'. rewrite shl_ok by (change (bits_of U32) with 32; lia). cbn [bind]. rewrite Z.mul_1_l.
          rewrite wrap_id by mlia. rewrite arith_ok by mlia. cbn [bind]. rewrite arith_ok by mlia. reflexivity. }
      destruct M as (m1 & m2 & M). cbv zeta. rewrite M by exact (fun _ => Panic). clear M.
      set (bits := off + width * len). assert (HB : 0 <= width * len) by nia.
      destruct (8 * pos + off + width * len <=? 8 * zlen data) eqn:Fit.
      + destruct (packed_values m data pos off width len) as (d & vals & Es & Lv & Fv & HR); try lia. cbv zeta in Es. fold bits in Es. rewrite Es. cbn [bind].
        assert (HV : exists vs, Forall2 (fun a b => group_value m mvm zmin ref m1 m2 a = Ret b) vals vs).
        { clear -Fv Hc Href W0 Hw Hnbit. induction Fv as [|v vals Hv Fv IH]; [exists []; constructor|]. destruct IH as (vs & IH).
          destruct (value_total m mvm zmin ref m1 m2 v width) as (x & Ex); [|lia|exact Hv|exists (x :: vs); constructor; assumption].
          destruct Hc as [->|(A & B & C)]; [left; reflexivity|right]. apply Forall_cons_iff in C. destruct C as (C & _).
          split; [exact B|]. split; [|exact C]. assert (2 ^ nbit <= 2 ^ 29) by (apply pow_le_mono; lia). lia. }
        destruct HV as (vs & HV). assert (LL : length vals = length vs) by (clear -HV; induction HV; cbn; congruence).
        pose proof (Run_imap _ _ _ _ _ HR _ HV) as HRM. apply Run_collect in HRM.
        replace (Z.to_nat len) with (length vs) by (unfold zlen in Lv; lia). rewrite HRM. cbn [bind].
        exists vs, (pos + bits / 8), (bits mod 8). split; [reflexivity|]. split; [unfold zlen in *; lia|].
        subst bits. lia.
      + rewrite slice_panic; [reflexivity|]. destruct (0 <? bits mod 8) eqn:Bm; subst bits; lia.
  Qed.

  Lemma flat_front' : forall F vs st tl e,
    Run (MkIter (flat_state R W L) ([], st) (fnext F)) tl e ->
    Run (MkIter (flat_state R W L) (vs, st) (fnext F)) (vs ++ tl) e.
  Proof.
    intros F vs st tl e H. induction vs as [|v vs IH]; [exact H|]. cbn [app].
    eapply Run_mk_cons; [|exact IH]. destruct F; reflexivity.
  Qed.
  (** What one call of [next] must be for the iterator to run to [out] and [e]. *)
  Definition first_call (F : nat) (o : outcome (option dv * flat_state R W L)) (out : list dv) (e : ending) : Prop :=
    match o with
    | Panic => out = [] /\ e = Crash
    | Ret (None, _) => out = [] /\ e = End
    | Ret (Some v, s') => exists tl, out = v :: tl /\ Run (MkIter (flat_state R W L) s' (fnext F)) tl e
    | Diverge => False
    end.
  Lemma first_call_run : forall F s out e, first_call F (fnext F s) out e -> Run (MkIter (flat_state R W L) s (fnext F)) out e.
  Proof.
    intros F s out e H. destruct (fnext F s) as [[[v|] s']| |] eqn:E; cbn [first_call] in H.
    - destruct H as (tl & -> & H). eapply Run_mk_cons; eassumption.
    - destruct H as (-> & ->). eapply Run_mk_end; eassumption.
    - destruct H as (-> & ->). eapply Run_crash. rewrite next_mk, E. reflexivity.
    - contradiction.
  Qed.

  Definition fit (data : list byte) (start : Z) (ws ls : list Z) : ending :=
    if start + sum (products ws ls) <=? 8 * zlen data then End else Crash.
  Lemma sum_nonneg : forall ws ls, Forall (fun w => 0 <= w) ws -> Forall (fun l => 0 <= l) ls -> 0 <= sum (products ws ls).
  Proof.
    intros ws ls Hw. revert ls. induction Hw as [|w ws Hw0 Hw IH]; intros ls Hl; [cbn; lia|]. destruct Hl as [|l ls Hl0 Hl]; [cbn; lia|].
    cbn [products sum fold_right]. specialize (IH ls Hl). unfold sum in IH. nia.
  Qed.

  Lemma flat_total_aux : forall F rs ws ls, length ws = length rs -> length ls = length rs -> (length rs < F)%nat ->
    Forall (fun r => 0 <= r < 2 ^ nbit) rs -> Forall (fun w => 0 <= w) ws -> Forall (fun l => 0 <= l) ls -> calm m nbit zmin ws ->
    forall r w l pos off,
    Run (MkIter R r ref_next) rs End -> Run (MkIter W w width_next) ws End -> Run (MkIter L l len_next) ls End ->
    0 <= pos -> 0 <= off < 8 -> 8 * pos + off <= 8 * zlen data ->
    exists out, (fit data (8 * pos + off) ws ls = End -> zlen out = sum ls) /\ (fit data (8 * pos + off) ws ls = Crash -> zlen out < sum ls) /\
    forall f, (length rs < f)%nat -> first_call F (fnext f ([], Some (GS r w l pos off))) out (fit data (8 * pos + off) ws ls).
  Proof.
    intros F rs. induction rs as [|ref rs IH]; intros ws ls Lw Ll HF Hr Hw Hl Hc r w l pos off Rr Rw Rl Hpos Hoff Hin.
    - destruct ws; [|discriminate Lw]. destruct ls; [|discriminate Ll]. exists []. split; [reflexivity|]. split; [unfold fit; cbn [products sum fold_right]; replace (8 * pos + off + 0 <=? 8 * zlen data) with true by lia; discriminate|]. intros f Hf. destruct f as [|f]; [cbn in Hf; lia|].
      apply Run_mk_nil in Rr, Rw, Rl. destruct Rr as (r' & Er), Rw as (w' & Ew), Rl as (l' & El).
      cbn [flat_next]. unfold groups_next. rewrite Er. cbn [bind]. rewrite Ew. cbn [bind]. rewrite El. cbn [bind first_call].
      split; [reflexivity|]. unfold fit. cbn [products sum fold_right]. replace (8 * pos + off + 0 <=? 8 * zlen data) with true by lia. reflexivity.
    - destruct ws as [|width ws]; [discriminate Lw|]. destruct ls as [|len ls]; [discriminate Ll|]. injection Lw as Lw. injection Ll as Ll.
      apply Run_mk_inv in Rr, Rw, Rl. destruct Rr as (r' & Er & Rr), Rw as (w' & Ew & Rw), Rl as (l' & El & Rl).
      apply Forall_cons_iff in Hr, Hw, Hl. destruct Hr as (Hr0 & Hr), Hw as (Hw0 & Hw), Hl as (Hl0 & Hl).
      assert (C1 : calm m nbit zmin [width]). { destruct Hc as [->|(A & B & C)]; [left; reflexivity|right]. apply Forall_cons_iff in C. split; [exact A|]. split; [exact B|]. constructor; [apply C|constructor]. }
      assert (C2 : calm m nbit zmin ws). { destruct Hc as [->|(A & B & C)]; [left; reflexivity|right]. apply Forall_cons_iff in C. split; [exact A|]. split; [exact B|]. apply C. }
      pose proof (group_total ref width len r w l r' w' l' pos off Hr0 Hw0 Hl0 C1 Hpos Hoff Hin Er Ew El) as G.
      pose proof (sum_nonneg ws ls Hw Hl) as SN. cbn [length] in HF.
      unfold fit. cbn [products sum fold_right]. unfold sum in SN.
      destruct (8 * pos + off + width * len <=? 8 * zlen data) eqn:Fit.
      + destruct G as (vs & pos' & off' & En & Lv & Hpos' & Hoff' & Esum).
        destruct (IH ws ls Lw Ll ltac:(lia) Hr Hw Hl C2 r' w' l' pos' off' Rr Rw Rl Hpos' Hoff' ltac:(lia)) as (out & Lo & Lc & Hf).
        unfold fit in Lo, Lc, Hf. rewrite Esum in Lo, Lc, Hf.
        replace (8 * pos + off + width * len + sum (products ws ls)) with (8 * pos + off + (width * len + sum (products ws ls))) in Lo, Lc, Hf by lia.
        change (fold_right Z.add 0 (products ws ls)) with (sum (products ws ls)). set (e := if _ <=? _ then End else Crash) in *.
        exists (vs ++ out). split.
        { intros He. rewrite zlen_app, Lv, (Lo He). reflexivity. }
        split. { intros He. specialize (Lc He). rewrite zlen_app, Lv. unfold sum in *. lia. }
        intros f Hlen. destruct f as [|f]; [lia|]. cbn [length] in Hlen. cbn [flat_next]. rewrite En. cbn [bind].
        destruct vs as [|v vs]; [apply (Hf f ltac:(lia))|]. destruct f as [|f]; [lia|]. cbn [flat_next app first_call]. exists (vs ++ out).
        split; [reflexivity|]. apply flat_front'. apply first_call_run. apply (Hf F). lia.
      + exists []. replace (8 * pos + off + (width * len + fold_right Z.add 0 (products ws ls)) <=? 8 * zlen data) with false by lia.
        split; [discriminate|]. split. { intros _. assert (0 < len) by nia. assert (0 <= sum ls) by (clear -Hl; induction Hl; cbn in *; unfold sum in *; lia). unfold sum in *. change (zlen (@nil dv)) with 0. lia. } intros f Hlen. destruct f as [|f]; [lia|]. cbn [flat_next]. rewrite G. cbn [bind first_call]. auto.
  Qed.

  Lemma flat_total : forall F rs ws ls, length ws = length rs -> length ls = length rs -> (length rs < F)%nat ->
    Forall (fun r => 0 <= r < 2 ^ nbit) rs -> Forall (fun w => 0 <= w) ws -> Forall (fun l => 0 <= l) ls -> calm m nbit zmin ws ->
    forall r w l,
    Run (MkIter R r ref_next) rs End -> Run (MkIter W w width_next) ws End -> Run (MkIter L l len_next) ls End ->
    exists out, (fit data 0 ws ls = End -> zlen out = sum ls) /\ (fit data 0 ws ls = Crash -> zlen out < sum ls) /\
      Run (MkIter (flat_state R W L) ([], Some (GS r w l 0 0)) (fnext F)) out (fit data 0 ws ls).
  Proof.
    intros F rs ws ls Lw Ll HF Hr Hw Hl Hc r w l Rr Rw Rl. pose proof (zlen_nonneg _ data).
    destruct (flat_total_aux F rs ws ls Lw Ll HF Hr Hw Hl Hc r w l 0 0 Rr Rw Rl ltac:(lia) ltac:(lia) ltac:(lia)) as (out & Lo & Lc & Hf).
    change (8 * 0 + 0) with 0 in *. exists out. split; [exact Lo|]. split; [exact Lc|]. apply first_call_run. apply Hf. exact HF.
  Qed.
End G.
