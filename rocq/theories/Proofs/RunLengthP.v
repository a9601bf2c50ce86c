From Coq Require Import Lia ZifyBool ZifyNat.
From Verif Require Import Model.Base Model.Helpers Model.Errors Model.F32 Model.Stream Model.RunLength.
From Verif Require Import Spec.Bits Spec.RunLengthS.
From Verif Require Import Proofs.BaseLemmas Proofs.HelpersP Proofs.BitsP Proofs.StreamP Proofs.Bits2 Proofs.Fields Proofs.DiffP Proofs.ComplexP.
Ltac Zify.zify_post_hook ::= Z.div_mod_to_equations.

(** The loop over a finite list of codes. *)
Fixpoint rle_list (m : mode) (rlbase lngu : Z) (codes : list Z) (s : rle_state)
  : outcome (result rle_state rle_error) :=
  match codes with
  | [] => Ret (Ok s)
  | c :: cs => try! s' := rle_body m rlbase lngu c s in rle_list m rlbase lngu cs s'
  end.

Lemma rle_loop_list : forall m rlbase lngu codes fuel it s,
  Run (nbit_iter m it) codes End -> (length codes < fuel)%nat ->
  rle_loop fuel m rlbase lngu it s = rle_list m rlbase lngu codes s.
Proof.
  intros m rlbase lngu. induction codes as [|c cs IH]; intros fuel it s HR Hf;
    (destruct fuel as [|fuel]; [lia|]); cbn [rle_loop rle_list].
  - apply Run_mk_nil in HR. destruct HR as (s' & E). rewrite E. reflexivity.
  - apply Run_mk_inv in HR. destruct HR as (it' & E & HR). rewrite E. cbn [bind].
    destruct (rle_body m rlbase lngu c s) as [[s'|e]| |]; cbn [bind]; try reflexivity.
    apply IH; [exact HR|]. cbn [length] in Hf. lia.
Qed.

Lemma repeat_add : forall A (a : A) i j, repeat a (i + j) = repeat a i ++ repeat a j.
Proof. induction i; intros; cbn [repeat Nat.add app]; [reflexivity|]. rewrite IHi. reflexivity. Qed.

Lemma split_digits_nonneg : forall maxv codes, Forall (fun d => 0 <= d) (fst (split_runs maxv codes)).
Proof.
  intros maxv. induction codes as [|c cs IH]; cbn [split_runs fst]; [constructor|].
  destruct (split_runs maxv cs) as [ds rs]. cbn [fst] in IH.
  destruct (c <=? maxv) eqn:E; cbn [fst]; constructor; [lia|exact IH].
Qed.

Lemma digits_value_nonneg : forall L ds, 0 <= L -> Forall (fun d => 0 <= d) ds -> 0 <= digits_value L ds.
Proof. intros L ds HL HF. induction HF; cbn [digits_value]; nia. Qed.

Lemma rle_list_tail : forall m maxv L codes out lev exp,
  0 <= maxv -> maxv + 1 < 2 ^ 16 -> 1 <= L -> 1 <= exp -> Forall (fun c => 0 <= c < maxv + 1 + L /\ c < 2 ^ 16) codes ->
  exp * L ^ zlen (fst (split_runs maxv codes)) < 2 ^ 64 ->
  runs_ok L (snd (split_runs maxv codes)) ->
  exists cached exp', rle_list m (maxv + 1) L codes (RLE out (Some lev) exp)
  = Ret (Ok (RLE (out ++ repeat lev (Z.to_nat (exp * digits_value L (fst (split_runs maxv codes))))
                  ++ flat_map (expand L) (snd (split_runs maxv codes))) cached exp')).
Proof.
  intros m maxv L. induction codes as [|c cs IH]; intros out lev exp Hm Hm' HL He HF HO HR.
  - cbn. rewrite Z.mul_0_r. cbn. rewrite app_nil_r. eauto.
  - apply Forall_cons_iff in HF. destruct HF as [[Hc Hc'] HF].
    pose proof (split_digits_nonneg maxv cs) as HD.
    cbn [rle_list split_runs] in *. destruct (split_runs maxv cs) as [ds rs] eqn:ES. cbn [fst snd] in *.
    unfold rle_body. rewrite wrap_id by mlia.
    replace (c <? maxv + 1) with (c <=? maxv) by lia.
    destruct (c <=? maxv) eqn:E; cbn [bind rle_out rle_cached rle_exp fst snd] in *.
    + unfold runs_ok in HR. apply Forall_cons_iff in HR. destruct HR as [H1 HR]. cbn [snd] in H1.
      destruct (IH (out ++ [c]) c 1) as (ca & ex & EQ); try lia; try assumption.
      rewrite EQ. exists ca, ex. do 3 f_equal.
      cbn [digits_value flat_map]. rewrite Z.mul_0_r, Z.mul_1_l. unfold expand at 2. cbn [fst snd repeat app Z.to_nat].
      rewrite <- app_assoc. reflexivity.
    + rewrite zlen_cons, Z.pow_add_r in HO by (pose proof (zlen_nonneg _ ds); lia). rewrite Z.pow_1_r in HO.
      pose proof (zlen_nonneg _ ds) as Hz.
      assert (HP : 1 <= L ^ zlen ds) by (change 1 with (L ^ 0); apply Z.pow_le_mono_r; lia).
      assert (HEL : exp * L < 2 ^ 64). { nia. }
      assert (HDL : 0 <= (c - (maxv + 1)) * exp < 2 ^ 64) by nia.
      rewrite p64 in *.
      rewrite arith_ok by mlia. cbn [bind]. rewrite arith_ok by mlia. cbn [bind].
      destruct (IH (out ++ repeat lev (Z.to_nat ((c - (maxv + 1)) * exp))) lev (exp * L)) as (ca & ex & EQ); try assumption; try lia; try nia.
      rewrite EQ. exists ca, ex. do 3 f_equal. rewrite <- app_assoc. f_equal.
      rewrite app_assoc, <- repeat_add. do 2 f_equal. cbn [digits_value].
      pose proof (digits_value_nonneg L ds ltac:(lia) HD) as HV.
      rewrite <- Z2Nat.inj_add by nia. f_equal. nia.
Qed.

Lemma split_runs_first : forall maxv codes, 
  match codes with
  | [] => split_runs maxv codes = ([], [])
  | c :: cs => if c <=? maxv then fst (split_runs maxv codes) = [] else fst (split_runs maxv codes) <> []
  end.
Proof.
  intros maxv [|c cs]; [reflexivity|]. cbn [split_runs]. destruct (split_runs maxv cs) as [ds rs].
  destruct (c <=? maxv); cbn [fst]; congruence.
Qed.

Lemma codes_run : forall m input n, 1 <= n <= 32 -> Run (nbit_iter m (nbit_new input n)) (codes_of input n) End.
Proof.
  intros m input n Hn. unfold codes_of. pose proof (nbit_exact m input n 0 ltac:(lia) Hn) as H.
  rewrite Z.sub_0_r in H. exact H.
Qed.

Lemma codes_range : forall input n, 1 <= n -> Forall (fun c => 0 <= c < 2 ^ n) (codes_of input n).
Proof.
  intros input n Hn. unfold codes_of, fields. apply Forall_map. apply Forall_forall. intros k _.
  match goal with |- 0 <= bits_value ?l < _ => pose proof (bits_value_range l) as HB; assert (HL : zlen l <= n) end.
  { unfold zlen. rewrite firstn_length. lia. }
  split; [lia|]. eapply Z.lt_le_trans; [apply HB|]. apply Z.pow_le_mono_r; lia.
Qed.

Lemma codes_count : forall input n, 1 <= n -> (length (codes_of input n) < rle_fuel input)%nat.
Proof.
  intros input n Hn. unfold codes_of, rle_fuel. rewrite fields_length.
  assert (8 * zlen input / n <= 8 * zlen input).
  { pose proof (zlen_nonneg _ input). apply Z.div_le_upper_bound; nia. }
  unfold zlen in *. lia.
Qed.

Lemma rle_exact : forall m input n maxv len, 1 <= n <= 15 -> 0 <= maxv -> maxv + 1 < 2 ^ n ->
  let L := base n maxv in
  let '(lead, runs) := split_runs maxv (codes_of input n) in
  runs_ok L runs ->
  rleunpack m input n maxv (Some len) =
    Ret (match lead with
         | _ :: _ => Err InvalidFirstValue
         | [] => if len =? zlen (flat_map (expand L) runs) then Ok (flat_map (expand L) runs) else Err RleLengthMismatch
         end).
Proof.
  intros m input n maxv len Hn Hm HM L. destruct (split_runs maxv (codes_of input n)) as [lead runs] eqn:ES.
  intros HO.
  assert (P : 2 ^ n <= 32768) by (rewrite <- p15; apply pow_le_mono; lia).
  unfold rleunpack, rleunpack_fuel. rewrite arith_ok by mlia. cbn [bind].
  rewrite shl_ok by (change (bits_of U16) with 16; lia). cbn [bind]. rewrite Z.mul_1_l, wrap_id by mlia.
  rewrite arith_ok by mlia. cbn [bind].
  replace (2 ^ n - (maxv + 1)) with L by (unfold L, base; lia).
  rewrite (rle_loop_list m _ _ (codes_of input n)); [|apply codes_run; lia|apply codes_count; lia].
  pose proof (codes_range input n ltac:(lia)) as HR.
  pose proof (split_runs_first maxv (codes_of input n)) as HF. rewrite ES in HF.
  assert (HL : 1 <= L) by (unfold L, base; lia).
  destruct (codes_of input n) as [|c cs].
  - injection HF as -> ->. cbn [rle_list bind rle_out flat_map]. 
    destruct (len =? zlen []); reflexivity.
  - apply Forall_cons_iff in HR. destruct HR as [Hc HR]. cbn [rle_list].
    unfold rle_body at 1. rewrite wrap_id by mlia. cbn [rle_out rle_cached rle_exp app].
    replace (c <? maxv + 1) with (c <=? maxv) by lia.
    cbn [split_runs] in ES. destruct (split_runs maxv cs) as [ds rs] eqn:ES'.
    destruct (c <=? maxv) eqn:E; cbn [bind fst] in *.
    + injection ES as <- <-. unfold runs_ok in HO. apply Forall_cons_iff in HO. destruct HO as [H1 HO]. cbn [snd] in H1.
      destruct (rle_list_tail m maxv L cs [c] c 1) as (ca & ex & EQ); try lia.
      * eapply Forall_impl; [|exact HR]. cbv beta. intros a Ha. rewrite p16. unfold L, base. lia.
      * rewrite ES'. cbn [fst]. lia.
      * rewrite ES'. exact HO.
      * rewrite ES' in EQ. cbn [fst snd] in EQ. rewrite EQ. cbn [bind rle_out].
        rewrite Z.mul_1_l. 
        change ([c] ++ repeat c (Z.to_nat (digits_value L ds)) ++ flat_map (expand L) rs)
          with (flat_map (expand L) ((c, ds) :: rs)).
        destruct (len =? zlen (flat_map (expand L) ((c, ds) :: rs))); reflexivity.
    + injection ES as <- <-. reflexivity.
Qed.

(** Encoder side. *)
Lemma split_digits_app : forall maxv ds tail, 0 <= maxv -> Forall (fun d => 0 <= d) ds ->
  split_runs maxv (map (fun d => maxv + 1 + d) ds ++ tail)
  = (ds ++ fst (split_runs maxv tail), snd (split_runs maxv tail)).
Proof.
  intros maxv ds tail Hm HF. induction HF as [|d ds Hd HF IH]; cbn [map app split_runs].
  - destruct (split_runs maxv tail); reflexivity.
  - rewrite IH. replace (maxv + 1 + d <=? maxv) with false by lia. do 2 f_equal. lia.
Qed.

Lemma split_encode : forall n maxv runs tail, 0 <= maxv -> Forall (run_ok n maxv) runs ->
  match tail with [] => True | c :: _ => 0 <= c <= maxv end ->
  split_runs maxv (flat_map (run_codes maxv) runs ++ tail) = ([], runs ++ snd (split_runs maxv tail)).
Proof.
  intros n maxv runs tail Hm HF HT. induction HF as [|r runs Hr HF IH]; cbn [flat_map app].
  - pose proof (split_runs_first maxv tail) as F. destruct tail as [|c tail]; [reflexivity|].
    replace (c <=? maxv) with true in F by lia. destruct (split_runs maxv (c :: tail)) as [a b]. cbn [fst snd] in *. subst a. reflexivity.
  - destruct r as [l ds]. destruct Hr as (Hl & Hd & _). cbn [fst snd] in *.
    unfold run_codes at 1. cbn [fst snd app split_runs]. rewrite <- app_assoc.
    rewrite split_digits_app; [|assumption|eapply Forall_impl; [|exact Hd]; cbv beta; intros; lia].
    rewrite IH. replace (l <=? maxv) with true by lia. cbn [fst snd app]. rewrite app_nil_r. reflexivity.
Qed.

Lemma split_zeros : forall maxv k, 0 <= maxv -> split_runs maxv (repeat 0 k) = ([], repeat (0, []) k).
Proof.
  intros maxv k H. induction k as [|k IH]; [reflexivity|]. cbn [repeat split_runs]. rewrite IH.
  replace (0 <=? maxv) with true by lia. reflexivity.
Qed.

Lemma base_pos : forall n maxv, maxv + 1 < 2 ^ n -> 1 <= base n maxv.
Proof. intros. unfold base. lia. Qed.

Lemma codes_bounded : forall n maxv r, 0 <= maxv -> maxv + 1 < 2 ^ n -> run_ok n maxv r -> Forall (fun c => 0 <= c < 2 ^ n) (run_codes maxv r).
Proof.
  intros n maxv [l ds] Hm HM (Hl & Hd & _). cbn [fst snd] in *. unfold run_codes. cbn [fst snd].
  constructor; [lia|]. apply Forall_map. eapply Forall_impl; [|exact Hd]. cbv beta. unfold base. intros; lia.
Qed.

(** Exact effect of decoding an encoded sequence: padding bits that make up whole
    codes are read as extra points of level 0. *)
Definition pad_bits (n : Z) (codes : list Z) : Z := (- (n * zlen codes)) mod 8.
Definition pad_items (n : Z) (codes : list Z) : Z := pad_bits n codes / n.

Lemma codes_of_pack : forall n codes, (1 <= n <= 32)%nat -> Forall (fun c => 0 <= c < 2 ^ Z.of_nat n) codes ->
  codes_of (pack n codes) (Z.of_nat n) = codes ++ repeat 0 (Z.to_nat (pad_items (Z.of_nat n) codes)).
Proof.
  intros n codes Hn HF.
  pose proof (codes_run Checked (pack n codes) (Z.of_nat n) ltac:(lia)) as H1.
  destruct (pack_unpack Checked n codes Hn HF) as (extra & He & H2).
  unfold bit_stream in H2. replace (Z.of_nat n =? 0) with false in H2 by lia.
  destruct (Run_det _ _ _ _ H1 _ _ H2) as [E _]. rewrite E. f_equal. f_equal.
  apply (f_equal (@length Z)) in E. unfold codes_of in E. rewrite fields_length, app_length, repeat_length in E.
  rewrite zlen_pack in E. unfold pad_items, pad_bits.
  set (k := zlen codes) in *. assert (Hk : k = Z.of_nat (length codes)) by reflexivity.
  set (N := Z.of_nat n) in *.
  assert (E' : 8 * ((k * N + 7) / 8) / N = k + Z.of_nat extra).
  { assert (0 <= 8 * ((k * N + 7) / 8) / N) by (apply Z.div_pos; nia). lia. }
  assert (EB : 8 * ((k * N + 7) / 8) = k * N + (- (N * k)) mod 8).
  { replace (N * k) with (k * N) by lia. generalize (k * N). intros z. lia. }
  rewrite EB in E'. rewrite Z.div_add_l in E' by lia. lia.
Qed.

Lemma expand_zeros : forall L k, flat_map (expand L) (repeat (0, []) k) = repeat 0 k.
Proof. intros L. induction k as [|k IH]; [reflexivity|]. cbn [repeat flat_map]. rewrite IH. reflexivity. Qed.

Lemma rle_encode_decode : forall m (n : nat) maxv runs len, (1 <= n <= 15)%nat -> 0 <= maxv -> maxv + 1 < 2 ^ Z.of_nat n ->
  Forall (run_ok (Z.of_nat n) maxv) runs ->
  let codes := flat_map (run_codes maxv) runs in
  let out := flat_map (expand (base (Z.of_nat n) maxv)) runs ++ repeat 0 (Z.to_nat (pad_items (Z.of_nat n) codes)) in
  rleunpack m (pack n codes) (Z.of_nat n) maxv (Some len)
  = Ret (if len =? zlen out then Ok out else Err RleLengthMismatch).
Proof.
  intros m n maxv runs len Hn Hm HM HF codes out.
  pose proof (rle_exact m (pack n codes) (Z.of_nat n) maxv len ltac:(lia) Hm HM) as H. cbv zeta in H.
  rewrite codes_of_pack in H.
  2:{ lia. }
  2:{ unfold codes. clear -HF Hm HM. induction HF as [|r runs Hr HF IH]; cbn [flat_map]; [constructor|].
      apply Forall_app. split; [eapply codes_bounded; eassumption|exact IH]. }
  unfold codes in H at 1. rewrite (split_encode (Z.of_nat n)) in H; try assumption.
  2:{ fold codes. destruct (Z.to_nat (pad_items (Z.of_nat n) codes)); cbn [repeat]; [exact I|lia]. }
  rewrite split_zeros in H by assumption. cbn [snd] in H.
  rewrite H.
  - f_equal.
    assert (EO : flat_map (expand (base (Z.of_nat n) maxv)) (runs ++ repeat (0, []) (Z.to_nat (pad_items (Z.of_nat n) codes))) = out).
    { rewrite flat_map_app, expand_zeros. reflexivity. }
    fold codes. rewrite EO. reflexivity.
  - unfold runs_ok. apply Forall_app. split.
    + eapply Forall_impl; [|exact HF]. intros r (_ & _ & H'). exact H'.
    + apply Forall_forall. intros r Hr. apply repeat_spec in Hr. subst r. cbn [snd]. rewrite zlen_nil. reflexivity.
Qed.

Lemma rle_roundtrip : forall m (n : nat) maxv runs, (1 <= n <= 15)%nat -> 0 <= maxv -> maxv + 1 < 2 ^ Z.of_nat n ->
  Forall (run_ok (Z.of_nat n) maxv) runs ->
  let codes := flat_map (run_codes maxv) runs in
  let levels := flat_map (expand (base (Z.of_nat n) maxv)) runs in
  (- (Z.of_nat n * zlen codes)) mod 8 < Z.of_nat n ->
  rleunpack m (pack n codes) (Z.of_nat n) maxv (Some (zlen levels)) = Ret (Ok levels).
Proof.
  intros m n maxv runs Hn Hm HM HF codes levels HP.
  pose proof (rle_encode_decode m n maxv runs (zlen levels) Hn Hm HM HF) as H. cbv zeta in H. fold codes levels in H.
  assert (E : pad_items (Z.of_nat n) codes = 0).
  { unfold pad_items, pad_bits. apply Z.div_small. split; [|exact HP]. apply Z.mod_pos_bound. lia. }
  rewrite E in H. cbn [Z.to_nat repeat] in H. rewrite app_nil_r, Z.eqb_refl in H. exact H.
Qed.

Lemma rle_padding_mismatch : forall m (n : nat) maxv runs, (1 <= n <= 15)%nat -> 0 <= maxv -> maxv + 1 < 2 ^ Z.of_nat n ->
  Forall (run_ok (Z.of_nat n) maxv) runs ->
  let codes := flat_map (run_codes maxv) runs in
  let levels := flat_map (expand (base (Z.of_nat n) maxv)) runs in
  Z.of_nat n <= (- (Z.of_nat n * zlen codes)) mod 8 ->
  rleunpack m (pack n codes) (Z.of_nat n) maxv (Some (zlen levels)) = Ret (Err RleLengthMismatch).
Proof.
  intros m n maxv runs Hn Hm HM HF codes levels HP.
  pose proof (rle_encode_decode m n maxv runs (zlen levels) Hn Hm HM HF) as H. cbv zeta in H. fold codes levels in H.
  assert (E : 1 <= pad_items (Z.of_nat n) codes).
  { unfold pad_items, pad_bits. apply Z.div_le_lower_bound; lia. }
  rewrite zlen_app, zlen_repeat in H.
  replace (zlen levels =? zlen levels + Z.of_nat (Z.to_nat (pad_items (Z.of_nat n) codes))) with false in H by lia. exact H.
Qed.

(** Termination. *)
Lemma rle_body_no_diverge : forall m rlbase lngu c s, rle_body m rlbase lngu c s <> Diverge.
Proof.
  intros. unfold rle_body, arith. cbv zeta. destruct (wrap U16 c <? rlbase); [discriminate|].
  destruct (rle_cached s); [|discriminate].
  destruct m; destruct (in_range _ _); cbn [bind]; try discriminate; destruct (in_range _ _); cbn [bind]; discriminate.
Qed.
Lemma rle_list_no_diverge : forall m rlbase lngu codes s, rle_list m rlbase lngu codes s <> Diverge.
Proof.
  induction codes as [|c cs IH]; intros s; cbn [rle_list]; [discriminate|].
  pose proof (rle_body_no_diverge m rlbase lngu c s) as H.
  destruct (rle_body m rlbase lngu c s) as [[s'|e]| |]; cbn [bind]; try discriminate; [apply IH|congruence].
Qed.

Lemma rle_terminates : forall m input nbit maxv len, 1 <= nbit -> rleunpack m input nbit maxv len <> Diverge.
Proof.
  intros m input nbit maxv len Hn. unfold rleunpack, rleunpack_fuel.
  assert (A : forall t z, arith m t z <> Diverge).
  { intros t z. unfold arith. destruct (in_range t z); [discriminate|]. destruct m; discriminate. }
  pose proof (A U16 (maxv + 1)) as H1. destruct (arith m U16 (maxv + 1)) as [rlbase| |]; cbn [bind]; try congruence.
  assert (H2 : shl m U16 1 nbit <> Diverge).
  { unfold shl, shift_amount. destruct (_ && _); cbn [bind]; [discriminate|]. destruct m; discriminate. }
  destruct (shl m U16 1 nbit) as [one| |]; cbn [bind]; try congruence.
  pose proof (A U16 (one - rlbase)) as H3. destruct (arith m U16 (one - rlbase)) as [lngu| |]; cbn [bind]; try congruence.
  pose proof (nbit_wide m input nbit 0 ltac:(lia) Hn) as HR. rewrite Z.sub_0_r in HR.
  erewrite rle_loop_list; [|exact HR|].
  2:{ rewrite map_length. fold (codes_of input nbit). apply codes_count. exact Hn. }
  match goal with |- context [rle_list ?a ?b ?c ?d ?e] => pose proof (rle_list_no_diverge a b c d e) as H4; destruct (rle_list a b c d e) as [[s|e']| |] end;
    cbn [bind]; try congruence.
  destruct len as [l|]; [|discriminate]. destruct (l =? zlen (rle_out s)); discriminate.
Qed.

Lemma rle_zero_width_loops : forall m input len fuel, input <> [] ->
  rleunpack_fuel fuel m input 0 0 len = Diverge.
Proof.
  intros m input len fuel Hi. unfold rleunpack_fuel. rewrite arith_ok by mlia. cbn [bind].
  rewrite shl_ok by (change (bits_of U16) with 16; lia). cbn [bind]. rewrite Z.mul_1_l. change (wrap U16 (2 ^ 0)) with 1.
  rewrite arith_ok by mlia. cbn [bind].
  assert (N : nbit_next m (nbit_new input 0) = Ret (Some 0, nbit_new input 0)).
  { pose proof (nbit_zero_endless m input 1 Hi) as H. cbn [repeat] in H.
    inversion H as [|s s1 s' a l E HS]; subst. inversion HS; subst. exact E. }
  assert (G : forall s, rle_loop fuel m 1 0 (nbit_new input 0) s = Diverge).
  { induction fuel as [|fuel IH]; intros s; [reflexivity|]. cbn [rle_loop]. rewrite N. cbn [bind].
    unfold rle_body. change (wrap U16 0 <? 1) with true. cbv iota. cbn [bind]. apply IH. }
  change (1 - (0 + 1)) with 0. change (0 + 1) with 1. rewrite G. reflexivity.
Qed.

(** 16-bit codes are rejected by overflow checks. *)
Lemma rle_16_bits_panic : forall input maxv len, rleunpack Checked input 16 maxv len = Panic.
Proof.
  intros input maxv len. unfold rleunpack, rleunpack_fuel.
  rewrite arith_checked. destruct (in_range U16 (maxv + 1)); reflexivity.
Qed.

(** The level table. *)
Lemma level_values_ok : forall scale lv pre tail, Forall (fun v => 0 <= v < 2 ^ 16) lv ->
  level_values (length lv) (pre ++ flat_map (be_bytes 2) lv ++ tail) (zlen pre) scale
  = Ret (map (fun v => f32_mul (f32_of_Z v) (f32_powi (f32_of_Z 10) (- scale))) lv).
Proof.
  intros scale lv. induction lv as [|v lv IH]; intros pre tail HF; [reflexivity|].
  apply Forall_cons_iff in HF. destruct HF as [Hv HF]. cbn [length level_values flat_map map].
  unfold read_u16. rewrite <- app_assoc.
  rewrite (read_be_skip 2 pre _ (zlen pre) 0) by lia.
  rewrite read_be_head by (first [reflexivity|exact Hv]). cbn [bind].
  rewrite app_assoc. replace (zlen pre + 2) with (zlen (pre ++ be_bytes 2 v)) by (rewrite zlen_app, zlen_be_bytes; reflexivity).
  rewrite IH by assumption. reflexivity.
Qed.

Lemma get_level : forall scale levels l, 0 <= l <= zlen levels ->
  get (f32_nan :: map (fun v => f32_mul (f32_of_Z v) (f32_powi (f32_of_Z 10) (- scale))) levels) l
  = Some (level_value scale levels l).
Proof.
  intros scale levels l H. unfold get, level_value. replace (0 <=? l) with true by lia.
  destruct (l =? 0) eqn:E.
  - replace l with 0 by lia. reflexivity.
  - replace (Z.to_nat l) with (S (Z.to_nat (l - 1))) by lia. cbn [nth_error].
    rewrite nth_error_map. rewrite (nth_error_nth' levels 0) by (unfold zlen in H; lia). reflexivity.
Qed.

Lemma map_levels_spec : forall scale levels points, Forall (fun l => 0 <= l) points ->
  map_levels (f32_nan :: map (fun v => f32_mul (f32_of_Z v) (f32_powi (f32_of_Z 10) (- scale))) levels) points
  = match find (fun l => zlen levels <? l) points with
    | Some l => Err (EDecode (RunLengthError (InvalidLevelValue l)))
    | None => Ok (map (level_value scale levels) points)
    end.
Proof.
  intros scale levels points HF. induction HF as [|l points Hl HF IH]; [reflexivity|].
  cbn [map_levels find map]. destruct (zlen levels <? l) eqn:E.
  - unfold get. replace (0 <=? l) with true by lia.
    match goal with |- context [nth_error ?a ?b] => replace (nth_error a b) with (@None f32) end; [reflexivity|].
    symmetry. apply nth_error_None. cbn [length]. rewrite map_length. unfold zlen in E. lia.
  - rewrite get_level by lia. rewrite IH. destruct (find _ points); reflexivity.
Qed.

Lemma points_nonneg : forall maxv codes L, Forall (fun c => 0 <= c) codes ->
  Forall (fun l => 0 <= l) (flat_map (expand L) (snd (split_runs maxv codes))).
Proof.
  intros maxv codes L HF. induction HF as [|c cs Hc HF IH]; [constructor|].
  cbn [split_runs]. destruct (split_runs maxv cs) as [ds rs]. cbn [snd] in IH.
  destruct (c <=? maxv); cbn [snd flat_map]; [|exact IH].
  apply Forall_app. split; [|exact IH]. apply Forall_forall. intros x Hx. unfold expand in Hx. apply repeat_spec in Hx. cbn in Hx. lia.
Qed.

Lemma rle_decode_exact : forall m input np n maxv scale levels tail count,
  1 <= n <= 15 -> 0 <= maxv -> maxv + 1 < 2 ^ n -> 0 <= scale < 256 ->
  zlen levels < 2 ^ 16 -> Forall (fun v => 0 <= v < 2 ^ 16) levels ->
  let L := base n maxv in
  let '(lead, runs) := split_runs maxv (codes_of input n) in
  let points := flat_map (expand L) runs in
  runs_ok L runs ->
  rle_decode m (sect5_rle np n maxv scale levels tail) input count =
    Ret (match lead with
         | _ :: _ => Err (EDecode (RunLengthError InvalidFirstValue))
         | [] =>
             if negb (count =? zlen points) then Err (EDecode (RunLengthError RleLengthMismatch))
             else match find (fun l => zlen levels <? l) points with
                  | Some l => Err (EDecode (RunLengthError (InvalidLevelValue l)))
                  | None => Ok (map (level_value scale levels) points)
                  end
         end).
Proof.
  intros m input np n maxv scale levels tail count Hn Hm HM Hs Hl HF L.
  pose proof (rle_exact m input n maxv count Hn Hm HM) as H. cbv zeta in H. fold L in H.
  pose proof (points_nonneg maxv (codes_of input n) L) as HP.
  destruct (split_runs maxv (codes_of input n)) as [lead runs] eqn:ES. cbv zeta. intros HO. specialize (H HO).
  assert (P : 2 ^ n <= 32768) by (rewrite <- p15; apply pow_le_mono; lia).
  pose proof (zlen_nonneg _ levels) as Hz.
  unfold rle_decode.
  assert (R1 : read_u8 (sect5_rle np n maxv scale levels tail) 6 = Ret n).
  { unfold read_u8, sect5_rle. rd ltac:(change (256 ^ 1) with 256; lia). reflexivity. }
  assert (R2 : read_u16 (sect5_rle np n maxv scale levels tail) 7 = Ret maxv).
  { unfold read_u16, sect5_rle. rd ltac:(change (256 ^ 2) with 65536; lia). reflexivity. }
  assert (R3 : read_u16 (sect5_rle np n maxv scale levels tail) 9 = Ret (zlen levels)).
  { unfold read_u16, sect5_rle. rd ltac:(change (256 ^ 2) with (2 ^ 16); lia). reflexivity. }
  assert (R4 : read_u8 (sect5_rle np n maxv scale levels tail) 11 = Ret scale).
  { unfold read_u8, sect5_rle. rd ltac:(change (256 ^ 1) with 256; lia). reflexivity. }
  rewrite R1. cbn [bind]. rewrite R2. cbn [bind]. rewrite R3. cbn [bind]. rewrite R4. cbn [bind].
  assert (R5 : level_values (Z.to_nat (zlen levels)) (sect5_rle np n maxv scale levels tail) 12 scale
     = Ret (map (fun v => f32_mul (f32_of_Z v) (f32_powi (f32_of_Z 10) (- scale))) levels)).
  { unfold zlen at 1. rewrite Nat2Z.id. unfold sect5_rle.
    pose proof (level_values_ok scale levels (be_bytes 4 np ++ be_bytes 2 200 ++ be_bytes 1 n ++ be_bytes 2 maxv
       ++ be_bytes 2 (zlen levels) ++ be_bytes 1 scale) tail HF) as HV.
    rewrite !zlen_app, !zlen_be_bytes in HV.
    change (Z.of_nat 4 + (Z.of_nat 2 + (Z.of_nat 1 + (Z.of_nat 2 + (Z.of_nat 2 + Z.of_nat 1))))) with 12 in HV.
    rewrite <- !app_assoc in HV. exact HV. }
  rewrite R5. cbn [bind]. rewrite H. cbn [bind].
  destruct lead as [|x lead]; [|reflexivity].
  destruct (count =? zlen (flat_map (expand L) runs)) eqn:EC; cbn [negb]; [|reflexivity].
  rewrite map_levels_spec; [reflexivity|]. apply HP.
  eapply Forall_impl; [|apply codes_range; lia]. cbv beta. intros; lia.
Qed.

Lemma rle_16_bits_wrong : exists runs maxv,
  0 <= maxv /\ maxv + 1 < 2 ^ 16 /\ Forall (run_ok 16 maxv) runs
  /\ flat_map (expand (base 16 maxv)) runs = repeat 5 4
  /\ rleunpack Wrapping (pack 16 (flat_map (run_codes maxv) runs)) 16 maxv None = Ret (Ok (repeat 5 5)).
Proof.
  exists [(5, [1; 1])], 65533. split; [lia|]. split; [reflexivity|]. split.
  - repeat constructor; vm_compute; congruence.
  - split; vm_compute; reflexivity.
Qed.

(** Decoding an encoded sequence through a level table. *)
Lemma find_none : forall (f : Z -> bool) l, Forall (fun x => f x = false) l -> find f l = None.
Proof. intros f l HF. induction HF as [|x l Hx HF IH]; [reflexivity|]. cbn [find]. now rewrite Hx. Qed.

Lemma rle_decode_roundtrip : forall m np (n : nat) maxv scale levels tail runs,
  (1 <= n <= 15)%nat -> 0 <= maxv -> maxv + 1 < 2 ^ Z.of_nat n -> 0 <= scale < 256 ->
  zlen levels < 2 ^ 16 -> Forall (fun v => 0 <= v < 2 ^ 16) levels ->
  Forall (run_ok (Z.of_nat n) maxv) runs ->
  let codes := flat_map (run_codes maxv) runs in
  let points := flat_map (expand (base (Z.of_nat n) maxv)) runs in
  (- (Z.of_nat n * zlen codes)) mod 8 < Z.of_nat n -> Forall (fun l => l <= zlen levels) points ->
  rle_decode m (sect5_rle np (Z.of_nat n) maxv scale levels tail) (pack n codes) (zlen points) = Ret (Ok (map (level_value scale levels) points)).
Proof.
  intros m np n maxv scale levels tail runs Hn Hm HM Hs Hl HL HF codes points HP Hpts.
  pose proof (rle_decode_exact m (pack n codes) np (Z.of_nat n) maxv scale levels tail (zlen points) ltac:(lia) Hm HM Hs Hl HL) as H. cbv zeta in H.
  rewrite codes_of_pack in H.
  2:{ lia. }
  2:{ unfold codes. clear -HF Hm HM. induction HF as [|r runs Hr HF IH]; cbn [flat_map]; [constructor|].
      apply Forall_app. split; [eapply codes_bounded; eassumption|exact IH]. }
  assert (E : pad_items (Z.of_nat n) codes = 0).
  { unfold pad_items, pad_bits. apply Z.div_small. split; [|exact HP]. apply Z.mod_pos_bound. lia. }
  rewrite E in H. cbn [Z.to_nat repeat] in H. unfold codes in H at 1. rewrite (split_encode (Z.of_nat n)) in H by (trivial; exact I).
  cbn [split_runs snd] in H. rewrite app_nil_r in H. fold points in H. rewrite H.
  - rewrite Z.eqb_refl. cbn [negb]. rewrite find_none; [reflexivity|]. eapply Forall_impl; [|exact Hpts]. cbv beta. intros; lia.
  - eapply Forall_impl; [|exact HF]. intros r (_ & _ & H'). exact H'.
Qed.
