(** Floats in files; the values a decoder yields are binary32 values. *)
From Coq Require Import Lia ZifyBool ZifyNat Floats.SpecFloat.
From Verif Require Import Model.Base Model.Helpers Model.Errors Model.F32 Model.Stream Model.Bitmap Model.Diff Model.Complex Model.Simple Model.RunLength.
From Verif Require Import Model.Sections Model.Reader Model.Parser Model.Context Model.Decoder Model.Tools Spec.ToolsS Spec.FloatS.
From Verif Require Import Proofs.BaseLemmas Proofs.HelpersP Proofs.FloatP Proofs.ToolsP.
Ltac Zify.zify_post_hook ::= Z.div_mod_to_equations.

Lemma valid_finite s p e : valid (S754_finite s p e) ->
  (Zpos p < 2 ^ 24 /\ (e = -149 \/ (2 ^ 23 <= Zpos p /\ -149 <= e <= 104))).
Proof.
  unfold valid. cbn [valid_binary]. unfold bounded, canonical_mantissa, SpecFloat.fexp, SpecFloat.emin. intros H.
  apply andb_true_iff in H. destruct H as [H1 H2]. apply Zeq_bool_eq in H1. apply Zle_bool_imp_le in H2.
  assert (D : Zpos (digits2_pos p) <= 24) by lia.
  split.
  { destruct (Z.lt_ge_cases (Zpos p) (2 ^ 24)) as [L|G]; [exact L|]. pose proof (digits2_gt p 24 G). lia. }
  destruct (Z.eq_dec e (-149)) as [E|Ne]; [left; exact E|]. right.
  assert (D2 : Zpos (digits2_pos p) = 24) by lia.
  split; [|lia]. destruct (Z.lt_ge_cases (Zpos p) (2 ^ 23)) as [L|G]; [|exact G].
  pose proof (digits2_le p 23 L ltac:(lia)). lia.
Qed.

Lemma to_bits_range x : valid x -> 0 <= f32_to_bits x < 2 ^ 32.
Proof.
  intros V. destruct x as [s|s| |s p e]; cbn [f32_to_bits]; [destruct s; cbn; lia|destruct s; cbn; lia|lia|].
  apply valid_finite in V. destruct V as [A B].
  change (2 ^ 31) with 2147483648. change (2 ^ 32) with 4294967296. change (2 ^ 24) with 16777216 in *. change (2 ^ 23) with 8388608 in *.
  destruct (Z.pos p <? 8388608) eqn:E; destruct s; lia.
Qed.

Lemma bits_id x : valid x -> f32_of_bits (f32_to_bits x) = x.
Proof.
  intros V. destruct x as [s|s| |s p e]; cbn [f32_to_bits]; [destruct s; reflexivity|destruct s; reflexivity|reflexivity|].
  apply valid_finite in V. destruct V as [A B]. unfold f32_of_bits.
  change (2 ^ 31) with 2147483648. change (2 ^ 24) with 16777216 in *. change (2 ^ 23) with 8388608 in *.
  destruct (Z.pos p <? 8388608) eqn:E.
  - assert (e = -149) as -> by lia.
    assert (H1 : (((if s then 2147483648 else 0) + Z.pos p) / 8388608) mod 256 = 0) by (destruct s; lia).
    assert (H2 : ((if s then 2147483648 else 0) + Z.pos p) mod 8388608 = Z.pos p) by (destruct s; lia).
    rewrite H1, H2. cbn [Z.eqb]. f_equal. destruct s; lia.
  - assert (B2 : -149 <= e <= 104) by lia. clear B.
    assert (H1 : (((if s then 2147483648 else 0) + (e + 150) * 8388608 + (Z.pos p - 8388608)) / 8388608) mod 256 = e + 150) by (destruct s; lia).
    assert (H2 : ((if s then 2147483648 else 0) + (e + 150) * 8388608 + (Z.pos p - 8388608)) mod 8388608 + 8388608 = Z.pos p) by (destruct s; lia).
    rewrite H1, H2. replace (e + 150 =? 255) with false by lia. replace (e + 150 =? 0) with false by lia. f_equal; destruct s; lia.
Qed.

Lemma be_to_be x : valid x -> be (to_be_bytes x) = f32_to_bits x.
Proof.
  intros V. pose proof (to_bits_range x V) as R. unfold to_be_bytes. set (w := f32_to_bits x) in *. clearbody w.
  unfold be. cbn [fold_left]. rewrite !bz_zb. change (2 ^ 24) with 16777216. change (2 ^ 16) with 65536. change (2 ^ 8) with 256. change (2 ^ 32) with 4294967296 in R. lia.
Qed.

Lemma read_floats_cons f n w l : length w = 4%nat -> read_floats f (S n) (w ++ l) = f32_of_bits (f w) :: read_floats f n l.
Proof.
  intros H. cbn [read_floats]. rewrite firstn_app, skipn_app, H. replace (4 - 4)%nat with 0%nat by lia.
  rewrite firstn_all2, skipn_all2 by lia. cbn [firstn skipn app]. rewrite app_nil_r. reflexivity.
Qed.

Lemma floats_back f (to : f32 -> list byte) : (forall x, length (to x) = 4%nat) -> (forall x, valid x -> f (to x) = f32_to_bits x) ->
  forall vs, Forall valid vs -> zlen (flat_map to vs) = 4 * zlen vs /\ read_floats f (length (flat_map to vs) / 4) (flat_map to vs) = vs.
Proof.
  intros L R vs F.
  assert (Hl : length (flat_map to vs) = (4 * length vs)%nat).
  { clear F. induction vs as [|v vs IH]; [reflexivity|]. cbn [flat_map length]. rewrite app_length, L, IH. lia. }
  split; [unfold zlen; rewrite Hl; lia|]. rewrite Hl, Nat.mul_comm, Nat.div_mul by lia. clear Hl.
  induction F as [|v vs V F IH]; [reflexivity|]. cbn [length flat_map]. rewrite read_floats_cons by apply L.
  rewrite R by exact V. rewrite bits_id by exact V. now rewrite IH.
Qed.

Lemma be_back vs : Forall valid vs -> zlen (flat_map to_be_bytes vs) = 4 * zlen vs /\ be_floats (flat_map to_be_bytes vs) = vs.
Proof. apply floats_back; [reflexivity|exact be_to_be]. Qed.
Lemma le_back vs : Forall valid vs -> zlen (flat_map to_le_bytes vs) = 4 * zlen vs /\ le_floats (flat_map to_le_bytes vs) = vs.
Proof.
  apply floats_back; [reflexivity|]. intros x V. unfold to_le_bytes. rewrite rev_involutive. exact (be_to_be x V).
Qed.

Lemma write_run : forall to it vs e, Run it vs e -> forall fuel, (length vs < fuel)%nat ->
  write_values fuel to it = match e with End => Ret (flat_map to vs) | Crash => Panic end.
Proof.
  intros to it vs e H. induction H as [it it' N|it N|it it' a l e N H IH]; intros fuel Hf; (destruct fuel as [|fuel]; [cbn in Hf; lia|]); cbn [write_values].
  - rewrite N. reflexivity.
  - rewrite N. reflexivity.
  - rewrite N. cbn [bind]. rewrite IH by (cbn in Hf; lia). destruct e; reflexivity.
Qed.

(** ** The items of an iterator are valid *)
Definition Keeps {A} (P : A -> Prop) (it : iter A) : Prop :=
  exists I : ist it -> Prop, I (icur it) /\
    forall s, I s -> match istep it s with Ret (Some a, s') => P a /\ I s' | Ret (None, s') => I s' | _ => True end.

Lemma Keeps_step A (P : A -> Prop) it o it' : Keeps P it -> next it = Ret (o, it') -> (forall a, o = Some a -> P a) /\ Keeps P it'.
Proof.
  intros (I & I0 & H) E. unfold next in E. specialize (H _ I0) as H0.
  destruct (istep it (icur it)) as [[o' s']| |]; [|discriminate|discriminate]. injection E as <- <-.
  destruct o' as [a|].
  - destruct H0 as [H0 H1]. split; [intros b Eb; injection Eb as <-; exact H0|]. exists I. split; [exact H1|exact H].
  - split; [discriminate|]. exists I. split; [exact H0|exact H].
Qed.
Lemma Keeps_Run A (P : A -> Prop) it l e : Run it l e -> Keeps P it -> Forall P l.
Proof.
  intros R. induction R as [|it|it it' a l e N R IH]; intros K; [constructor|constructor|].
  destruct (Keeps_step _ P it _ _ K N) as [A1 A2]. constructor; [apply A1; reflexivity|exact (IH A2)].
Qed.
Lemma Keeps_imap A B (P : B -> Prop) f (it : iter A) : (forall a b, f a = Ret b -> P b) -> Keeps P (imap f it).
Proof.
  intros H. exists (fun _ => True). split; [exact I|]. intros s _. cbn [istep imap].
  destruct (istep it s) as [[[a|] s']| |]; cbn [bind]; [|exact I|exact I|exact I].
  destruct (f a) as [b| |] eqn:E; cbn [bind]; [|exact I|exact I]. split; [exact (H _ _ E)|exact I].
Qed.
Lemma Keeps_list A (P : A -> Prop) l : Forall P l -> Keeps P (iter_of_list l).
Proof.
  intros F. exists (Forall P). split; [exact F|]. intros [|a s] Fs; cbn [istep iter_of_list]; [exact Fs|]. inversion Fs. auto.
Qed.
Lemma Keeps_fixed A (P : A -> Prop) v n : P v -> Keeps P (fixed_iter v n).
Proof.
  intros H. exists (fun _ => True). split; [exact I|]. intros s _. cbn [istep fixed_iter]. unfold fixed_next.
  destruct (0 <? s); auto.
Qed.
Lemma Keeps_bitmap A (P : A -> Prop) nan bm values len it : P nan -> Keeps P values -> bitmap_iter nan bm values len = Some it -> Keeps P it.
Proof.
  intros Hn (I & I0 & H) E. unfold bitmap_iter, bitmap_new in E. destruct (zlen bm * 8 <? len); [discriminate|]. injection E as <-.
  exists (fun s => I (bm_values s)). split; [exact I0|]. cbn [ist istep]. intros [b v l o] Iv. cbn [bm_values] in Iv. unfold bitmap_next.
  destruct (l <=? o); [exact Iv|]. destruct (o <? 7); cbv beta iota.
  all: destruct (hd_error b) as [x|]; [|exact Iv]; destruct (has_zero_at_offset x o); [split; [exact Hn|exact Iv]|];
    specialize (H v Iv); destruct (istep values v) as [[[a|] v']| |]; cbn [bind]; exact H.
Qed.

Lemma valid_powi a n : valid a -> valid (f32_powi a n).
Proof.
  intros V.
  assert (L : forall p a r, valid a -> valid r -> valid (powi_loop a r p)).
  { induction p as [p IH|p IH|]; intros b r Vb Vr; cbn [powi_loop]; [apply IH|apply IH|]; auto using valid_mul. }
  destruct n as [|p|p]; cbn [f32_powi]; auto using valid_of_Z, valid_div.
Qed.

Lemma valid_simple p x : valid (sp_ref p) -> valid x -> valid (simple_value p x).
Proof. intros A B. unfold simple_value. auto 10 using valid_mul, valid_add, valid_powi, valid_of_Z. Qed.
Lemma valid_zero p : valid (sp_ref p) -> valid (zero_bit_reference_value p).
Proof. intros A. unfold zero_bit_reference_value. auto using valid_mul, valid_powi, valid_of_Z. Qed.
Lemma valid_dv v : valid (dv_to_f32 v).
Proof. destruct v; cbn [dv_to_f32]; [apply valid_of_Z|reflexivity..]. Qed.
Lemma valid_param m b p : simple_param_from_buf m b = Ret (Ok p) -> valid (sp_ref p).
Proof.
  unfold simple_param_from_buf. destruct (read_u32 b 0) as [r| |] eqn:E; cbn [bind]; [|discriminate|discriminate].
  destruct (read_i16 m b 4) as [x1| |]; cbn [bind]; [|discriminate|discriminate].
  destruct (read_i16 m b 6) as [x2| |]; cbn [bind]; [|discriminate|discriminate].
  destruct (read_u8 b 8) as [x3| |]; cbn [bind]; [|discriminate|discriminate].
  destruct (read_u8 b 9) as [x4| |]; cbn [bind]; [|discriminate|discriminate].
  destruct (negb (x4 =? 0)); [discriminate|]. intros H. injection H as <-. cbn [sp_ref]. apply valid_of_bits.
  apply read_be_range in E. change (2 ^ 32) with (256 ^ 4). lia.
Qed.

Lemma valid_levels : forall n b pos dig l, level_values n b pos dig = Ret l -> Forall valid l.
Proof.
  induction n as [|n IH]; intros b pos dig l H; cbn [level_values] in H; [injection H as <-; constructor|].
  destruct (read_u16 b pos) as [v| |]; cbn [bind] in H; [|discriminate|discriminate].
  destruct (level_values n b (pos + 2) dig) as [r| |] eqn:E; cbn [bind] in H; [|discriminate|discriminate].
  injection H as <-. constructor; [|eauto]. apply valid_mul; [apply valid_of_Z|]. apply valid_powi. exact (valid_of_Z 10).
Qed.
Lemma valid_map_levels : forall lm ls l, Forall valid lm -> map_levels lm ls = Ok l -> Forall valid l.
Proof.
  induction ls as [|x ls IH]; intros l F H; cbn [map_levels] in H; [injection H as <-; constructor|].
  destruct (get lm x) as [v|] eqn:G; [|discriminate]. destruct (map_levels lm ls) as [vs|] eqn:E; [|discriminate]. injection H as <-.
  constructor; [|eauto]. unfold get in G. destruct (0 <=? x); [|discriminate]. apply nth_error_In in G. rewrite Forall_forall in F. auto.
Qed.

Lemma Keeps_simple N (f : N -> f32) p it : valid (sp_ref p) -> (forall n, valid (f n)) -> Keeps valid (simple_iter f p it).
Proof. intros A B. apply Keeps_imap. intros a b E. injection E as <-. apply valid_simple; auto. Qed.

Lemma valid_dispatch c m d it : dispatch c m d = Ret (Ok it) -> Keeps valid it.
Proof.
  unfold dispatch. destruct (template_values c m d) as [[values|]| |] eqn:T; cbn [bind]; try discriminate.
  destruct (bitmap_iter f32_nan (d_bitmap d) values (d_total d)) as [it'|] eqn:E; [|discriminate]. intros H. injection H as <-.
  refine (Keeps_bitmap _ _ f32_nan _ values _ _ eq_refl _ E). clear E.
  unfold template_values in T.
  assert (Simple : forall b p, simple_param_from_buf m b = Ret (Ok p) -> valid (sp_ref p)) by (intros b p; apply valid_param).
  assert (Cases : d_template d = 0 \/ d_template d = 2 \/ d_template d = 3 \/ d_template d = 40 \/ d_template d = 41 \/ d_template d = 200 \/
    template_values c m d = Ret (Err (EDecode TemplateNumberUnsupported))).
  { unfold template_values. destruct (d_template d) as [|p|p]; [auto| |auto 10]. do 8 (destruct p as [p|p|]; auto 10). }
  destruct Cases as [C|[C|[C|[C|[C|[C|C]]]]]].
  7:{ unfold template_values in C. rewrite C in T. discriminate. }
  all: rewrite C in T.
  - unfold simple_decode in T. destruct (slice _ _ _) as [b| |]; cbn [bind] in T; try discriminate.
    destruct (simple_param_from_buf m b) as [[p|]| |] eqn:Ep; cbn [bind] in T; try discriminate. specialize (Simple _ _ Ep).
    destruct (sp_nbit p =? 0); injection T as <-; [apply Keeps_fixed; apply valid_zero; exact Simple|apply Keeps_simple; [exact Simple|apply valid_of_Z]].
  - unfold decode_7_2 in T. destruct (decode_7_2_ints m _ _) as [[[sp i]|]| |] eqn:Ei; cbn [bind] in T; try discriminate. injection T as <-.
    apply Keeps_simple; [|apply valid_dv]. unfold decode_7_2_ints in Ei.
    destruct (slice _ 6 16) as [b| |]; cbn [bind] in Ei; try discriminate.
    destruct (simple_param_from_buf m b) as [[p|]| |] eqn:Ep; cbn [bind] in Ei; try discriminate. specialize (Simple _ _ Ep).
    destruct (slice _ 16 42) as [b2| |]; cbn [bind] in Ei; try discriminate.
    destruct (complex_param_from_buf b2) as [cp| |]; cbn [bind] in Ei; try discriminate.
    destruct (complex_unsupported cp); try discriminate.
    destruct (decode_complex_packing _ _ _ _ _ _) as [i'| |]; cbn [bind] in Ei; try discriminate.
    injection Ei as -> _. exact Simple.
  - unfold decode_7_3 in T. destruct (decode_7_3_ints m _ _) as [[[sp i]|]| |] eqn:Ei; cbn [bind] in T; try discriminate. injection T as <-.
    apply Keeps_simple; [|apply valid_dv]. unfold decode_7_3_ints in Ei.
    destruct (slice _ 6 16) as [b| |]; cbn [bind] in Ei; try discriminate.
    destruct (simple_param_from_buf m b) as [[p|]| |] eqn:Ep; cbn [bind] in Ei; try discriminate. specialize (Simple _ _ Ep).
    assert (sp = p) as ->; [|exact Simple].
    repeat match type of Ei with
    | context [bind ?x _] => destruct x as [?| |]; cbn [bind] in Ei; try discriminate
    | context [match ?x with _ => _ end] => destruct x; try discriminate
    end; congruence.
  - unfold jpeg2000_decode in T. destruct (slice _ _ _) as [b| |]; cbn [bind] in T; try discriminate.
    destruct (simple_param_from_buf m b) as [[p|]| |] eqn:Ep; cbn [bind] in T; try discriminate. specialize (Simple _ _ Ep).
    destruct (sp_nbit p =? 0); [injection T as <-; apply Keeps_fixed; apply valid_zero; exact Simple|].
    destruct (decode_jp2 c m _) as [[l|]| |]; cbn [bind] in T; try discriminate. injection T as <-.
    apply Keeps_simple; [exact Simple|apply valid_of_Z].
  - unfold png_decode in T. destruct (slice _ _ _) as [b| |]; cbn [bind] in T; try discriminate.
    destruct (simple_param_from_buf m b) as [[p|]| |] eqn:Ep; cbn [bind] in T; try discriminate. specialize (Simple _ _ Ep).
    destruct (png_buffer c _) as [buf|]; try discriminate.
    destruct (sp_nbit p =? 0); injection T as <-; [apply Keeps_fixed; apply valid_zero; exact Simple|apply Keeps_simple; [exact Simple|apply valid_of_Z]].
  - destruct (rle_decode m _ _ _) as [[l|]| |] eqn:Er; cbn [bind] in T; try discriminate. injection T as <-. apply Keeps_list.
    unfold rle_decode in Er.
    destruct (read_u8 _ 6) as [x1| |]; cbn [bind] in Er; try discriminate.
    destruct (read_u16 _ 7) as [x2| |]; cbn [bind] in Er; try discriminate.
    destruct (read_u16 _ 9) as [x3| |]; cbn [bind] in Er; try discriminate.
    destruct (read_u8 _ 11) as [x4| |]; cbn [bind] in Er; try discriminate.
    destruct (level_values _ _ _ _) as [lv| |] eqn:El; cbn [bind] in Er; try discriminate.
    destruct (rleunpack _ _ _ _ _) as [[dl|]| |]; cbn [bind] in Er; try discriminate.
    assert (Em : map_levels (f32_nan :: lv) dl = Ok l) by congruence.
    eapply valid_map_levels; [|exact Em]. constructor; [reflexivity|exact (valid_levels _ _ _ _ _ El)].
Qed.
