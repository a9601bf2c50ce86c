(** C83: a field whose only group has lost its data. *)
From Coq Require Import Lia ZifyBool.
From Verif Require Import Model.Base Model.Helpers Model.Errors Model.F32 Model.Stream Model.Diff Model.Complex Model.Simple Model.Bitmap Model.Decoder Model.WordDecode.
From Verif Require Import Proofs.BaseLemmas.

Lemma packed_short n : 0 < n -> group_packed Wrapping 0 0 [] 0 0 0 16 (8 * n) = Panic.
Proof.
  intros Hn. unfold group_packed. change (max_of I32 <? 0) with false. cbv zeta. change (shl Wrapping U32 1 16) with (@Ret Z 65536). cbn [bind].
  change (arith Wrapping U32 (65536 - 1)) with (@Ret Z 65535). cbn [bind]. change (arith Wrapping U32 (65535 - 1)) with (@Ret Z 65534). cbn [bind].
  replace (0 + 16 * (8 * n)) with (16 * n * 8) by lia. rewrite Z.div_mul, Z.mod_mul by lia. change (if 0 <? 0 then 1 else 0) with 0. rewrite slice_panic; [reflexivity|]. change (zlen []) with 0. lia.
Qed.
Lemma wpacked_short n : arith Wrapping U32 (16 * n) = Ret 0 -> wgroup_packed U32 Wrapping 0 0 [] 0 0 0 16 n = Ret ([], 0, 0).
Proof.
  intros H. unfold wgroup_packed. change (max_of I32 <? 0) with false. rewrite H. cbn [bind].
  change (arith Wrapping U32 (0 + 0)) with (@Ret Z 0). cbn [bind]. change (arith Wrapping U32 (0 + 0 / 8)) with (@Ret Z 0). cbn [bind]. cbv zeta. change (shl Wrapping U32 1 16) with (@Ret Z 65536). cbn [bind].
  change (arith Wrapping U32 (65536 - 1)) with (@Ret Z 65535). cbn [bind]. change (arith Wrapping U32 (65535 - 1)) with (@Ret Z 65534). cbn [bind].
  change (if 0 <? 0 mod 8 then 1 else 0) with 0. change (arith Wrapping U32 (0 + 0)) with (@Ret Z 0). cbn [bind]. change (slice [] 0 0) with (@Ret (list byte) []). cbn [bind].
  generalize (Z.to_nat n). intros k. cbn [collect]. unfold next, imap, itake. cbn [istep icur ist]. destruct (n <=? 0); reflexivity.
Qed.
Definition short_param (n : Z) : complex_param := ComplexParam 1 0 1 16 0 0 0 n 0.
Ltac one_step := match goal with |- context [istep ?i ?s] => let v := eval lazy in (istep i s) in change (istep i s) with v; cbn [bind] end.
Lemma short_run N : group_packed Wrapping 0 0 [] 0 0 0 16 N = Panic ->
  exists it, decode_complex_packing Wrapping (short_param N) [] 0 0 0 = Ret it /\ Run it [] Crash.
Proof.
  intros H. eexists. split; [reflexivity|]. apply Run_crash. unfold next. cbn [istep icur ist]. cbn [short_param cp_ngroup cp_missing]. change (S (S (Z.to_nat 1))) with 3%nat.
  cbn [flat_next]. unfold groups_next. do 3 one_step. match goal with |- context [group_packed Wrapping ?a ?z ?d ?p ?o ?r ?w N] => change (group_packed Wrapping a z d p o r w N) with (group_packed Wrapping 0 0 [] 0 0 0 16 N) end.
  change (16 =? 0) with false. rewrite H. reflexivity.
Qed.
Lemma wshort_run N : wgroup_packed U32 Wrapping 0 0 [] 0 0 0 16 N = Ret ([], 0, 0) ->
  exists it, wdecode_complex_packing U32 Wrapping (short_param N) [] 0 0 0 = Ret it /\ Run it [] End.
Proof.
  intros H. eexists. split; [reflexivity|]. eapply Run_end. unfold next. cbn [istep icur ist]. cbn [short_param cp_ngroup cp_missing]. change (S (S (Z.to_nat 1))) with 3%nat.
  cbn [wflat_next]. unfold wgroups_next at 1. do 3 one_step. match goal with |- context [wgroup_packed U32 Wrapping ?a ?z ?d ?p ?o ?r ?w N] => change (wgroup_packed U32 Wrapping a z d p o r w N) with (wgroup_packed U32 Wrapping 0 0 [] 0 0 0 16 N) end.
  change (16 =? 0) with false. rewrite H. cbn [bind]. unfold wgroups_next at 1. do 3 one_step. reflexivity.
Qed.
Lemma nil_crash A (it : iter A) : Run it [] Crash -> istep it (icur it) = Panic.
Proof. intros H. inversion H as [|x E|]. subst. unfold next in E. destruct (istep it (icur it)) as [[o s]| |]; try discriminate. reflexivity. Qed.
Lemma nil_end A (it : iter A) : Run it [] End -> exists s, istep it (icur it) = Ret (None, s).
Proof. intros H. inversion H as [x y E| |]. subst. unfold next in E. destruct (istep it (icur it)) as [[o s]| |]; try discriminate. cbn in E. injection E as -> _. eauto. Qed.

(** Any such field with template 5.2. *)
Section Short.
  Variables (c : codecs) (sect5 : list byte) (b1 b2 : list byte) (sp : simple_param) (n : Z).
  Let d := MkDecoder 8 8 2 sect5 [xff] [].
  Hypothesis S1 : slice sect5 6 16 = Ret b1.
  Hypothesis P1 : simple_param_from_buf Wrapping b1 = Ret (Ok sp).
  Hypothesis N1 : sp_nbit sp = 0.
  Hypothesis S2 : slice sect5 16 42 = Ret b2.
  Hypothesis P2 : complex_param_from_buf b2 = Ret (short_param (8 * n)).
  Hypothesis H1 : 0 < n.
  Hypothesis H2 : arith Wrapping U32 (16 * (8 * n)) = Ret 0.
  Lemma short_64 : exists it, dispatch c Wrapping d = Ret (Ok it) /\ Run it [] Crash.
  Proof.
    destruct (short_run (8 * n) (packed_short n H1)) as (it & E & R). unfold dispatch, template_values, d. cbn [d_template d_sect5 d_sect7]. unfold decode_7_2, decode_7_2_ints. rewrite S1. cbn [bind]. rewrite P1. cbn [bind]. rewrite S2. cbn [bind]. rewrite P2. cbn [bind].
    change (complex_unsupported (short_param (8 * n))) with false. cbv iota. rewrite N1, E. cbn [bind]. eexists. split; [reflexivity|]. apply Run_crash. unfold next. cbn [istep icur ist bitmap_next].
    change (8 <=? 0) with false. cbv iota. change (0 <? 7) with true. cbv iota. cbn [hd_error d_bitmap]. change (has_zero_at_offset xff 0) with false. cbv iota.
    unfold simple_iter, imap. cbn [istep icur ist]. rewrite (nil_crash _ _ R). reflexivity.
  Qed.
  Lemma short_32 : exists it, wdispatch U32 false c Wrapping d = Ret (Ok it) /\ Run it [] End.
  Proof.
    destruct (wshort_run (8 * n) (wpacked_short (8 * n) H2)) as (it & E & R). unfold wdispatch, wtemplate_values, d. cbn [d_template d_sect5 d_sect7]. unfold wdecode_7_2. rewrite S1. cbn [bind]. rewrite P1. cbn [bind]. rewrite S2. cbn [bind]. rewrite P2. cbn [bind].
    change (complex_unsupported (short_param (8 * n))) with false. cbv iota. rewrite N1, E. cbn [bind d_bitmap d_total]. change (arith Wrapping U32 (zlen [xff] * 8)) with (@Ret Z 8). cbn [bind]. change (8 <? 8) with false. cbv iota. destruct (nil_end _ _ R) as (s' & X).
    eexists. split; [reflexivity|]. eapply Run_end. unfold next. cbn [istep icur ist bitmap_next].
    change (8 <=? 0) with false. cbv iota. change (0 <? 7) with true. cbv iota. cbn [hd_error]. change (has_zero_at_offset xff 0) with false. cbv iota.
    unfold simple_iter, imap. cbn [istep icur ist]. rewrite X. reflexivity.
  Qed.
End Short.
