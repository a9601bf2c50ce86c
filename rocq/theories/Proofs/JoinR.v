(** Reading two files, one after the other: what is read. *)
From Coq Require Import Lia ZifyBool ZifyNat.
From Verif Require Import Model.Base Model.Helpers Model.Errors Model.Sections Model.Reader Model.Parser Model.Context Model.Decoder.
From Verif Require Import Spec.ReaderS Spec.ParserS Spec.ReadS Spec.SessionS Spec.LocalS Spec.JoinS.
From Verif Require Import Proofs.BaseLemmas Proofs.ReaderP Proofs.SectionStreamP Proofs.TableP Proofs.ExactP Proofs.ReaderX Proofs.LocalP Proofs.CutP Proofs.CutM Proofs.CutX Proofs.JoinX Proofs.JoinY.
From Verif Require Proofs.ReadX Proofs.FileP Proofs.WordX.
Ltac Zify.zify_post_hook ::= Z.div_mod_to_equations.

Lemma messages_moved k ms2 : Forall wf_message ms2 -> Forall wf_message (map (moved_message k) ms2).
Proof. intros W. rewrite Forall_map. revert W. apply Forall_impl. intros x. apply moved_wf. Qed.
Lemma filter_nums l : Forall (fun x => s_num x <> 0) l -> filter (fun x => s_num x =? 0) l = [].
Proof. induction 1 as [|x l H F IH]; [reflexivity|]. cbn [filter]. destruct (Z.eqb_spec (s_num x) 0); [contradiction|exact IH]. Qed.
Lemma count_messages ms : Forall wf_message ms -> messages_in (flat_map message_sections ms) = zlen ms.
Proof.
  unfold messages_in. induction 1 as [|m ms W F IH]; [reflexivity|]. cbn [flat_map]. rewrite filter_app.
  assert (E : filter (fun x => s_num x =? 0) (message_sections m) = [ms0 m]).
  { pose proof (middle_nums m W) as M. destruct W as (N0 & _ & N8 & _). change (message_sections m) with (ms0 m :: (ms1 m :: flat_map group_sections (groups m)) ++ [ms8 m]).
    cbn [filter]. rewrite N0. change (0 =? 0) with true. cbv iota. f_equal. change (filter (fun x => s_num x =? 0) ((ms1 m :: flat_map group_sections (groups m)) ++ [ms8 m]) = []).
    rewrite filter_app, (filter_nums _ M). cbn [filter app]. destruct (Z.eqb_spec (s_num (ms8 m)) 0); [lia|reflexivity]. }
  rewrite E. cbn [app]. rewrite !zlen_cons, IH. reflexivity.
Qed.

Lemma tiles_app P d l l' e c e1 c1 e2 c2 : tiles P d e c l e1 c1 -> tiles P d e1 c1 l' e2 c2 -> tiles P d e c (l ++ l') e2 c2.
Proof. intros T U. induction T; cbn [app]; [exact U|..]; econstructor; eauto. Qed.

Lemma facts (d : list byte) f g : zlen d < 2 ^ 63 -> grib2_read Checked f (MkSrc d 0 []) = Ret (Ok g) ->
  exists ms us c, Forall wf_message ms /\ g_sections g = flat_map message_sections ms /\ submessages_of_all 0 ms us /\ Forall2 (indexes (g_sections g)) us (g_subs g) /\
    tiles (Checked = Checked) d 0 0 (g_sections g) c c /\ (forall j, c <= j -> ~ magic_at d j) /\ 0 <= c <= zlen d.
Proof.
  intros Hl R. assert (Hp : 0 <= 0 <= zlen d) by (pose proof (k_nonneg d); lia).
  destruct (FileP.grib2_read_inv Checked f _ g R Hl ltac:(cbn [pos]; lia)) as (H & ms & us & W & E & U & X).
  apply (end_iff Checked d 0 Hl Hp) in H. destruct H as (e & c & T & N). pose proof T as T'. rewrite E in T'.
  destruct (after_messages _ _ _ _ _ _ Hp W T') as (-> & Hc & _). exists ms, us, c. repeat (split; [assumption|]). split; [|exact Hc].
  inversion N; [assumption|congruence].
Qed.

Section Join.
  Variables (d1 d2 : list byte) (f1 f2 : nat) (g1 g2 : grib2).
  Hypothesis R1 : grib2_read Checked f1 (MkSrc d1 0 []) = Ret (Ok g1).
  Hypothesis R2 : grib2_read Checked f2 (MkSrc d2 0 []) = Ret (Ok g2).
  Hypothesis HL : zlen (d1 ++ d2) < 2 ^ 63.
  Hypothesis HM : forall j, table_end (g_sections g1) <= j < zlen d1 -> ~ magic_at (d1 ++ d2) j.
  Let k := zlen d1.
  Let D := d1 ++ d2.
  Let L := g_sections g1 ++ map (moved k) (g_sections g2).
  Lemma HL1 : zlen d1 < 2 ^ 63. Proof. pose proof (zlen_both d1 d2). pose proof (k_nonneg d2). lia. Qed.
  Lemma HL2 : zlen d2 < 2 ^ 63. Proof. pose proof (zlen_both d1 d2). pose proof (k_nonneg d1). lia. Qed.
  Lemma H01 : 0 <= 0 <= zlen d1. Proof. pose proof (k_nonneg d1). lia. Qed.
  Lemma H02 : 0 <= 0 <= zlen d2. Proof. pose proof (k_nonneg d2). lia. Qed.
  Lemma H0D : 0 <= 0 <= zlen D. Proof. pose proof (k_nonneg D). lia. Qed.

  Lemma joined_table : exists c, tiles (Checked = Checked) D 0 0 L c c /\ ends D c c.
  Proof.
    destruct (facts d1 f1 g1 HL1 R1) as (ms1 & us1 & c1 & W1 & E1 & U1 & X1 & T1 & N1 & C1).
    destruct (facts d2 f2 g2 HL2 R2) as (ms2 & us2 & c2 & W2 & E2 & U2 & X2 & T2 & N2 & C2).
    pose proof (tiles_table_end _ _ _ _ _ _ _ (Z.le_refl 0) T1) as TE. change (c1 = table_end (g_sections g1)) in TE. rewrite <- TE in HM.
    apply (tiles_left _ _ d2) in T1; [|lia].
    assert (Sm : Forall (small d1) (g_sections g2)) by (rewrite E2 in *; exact (messages_small _ d1 d2 ms2 _ _ HL W2 T2)).
    pose proof (tiles_moved d1 d2 _ _ _ _ _ _ (Z.le_refl 0) Sm T2) as TM. rewrite !Z.add_0_l in TM.
    assert (M2 : forall j, c2 + k <= j -> ~ magic_at D j).
    { intros j Hj M. unfold k in Hj. pose proof (k_nonneg d1). apply (N2 (j - zlen d1)); [lia|]. apply (magic_moved d1 d2); [lia|]. replace (j - zlen d1 + zlen d1) with j by lia. exact M. }
    assert (Hs : g_sections g2 = [] \/ g_sections g2 <> []) by (destruct (g_sections g2); [left; reflexivity|right; discriminate]).
    destruct Hs as [Hs|Hs].
    - exists c1. unfold L. rewrite Hs. cbn [map]. rewrite app_nil_r. split; [exact T1|]. apply ends_between; [reflexivity|].
      rewrite Hs in T2. inversion T2; subst c2. rewrite Z.add_0_l in M2. intros j Hj. destruct (Z.lt_ge_cases j k); [apply HM; unfold k in *; lia|apply M2; lia].
    - exists (c2 + k). split; [|apply ends_between; [reflexivity|exact M2]].
      unfold L. eapply tiles_app; [exact T1|]. apply (earlier_tiles _ _ (zlen d1)); [lia| |exact HM|exact TM].
      destruct (g_sections g2); [congruence|discriminate].
  Qed.
  Variables (m : mode) (fuel : nat).
  Hypothesis Hf : zlen D < Z.of_nat fuel.
  Lemma joined_read : exists g, grib2_read m fuel (MkSrc D 0 []) = Ret (Ok g) /\ g_sections g = L.
  Proof.
    destruct (facts d1 f1 g1 HL1 R1) as (ms1 & us1 & c1 & W1 & E1 & U1 & X1 & T1 & N1 & C1).
    destruct (facts d2 f2 g2 HL2 R2) as (ms2 & us2 & c2 & W2 & E2 & U2 & X2 & T2 & N2 & C2).
    destruct joined_table as (c & T & N).
    assert (EL : L = flat_map message_sections (ms1 ++ map (moved_message k) ms2)) by (unfold L; rewrite flat_map_app, moved_sections, E1, E2; reflexivity).
    destruct (FileP.grib2_read_complete m fuel (MkSrc D 0 []) (ms1 ++ map (moved_message k) ms2)) as (g & Eg & Es); cbn [data pos]; try assumption.
    - lia.
    - apply Forall_app. split; [exact W1|apply messages_moved; exact W2].
    - rewrite <- EL. apply (end_iff m D 0 HL H0D). exists c, c. split; [|exact N]. apply (tiles_weaken (Checked = Checked)); [reflexivity|exact T].
    - exists g. split; [exact Eg|]. rewrite Es, EL. reflexivity.
  Qed.
End Join.
