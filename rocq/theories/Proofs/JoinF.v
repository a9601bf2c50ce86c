(** Reading two files, one after the other: the statements. *)
From Coq Require Import Lia ZifyBool ZifyNat.
From Verif Require Import Model.Base Model.Helpers Model.Errors Model.Sections Model.Reader Model.Parser Model.Context Model.Decoder.
From Verif Require Import Spec.ReaderS Spec.ParserS Spec.ReadS Spec.SessionS Spec.LocalS Spec.JoinS.
From Verif Require Import Proofs.BaseLemmas Proofs.JoinX Proofs.JoinR Proofs.JoinQ.
From Verif Require Proofs.FileP Proofs.CutX Proofs.ContextX Proofs.LocalD Proofs.ViewX.
Ltac Zify.zify_post_hook ::= Z.div_mod_to_equations.

Section Join.
  Variables (d1 d2 : list byte) (f1 f2 : nat) (g1 g2 : grib2).
  Hypothesis R1 : grib2_read Checked f1 (MkSrc d1 0 []) = Ret (Ok g1).
  Hypothesis R2 : grib2_read Checked f2 (MkSrc d2 0 []) = Ret (Ok g2).
  Hypothesis HL : zlen (d1 ++ d2) < 2 ^ 63.
  Hypothesis HM : forall j, table_end (g_sections g1) <= j < zlen d1 -> ~ magic_at (d1 ++ d2) j.
  Let a := messages_in (g_sections g1).
  Let b := zlen (g_sections g1).
  Let k := zlen d1.
  Lemma read : forall m fuel, zlen (d1 ++ d2) < Z.of_nat fuel -> exists g, grib2_read m fuel (MkSrc (d1 ++ d2) 0 []) = Ret (Ok g) /\
    g_sections g = g_sections g1 ++ map (moved k) (g_sections g2) /\ g_subs g = g_subs g1 ++ map (renumbered a b) (g_subs g2).
  Proof.
    intros m fuel Hf. destruct (joined_read d1 d2 f1 f2 g1 g2 R1 R2 HL HM m fuel Hf) as (g & E & Es). exists g. split; [exact E|]. split; [exact Es|].
    exact (joined_subs d1 d2 f1 f2 g1 g2 R1 R2 HL HM m fuel g E Es).
  Qed.
  Variables (m : mode) (fuel : nat) (g : grib2).
  Hypothesis Hf : zlen (d1 ++ d2) < Z.of_nat fuel.
  Hypothesis R : grib2_read m fuel (MkSrc (d1 ++ d2) 0 []) = Ret (Ok g).
  Lemma shape : g_sections g = g_sections g1 ++ map (moved k) (g_sections g2) /\ g_subs g = g_subs g1 ++ map (renumbered a b) (g_subs g2).
  Proof. destruct (read m fuel Hf) as (g' & E & H). assert (g' = g) by congruence. subst g'. exact H. Qed.
  Lemma H2 : zlen d2 < 2 ^ 63. Proof. exact (HL2 d1 d2 g1 HL HM). Qed.
  Lemma P2 : 0 <= 0 <= zlen d2. Proof. pose proof (k_nonneg d2). lia. Qed.
  Lemma PD : 0 <= 0 <= zlen (d1 ++ d2). Proof. pose proof (k_nonneg (d1 ++ d2)). lia. Qed.

  Lemma first_values : forall w v, In w (g_subs g1) -> make_view g1 w = Some v ->
    In w (g_subs g) /\ make_view g w = Some v /\ forall m', decoded_alone m' (d1 ++ d2) v = decoded_alone m' d1 v.
  Proof.
    intros w v W V. destruct (read Checked fuel Hf) as (g' & E' & Es' & Eu'). destruct shape as (Es & Eu).
    assert (P1 : 0 <= 0 <= zlen d1) by (pose proof (k_nonneg d1); lia).
    destruct (CutX.cut_views d1 d2 0 fuel g' HL P1 E' Checked f1 g1 R1 w v W V) as (_ & V' & DV).
    split; [rewrite Eu; apply in_or_app; left; exact W|]. split.
    - rewrite <- V'. unfold make_view, view_section. rewrite Es, Es'. reflexivity.
    - intros m'. symmetry. apply DV.
  Qed.

  Lemma later_section i x : view_section g2 i = Some x -> view_section g (i + b) = Some (fst x + b, moved k (snd x)).
  Proof.
    unfold view_section, get. rewrite (proj1 shape). destruct (0 <=? i) eqn:Hi; [|discriminate].
    destruct (nth_error (g_sections g2) (Z.to_nat i)) as [s|] eqn:N; [|discriminate]. intros E. injection E as <-. cbn [fst snd].
    pose proof (zlen_nonneg _ (g_sections g1)) as Hb. fold b in Hb. replace (0 <=? i + b) with true by lia.
    rewrite nth_error_app2 by (unfold b, zlen in *; lia). replace (Z.to_nat (i + b) - length (g_sections g1))%nat with (Z.to_nat i) by (unfold b, zlen in *; lia).
    rewrite nth_error_map, N. reflexivity.
  Qed.
  Lemma some_first x : view_section g2 0 = Some x -> exists e, view_section g 0 = Some e.
  Proof.
    unfold view_section, get. rewrite (proj1 shape). change (0 <=? 0) with true. cbv iota. change (Z.to_nat 0) with O.
    destruct (g_sections g2) as [|y l]; [discriminate|]. intros _. destruct (g_sections g1) as [|z l1]; cbn [app map nth_error]; eauto.
  Qed.
  Lemma second_view w v : In w (g_subs g2) -> make_view g2 w = Some v -> exists e, make_view g (renumbered a b w) = Some (moved_view a b k e v).
  Proof.
    intros W V. unfold make_view in V.
    destruct (view_section g2 (u_0 w)) as [x0|] eqn:E0; [|discriminate]. destruct (view_section g2 (u_1 w)) as [x1|] eqn:E1; [|discriminate].
    destruct (view_section g2 (u_3 w)) as [x3|] eqn:E3; [|discriminate]. destruct (view_section g2 (u_4 w)) as [x4|] eqn:E4; [|discriminate].
    destruct (view_section g2 (u_5 w)) as [x5|] eqn:E5; [|discriminate]. destruct (view_section g2 (u_6 w)) as [x6|] eqn:E6; [|discriminate].
    destruct (view_section g2 (u_7 w)) as [x7|] eqn:E7; [|discriminate]. destruct (view_section g2 (u_8 w)) as [x8|] eqn:E8; [|discriminate].
    injection V as <-.
    assert (X8 : exists e, view_section g (if u_8 w =? 0 then 0 else u_8 w + b) = Some e).
    { destruct (Z.eqb_spec (u_8 w) 0) as [Q|Q]; [rewrite Q in E8; exact (some_first x8 E8)|]. eexists. exact (later_section _ _ E8). }
    destruct X8 as (e & X8). exists e. unfold make_view, renumbered, moved_view.
    cbn [Parser.u_mi Parser.u_si Parser.u_0 Parser.u_1 Parser.u_2 Parser.u_3 Parser.u_4 Parser.u_5 Parser.u_6 Parser.u_7 Parser.u_8].
    rewrite (later_section _ _ E0), (later_section _ _ E1), (later_section _ _ E3), (later_section _ _ E4), (later_section _ _ E5), (later_section _ _ E6), (later_section _ _ E7), X8.
    do 2 f_equal. destruct (u_2 w) as [i|] eqn:Q2; [|reflexivity]. cbn [option_map].
    destruct (FileP.grib2_read_inv Checked f2 _ g2 R2 H2 ltac:(cbn [pos]; lia)) as (_ & _ & us0 & _ & _ & _ & X).
    destruct (CutX.in_right _ _ _ _ _ X w W) as (u & _ & IX). destruct IX as (_ & _ & _ & _ & O2 & _). rewrite Q2 in O2.
    destruct (u_2 u) as [s|]; cbn [opt_entry] in O2; [|contradiction]. pose proof (ContextX.entry_get g2 s i O2) as VS. rewrite (later_section _ _ VS), VS. reflexivity.
  Qed.
  Lemma second_values : forall w v, In w (g_subs g2) -> make_view g2 w = Some v ->
    exists e, make_view g (renumbered a b w) = Some (moved_view a b k e v) /\ forall m', decoded_alone m' (d1 ++ d2) (moved_view a b k e v) = decoded_alone m' d2 v.
  Proof.
    intros w v W V. destruct (second_view w v W V) as (e & V'). exists e. split; [exact V'|]. intros m'.
    assert (W' : In (renumbered a b w) (g_subs g)) by (rewrite (proj2 shape); apply in_or_app; right; apply in_map; exact W).
    assert (Q : forall x, In x (g_sections g2) -> same_section d2 x (d1 ++ d2) (moved k x)).
    { intros x Hx. split; [reflexivity|]. destruct (LocalD.file_bounds Checked f2 _ g2 R2 H2 P2 x Hx) as (B & _). cbn [moved s_offset s_size]. apply octets_moved. lia. }
    pose proof (ViewX.file_views Checked f2 _ g2 R2 H2 P2 w v W V) as (_ & _ & (I3 & _) & _ & (I5 & _) & (I6 & _) & (I7 & _)).
    apply (LocalD.decode_twins Checked m f2 fuel (MkSrc d2 0 []) (MkSrc (d1 ++ d2) 0 []) g2 g R2 H2 P2 R HL PD w v (renumbered a b w) (moved_view a b k e v) W V W' V');
      cbn [data moved_view Parser.u_3 Parser.u_5 Parser.u_6 Parser.u_7 snd]; apply Q; assumption.
  Qed.
End Join.
