(** Reading two files, one after the other: the submessages. *)
From Coq Require Import Lia ZifyBool ZifyNat.
From Verif Require Import Model.Base Model.Helpers Model.Errors Model.Sections Model.Reader Model.Parser Model.Context Model.Decoder.
From Verif Require Import Spec.ReaderS Spec.ParserS Spec.ReadS Spec.SessionS Spec.LocalS Spec.JoinS.
From Verif Require Import Proofs.BaseLemmas Proofs.ReaderP Proofs.SectionStreamP Proofs.TableP Proofs.ExactP Proofs.ReaderX Proofs.LocalP Proofs.CutP Proofs.CutM Proofs.CutX Proofs.JoinX Proofs.JoinY Proofs.JoinR.
From Verif Require Proofs.ReadX Proofs.FileP Proofs.WordX.
Ltac Zify.zify_post_hook ::= Z.div_mod_to_equations.

Lemma sub_all_det : forall i ms us, submessages_of_all i ms us -> forall us', submessages_of_all i ms us' -> us = us'.
Proof.
  induction 1 as [|i m ms us us1 H HR IH]; intros us' U; inversion U as [|? ? ? ua ub Ha Hb]; subst; [reflexivity|].
  rewrite (submessages_of_det _ _ _ _ H Ha), (IH _ Hb). reflexivity.
Qed.
Lemma sub_end_num : forall i ms us, Forall wf_message ms -> submessages_of_all i ms us -> forall u, In u us -> s_num (u_8 u) = 8.
Proof.
  intros i ms us W H. induction H as [|i m ms us us' (L & Hs) _ IH]; intros u Hu; [destruct Hu|].
  inversion W as [|? ? W1 W2]; subst. apply in_app_or in Hu. destruct Hu as [Hu|Hu]; [|auto].
  apply In_nth_error in Hu. destruct Hu as (n & Hn). destruct (Hs n u Hn) as (_ & _ & _ & _ & _ & _ & _ & E). rewrite E.
  destruct (S n =? length (groups m))%nat; [exact (proj1 (proj2 (proj2 W1)))|reflexivity].
Qed.
Lemma forall2_det A B (R : A -> B -> Prop) : (forall a b b', R a b -> R a b' -> b = b') -> forall l s, Forall2 R l s -> forall s', Forall2 R l s' -> s = s'.
Proof. intros H l s F. induction F as [|a b l s H1 F IH]; intros s' F'; inversion F'; subst; [reflexivity|]. f_equal; eauto. Qed.
Lemma positive_offset P d l e c : tiles P d 0 0 l e c -> forall x, In x l -> s_num x <> 0 -> 0 < s_offset x.
Proof.
  intros T x Hx N. destruct l as [|y l]; [contradiction|]. apply tiles_inv in T. destruct T as (e1 & c1 & T1 & T2).
  inversion T1; subst; [|lia|congruence]. destruct Hx as [<-|Hx]; [cbn [s_num] in N; congruence|].
  match goal with H : first_magic _ _ _ |- _ => destruct H as (F1 & _) end.
  assert (HQ : 0 <= k + 16) by lia. pose proof (spans _ _ _ _ _ _ _ HQ T2 x Hx). lia.
Qed.
Lemma first_num P d l e c : tiles P d 0 0 l e c -> forall x, nth_error l 0 = Some x -> s_num x = 0.
Proof.
  intros T x Hx. destruct l as [|y l]; [discriminate|]. injection Hx as ->. apply tiles_inv in T. destruct T as (e1 & c1 & T1 & T2).
  inversion T1; subst; [reflexivity|lia|congruence].
Qed.

Lemma entry_left l r s p : entry l s p -> entry (l ++ r) s p.
Proof. intros (A & B). split; [exact A|]. rewrite nth_error_app1; [exact B|apply nth_error_Some; congruence]. Qed.
Lemma entry_moved l1 l2 k s p : entry l2 s p -> entry (l1 ++ map (moved k) l2) (moved k s) (p + zlen l1).
Proof.
  intros (A & B). pose proof (zlen_nonneg _ l1) as H. split; [lia|]. unfold zlen in *. rewrite nth_error_app2 by lia.
  replace (Z.to_nat (p + Z.of_nat (length l1)) - length l1)%nat with (Z.to_nat p) by lia. rewrite nth_error_map, B. reflexivity.
Qed.
Lemma opt_left l r o q : opt_entry l o q -> opt_entry (l ++ r) o q.
Proof. destruct o, q; cbn [opt_entry]; auto. apply entry_left. Qed.
Lemma opt_moved l1 l2 k o q : opt_entry l2 o q -> opt_entry (l1 ++ map (moved k) l2) (option_map (moved k) o) (option_map (fun i => i + zlen l1) q).
Proof. destruct o, q; cbn [opt_entry option_map]; auto. apply entry_moved. Qed.
Lemma indexes_left l r u w : indexes l u w -> indexes (l ++ r) u w.
Proof.
  intros (A1 & A2 & A3 & A4 & A5 & A6 & A7 & A8 & A9 & A10 & A11). unfold indexes.
  split; [exact A1|]. split; [exact A2|]. split; [apply entry_left; exact A3|]. split; [apply entry_left; exact A4|]. split; [apply opt_left; exact A5|].
  split; [apply entry_left; exact A6|]. split; [apply entry_left; exact A7|]. split; [apply entry_left; exact A8|]. split; [apply entry_left; exact A9|]. split; [apply entry_left; exact A10|].
  destruct A11 as [A11|A11]; [left; apply entry_left; exact A11|right; exact A11].
Qed.
Lemma indexes_moved l1 l2 a k u w : (forall x, nth_error l2 0 = Some x -> s_num x = 0) -> (forall x, In x l2 -> s_num x <> 0 -> 0 < s_offset x) -> s_num (u_8 u) = 8 ->
  indexes l2 u w -> indexes (l1 ++ map (moved k) l2) (moved_sub a k u) (renumbered a (zlen l1) w).
Proof.
  intros F0 FP N8 (A1 & A2 & A3 & A4 & A5 & A6 & A7 & A8 & A9 & A10 & A11). unfold indexes, moved_sub, renumbered.
  cbn [Parser.u_mi Parser.u_si Parser.u_0 Parser.u_1 Parser.u_2 Parser.u_3 Parser.u_4 Parser.u_5 Parser.u_6 Parser.u_7 Parser.u_8].
  split; [congruence|]. split; [exact A2|]. split; [apply entry_moved; exact A3|]. split; [apply entry_moved; exact A4|]. split; [apply opt_moved; exact A5|].
  split; [apply entry_moved; exact A6|]. split; [apply entry_moved; exact A7|]. split; [apply entry_moved; exact A8|]. split; [apply entry_moved; exact A9|]. split; [apply entry_moved; exact A10|].
  destruct A11 as [A11|(E & E8)].
  - left. pose proof (entry_in _ _ _ A11) as I. assert (P : 0 < s_offset (u_8 u)) by (apply FP; [exact I|lia]).
    destruct (Z.eqb_spec (s_offset (u_8 u)) 0); [lia|]. destruct (Z.eqb_spec (u_8 w) 0) as [Q|Q]; [|apply entry_moved; exact A11].
    exfalso. destruct A11 as (_ & B). rewrite Q in B. specialize (F0 _ B). lia.
  - right. rewrite E, E8. auto.
Qed.

Section Join.
  Variables (d1 d2 : list byte) (f1 f2 : nat) (g1 g2 : grib2).
  Hypothesis R1 : grib2_read Checked f1 (MkSrc d1 0 []) = Ret (Ok g1).
  Hypothesis R2 : grib2_read Checked f2 (MkSrc d2 0 []) = Ret (Ok g2).
  Hypothesis HL : zlen (d1 ++ d2) < 2 ^ 63.
  Hypothesis HM : forall j, table_end (g_sections g1) <= j < zlen d1 -> ~ magic_at (d1 ++ d2) j.
  Let k := zlen d1.
  Let D := d1 ++ d2.
  Let L := g_sections g1 ++ map (moved k) (g_sections g2).
  Variables (m : mode) (fuel : nat).
  Lemma joined_subs g : grib2_read m fuel (MkSrc D 0 []) = Ret (Ok g) -> g_sections g = L ->
    g_subs g = g_subs g1 ++ map (renumbered (messages_in (g_sections g1)) (zlen (g_sections g1))) (g_subs g2).
  Proof.
    intros R E. destruct (facts d1 f1 g1 (HL1 d1 d2 g1 HL HM) R1) as (ms1 & us1 & c1 & W1 & E1 & U1 & X1 & T1 & N1 & C1).
    destruct (facts d2 f2 g2 (HL2 d1 d2 g1 HL HM) R2) as (ms2 & us2 & c2 & W2 & E2 & U2 & X2 & T2 & N2 & C2).
    destruct (joined_table d1 d2 f1 f2 g1 g2 R1 R2 HL HM) as (c & T & _).
    destruct (FileP.grib2_read_inv m fuel _ g R HL ltac:(cbn [pos]; lia)) as (_ & ms & us & W & Em & U & X).
    assert (Ems : ms = ms1 ++ map (moved_message k) ms2).
    { assert (Q : flat_map message_sections ms = flat_map message_sections ms1 ++ map (moved k) (g_sections g2)) by (rewrite <- Em, E; unfold L; rewrite E1; reflexivity).
      destruct (messages_prefix ms1 ms _ W1 W Q) as (r & -> & Er). f_equal. apply Forall_app in W. destruct W as (_ & Wr).
      rewrite E2, <- moved_sections in Er. symmetry in Er. rewrite <- (app_nil_r (flat_map message_sections (map (moved_message k) ms2))) in Er.
      destruct (messages_prefix _ r [] (messages_moved k ms2 W2) Wr Er) as (s & -> & Es). destruct s as [|x s]; [apply app_nil_r|]. discriminate. }
    assert (Eus : us = us1 ++ map (moved_sub (zlen ms1) k) us2).
    { apply (sub_all_det 0 ms us U). rewrite Ems. apply sub_all_app; [exact U1|]. rewrite Z.add_0_l. rewrite <- (Z.add_0_l (zlen ms1)) at 1. apply moved_all; [|exact U2].
      rewrite Forall_forall. intros x Hx. rewrite Forall_forall in W2. destruct (W2 x Hx) as (_ & _ & N8 & _).
      assert (I : In (ms8 x) (g_sections g2)).
      { rewrite E2. apply in_flat_map. exists x. split; [exact Hx|]. unfold message_sections. right. right. apply in_or_app. right. left. reflexivity. }
      pose proof (positive_offset _ _ _ _ _ T2 _ I ltac:(lia)). lia. }
    assert (ND : NoDup (L ++ [])) by (rewrite app_nil_r; exact (tiles_nodup _ _ eq_refl _ _ _ _ _ (Z.le_refl 0) T)).
    assert (NE : ~ In no_end_section (L ++ [])) by (rewrite app_nil_r; exact (tiles_no_end _ _ _ _ _ _ (Z.le_refl 0) T)).
    rewrite E, Eus in X. apply (forall2_det _ _ (indexes L)) with (l := us1 ++ map (moved_sub (zlen ms1) k) us2).
    - intros u w w' H H'. apply (indexes_det L [] u); try assumption. rewrite app_nil_r. exact H'.
    - exact X.
    - apply Forall2_app.
      + clear - X1. induction X1 as [|u w us ws H F IH]; constructor; [apply indexes_left; exact H|exact IH].
      + rewrite E1 at 1. rewrite (count_messages _ W1). pose proof (sub_end_num 0 ms2 us2 W2 U2) as N8.
        clear - X2 N8 T2. induction X2 as [|u w us ws H F IH]; [constructor|]. cbn [map]. constructor; [|apply IH; intros x Hx; apply N8; right; exact Hx].
        apply indexes_moved; [exact (first_num _ _ _ _ _ T2)|exact (positive_offset _ _ _ _ _ T2)|apply N8; left; reflexivity|exact H].
  Qed.
End Join.
