(** A message taken out of a file: the statements. *)
From Coq Require Import Lia ZifyBool ZifyNat.
From Verif Require Import Model.Base Model.Helpers Model.Errors Model.Sections Model.Reader Model.Parser Model.Context Model.Decoder.
From Verif Require Import Spec.ReaderS Spec.ParserS Spec.ReadS Spec.SessionS Spec.LocalS Spec.CutS Spec.JoinS.
From Verif Require Import Proofs.BaseLemmas Proofs.ReaderP Proofs.SectionStreamP Proofs.TableP Proofs.ExactP Proofs.ReaderX Proofs.LocalP Proofs.CutP Proofs.CutM Proofs.CutX Proofs.JoinX Proofs.JoinY Proofs.JoinR Proofs.JoinQ Proofs.SplitX.
From Verif Require Proofs.ReadX Proofs.FileP Proofs.WordX Proofs.CutF Proofs.JoinF Proofs.ProfileP.
Ltac Zify.zify_post_hook ::= Z.div_mod_to_equations.

Lemma three_parts (d : list byte) o n : 0 <= o -> 0 <= n -> d = (cut o d ++ octets d o n) ++ skipn (Z.to_nat n) (skipn (Z.to_nat o) d).
Proof. intros H H'. unfold cut, octets. rewrite <- app_assoc, firstn_skipn, firstn_skipn. reflexivity. Qed.
Lemma any_mode fuel s g m : grib2_read Checked fuel s = Ret (Ok g) -> grib2_read m fuel s = Ret (Ok g).
Proof. intros E. destruct m; [exact E|]. destruct (ProfileP.su_read fuel s) as [H|H]; congruence. Qed.

Section Split.
  Variables (d : list byte) (f : nat) (g : grib2).
  Hypothesis R : grib2_read Checked f (MkSrc d 0 []) = Ret (Ok g).
  Hypothesis HL : zlen d < 2 ^ 63.
  Variables (before after : list message) (x : message) (dis total : Z).
  Hypothesis W : Forall wf_message (before ++ x :: after).
  Hypothesis E : g_sections g = flat_map message_sections (before ++ x :: after).
  Hypothesis HB : s_body (ms0 x) = Some (B0 dis total).
  Let o := s_offset (ms0 x).
  Let a := cut o d.
  Let piece := octets d o total.
  Let rest := skipn (Z.to_nat total) (skipn (Z.to_nat o) d).
  Lemma HP : 0 <= 0 <= zlen d. Proof. pose proof (k_nonneg d). lia. Qed.

  Lemma split_tables : exists c, 0 <= c <= o /\ 0 <= total /\ o + total <= zlen d /\ (forall j, c <= j < o -> ~ magic_at d j) /\
    tiles (Checked = Checked) d 0 0 (flat_map message_sections before) c c /\
    tiles (Checked = Checked) d o o (message_sections x) (o + total) (o + total).
  Proof.
    destruct (facts d f g HL R) as (ms & us & c & _ & _ & _ & _ & T & _ & Hc). rewrite E in T.
    pose proof W as W'. apply Forall_app in W'. destruct W' as (Wb & Wx). inversion Wx as [|? ? W1 W2]; subst.
    assert (Tt := T). rewrite flat_map_app in T. cbn [flat_map] in T. apply tiles_app_inv in T. destruct T as (e1 & c1 & Ta & T).
    destruct (after_messages _ _ _ _ _ _ HP Wb Ta) as (-> & Hc1 & _). apply tiles_app_inv in T. destruct T as (e3 & c3 & Tx & Tc).
    assert (Tx' : tiles (Checked = Checked) d c1 c1 (flat_map message_sections [x]) e3 c3) by (cbn [flat_map]; rewrite app_nil_r; exact Tx).
    destruct (after_messages _ _ _ _ _ _ Hc1 (Forall_cons _ W1 (Forall_nil _)) Tx') as (-> & Hc3 & _).
    pose proof W1 as (N0 & _ & N8 & _).
    assert (Ec3 : c3 = o + total).
    { pose proof (tiles_table_end _ _ _ _ _ _ _ (proj1 Hc1) Tx) as Q. change (message_sections x) with ((ms0 x :: ms1 x :: flat_map group_sections (groups x)) ++ [ms8 x]) in Q.
      rewrite rev_app_distr in Q. cbn [rev app] in Q. rewrite Q. unfold o.
      change (message_sections x) with (ms0 x :: (ms1 x :: flat_map group_sections (groups x)) ++ [ms8 x]) in Tx. 
      exact (tiles_total _ d [] (ms0 x) (ms1 x :: flat_map group_sections (groups x)) (ms8 x) [] c1 c1 _ _ (proj1 Hc1) Tx (middle_nums x W1) N8 dis total HB). }
    assert (Tx0 := Tx). change (message_sections x) with (ms0 x :: (ms1 x :: flat_map group_sections (groups x)) ++ [ms8 x]) in Tx.
    apply tiles_inv in Tx. destruct Tx as (e4 & c4 & T0 & T1). pose proof (tile_num0 _ _ _ _ _ _ _ T0 N0) as F.
    pose proof (later_start _ _ _ _ _ _ N0 T0) as T0'. pose proof F as (F1 & _ & F3). fold o in F1, F3, T0'.
    assert (Hc4 : o <= c4 <= c3).
    { assert (Ho : 0 <= o) by lia. pose proof (tile_cur _ _ _ _ _ _ _ Ho T0') as (Q1 & Q2 & _ & _ & Q3 & _). assert (H4 : 0 <= c4) by lia. split; [lia|exact (grows _ _ _ _ _ _ _ H4 T1)]. }
    exists c1. split; [lia|]. split; [lia|]. split; [lia|]. split; [exact F3|]. split; [exact Ta|].
    rewrite <- Ec3. change (message_sections x) with (ms0 x :: (ms1 x :: flat_map group_sections (groups x)) ++ [ms8 x]). eapply tiles_cons; [exact T0'|exact T1].
  Qed.
  Lemma sevens : Forall (fun s => s_num s = 7 -> 5 <= s_size s) (flat_map message_sections before) /\ Forall (fun s => s_num s = 7 -> 5 <= s_size s) (message_sections x).
  Proof.
    destruct (facts d f g HL R) as (ms & us & c & _ & _ & _ & _ & T & _ & Hc). pose proof (WordX.tiles_seven _ _ _ _ _ _ T) as S7. rewrite E, flat_map_app in S7. cbn [flat_map] in S7.
    apply Forall_app in S7. destruct S7 as (S1 & S2). apply Forall_app in S2. split; [exact S1|exact (proj1 S2)].
  Qed.
  Lemma lens : zlen a = o /\ zlen piece = total /\ d = (a ++ piece) ++ rest.
  Proof.
    destruct split_tables as (c & H1 & H2 & H3 & _). split; [apply CutF.cut_len; lia|]. split; [|apply three_parts; lia].
    unfold piece, octets, zlen in *. rewrite firstn_length, skipn_length. lia.
  Qed.
  Lemma front : forall m fuel, zlen a < Z.of_nat fuel -> exists ga, grib2_read m fuel (MkSrc a 0 []) = Ret (Ok ga) /\ g_sections ga = flat_map message_sections before.
  Proof.
    destruct split_tables as (c & H1 & H2 & H3 & NM & Ta & Tx). destruct lens as (La & Lp & Ed). destruct sevens as (S1 & S2).
    pose proof W as W'. apply Forall_app in W'. destruct W' as (Wb & _). rewrite <- app_assoc in Ed.
    apply (readable a before c); [lia|exact Wb| |].
    - rewrite Ed in Ta. apply (tiles_right _ a (piece ++ rest)); try assumption; lia.
    - intros j Hj M. pose proof M as (_ & M2 & _). apply (NM j); [lia|]. rewrite Ed. apply magic_left; [lia|exact M].
  Qed.
  Lemma alone_read : forall m fuel, zlen piece < Z.of_nat fuel -> exists g', grib2_read m fuel (MkSrc piece 0 []) = Ret (Ok g') /\ g_sections g' = map (moved (- o)) (message_sections x).
  Proof.
    intros m fuel Hf. destruct split_tables as (c & H1 & H2 & H3 & NM & Ta & Tx). destruct lens as (La & Lp & Ed). destruct sevens as (S1 & S2).
    pose proof W as W'. apply Forall_app in W'. destruct W' as (_ & Wx). pose proof (Forall_inv Wx) as W1.
    assert (LD : zlen (a ++ piece) = o + total) by (pose proof (zlen_both a piece); lia).
    assert (T1 : tiles (Checked = Checked) (a ++ piece) o o (message_sections x) (o + total) (o + total)).
    { rewrite Ed in Tx. apply (tiles_right _ _ rest); try assumption; lia. }
    assert (T2 : tiles (Checked = Checked) piece 0 0 (map (back a) (message_sections x)) total total).
    { apply (tiles_back a piece); [lia|]. replace (0 + zlen a) with o by lia. replace (total + zlen a) with (o + total) by lia. exact T1. }
    assert (Eb : map (back a) (message_sections x) = flat_map message_sections [moved_message (- o) x]).
    { change [moved_message (- o) x] with (map (moved_message (- o)) [x]). rewrite moved_sections. cbn [flat_map]. rewrite app_nil_r. apply map_ext. intros s. unfold back, moved. rewrite La. reflexivity. }
    rewrite Eb in T2. destruct (readable piece [moved_message (- o) x] total) with (m := m) (fuel := fuel) as (g' & Eg & Es); try assumption; [lia| | |].
    - constructor; [apply moved_wf; exact W1|constructor].
    - intros j Hj (_ & M & _). lia.
    - exists g'. split; [exact Eg|]. rewrite Es, <- Eb. apply map_ext. intros s. unfold back, moved. rewrite La. reflexivity.
  Qed.
End Split.

Lemma messages_same ms ms' : Forall wf_message ms -> Forall wf_message ms' -> flat_map message_sections ms = flat_map message_sections ms' -> ms = ms'.
Proof.
  intros F F' Q. symmetry in Q. rewrite <- (app_nil_r (flat_map message_sections ms)) in Q. destruct (messages_prefix ms ms' [] F F' Q) as (s & -> & Es). destruct s; [symmetry; apply app_nil_r|discriminate].
Qed.
Lemma sub_length : forall i ms us, submessages_of_all i ms us -> length us = length (flat_map groups ms).
Proof. induction 1 as [|i m ms us us' (L & _) _ IH]; [reflexivity|]. cbn [flat_map]. rewrite !app_length. congruence. Qed.
Lemma sub_all_split : forall ms1 i ms2 us, submessages_of_all i (ms1 ++ ms2) us -> exists u1 u2, us = u1 ++ u2 /\ submessages_of_all i ms1 u1 /\ submessages_of_all (i + zlen ms1) ms2 u2.
Proof.
  induction ms1 as [|m ms1 IH]; intros i ms2 us U.
  - exists [], us. split; [reflexivity|]. split; [constructor|]. change (zlen (@nil message)) with 0. rewrite Z.add_0_r. exact U.
  - cbn [app] in U. inversion U as [|? ? ? ua ub Ha Hb]; subst. destruct (IH _ _ _ Hb) as (u1 & u2 & -> & U1 & U2). exists (ua ++ u1), u2.
    split; [apply app_assoc|]. split; [constructor; assumption|]. rewrite zlen_cons. replace (i + (1 + zlen ms1)) with (i + 1 + zlen ms1) by lia. exact U2.
Qed.
Lemma forall2_split A B (Q : A -> B -> Prop) : forall l1 s1 l2 s2, length l1 = length s1 -> Forall2 Q (l1 ++ l2) (s1 ++ s2) -> Forall2 Q l2 s2.
Proof. induction l1 as [|y l1 IH]; intros [|z s1] l2 s2 L F; try discriminate; [exact F|]. cbn [app] in F. inversion F; subst. eapply IH; [|eassumption]. injection L as L. exact L. Qed.
Lemma forall2_len A B (Q : A -> B -> Prop) l s : Forall2 Q l s -> length l = length s.
Proof. induction 1; cbn [length]; congruence. Qed.
Lemma filter_none A (p : A -> bool) l : Forall (fun y => p y = false) l -> filter p l = [].
Proof. induction 1 as [|y l H F IH]; [reflexivity|]. cbn [filter]. rewrite H. exact IH. Qed.
Lemma filter_every A (p : A -> bool) l : Forall (fun y => p y = true) l -> filter p l = l.
Proof. induction 1 as [|y l H F IH]; [reflexivity|]. cbn [filter]. rewrite H, IH. reflexivity. Qed.
(** The numbers of the submessages of a file, and how many there are. *)
Lemma file_numbers m fuel d g ms : zlen d < 2 ^ 63 -> grib2_read m fuel (MkSrc d 0 []) = Ret (Ok g) -> Forall wf_message ms -> g_sections g = flat_map message_sections ms ->
  exists us, submessages_of_all 0 ms us /\ Forall2 (indexes (g_sections g)) us (g_subs g) /\ length (g_subs g) = length (flat_map groups ms) /\ Forall (fun w => 0 <= u_mi w < zlen ms) (g_subs g).
Proof.
  intros HL R W E. destruct (FileP.grib2_read_inv m fuel _ g R HL ltac:(cbn [pos]; lia)) as (_ & ms' & us & W' & E' & U & X).
  assert (ms' = ms) by (apply messages_same; congruence). subst ms'. exists us. split; [exact U|]. split; [exact X|]. split.
  - rewrite <- (sub_length _ _ _ U). symmetry. exact (forall2_len _ _ _ _ _ X).
  - apply (numbered_indices _ us _ (fun i => 0 <= i < zlen ms) X). exact (numbered 0 ms us U).
Qed.

Section Values.
  Variables (d : list byte) (f : nat) (g : grib2).
  Hypothesis R : grib2_read Checked f (MkSrc d 0 []) = Ret (Ok g).
  Hypothesis HL : zlen d < 2 ^ 63.
  Variables (before after : list message) (x : message) (dis total : Z).
  Hypothesis W : Forall wf_message (before ++ x :: after).
  Hypothesis E : g_sections g = flat_map message_sections (before ++ x :: after).
  Hypothesis HB : s_body (ms0 x) = Some (B0 dis total).
  Let o := s_offset (ms0 x).
  Let a := cut o d.
  Let piece := octets d o total.
  Let rest := skipn (Z.to_nat total) (skipn (Z.to_nat o) d).
  Variables (m : mode) (fuel : nat).
  Hypothesis Hf : total < Z.of_nat fuel.
  Let b := zlen (flat_map message_sections before).

  (** the file up to the end of the message is the octets before and those of the message, joined *)
  Lemma joined : exists ga g' f3 g3 l us,
    grib2_read Checked f3 (MkSrc a 0 []) = Ret (Ok ga) /\ g_sections ga = flat_map message_sections before /\
    grib2_read Checked fuel (MkSrc piece 0 []) = Ret (Ok g') /\ g_sections g' = map (moved (- o)) (message_sections x) /\
    zlen (a ++ piece) < Z.of_nat f3 /\ zlen (a ++ piece) < 2 ^ 63 /\ (forall j, table_end (g_sections ga) <= j < zlen a -> ~ magic_at (a ++ piece) j) /\
    grib2_read Checked f3 (MkSrc (a ++ piece) 0 []) = Ret (Ok g3) /\ g_sections g = g_sections g3 ++ l /\ g_subs g = g_subs g3 ++ us /\
    g_subs g3 = g_subs ga ++ map (renumbered (zlen before) b) (g_subs g').
  Proof.
    destruct (split_tables d f g R HL before after x dis total W E HB) as (c & H1 & H2 & H3 & NM & Ta & Tx).
    destruct (lens d f g R HL before after x dis total W E HB) as (La & Lp & Ed). fold o in La, Lp, Ed. fold a piece rest in La, Lp, Ed.
    assert (LD : zlen (a ++ piece) = o + total) by (pose proof (zlen_both a piece); lia).
    pose (f3 := Z.to_nat (zlen (a ++ piece) + 1)). assert (Hf3 : zlen (a ++ piece) < Z.of_nat f3) by (unfold f3; lia).
    destruct (front d f g R HL before after x dis total W E HB Checked f3) as (ga & Ra & Sa). { fold o a. fold o in LD. lia. }
    destruct (alone_read d f g R HL before after x dis total W E HB Checked fuel) as (g' & Rp & Sp). { fold o piece. lia. }
    fold o in Ra, Rp, Sp. fold a in Ra. fold piece in Rp.
    assert (Wb : Forall wf_message before) by (pose proof W as W'; apply Forall_app in W'; exact (proj1 W')).
    assert (TE : table_end (g_sections ga) = c).
    { rewrite Sa. symmetry. exact (tiles_table_end _ _ _ _ _ _ _ (Z.le_refl 0) Ta). }
    assert (HM : forall j, table_end (g_sections ga) <= j < zlen a -> ~ magic_at (a ++ piece) j).
    { intros j Hj M. pose proof M as (_ & M2 & _). apply (NM j); [fold o; lia|]. rewrite Ed. apply magic_left; [lia|exact M]. }
    assert (HL3 : zlen (a ++ piece) < 2 ^ 63) by (unfold o in *; lia).
    destruct (JoinF.read a piece f3 fuel ga g' Ra Rp HL3 HM Checked f3 Hf3) as (g3 & R3 & S3 & U3).
    assert (R' : grib2_read Checked f (MkSrc ((a ++ piece) ++ rest) 0 []) = Ret (Ok g)) by (rewrite <- Ed; exact R).
    assert (HL' : zlen ((a ++ piece) ++ rest) < 2 ^ 63) by (rewrite <- Ed; exact HL).
    assert (HP' : 0 <= 0 <= zlen (a ++ piece)) by (unfold o in *; lia).
    destruct (CutX.ok_prefix (a ++ piece) rest 0 f g HL' HP' R' Checked f3 [] g3 R3) as (l & us & Sg & Ug).
    exists ga, g', f3, g3, l, us. rewrite Sa, (count_messages _ Wb) in U3. fold b in U3. auto 15.
  Qed.
  Lemma read_alone : exists g', grib2_read m fuel (MkSrc piece 0 []) = Ret (Ok g') /\ g_sections g' = map (moved (- o)) (message_sections x) /\
    filter (fun w => u_mi w =? zlen before) (g_subs g) = map (renumbered (zlen before) b) (g_subs g').
  Proof.
    destruct joined as (ga & g' & f3 & g3 & l & us & Ra & Sa & Rp & Sp & _ & L3 & _ & R3 & Sg & Ug & U3). exists g'.
    split; [apply any_mode; exact Rp|]. split; [exact Sp|].
    pose proof W as W'. apply Forall_app in W'. destruct W' as (Wb & Wx). pose proof (Forall_inv Wx) as W1.
    pose proof (zlen_both a piece) as LB. pose proof (k_nonneg a) as La. pose proof (k_nonneg piece) as Lp.
    assert (HLa : zlen a < 2 ^ 63) by lia. assert (HLp : zlen piece < 2 ^ 63) by lia.
    destruct (file_numbers Checked f3 a ga before HLa Ra Wb Sa) as (_ & _ & _ & Ca & Na).
    assert (Sp' : g_sections g' = flat_map message_sections [moved_message (- o) x]).
    { change [moved_message (- o) x] with (map (moved_message (- o)) [x]). rewrite moved_sections. cbn [flat_map]. rewrite app_nil_r. exact Sp. }
    destruct (file_numbers Checked fuel piece g' [moved_message (- o) x] HLp Rp (Forall_cons _ (moved_wf _ _ W1) (Forall_nil _)) Sp') as (_ & _ & _ & Cp & Np).
    destruct (file_numbers Checked f d g _ HL R W E) as (ut & Ut & Xt & _ & _).
    change (before ++ x :: after) with (before ++ [x] ++ after) in Ut. rewrite app_assoc in Ut. destruct (sub_all_split _ _ _ _ Ut) as (u1 & u2 & -> & U1 & U2).
    rewrite Ug in Xt. apply forall2_split in Xt.
    2:{ rewrite (sub_length _ _ _ U1), U3, flat_map_app, !app_length, map_length, Ca, Cp. cbn [flat_map moved_message groups]. rewrite !app_nil_r, map_length. reflexivity. }
    pose proof (numbered_indices _ u2 us (fun i => 0 + zlen (before ++ [x]) <= i < 0 + zlen (before ++ [x]) + zlen after) Xt (numbered _ _ _ U2)) as Nr.
    rewrite Ug, U3, !filter_app. rewrite (filter_none _ _ (g_subs ga)), (filter_every _ _ (map _ _)), (filter_none _ _ us); [rewrite app_nil_r; reflexivity|..].
    - revert Nr. apply Forall_impl. intros w. unfold zlen. rewrite app_length. cbn [length]. lia.
    - rewrite Forall_map. revert Np. apply Forall_impl. intros w. rewrite zlen_cons. change (zlen (@nil message)) with 0. cbn [renumbered Parser.u_mi]. lia.
    - revert Na. apply Forall_impl. intros w. lia.
  Qed.
  Lemma values_alone : forall g', grib2_read m fuel (MkSrc piece 0 []) = Ret (Ok g') -> forall w v, In w (g_subs g') -> make_view g' w = Some v ->
    exists e, make_view g (renumbered (zlen before) b w) = Some (moved_view (zlen before) b o e v) /\
      forall m', decoded_alone m' d (moved_view (zlen before) b o e v) = decoded_alone m' piece v.
  Proof.
    intros g0 R0 w v Hw Hv. destruct joined as (ga & g' & f3 & g3 & l & us & Ra & Sa & Rp & Sp & Hf3 & L3 & HM & R3 & Sg & Ug & U3).
    assert (Eg : g0 = g') by (pose proof (any_mode _ _ _ m Rp); congruence). subst g0.
    destruct (lens d f g R HL before after x dis total W E HB) as (La & Lp & Ed). fold o in La, Lp, Ed. fold a in La, Ed. fold piece rest in Lp, Ed.
    assert (Wb : Forall wf_message before) by (pose proof W as W'; apply Forall_app in W'; exact (proj1 W')).
    destruct (JoinF.second_values a piece f3 fuel ga g' Ra Rp L3 HM Checked f3 g3 Hf3 R3 w v Hw Hv) as (e & V3 & D3).
    rewrite Sa, (count_messages _ Wb) in V3, D3. fold b in V3, D3. rewrite La in V3, D3. exists e.
    assert (R' : grib2_read Checked f (MkSrc ((a ++ piece) ++ rest) 0 []) = Ret (Ok g)) by (rewrite <- Ed; exact R).
    assert (HL' : zlen ((a ++ piece) ++ rest) < 2 ^ 63) by (rewrite <- Ed; exact HL).
    assert (HP' : 0 <= 0 <= zlen (a ++ piece)) by (pose proof (k_nonneg (a ++ piece)); lia).
    assert (W3 : In (renumbered (zlen before) b w) (g_subs g3)) by (rewrite U3; apply in_or_app; right; apply in_map; exact Hw).
    destruct (CutX.cut_views (a ++ piece) rest 0 f g HL' HP' R' Checked f3 g3 R3 _ _ W3 V3) as (_ & V & D). split; [exact V|].
    intros m'. rewrite <- D3, D, <- Ed. reflexivity.
  Qed.
End Values.
