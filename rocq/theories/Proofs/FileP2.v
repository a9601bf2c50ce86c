(** Files laid out in GRIB2 order are read successfully. *)
From Coq Require Import Lia ZifyBool ZifyNat.
From Verif Require Import Model.Base Model.Errors Model.Sections Model.Reader Model.Parser Model.Context.
From Verif Require Import Spec.Bits Spec.Layout Spec.ReaderS Spec.ParserS Proofs.BaseLemmas Proofs.SectionStreamP Proofs.TableP Proofs.LayoutP Proofs.FileP.

Lemma table_app : forall l l' off, sections_table off (l ++ l') =
  sections_table off l ++ sections_table (off + zlen (flat_map section_bytes l)) l'.
Proof.
  induction l as [|r l IH]; intros l' off; cbn [app sections_table flat_map].
  - rewrite zlen_nil, Z.add_0_r. reflexivity.
  - rewrite IH, zlen_app, zlen_section. f_equal. f_equal. f_equal. lia.
Qed.

Lemma table_nums : forall l off, map s_num (sections_table off l) = map r_num l.
Proof. induction l as [|r l IH]; intros off; cbn [sections_table map s_num]; [reflexivity|]. now rewrite IH. Qed.

Lemma map_split : forall A B (f : A -> B) l x y, map f l = x ++ y -> exists l1 l2, l = l1 ++ l2 /\ map f l1 = x /\ map f l2 = y.
Proof.
  intros A B f l x. revert l. induction x as [|a x IH]; intros l y H.
  - exists [], l. auto.
  - destruct l as [|b l]; [discriminate|]. cbn [map app] in H. injection H as <- H. destruct (IH l y H) as (l1 & l2 & -> & <- & <-).
    exists (b :: l1), l2. auto.
Qed.

Ltac one H := let z := fresh "z" in match type of H with map _ ?l = _ => destruct l as [|z l]; cbn [map] in H; [discriminate|]; injection H as ? H end.

Lemma group_of : forall ss g, map s_num ss = g -> In g later_groups ->
  exists gr, wf_group gr /\ group_sections gr = ss /\ (In g first_groups -> gr3 gr <> None).
Proof.
  intros ss g H Hg. destruct Hg as [<-|[<-|[<-|[]]]].
  - one H. one H. one H. one H. destruct ss; [|discriminate].
    exists (MkGroup None None z z0 z1 z2). unfold wf_group. cbn. intuition discriminate.
  - one H. one H. one H. one H. one H. destruct ss; [|discriminate].
    exists (MkGroup None (Some z) z0 z1 z2 z3). unfold wf_group. cbn. intuition discriminate.
  - one H. one H. one H. one H. one H. one H. destruct ss; [|discriminate].
    exists (MkGroup (Some z) (Some z0) z1 z2 z3 z4). unfold wf_group. cbn. intuition discriminate.
Qed.

Lemma groups_of : forall gs ss, map s_num ss = concat gs -> Forall (fun g => In g later_groups) gs ->
  exists grs, Forall wf_group grs /\ flat_map group_sections grs = ss /\ length grs = length gs.
Proof.
  induction gs as [|g gs IH]; intros ss H HF; cbn [concat] in H.
  - destruct ss; [|discriminate]. exists []. auto.
  - inversion HF as [|? ? Hg Hgs]; subst. apply map_split in H. destruct H as (s1 & s2 & -> & H1 & H2).
    destruct (group_of s1 g H1 Hg) as (gr & W & E & _). destruct (IH s2 H2 Hgs) as (grs & W2 & E2 & L).
    exists (gr :: grs). split; [constructor; assumption|]. cbn [flat_map length]. rewrite E, E2, L. auto.
Qed.

Lemma message_of : forall m gs off, grib_order m gs ->
  exists ms, wf_message ms /\ message_sections ms = message_table off m /\ length (groups ms) = length gs.
Proof.
  intros m gs off (Hn & g & gs' & -> & Hg & Hgs).
  pose proof (table_nums (m_sections m) (off + 16)) as T. rewrite Hn in T.
  destruct (sections_table (off + 16) (m_sections m)) as [|s1 ss] eqn:E; [discriminate|]. cbn [map] in T. injection T as T1 T.
  cbn [concat] in T. apply map_split in T. destruct T as (sa & sb & -> & Ta & Tb).
  assert (Hg' : In g later_groups) by (destruct Hg as [<-|[<-|[]]]; cbn; auto).
  destruct (group_of sa g Ta Hg') as (gr & W & Ea & H3). destruct (groups_of gs' sb Tb Hgs) as (grs & W2 & Eb & L).
  exists (MkMessage (MkSection 0 off 16 (Some (B0 (m_discipline m) (total_length m)))) s1 (gr :: grs) (MkSection 8 (off + total_length m - 4) 4 None)).
  split.
  - unfold wf_message. cbn [ms0 ms1 ms8 groups s_num]. split; [reflexivity|]. split; [exact T1|]. split; [reflexivity|].
    split; [constructor; assumption|]. exists gr, grs. auto.
  - split; [|cbn [groups length]; now rewrite L].
    unfold message_sections, message_table. cbn [ms0 ms1 ms8 groups flat_map]. rewrite E, Ea, Eb. reflexivity.
Qed.

Lemma messages_of : forall f ns off, Forall2 (fun p gs => grib_order (snd p) gs) f ns ->
  exists ms, Forall wf_message ms /\ flat_map message_sections ms = file_table off f /\
    map (fun m => length (groups m)) ms = map (@length _) ns.
Proof.
  intros f ns off H. revert off. induction H as [|[j m] gs f ns Hm Hf IH]; intros off.
  - exists []. auto.
  - cbn [snd] in Hm. destruct (message_of m gs (off + zlen j) Hm) as (ms & W & E & L).
    destruct (IH (off + zlen j + total_length m)) as (mss & W2 & E2 & L2).
    exists (ms :: mss). split; [constructor; assumption|]. cbn [flat_map map file_table]. rewrite E, E2, L, L2. auto.
Qed.

(** Number of sections 7 before each section 8. *)
Fixpoint counts (l : list section) (n : nat) : list nat :=
  match l with
  | [] => []
  | s :: l => if s_num s =? 8 then n :: counts l O else if s_num s =? 7 then counts l (S n) else counts l n
  end.

Lemma submessages_count : forall ms i us, submessages_of_all i ms us ->
  length us = list_sum (map (fun m => length (groups m)) ms).
Proof.
  induction ms as [|m ms IH]; intros i us H; inversion H as [|i' m' ms' us0 us1 Hu Ha]; subst; [reflexivity|].
  rewrite app_length, (IH _ _ Ha). cbn [map list_sum]. destruct Hu as [-> _]. reflexivity.
Qed.

Lemma read_file : forall m fuel f ns tail,
  Forall (fun p => no_magic (fst p) /\ message_ok (snd p)) f -> no_magic tail ->
  Forall2 (fun p gs => grib_order (snd p) gs) f ns ->
  zlen (file_bytes f tail) < 2 ^ 63 -> zlen (file_bytes f tail) < Z.of_nat fuel ->
  exists g ms us, from_slice m fuel (file_bytes f tail) = Ret (Ok g) /\ g_sections g = file_table 0 f /\
    Forall wf_message ms /\ flat_map message_sections ms = file_table 0 f /\
    submessages_of_all 0 ms us /\ Forall2 (indexes (file_table 0 f)) us (g_subs g) /\
    length (g_subs g) = list_sum (map (@length _) ns).
Proof.
  intros m fuel f ns tail Hf Ht Ho Hl Hfu.
  destruct (messages_of f ns 0 Ho) as (ms & W & E & L).
  pose proof (full_table_run m (file_bytes f tail) 0 (file_table 0 f) Hl ltac:(pose proof (zlen_nonneg _ (file_bytes f tail)); lia)
    (file_full_table _ f tail Hf Ht Hl)) as HR. fold (cursor (file_bytes f tail)) in HR.
  rewrite <- E in HR.
  destruct (grib2_read_complete m fuel (cursor (file_bytes f tail)) ms Hl ltac:(cbn [pos cursor]; lia) Hfu W HR) as (g & Eg & Es).
  destruct (grib2_read_inv m fuel _ g Eg Hl ltac:(cbn [pos cursor]; lia)) as (HR' & ms' & us & W' & E' & U & F).
  rewrite E in Es. rewrite Es in *.
  exists g, ms', us. split; [exact Eg|]. split; [exact Es|]. split; [exact W'|]. split; [now rewrite <- E'|].
  split; [exact U|]. split; [exact F|].
  rewrite <- (F2_length _ _ _ _ _ F), (submessages_count _ _ _ U).
  assert (Q : forall l ms ms', Forall wf_message ms -> Forall wf_message ms' -> flat_map message_sections ms = l ->
     flat_map message_sections ms' = l -> map (fun m => length (groups m)) ms = map (fun m => length (groups m)) ms').
  { (* the submessages are determined by the sections *)
    intros l0 m1 m2 W1 W2 E1 E2.
    assert (Sw : forall qs, Forall wf_message qs -> map (fun m => length (groups m)) qs =
       counts (flat_map message_sections qs) O).
    { induction qs as [|x xs IH]; intros Hx; [reflexivity|]. inversion Hx as [|? ? (H0 & H1 & H8 & Hg & _) Hxs]; subst.
      cbn [map flat_map]. rewrite (IH Hxs). unfold message_sections at 2. cbn [app counts]. rewrite H0, H1. cbn [Z.eqb Pos.eqb].
      rewrite <- app_assoc.
      assert (G : forall gs r n, Forall wf_group gs -> counts (flat_map group_sections gs ++ ms8 x :: r) n = (n + length gs)%nat :: counts r O).
      { clear - H8. induction gs as [|y gs IH]; intros r n H.
        - cbn [flat_map app length counts]. rewrite H8. cbn [Z.eqb Pos.eqb]. now rewrite Nat.add_0_r.
        - inversion H as [|? ? (A2 & A3 & _ & A4 & A5 & A6 & A7) Hgs]; subst. cbn [flat_map]. unfold group_sections at 1.
          rewrite <- !app_assoc.
          assert (O2 : forall r n, counts (opt_list (gr2 y) ++ r) n = counts r n).
          { intros r' n'. destruct (gr2 y); cbn [opt_list app counts opt_num] in *; [rewrite A2|]; reflexivity. }
          assert (O3 : forall r n, counts (opt_list (gr3 y) ++ r) n = counts r n).
          { intros r' n'. destruct (gr3 y); cbn [opt_list app counts opt_num] in *; [rewrite A3|]; reflexivity. }
          rewrite O2, O3. cbn [app counts]. rewrite A4, A5, A6, A7. cbn [Z.eqb Pos.eqb]. rewrite (IH r (S n) Hgs). cbn [length]. f_equal. lia. }
      cbn [app]. rewrite (G (groups x) (flat_map message_sections xs) O Hg). reflexivity. }
    rewrite (Sw m1 W1), (Sw m2 W2), E1, E2. reflexivity. }
  rewrite <- L. f_equal. eapply Q; [exact W'|exact W|rewrite <- E'; reflexivity|exact E].
Qed.
