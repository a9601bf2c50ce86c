(** Messages and submessages are determined by the sections. *)
From Coq Require Import Lia ZifyBool ZifyNat.
From Verif Require Import Model.Base Model.Errors Model.Sections Model.Parser.
From Verif Require Import Spec.ReaderS Spec.ParserS.
From Verif Require Import Proofs.BaseLemmas Proofs.SectionStreamP Proofs.TableP Proofs.LocalP Proofs.ParserRun.

Lemma group_unique g g' X Y : wf_group g -> wf_group g' -> group_sections g ++ X = group_sections g' ++ Y -> g = g' /\ X = Y.
Proof.
  destruct g as [[a2|] [a3|] a4 a5 a6 a7], g' as [[b2|] [b3|] b4 b5 b6 b7]; intros (H2 & H3 & H23 & H4 & H5 & H6 & H7) (K2 & K3 & K23 & K4 & K5 & K6 & K7) E;
    cbn [gr2 gr3 gr4 gr5 gr6 gr7 opt_num] in *; try (exfalso; apply H23; congruence); try (exfalso; apply K23; congruence);
    unfold group_sections in E; cbn [gr2 gr3 gr4 gr5 gr6 gr7 opt_list app] in E; injection E; intros; subst; try lia; auto.
Qed.
Lemma groups_unique : forall gs gs' s8 s8' X Y, Forall wf_group gs -> Forall wf_group gs' -> s_num s8 = 8 -> s_num s8' = 8 ->
  flat_map group_sections gs ++ s8 :: X = flat_map group_sections gs' ++ s8' :: Y -> gs = gs' /\ s8 = s8' /\ X = Y.
Proof.
  induction gs as [|g gs IH]; intros [|g' gs'] s8 s8' X Y F F' N N' E; cbn [flat_map app] in E.
  - injection E as <- <-. auto.
  - exfalso. inversion F' as [|? ? W _]; subst. destruct (group_sections_nonempty g') as (x & q & G). pose proof (first_num g' x q W G) as NN. rewrite G in E. cbn [app] in E. injection E as -> _. contradiction.
  - exfalso. inversion F as [|? ? W _]; subst. destruct (group_sections_nonempty g) as (x & q & G). pose proof (first_num g x q W G) as NN. rewrite G in E. cbn [app] in E. injection E as <- _. contradiction.
  - inversion F as [|? ? W F1]; subst. inversion F' as [|? ? W' F1']; subst. rewrite <- !app_assoc in E. destruct (group_unique _ _ _ _ W W' E) as (<- & E2).
    destruct (IH _ _ _ _ _ F1 F1' N N' E2) as (<- & <- & <-). auto.
Qed.
Lemma message_unique m m' X Y : wf_message m -> wf_message m' -> message_sections m ++ X = message_sections m' ++ Y -> m = m' /\ X = Y.
Proof.
  destruct m as [a0 a1 gs a8], m' as [b0 b1 gs' b8]. intros (_ & _ & N & F & _) (_ & _ & N' & F' & _) E. cbn [ms0 ms1 ms8 groups] in *.
  unfold message_sections in E. cbn [ms0 ms1 ms8 groups app] in E. injection E as <- <- E. rewrite <- !app_assoc in E. cbn [app] in E.
  destruct (groups_unique _ _ _ _ _ _ F F' N N' E) as (<- & <- & <-). auto.
Qed.
Lemma messages_prefix : forall ms ms' r, Forall wf_message ms -> Forall wf_message ms' -> flat_map message_sections ms' = flat_map message_sections ms ++ r ->
  exists ms2, ms' = ms ++ ms2 /\ r = flat_map message_sections ms2.
Proof.
  induction ms as [|m ms IH]; intros ms' r F F' E; [exists ms'; auto|]. destruct ms' as [|m' ms']; [discriminate|].
  cbn [flat_map] in E. rewrite <- app_assoc in E. inversion F as [|? ? W F1]; subst. inversion F' as [|? ? W' F1']; subst.
  destruct (message_unique _ _ _ _ W' W E) as (-> & E2). destruct (IH _ _ F1 F1' E2) as (ms2 & -> & ->). exists ms2. auto.
Qed.

Lemma list_ext A : forall l l' : list A, length l = length l' -> (forall k a b, nth_error l k = Some a -> nth_error l' k = Some b -> a = b) -> l = l'.
Proof.
  induction l as [|a l IH]; intros [|b l'] L H; try discriminate; [reflexivity|]. f_equal; [exact (H O _ _ eq_refl eq_refl)|].
  apply IH; [injection L as L; exact L|]. intros k x y Hx Hy. exact (H (S k) x y Hx Hy).
Qed.
Lemma is_submessage_det i s0 s1 gs s8 k u u' : is_submessage i s0 s1 gs s8 k u -> is_submessage i s0 s1 gs s8 k u' -> u = u'.
Proof.
  destruct u as [x_0 x_1 x_2 x_3 x_4 x_5 x_6 x_7 x_8 x_9 x_10], u' as [y_0 y_1 y_2 y_3 y_4 y_5 y_6 y_7 y_8 y_9 y_10]. unfold is_submessage. cbn [u_mi u_si u_0 u_1 u_2 u_3 u_4 u_5 u_6 u_7 u_8].
  intros (A1 & A2 & A3 & A4 & A5 & A6 & (g & G & A7 & A8 & A9 & A10) & A11) (B1 & B2 & B3 & B4 & B5 & B6 & (g' & G' & B7 & B8 & B9 & B10) & B11).
  rewrite G in G'. injection G' as <-. rewrite <- A6 in B6. injection B6 as B6. subst. reflexivity.
Qed.
Lemma submessages_of_det i m us us' : submessages_of i m us -> submessages_of i m us' -> us = us'.
Proof.
  intros (L & H) (L' & H'). apply list_ext; [congruence|]. intros k a b Ha Hb. exact (is_submessage_det _ _ _ _ _ _ _ _ (H _ _ Ha) (H' _ _ Hb)).
Qed.
Lemma submessages_prefix : forall ms i us, submessages_of_all i ms us -> forall ms2 us', submessages_of_all i (ms ++ ms2) us' ->
  exists us2, us' = us ++ us2.
Proof.
  induction 1 as [i|i m ms us us1 H HR IH]; intros ms2 us' U; [exists us'; reflexivity|]. cbn [app] in U. inversion U as [|? ? ? ua ub Ha Hb]; subst.
  rewrite (submessages_of_det _ _ _ _ H Ha). destruct (IH _ _ Hb) as (us2 & ->). exists us2. apply app_assoc.
Qed.

(** ** Indices *)
Lemma entry_det l r s p q : NoDup (l ++ r) -> entry l s p -> entry (l ++ r) s q -> p = q.
Proof.
  intros N (A & B) (C & D). assert (B2 : nth_error (l ++ r) (Z.to_nat p) = Some s) by (rewrite nth_error_app1; [exact B|apply nth_error_Some; congruence]).
  assert (E : Z.to_nat p = Z.to_nat q).
  { apply (proj1 (NoDup_nth_error (l ++ r)) N); [apply nth_error_Some; congruence|congruence]. }
  lia.
Qed.
Lemma opt_entry_det l r o p q : NoDup (l ++ r) -> opt_entry l o p -> opt_entry (l ++ r) o q -> p = q.
Proof. intros N. destruct o as [s|], p as [p|], q as [q|]; cbn [opt_entry]; try tauto; auto. intros A B. f_equal. exact (entry_det l r s p q N A B). Qed.
Lemma entry_in l s p : entry l s p -> In s l.
Proof. intros (_ & H). eapply nth_error_In. exact H. Qed.
Lemma indexes_det l r u w w' : NoDup (l ++ r) -> ~ In no_end_section (l ++ r) -> indexes l u w -> indexes (l ++ r) u w' -> w = w'.
Proof.
  intros N NE. destruct w as [x_0 x_1 x_2 x_3 x_4 x_5 x_6 x_7 x_8 x_9 x_10], w' as [y_0 y_1 y_2 y_3 y_4 y_5 y_6 y_7 y_8 y_9 y_10]. unfold indexes. cbn [u_mi u_si u_0 u_1 u_2 u_3 u_4 u_5 u_6 u_7 u_8].
  intros (A1 & A2 & A3 & A4 & A5 & A6 & A7 & A8 & A9 & A10 & A11) (B1 & B2 & B3 & B4 & B5 & B6 & B7 & B8 & B9 & B10 & B11).
  pose proof (entry_det _ _ _ _ _ N A3 B3). pose proof (entry_det _ _ _ _ _ N A4 B4). pose proof (opt_entry_det _ _ _ _ _ N A5 B5). pose proof (entry_det _ _ _ _ _ N A6 B6).
  pose proof (entry_det _ _ _ _ _ N A7 B7). pose proof (entry_det _ _ _ _ _ N A8 B8). pose proof (entry_det _ _ _ _ _ N A9 B9). pose proof (entry_det _ _ _ _ _ N A10 B10).
  match type of A11 with entry _ _ ?a \/ _ => match type of B11 with entry _ _ ?b \/ _ => assert (a = b) end end.
  { destruct A11 as [A11|(E & ->)]; destruct B11 as [B11|(E' & ->)]; auto.
    - exact (entry_det _ _ _ _ _ N A11 B11).
    - exfalso. apply NE. apply in_or_app. left. rewrite <- E'. exact (entry_in _ _ _ A11).
    - exfalso. apply NE. rewrite <- E. exact (entry_in _ _ _ B11). }
  congruence.
Qed.
Lemma indices_prefix l r : NoDup (l ++ r) -> ~ In no_end_section (l ++ r) -> forall us ws, Forall2 (indexes l) us ws -> forall us2 ws', Forall2 (indexes (l ++ r)) (us ++ us2) ws' ->
  exists ws2, ws' = ws ++ ws2.
Proof.
  intros N NE. induction 1 as [|u w us ws H F IH]; intros us2 ws' F'; [exists ws'; reflexivity|]. cbn [app] in F'. inversion F' as [|? w' ? ws1 H' F1]; subst.
  rewrite (indexes_det _ _ _ _ _ N NE H H'). destruct (IH _ _ F1) as (ws2 & ->). exists ws2. reflexivity.
Qed.

(** ** Tables do not repeat sections *)
Lemma tiles_nodup (P : Prop) d : P -> forall l e c e' c', 0 <= c -> tiles P d e c l e' c' -> NoDup l.
Proof.
  intros HP. induction l as [|x l IH]; intros e c e' c' H0 T; [constructor|]. apply tiles_inv in T. destruct T as (e1 & c1 & T1 & T2).
  pose proof (tile_cur _ _ _ _ _ _ _ H0 T1) as (E & F & _). assert (S1 : 0 < s_size x) by (inversion T1; subst; cbn [s_size]; try lia; match goal with H : P -> _ |- _ => specialize (H HP); lia end).
  assert (H1 : 0 <= c1) by lia. constructor; [|exact (IH _ _ _ _ H1 T2)]. intros Hx. pose proof (spans P d _ _ _ _ _ H1 T2 x Hx). lia.
Qed.
Lemma tiles_no_end P d : forall l p e' c', 0 <= p -> tiles P d p p l e' c' -> ~ In no_end_section l.
Proof.
  intros [|x l] p e' c' H0 T H; [contradiction|]. apply tiles_inv in T. destruct T as (e1 & c1 & T1 & T2). pose proof (tile_cur _ _ _ _ _ _ _ H0 T1) as (E & F & _ & _ & Z0 & _).
  assert (K : s_num x = 0 /\ 16 <= c1). { inversion T1; subst; cbn [s_num s_offset] in *; try lia. }
  assert (H1 : 0 <= c1) by lia. destruct H as [->|H]; [discriminate (proj1 K)|]. pose proof (spans P d _ _ _ _ _ H1 T2 _ H) as (B & _). change (s_offset no_end_section) with 0 in B. lia.
Qed.
