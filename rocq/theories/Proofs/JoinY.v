(** Reading two files, one after the other: the table. *)
From Coq Require Import Lia ZifyBool ZifyNat.
From Verif Require Import Model.Base Model.Helpers Model.Errors Model.Sections Model.Reader Model.Parser Model.Context Model.Decoder.
From Verif Require Import Spec.ReaderS Spec.ParserS Spec.ReadS Spec.SessionS Spec.LocalS Spec.JoinS.
From Verif Require Import Proofs.BaseLemmas Proofs.ReaderP Proofs.SectionStreamP Proofs.TableP Proofs.ExactP Proofs.ReaderX Proofs.LocalP Proofs.CutP Proofs.CutM Proofs.CutX Proofs.JoinX.
From Verif Require Proofs.ReadX Proofs.FileP Proofs.WordX.
Ltac Zify.zify_post_hook ::= Z.div_mod_to_equations.

Lemma tiles_table_end P d l e c e' c' : 0 <= c -> tiles P d e c l e' c' -> c' = match rev l with x :: _ => s_offset x + s_size x | [] => c end.
Proof.
  intros H0. destruct l as [|x l _] using rev_ind; intros T; [inversion T; reflexivity|].
  apply tiles_app_inv in T. destruct T as (e1 & c1 & T1 & T2). rewrite rev_app_distr. cbn [rev app].
  apply tiles_inv in T2. destruct T2 as (e2 & c2 & T2 & T3). inversion T3; subst.
  exact (proj1 (tile_cur _ _ _ _ _ _ _ (tiles_nonneg _ _ _ _ _ _ _ H0 T1) T2)).
Qed.
Lemma earlier P D k c x e1 c1 : c <= k -> (forall j, c <= j < k -> ~ magic_at D j) -> tile P D k k x e1 c1 -> tile P D c c x e1 c1.
Proof.
  intros Hc N T. inversion T; subst; [|lia|congruence].
  match goal with H : first_magic _ _ _ |- _ => destruct H as (F1 & F2 & F3) end.
  apply tile_0; try reflexivity; try assumption. split; [lia|]. split; [exact F2|].
  intros j Hj. destruct (Z.lt_ge_cases j k); [apply N; lia|apply F3; lia].
Qed.
Lemma earlier_tiles P D k c l e1 c1 : c <= k -> l <> [] -> (forall j, c <= j < k -> ~ magic_at D j) -> tiles P D k k l e1 c1 -> tiles P D c c l e1 c1.
Proof.
  intros Hc N M T. destruct l as [|x l]; [congruence|]. apply tiles_inv in T. destruct T as (e & c' & T1 & T2).
  eapply tiles_cons; [exact (earlier _ _ _ _ _ _ _ Hc M T1)|exact T2].
Qed.
Lemma tile_zero P d e c x e1 c1 dis total : tile P d e c x e1 c1 -> s_body x = Some (B0 dis total) -> s_num x = 0.
Proof. intros T E. inversion T; subst; cbn [s_num s_body] in *; [reflexivity|discriminate|]. injection E as ->. match goal with H : body_at _ _ _ _ _ |- _ => destruct H as (_ & H); intuition discriminate end. Qed.
Lemma tiles_zero P d : forall l e c e1 c1, 0 <= c -> tiles P d e c l e1 c1 -> forall x dis total, In x l -> s_body x = Some (B0 dis total) -> s_num x = 0.
Proof.
  induction l as [|y l IH]; intros e c e1 c1 H0 T x dis total Hx E; [contradiction|].
  apply tiles_inv in T. destruct T as (e2 & c2 & T1 & T2). destruct Hx as [->|Hx]; [exact (tile_zero _ _ _ _ _ _ _ _ _ T1 E)|].
  assert (H2 : 0 <= c2) by (pose proof (tile_cur _ _ _ _ _ _ _ H0 T1); lia). exact (IH _ _ _ _ H2 T2 x dis total Hx E).
Qed.
Lemma group_nums g : wf_group g -> Forall (fun x => s_num x <> 0) (group_sections g).
Proof.
  destruct g as [[g2|] [g3|] g4 g5 g6 g7]; intros (H2 & H3 & H23 & H4 & H5 & H6 & H7); cbn [gr2 gr3 gr4 gr5 gr6 gr7 opt_num] in *; unfold group_sections; cbn [gr2 gr3 gr4 gr5 gr6 gr7 opt_list app];
    repeat constructor; lia.
Qed.
Lemma middle_nums m : wf_message m -> Forall (fun x => s_num x <> 0) (ms1 m :: flat_map group_sections (groups m)).
Proof.
  intros (_ & N1 & _ & F & _). constructor; [lia|]. apply Forall_flat_map. revert F. apply Forall_impl. exact group_nums.
Qed.
Lemma zero_is_first m x : wf_message m -> In x (message_sections m) -> s_num x = 0 -> x = ms0 m.
Proof.
  intros W Hx N. pose proof (middle_nums m W) as F. rewrite Forall_forall in F. destruct W as (_ & _ & N8 & _).
  unfold message_sections in Hx. destruct Hx as [->|Hx]; [reflexivity|]. exfalso. rewrite app_comm_cons in Hx. apply in_app_or in Hx.
  destruct Hx as [Hx|[<-|[]]]; [exact (F x Hx N)|lia].
Qed.
(** Every message ends inside the octets, and its length says where. *)
Lemma messages_small P a d ms e c : zlen (a ++ d) < 2 ^ 63 -> Forall wf_message ms -> tiles P d 0 0 (flat_map message_sections ms) e c -> Forall (small a) (flat_map message_sections ms).
Proof.
  intros HL W T. rewrite Forall_forall. intros x Hx dis total E. pose proof (tiles_zero _ _ _ _ _ _ _ (Z.le_refl 0) T x dis total Hx E) as N.
  apply in_flat_map in Hx. destruct Hx as (m & Hm & Hx). rewrite Forall_forall in W. pose proof (W m Hm) as Wm.
  pose proof (zero_is_first m x Wm Hx N) as ->. apply in_split in Hm. destruct Hm as (X & Y & ->).
  rewrite flat_map_app in T. cbn [flat_map] in T.
  assert (Eq : message_sections m = ms0 m :: (ms1 m :: flat_map group_sections (groups m)) ++ [ms8 m]) by (unfold message_sections; reflexivity).
  rewrite Eq in T. cbn [app] in T. rewrite <- app_assoc in T. cbn [app] in T.
  pose proof Wm as (_ & _ & N8 & _).
  pose proof (tiles_total P d (flat_map message_sections X) (ms0 m) (ms1 m :: flat_map group_sections (groups m)) (ms8 m) (flat_map message_sections Y) 0 0 e c (Z.le_refl 0) T (middle_nums m Wm) N8 dis total E) as Q.
  assert (K : s_offset (ms8 m) + s_size (ms8 m) <= zlen d).
  { apply tiles_app_inv in T. destruct T as (e1 & c1 & Ta & T). pose proof (tiles_nonneg _ _ _ _ _ _ _ (Z.le_refl 0) Ta) as H1.
    rewrite (app_comm_cons _ _ (ms1 m)), app_comm_cons in T. apply tiles_app_inv in T. destruct T as (e2 & c2 & Tb & T). pose proof (tiles_nonneg _ _ _ _ _ _ _ H1 Tb) as H2.
    apply tiles_inv in T. destruct T as (e3 & c3 & T8 & _). destruct (tile_num8 _ _ _ _ _ _ _ T8 N8) as (_ & K1 & K2). pose proof (proj1 (tile_cur _ _ _ _ _ _ _ H2 T8)) as K3. lia. }
  pose proof (zlen_both a d). pose proof (k_nonneg a). lia.
Qed.
