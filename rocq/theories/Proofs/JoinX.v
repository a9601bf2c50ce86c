(** Reading two files, one after the other. *)
From Coq Require Import Lia ZifyBool ZifyNat.
From Verif Require Import Model.Base Model.Helpers Model.Errors Model.Sections Model.Reader Model.Parser Model.Context Model.Decoder.
From Verif Require Import Spec.ReaderS Spec.ParserS Spec.ReadS Spec.SessionS Spec.LocalS Spec.JoinS.
From Verif Require Import Proofs.BaseLemmas Proofs.ReaderP Proofs.SectionStreamP Proofs.TableP Proofs.ExactP Proofs.ReaderX Proofs.LocalP Proofs.CutP Proofs.CutM Proofs.CutX.
From Verif Require Proofs.ReadX Proofs.FileP Proofs.WordX Proofs.ContextX Proofs.LocalD Proofs.ViewX.
Ltac Zify.zify_post_hook ::= Z.div_mod_to_equations.

(** ** The second table, moved *)
Section Move.
  Variables (a d : list byte).
  Let k := zlen a.
  Lemma k_nonneg : 0 <= k. Proof. apply zlen_nonneg. Qed.
  Lemma zlen_both : zlen (a ++ d) = zlen d + k. Proof. unfold k, zlen. rewrite app_length. lia. Qed.
  Lemma octets_moved j n : 0 <= j -> octets (a ++ d) (j + k) n = octets d j n.
  Proof.
    intros H. unfold octets, k, zlen. rewrite skipn_app. rewrite (skipn_all2 a) by lia. replace (Z.to_nat (j + Z.of_nat (length a)) - length a)%nat with (Z.to_nat j) by lia. reflexivity.
  Qed.
  Lemma magic_moved j : 0 <= j -> magic_at (a ++ d) (j + k) <-> magic_at d j.
  Proof. intros H. unfold magic_at. rewrite octets_moved, zlen_both by exact H. pose proof k_nonneg. intuition lia. Qed.
  Lemma first_moved p j : 0 <= p -> first_magic d p j -> first_magic (a ++ d) (p + k) (j + k).
  Proof.
    intros H (A & B & C). split; [lia|]. split; [apply magic_moved; [lia|exact B]|].
    intros i Hi M. apply (C (i - k)); [lia|]. apply magic_moved; [lia|]. replace (i - k + k) with i by lia. exact M.
  Qed.
  Lemma body_moved off size num b : 0 <= off -> body_at d off size num b -> body_at (a ++ d) (off + k) size num b.
  Proof.
    intros H0 (A & B). split; [intros N; specialize (A N); rewrite zlen_both; lia|]. cbv zeta in *. replace (off + k + 5) with (off + 5 + k) by lia. rewrite !octets_moved by lia. exact B.
  Qed.
  Definition small (x : section) : Prop := forall dis total, s_body x = Some (B0 dis total) -> s_offset x + k + total < 2 ^ 64.
  Lemma tile_moved P e c x e1 c1 : 0 <= c -> small x -> tile P d e c x e1 c1 -> tile P (a ++ d) (e + k) (c + k) (moved k x) (e1 + k) (c1 + k).
  Proof.
    intros H0 Sm T. pose proof k_nonneg as K0. inversion T; subst; unfold moved; cbn [s_num s_offset s_size s_body].
    - match goal with H : first_magic _ _ _ |- _ => pose proof H as (K1 & (K2 & K3 & _) & _); apply first_moved in H; [|lia] end.
      specialize (Sm _ _ eq_refl). cbn [s_offset] in Sm.
      rewrite <- (octets_moved (k0 + 6) 1), <- (octets_moved (k0 + 8) 8) in * by lia. replace (k0 + 6 + k) with (k0 + k + 6) in * by lia. replace (k0 + 8 + k) with (k0 + k + 8) in * by lia.
      replace (k0 + be (octets (a ++ d) (k0 + k + 8) 8) + k) with (k0 + k + be (octets (a ++ d) (k0 + k + 8) 8)) by lia. replace (k0 + 16 + k) with (k0 + k + 16) by lia.
      apply tile_0; try reflexivity; try assumption.
      + replace (k0 + k + 7) with (k0 + 7 + k) by lia. rewrite octets_moved by lia. assumption.
      + intros HP. match goal with H : P -> _ |- _ => specialize (H HP) end. lia.
    - replace (c + 4 + k) with (c + k + 4) by lia. apply tile_8; [rewrite zlen_both; lia|]. rewrite octets_moved by lia. assumption.
    - match goal with A : ?e <> c, B : ?e <> c + 4, X : body_at _ c ?sz ?nm ?b0, S0 : P -> _ |- _ => remember sz as size eqn:Es; remember nm as num eqn:En; rename X into XB; rename S0 into HS end.
      replace (c + size + k) with (c + k + size) by lia. apply tile_n; try lia.
      + rewrite zlen_both. lia.
      + rewrite octets_moved by lia. exact Es.
      + replace (c + k + 4) with (c + 4 + k) by lia. rewrite octets_moved by lia. exact En.
      + apply body_moved; [lia|exact XB].
  Qed.
  Lemma tiles_moved P : forall l e c e' c', 0 <= c -> Forall small l -> tiles P d e c l e' c' -> tiles P (a ++ d) (e + k) (c + k) (map (moved k) l) (e' + k) (c' + k).
  Proof.
    induction l as [|x l IH]; intros e c e' c' H0 F T; [inversion T; subst; constructor|]. apply tiles_inv in T. destruct T as (e1 & c1 & T1 & T2).
    pose proof (tile_cur _ _ _ _ _ _ _ H0 T1) as (E & B & _ & _ & Z0 & _). inversion F as [|? ? F1 F2]; subst. assert (H1 : 0 <= s_offset x + s_size x) by lia.
    cbn [map]. eapply tiles_cons; [exact (tile_moved P _ _ _ _ _ H0 F1 T1)|exact (IH _ _ _ _ H1 F2 T2)].
  Qed.
End Move.

(** Messages moved *)
Definition moved_group (k : Z) (g : group) : group := MkGroup (option_map (moved k) (gr2 g)) (option_map (moved k) (gr3 g)) (moved k (gr4 g)) (moved k (gr5 g)) (moved k (gr6 g)) (moved k (gr7 g)).
Definition moved_message (k : Z) (m : message) : message := MkMessage (moved k (ms0 m)) (moved k (ms1 m)) (map (moved_group k) (groups m)) (moved k (ms8 m)).
Lemma moved_groups k gs : flat_map group_sections (map (moved_group k) gs) = map (moved k) (flat_map group_sections gs).
Proof.
  induction gs as [|[g2 g3 g4 g5 g6 g7] gs IH]; [reflexivity|]. cbn [map flat_map]. rewrite IH, map_app. f_equal. destruct g2, g3; reflexivity.
Qed.
Lemma moved_sections k ms : flat_map message_sections (map (moved_message k) ms) = map (moved k) (flat_map message_sections ms).
Proof.
  induction ms as [|[a0 a1 gs a8] ms IH]; [reflexivity|]. cbn [map flat_map]. rewrite IH, map_app. f_equal. unfold message_sections, moved_message. cbn [ms0 ms1 ms8 groups map].
  rewrite moved_groups, map_app. reflexivity.
Qed.
Lemma moved_wf k m : wf_message m -> wf_message (moved_message k m).
Proof.
  destruct m as [a0 a1 gs a8]. intros (N0 & N1 & N8 & F & (g & gs' & E & G3)). cbn [ms0 ms1 ms8 groups] in *. subst gs.
  unfold wf_message, moved_message. cbn [ms0 ms1 ms8 groups moved s_num]. repeat (split; [assumption|]). split.
  - rewrite Forall_map. revert F. apply Forall_impl. intros [[g2|] [g3|] g4 g5 g6 g7]; unfold wf_group; cbn [moved_group gr2 gr3 gr4 gr5 gr6 gr7 opt_num option_map moved s_num]; intuition congruence.
  - exists (moved_group k g), (map (moved_group k) gs'). split; [reflexivity|]. destruct g as [g2 [g3|] g4 g5 g6 g7]; cbn [moved_group gr3 option_map] in *; congruence.
Qed.
Lemma latest_map A B (f : A -> B) l : latest (map (option_map f) l) = option_map f (latest l).
Proof. induction l as [|o l IH]; [reflexivity|]. cbn [map latest]. rewrite IH. destruct (latest l); reflexivity. Qed.

(** Submessages moved *)
Definition moved_sub (a k : Z) (u : submessage section) : submessage section :=
  MkSubmessage (u_mi u + a) (u_si u) (moved k (u_0 u)) (moved k (u_1 u)) (option_map (moved k) (u_2 u)) (moved k (u_3 u)) (moved k (u_4 u)) (moved k (u_5 u)) (moved k (u_6 u)) (moved k (u_7 u))
    (if s_offset (u_8 u) =? 0 then u_8 u else moved k (u_8 u)).
Lemma moved_is a k i s0 s1 gs s8 n u : s_offset s8 <> 0 -> is_submessage i s0 s1 gs s8 n u ->
  is_submessage (i + a) (moved k s0) (moved k s1) (map (moved_group k) gs) (moved k s8) n (moved_sub a k u).
Proof.
  intros N8 (A1 & A2 & A3 & A4 & A5 & A6 & (g & G & A7 & A8 & A9 & A10) & A11). unfold is_submessage, moved_sub. cbn [Parser.u_mi Parser.u_si Parser.u_0 Parser.u_1 Parser.u_2 Parser.u_3 Parser.u_4 Parser.u_5 Parser.u_6 Parser.u_7 Parser.u_8].
  assert (G2 : forall l, map gr2 (map (moved_group k) l) = map (option_map (moved k)) (map gr2 l)) by (intros l; rewrite !map_map; reflexivity).
  assert (G3 : forall l, map gr3 (map (moved_group k) l) = map (option_map (moved k)) (map gr3 l)) by (intros l; rewrite !map_map; reflexivity).
  split; [congruence|]. split; [exact A2|]. split; [congruence|]. split; [congruence|].
  split; [rewrite firstn_map, G2, latest_map, A5; reflexivity|]. split; [rewrite firstn_map, G3, latest_map, <- A6; reflexivity|].
  split. { exists (moved_group k g). split; [rewrite nth_error_map, G; reflexivity|]. cbn [moved_group gr4 gr5 gr6 gr7]. rewrite A7, A8, A9, A10. auto. }
  rewrite map_length, A11. destruct (S n =? length gs)%nat; [|reflexivity]. destruct (Z.eqb_spec (s_offset s8) 0); [contradiction|reflexivity].
Qed.
Lemma moved_all a k : forall ms i us, Forall (fun m => s_offset (ms8 m) <> 0) ms -> submessages_of_all i ms us -> submessages_of_all (i + a) (map (moved_message k) ms) (map (moved_sub a k) us).
Proof.
  intros ms i us F H. revert F. induction H as [i|i m ms us us1 (L & H) HR IH]; intros F; [constructor|]. inversion F as [|? ? F1 F2]; subst. cbn [map]. rewrite map_app. constructor.
  - split; [rewrite map_length; unfold moved_message; cbn [groups]; rewrite map_length; exact L|]. intros n u E. rewrite nth_error_map in E. destruct (nth_error us n) as [v|] eqn:V; [|discriminate]. injection E as <-.
    unfold moved_message. cbn [ms0 ms1 ms8 groups]. apply moved_is; [exact F1|exact (H n v V)].
  - replace (i + a + 1) with (i + 1 + a) by lia. apply IH. exact F2.
Qed.
Lemma sub_all_app : forall ms i us, submessages_of_all i ms us -> forall ms2 us2, submessages_of_all (i + zlen ms) ms2 us2 -> submessages_of_all i (ms ++ ms2) (us ++ us2).
Proof.
  induction 1 as [i|i m ms us us1 H HR IH]; intros ms2 us2 U; [change (zlen (@nil message)) with 0 in U; rewrite Z.add_0_r in U; exact U|].
  cbn [app]. rewrite <- app_assoc. constructor; [exact H|]. apply IH. replace (i + 1 + zlen ms) with (i + zlen (m :: ms)) by (rewrite zlen_cons; lia). exact U.
Qed.
