(** Section tables of files that are cut off. *)
From Coq Require Import Lia ZifyBool ZifyNat.
From Verif Require Import Model.Base Model.Helpers Model.Errors Model.Sections Model.Reader Model.Parser Model.Context.
From Verif Require Import Spec.ReaderS Spec.ParserS Spec.ReadS Spec.CutS.
From Verif Require Import Proofs.BaseLemmas Proofs.ReaderP Proofs.SectionStreamP Proofs.TableP Proofs.ExactP Proofs.ReaderX Proofs.LocalP.
Ltac Zify.zify_post_hook ::= Z.div_mod_to_equations.

Lemma octets_left (d t : list byte) j n : 0 <= j -> j + n <= zlen d -> octets (d ++ t) j n = octets d j n.
Proof.
  intros Hj H. unfold octets, zlen in *. rewrite skipn_app, firstn_app, skipn_length.
  destruct (Z.le_gt_cases n 0) as [N|N].
  - replace (Z.to_nat n) with 0%nat by lia. reflexivity.
  - replace (Z.to_nat n - (length d - Z.to_nat j))%nat with 0%nat by lia. cbn [firstn]. apply app_nil_r.
Qed.
Lemma zlen_left (d t : list byte) : zlen d <= zlen (d ++ t).
Proof. unfold zlen. rewrite app_length. lia. Qed.
Lemma magic_left d t k : k + 16 <= zlen d -> magic_at (d ++ t) k <-> magic_at d k.
Proof.
  intros H. unfold magic_at. pose proof (zlen_left d t). split; intros (A & B & C); (split; [exact A|]; split; [lia|]).
  - rewrite octets_left in C by lia. exact C.
  - rewrite octets_left by lia. exact C.
Qed.
Lemma first_left d t p k : first_magic d p k -> first_magic (d ++ t) p k.
Proof.
  intros (A & B & C). pose proof B as (B1 & B2 & B3). split; [exact A|]. split; [apply magic_left; [lia|exact B]|].
  intros j Hj M. apply (C j Hj). apply (magic_left d t); [lia|exact M].
Qed.
Lemma first_right d t p k : first_magic (d ++ t) p k -> k + 16 <= zlen d -> first_magic d p k.
Proof.
  intros (A & B & C) L. split; [exact A|]. split; [apply (magic_left d t); assumption|].
  intros j Hj M. apply (C j Hj). apply magic_left; [lia|exact M].
Qed.
Lemma body_left d t off size num b : 0 <= off -> body_at d off size num b -> body_at (d ++ t) off size num b.
Proof.
  intros H0 (A & B). cbv zeta in B. pose proof (zlen_left d t) as L. split; [intros N; specialize (A N); lia|]. cbv zeta.
  assert (E : num <> 7 -> octets (d ++ t) (off + 5) (size - 5) = octets d (off + 5) (size - 5)) by (intros N; specialize (A N); apply octets_left; lia).
  destruct B as [(N & -> & S1)|[(N & -> & S1)|[(N & -> & S1)|[(N & -> & S1)|[(N & -> & S1)|[(N & -> & S1)|(N & ->)]]]]]];
    try (rewrite E by lia); try (rewrite octets_left by (specialize (A ltac:(lia)); lia)); auto 10.
Qed.
Lemma body_right d t off size num b : 0 <= off -> off + size <= zlen d -> body_at (d ++ t) off size num b -> body_at d off size num b.
Proof.
  intros H0 Hs (A & B). cbv zeta in B. split; [intros N; lia|]. cbv zeta.
  assert (E : octets (d ++ t) (off + 5) (size - 5) = octets d (off + 5) (size - 5)) by (apply octets_left; lia). rewrite E in B.
  destruct B as [(N & -> & S1)|[(N & -> & S1)|[(N & -> & S1)|[(N & -> & S1)|[(N & -> & S1)|[(N & -> & S1)|(N & ->)]]]]]];
    try (rewrite octets_left by lia); auto 10.
Qed.
Lemma tile_left P d t e c x e1 c1 : 0 <= c -> tile P d e c x e1 c1 -> tile P (d ++ t) e c x e1 c1.
Proof.
  intros H0 T. pose proof (zlen_left d t) as L. inversion T; subst.
  - match goal with H : first_magic _ _ _ |- _ => pose proof H as (K1 & (K2 & K3 & _) & _); apply (first_left d t) in H end.
    rewrite <- (octets_left d t (k + 6) 1), <- (octets_left d t (k + 8) 8) by lia. apply tile_0; try reflexivity; try assumption; rewrite !octets_left by lia; assumption.
  - apply tile_8; [lia|]. rewrite octets_left by lia. assumption.
  - rewrite <- (octets_left d t c 4), <- (octets_left d t (c + 4) 1) by lia.
    eapply tile_n; try reflexivity; try assumption; try lia.
    + rewrite !octets_left by lia. apply body_left; [lia|assumption].
    + rewrite !octets_left by lia. assumption.
Qed.
Lemma tiles_left P d t : forall l e c e' c', 0 <= c -> tiles P d e c l e' c' -> tiles P (d ++ t) e c l e' c'.
Proof.
  induction l as [|x l IH]; intros e c e' c' Hc T; [inversion T; subst; constructor|].
  apply tiles_inv in T. destruct T as (e1 & c1 & T1 & T2). pose proof (tile_cur _ _ _ _ _ _ _ Hc T1) as (E & F & _ & _ & Z0 & _).
  eapply tiles_cons; [apply tile_left; eassumption|]. apply IH; [lia|exact T2].
Qed.
Lemma tile_right P d t e c x e1 c1 : 0 <= c -> c1 <= zlen d -> (s_num x = 7 -> 5 <= s_size x) -> tile P (d ++ t) e c x e1 c1 -> tile P d e c x e1 c1.
Proof.
  intros H0 Hc H7 T. inversion T; subst; cbn [s_num s_size] in H7.
  - match goal with H : first_magic _ _ _ |- _ => pose proof H as (K1 & (K2 & K3 & _) & _); apply first_right in H; [|lia] end.
    rewrite (octets_left d t (k + 6) 1), (octets_left d t (k + 8) 8) in * by lia. apply tile_0; try reflexivity; try assumption. rewrite <- (octets_left d t) by lia. assumption.
  - apply tile_8; [lia|]. rewrite <- (octets_left d t) by lia. assumption.
  - match goal with A : ?e <> c, B : ?e <> c + 4, X : body_at _ c ?sz ?nm ?b0, S0 : P -> _ |- _ => remember sz as size eqn:Es; remember nm as num eqn:En; pose proof X as HB; rename X into XB; rename S0 into HS end.
    assert (S5 : 5 <= size).
    { destruct HB as (_ & HB). cbv zeta in HB. destruct HB as [(N & _ & S1)|[(N & _ & S1)|[(N & _ & S1)|[(N & _ & S1)|[(N & _ & S1)|[(N & _ & S1)|(N & _)]]]]]]; lia. }
    rewrite octets_left in Es, En by lia. apply tile_n; try assumption; try lia. apply (body_right d t); [lia|lia|exact XB].
Qed.
