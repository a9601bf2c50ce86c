(** The section stream of a source that fills its buffers: exactly what each call
    answers. *)
From Coq Require Import Lia ZifyBool ZifyNat.
From Verif Require Import Model.Base Model.Helpers Model.Errors Model.Sections Model.Reader.
From Verif Require Import Spec.ReaderS Proofs.BaseLemmas Proofs.ReaderP Proofs.SectionStreamP.
Ltac Zify.zify_post_hook ::= Z.div_mod_to_equations.

Lemma first_magic_det : forall d p k k', first_magic d p k -> first_magic d p k' -> k = k'.
Proof.
  intros d p k k' (A1 & A2 & A3) (B1 & B2 & B3).
  destruct (Z.lt_trichotomy k k') as [L|[L|L]]; [|exact L|]; exfalso.
  - apply (B3 k); [lia|exact A2].
  - apply (A3 k'); [lia|exact B2].
Qed.

Ltac same_magic :=
  match goal with
  | A : first_magic ?d ?p ?k, B : first_magic ?d ?p ?k' |- _ =>
      assert (k = k') by (eapply first_magic_det; eassumption); subst k
  end.
Ltac no_magic :=
  match goal with
  | A : first_magic ?d ?p ?k, B : forall j, _ -> ~ magic_at _ j |- _ =>
      exfalso; destruct A as (? & ? & ?); eapply B; [|eassumption]; lia
  end.

Lemma body_at_facts : forall d off size num b, body_at d off size num b ->
  (num = 7 \/ (1 <= num <= 5 /\ 5 <= size /\ least num <= size - 5 \/ num = 6 /\ 6 <= size) /\ off + size <= zlen d).
Proof.
  intros d off size num b (H1 & H2).
  destruct H2 as [(E & H)|[(E & H)|[(E & H)|[(E & H)|[(E & H)|[(E & H)|(E & H)]]]]]]; rewrite E in *; cbn [least]; lia.
Qed.

Ltac facts := repeat match goal with H : body_at _ _ _ _ _ |- _ => apply body_at_facts in H end.
Ltac fin := subst; try lia; try congruence; facts; try same_magic; try no_magic; try lia; try congruence; try intuition (lia || congruence).

Lemma tile_not_ends : forall P d e c x e' c', tile P d e c x e' c' -> ends d e c -> False.
Proof. intros P d e c x e' c' T E. inversion T; inversion E; fin. Qed.
Lemma tile_not_fails : forall P d e c x e' c' err, tile P d e c x e' c' -> fails P d e c err -> False.
Proof. intros P d e c x e' c' err T E. inversion T; inversion E; fin. Qed.
Lemma tile_not_crashes : forall P d e c x e' c', tile P d e c x e' c' -> crashes P d e c -> False.
Proof. intros P d e c x e' c' T E. inversion T; inversion E; fin. Qed.
Lemma ends_not_fails : forall P d e c err, ends d e c -> fails P d e c err -> False.
Proof. intros P d e c err T E. inversion T; inversion E; fin. Qed.
Lemma ends_not_crashes : forall P d e c, ends d e c -> crashes P d e c -> False.
Proof. intros P d e c T E. inversion T; inversion E; fin. Qed.
Lemma fails_not_crashes : forall P d e c err, fails P d e c err -> crashes P d e c -> False.
Proof. intros P d e c err T E. inversion T; inversion E; fin. Qed.
Lemma fails_det : forall P d e c err err', fails P d e c err -> fails P d e c err' -> err = err'.
Proof. intros P d e c err err' T E. inversion T; inversion E; fin. Qed.

(** ** single calls *)
Lemma next_crash : forall m d endp cur s, Inv m d endp cur s -> sched (st_src s) = [] ->
  crashes (m = Checked) d endp cur -> next_section m s = Panic.
Proof.
  intros m d endp cur s HI Hs HC. pose proof (next_section_spec m d endp cur s HI) as SP.
  destruct (next_section m s) as [[[[x|e]|] s']| |]; [exfalso..|reflexivity|contradiction].
  - destruct SP as (e1 & c1 & _ & T & _). eapply tile_not_crashes; eassumption.
  - destruct SP as (_ & _ & _ & F). eapply fails_not_crashes; eauto.
  - destruct SP as (_ & _ & F). eapply ends_not_crashes; eauto.
Qed.
Lemma next_fail : forall m d endp cur s e, Inv m d endp cur s -> sched (st_src s) = [] ->
  fails (m = Checked) d endp cur e -> exists s', next_section m s = Ret (Some (Err e), s').
Proof.
  intros m d endp cur s e HI Hs HC. pose proof (next_section_spec m d endp cur s HI) as SP.
  destruct (next_section m s) as [[[[x|e']|] s']| |]; [exfalso| |exfalso|exfalso|contradiction].
  - destruct SP as (e1 & c1 & _ & T & _). eapply tile_not_fails; eassumption.
  - destruct SP as (_ & _ & _ & F). exists s'. repeat f_equal. eapply fails_det; eauto.
  - destruct SP as (_ & _ & F). eapply ends_not_fails; eauto.
  - eapply fails_not_crashes; eauto.
Qed.
Lemma next_end : forall m d endp cur s, Inv m d endp cur s -> sched (st_src s) = [] ->
  ends d endp cur -> exists s', next_section m s = Ret (None, s').
Proof.
  intros m d endp cur s HI Hs HC. pose proof (next_section_spec m d endp cur s HI) as SP.
  destruct (next_section m s) as [[[[x|e']|] s']| |]; [exfalso|exfalso| |exfalso|contradiction].
  - destruct SP as (e1 & c1 & _ & T & _). eapply tile_not_ends; eassumption.
  - destruct SP as (_ & _ & _ & F). eapply ends_not_fails; eauto.
  - eauto.
  - eapply ends_not_crashes; eauto.
Qed.
