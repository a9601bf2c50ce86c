(** What reading a file preserves. *)
From Coq Require Import Lia ZifyBool ZifyNat.
From Verif Require Import Model.Base Model.Errors Model.Sections Model.Reader Model.Parser Model.Context.
From Verif Require Import Spec.ReaderS Proofs.Progress Proofs.ContextP.

(** ** What a step of the section source preserves is preserved by reading *)
Section Preserved.
  Context {S : Type} (step : S -> outcome (option item * S)) (P : S -> Prop).
  Hypothesis HP : forall s o s', P s -> step s = Ret (o, s') -> P s'.
  Notation Q v := (P (v_src v)).

  Lemma pk_next_keeps : forall v o v', Q v -> pk_next step v = Ret (o, v') -> Q v'.
  Proof.
    intros v o v' H E. unfold pk_next in E. destruct (v_peeked v) as [r|]; [injection E as <- <-; exact H|].
    unfold enum_next in E. destruct (step (v_src v)) as [[[x|] s]| |] eqn:E1; cbn [bind] in E; try discriminate E; injection E as <- <-; exact (HP _ _ _ H E1).
  Qed.
  Lemma pk_peek_keeps : forall v o v', Q v -> pk_peek step v = Ret (o, v') -> Q v'.
  Proof.
    intros v o v' H E. unfold pk_peek in E. destruct (v_peeked v) as [r|]; [injection E as <- <-; exact H|].
    unfold enum_next in E. destruct (step (v_src v)) as [[[x|] s]| |] eqn:E1; cbn [bind] in E; try discriminate E; injection E as <- <-; exact (HP _ _ _ H E1).
  Qed.
  Ltac keeps H E :=
    unfold v_err, v_ok in E; repeat match type of E with context [if ?b then _ else _] => destruct b end; try discriminate E;
    injection E as <- <-; exact H.
  Lemma v_next_keeps : forall v o v', Q v -> v_next step v = Ret (o, v') -> Q v'.
  Proof.
    intros v o v' H E. 
    assert (En : forall v n o v', Q v -> ensure_sect_num step v n = Ret (o, v') -> Q v').
    { clear v o v' H E. intros v n o v' H E. unfold ensure_sect_num in E. destruct (pk_next step v) as [[r w]| |] eqn:E1; cbn [bind] in E; try discriminate E.
      pose proof (pk_next_keeps _ _ _ H E1) as H1. destruct r as [[p [s|e]]|]; keeps H1 E. }
    assert (E2 : forall v o v', Q v -> ensure_sect_2_or_3_or_4 step v = Ret (o, v') -> Q v').
    { clear v o v' H E. intros v o v' H E. unfold ensure_sect_2_or_3_or_4 in E. destruct (pk_next step v) as [[r w]| |] eqn:E1; cbn [bind] in E; try discriminate E.
      pose proof (pk_next_keeps _ _ _ H E1) as H1. destruct r as [[p [s|e]]|]; keeps H1 E. }
    assert (E0 : forall v o v', Q v -> ensure_sect0 step v = Ret (o, v') -> Q v').
    { clear v o v' H E. intros v o v' H E. unfold ensure_sect0 in E. destruct (pk_next step v) as [[r w]| |] eqn:E1; cbn [bind] in E; try discriminate E.
      pose proof (pk_next_keeps _ _ _ H E1) as H1. destruct r as [[p [s|e]]|]; keeps H1 E. }
    assert (E8 : forall v o v', Q v -> ensure_sect8 step v = Ret (o, v') -> Q v').
    { clear v o v' H E. intros v o v' H E. unfold ensure_sect8 in E. destruct (pk_peek step v) as [[r w]| |] eqn:E1; cbn [bind] in E; try discriminate E.
      pose proof (pk_peek_keeps _ _ _ H E1) as H1. destruct r as [[p [s|e]]|].
      - destruct (s_num s =? 8); [|injection E as <- <-; exact H1].
        destruct (pk_next step w) as [[r w']| |] eqn:E2'; cbn [bind] in E; try discriminate E. pose proof (pk_next_keeps _ _ _ H1 E2') as H2.
        destruct r as [[p' [s'|e]]|]; try discriminate E. injection E as <- <-. exact H2.
      - destruct (pk_next step w) as [[r w']| |] eqn:E2'; cbn [bind] in E; try discriminate E. pose proof (pk_next_keeps _ _ _ H1 E2') as H2.
        destruct r as [[p' [s'|e']]|]; try discriminate E. unfold v_err in E. injection E as <- <-. exact H2.
      - unfold v_err in E. injection E as <- <-. exact H1. }
    unfold v_next in E. destruct (v_state v) as [| |n|]; [eauto|eauto| |injection E as <- <-; exact H].
    destruct n as [|n|n]; try discriminate E; [eapply En; [exact H|exact E]|].
    repeat (destruct n as [n|n|]; try discriminate E; try (eapply En; [|exact E]; exact H); try (eapply E2; [|exact E]; exact H); try (eapply E8; [|exact E]; exact H)).
  Qed.
  Lemma isub_keeps : forall fuel b c4 c5 c6 c7 o b', Q (is_v b) -> isub_loop step fuel b c4 c5 c6 c7 = Ret (o, b') -> Q (is_v b').
  Proof.
    induction fuel as [|fuel IH]; intros b c4 c5 c6 c7 o b' H E; [discriminate E|]. cbn [isub_loop] in E.
    destruct (v_next step (is_v b)) as [[r v]| |] eqn:E1; cbn [bind] in E; try discriminate E.
    pose proof (v_next_keeps _ _ _ H E1) as H1. destruct r as [[[[[p mc] smc] s]|e]|]; [|injection E as <- <-; exact H1|injection E as <- <-; exact H1].
    destruct (s_num s) as [|n|n]; [eapply IH; [|exact E]; exact H1| |discriminate E].
    repeat (destruct n as [n|n|]; try discriminate E; try (eapply IH; [|exact E]; exact H1)).
    destruct (p =? 0); injection E as <- <-; exact H1.
  Qed.
  Lemma isub_next_keeps : forall b o b', Q (is_v b) -> isub_next step b = Ret (o, b') -> Q (is_v b').
  Proof. intros b o b'. unfold isub_next. generalize 10%nat. intros fuel H E. exact (isub_keeps fuel b 0 0 0 0 o b' H E). Qed.
End Preserved.

Local Opaque isub_next.
Lemma read_loop_keeps : forall (P : sstate -> Prop) m, (forall s o s', P s -> next_section m s = Ret (o, s') -> P s') ->
  forall fuel b acc r b', P (v_src (is_v b)) -> read_loop m fuel b acc = Ret (r, b') -> P (v_src (is_v b')).
Proof.
  intros P m HP. induction fuel as [|fuel IH]; intros b acc r b' H E; [discriminate E|]. rewrite ContextP.read_loop_S in E.
  destruct (isub_next (next_section m) b) as [[o b1]| |] eqn:E1; try discriminate E.
  pose proof (isub_next_keeps (next_section m) P HP _ _ _ H E1) as H1. cbn [bind] in E.
  destruct o as [[u|e]|].
  - eapply IH; [|exact E]. exact H1.
  - injection E as <- <-. exact H1.
  - injection E as <- <-. exact H1.
Qed.

(** The reader of a file keeps its octets. *)
Lemma reader_data : forall m fuel s g, grib2_read m fuel s = Ret (Ok g) -> zlen (data s) < 2 ^ 63 -> 0 <= pos s -> data (g_src g) = data s.
Proof.
  intros m fuel s g H Hd Hp. unfold grib2_read in H.
  destruct (read_loop m fuel (isub_new (MkSstate s 0 0)) []) as [[r b]| |] eqn:E; cbn [bind] in H; try discriminate H.
  destruct r as [subs|e]; [|discriminate H]. injection H as <-. cbn [g_src].
  apply (read_loop_keeps (fun st => okst st /\ data (st_src st) = data s) m) in E; [apply E| |].
  - intros st o st' (Ho & Ed) En. pose proof (next_section_progress m st Ho) as Pr. rewrite En in Pr.
    destruct o as [x|]; destruct Pr as (Ho' & Ed' & _); (split; [exact Ho'|congruence]).
  - cbn [is_v isub_new v_new v_src st_src]. split; [|reflexivity]. split; assumption.
Qed.

