(** Two sources of sections that agree: the parser over them. *)
From Coq Require Import Lia ZifyBool ZifyNat.
From Verif Require Import Model.Base Model.Errors Model.Sections Model.Parser.

(** Outcomes on two sources, unless [H] of the first. *)
Definition agree {A S T} (R : S -> T -> Prop) (H : outcome (A * S) -> Prop) (x : outcome (A * S)) (y : outcome (A * T)) : Prop :=
  H x \/ match y with Ret (r, t) => exists s, x = Ret (r, s) /\ R s t | Panic => x = Panic | Diverge => x = Diverge end.
Section Gen.
  Variable Given : parse_error -> Prop.
  Definition halts {A St} (x : outcome (option (result A parse_error) * St)) : Prop := exists e b, x = Ret (Some (Err e), b) /\ Given e.
  (** ** The parser *)
  Section Two.
    Context {S T : Type} (step1 : S -> outcome (option item * S)) (step2 : T -> outcome (option item * T)) (R : S -> T -> Prop).
    Hypothesis HS : forall a b, R a b -> agree R halts (step1 a) (step2 b).
    Definition VR (v : validator S) (u : validator T) : Prop :=
      R (v_src v) (v_src u) /\ v_count v = v_count u /\ v_peeked v = v_peeked u /\ v_pos v = v_pos u /\ v_mc v = v_mc u /\
      v_smc v = v_smc u /\ v_state v = v_state u /\ v_has3 v = v_has3 u.
    Definition halted {A} (x : outcome (option (A * item) * validator S)) : Prop := exists p e v, x = Ret (Some (p, Err e), v) /\ Given e.
    Lemma enum_agrees v u : VR v u -> agree VR halted (enum_next step1 v) (enum_next step2 u).
    Proof.
      destruct v as [a1 a2 a3 a4 a5 a6 a7 a8], u as [b1 b2 b3 b4 b5 b6 b7 b8]. intros (H1 & H). cbn in H1, H. destruct H as (-> & -> & -> & -> & -> & -> & ->).
      unfold enum_next. cbn [v_src v_count v_peeked]. destruct (HS _ _ H1) as [(e & b & -> & G)|H].
      - left. cbn [bind]. do 3 eexists. split; [reflexivity|exact G].
      - right. destruct (step2 b1) as [[[x|] t]| |]; cbn [bind].
        + destruct H as (s & -> & Rs). cbn [bind]. eexists. split; [reflexivity|]. repeat split. exact Rs.
        + destruct H as (s & -> & Rs). cbn [bind]. eexists. split; [reflexivity|]. repeat split. exact Rs.
        + rewrite H. reflexivity.
        + rewrite H. reflexivity.
    Qed.
    Lemma pk_next_agrees v u : VR v u -> agree VR halted (pk_next step1 v) (pk_next step2 u).
    Proof.
      intros H. unfold pk_next. pose proof H as (H1 & H2 & H3 & H4). rewrite H3. destruct (v_peeked u) as [r|]; [|apply enum_agrees; exact H].
      right. eexists. split; [reflexivity|]. unfold VR, set_src. cbn. tauto.
    Qed.
    Definition halted_peek (x : outcome (option (Z * item) * validator S)) : Prop :=
      exists p e v, x = Ret (Some (p, Err e), v) /\ Given e /\ v_peeked v = Some (Some (p, Err e)).
    Lemma pk_peek_agrees v u : VR v u -> agree VR halted_peek (pk_peek step1 v) (pk_peek step2 u).
    Proof.
      intros H. unfold pk_peek. pose proof H as (H1 & H2 & H3 & H4). rewrite H3. destruct (v_peeked u) as [r|] eqn:Eu.
      - right. eexists. split; [reflexivity|]. exact H.
      - destruct (enum_agrees v u H) as [(p & e & v' & -> & G)|K].
        + left. cbn [bind]. do 3 eexists. split; [reflexivity|]. split; [exact G|reflexivity].
        + right. destruct (enum_next step2 u) as [[x u']| |]; cbn [bind].
          * destruct K as (v' & -> & V). cbn [bind]. eexists. split; [reflexivity|]. unfold VR, set_src in *. cbn. tauto.
          * rewrite K. reflexivity.
          * rewrite K. reflexivity.
    Qed.
    Ltac fields H := let H1 := fresh "F" in pose proof H as (H1 & ?F2 & ?F3 & ?F4 & ?F5 & ?F6 & ?F7 & ?F8).
    Ltac done := right; eexists; split; [reflexivity|]; unfold VR, set_pos, set_state, set_has3, set_src, reinitialize_message in *; cbn; intuition (auto; congruence).
    Lemma ok_agrees v u s : VR v u -> agree VR halts (v_ok v s) (v_ok u s).
    Proof. intros H. unfold v_ok. pose proof H as (F1 & F2 & F3 & F4 & F5 & F6 & F7 & F8). rewrite F4, F5, F6. right. eexists. split; [reflexivity|exact H]. Qed.
    Lemma err_agrees v u e : VR v u -> agree VR halts (v_err v e) (v_err u e).
    Proof. intros H. unfold v_err. right. eexists. split; [reflexivity|]. unfold VR, set_state in *. cbn. tauto. Qed.
    Lemma VR_pos v u p : VR v u -> VR (set_pos v p) (set_pos u p).
    Proof. unfold VR, set_pos. cbn. tauto. Qed.
    Lemma VR_state v u p : VR v u -> VR (set_state v p) (set_state u p).
    Proof. unfold VR, set_state. cbn. tauto. Qed.
    Lemma VR_has3 v u p : VR v u -> VR (set_has3 v p) (set_has3 u p).
    Proof. unfold VR, set_has3. cbn. tauto. Qed.
    Ltac follow H x u' V := (* a call of pk_next *)
      match goal with |- agree _ _ (bind (pk_next step1 ?v) _) (bind (pk_next step2 ?u) _) =>
        let p := fresh "p" in let e := fresh "e" in let v' := fresh "v'" in let G := fresh "G" in let K := fresh "K" in
        destruct (pk_next_agrees v u H) as [(p & e & v' & -> & G)|K];
        [ left; cbn [bind]; unfold v_err; do 2 eexists; split; [reflexivity|exact G]
        | destruct (pk_next step2 u) as [[x u']| |]; [destruct K as (v' & -> & V); cbn [bind] | right; rewrite K; reflexivity | right; rewrite K; reflexivity] ]
      end.
    Lemma sect0_agrees v u : VR v u -> agree VR halts (ensure_sect0 step1 v) (ensure_sect0 step2 u).
    Proof.
      intros H. unfold ensure_sect0. follow H x u' V. destruct x as [[p [s|e]]|].
      - pose proof (VR_pos _ _ p V) as V1. destruct (s_num s =? 0); [apply ok_agrees, VR_state; exact V1|].
        replace (v_pos (set_pos v' p)) with (v_pos (set_pos u' p)) by reflexivity. apply err_agrees. exact V1.
      - apply err_agrees. exact V.
      - right. eexists. split; [reflexivity|exact V].
    Qed.
    Lemma sect234_agrees v u : VR v u -> agree VR halts (ensure_sect_2_or_3_or_4 step1 v) (ensure_sect_2_or_3_or_4 step2 u).
    Proof.
      intros H. unfold ensure_sect_2_or_3_or_4. follow H x u' V. destruct x as [[p [s|e]]|].
      - pose proof (VR_pos _ _ p V) as V1. destruct (s_num s =? 2); [apply ok_agrees, VR_state; exact V1|].
        destruct (s_num s =? 3); [apply ok_agrees, VR_has3, VR_state; exact V1|].
        replace (v_pos (set_pos v' p)) with (v_pos (set_pos u' p)) by reflexivity.
        destruct (s_num s =? 4); [|apply err_agrees; exact V1].
        pose proof V1 as (_ & _ & _ & _ & _ & _ & _ & ->). destruct (v_has3 (set_pos u' p)); [apply ok_agrees, VR_state|apply err_agrees]; exact V1.
      - apply err_agrees. exact V.
      - pose proof V as (_ & _ & _ & -> & _). apply err_agrees. exact V.
    Qed.
    Lemma num_agrees v u n : VR v u -> agree VR halts (ensure_sect_num step1 v n) (ensure_sect_num step2 u n).
    Proof.
      intros H. unfold ensure_sect_num. follow H x u' V. destruct x as [[p [s|e]]|].
      - pose proof (VR_pos _ _ p (VR_state _ _ (EndOfSect n) V)) as V1. destruct (s_num s =? n); [apply ok_agrees; exact V1|].
        replace (v_pos (set_pos (set_state v' (EndOfSect n)) p)) with (v_pos (set_pos (set_state u' (EndOfSect n)) p)) by reflexivity. apply err_agrees. exact V1.
      - apply err_agrees. exact V.
      - pose proof V as (_ & _ & _ & -> & _). apply err_agrees. exact V.
    Qed.
    Lemma peeked_is u x u' : pk_peek step2 u = Ret (x, u') -> v_peeked u' = Some x.
    Proof.
      unfold pk_peek. destruct (v_peeked u) as [r|] eqn:E; [intros H; injection H as <- <-; exact E|].
      destruct (enum_next step2 u) as [[y u2]| |]; cbn [bind]; intros H; try discriminate. injection H as <- <-. reflexivity.
    Qed.
    Lemma sect8_agrees v u : VR v u -> agree VR halts (ensure_sect8 step1 v) (ensure_sect8 step2 u).
    Proof.
      intros H. unfold ensure_sect8. destruct (pk_peek_agrees v u H) as [(p & e & v' & -> & G & Pk)|K].
      - left. cbn [bind]. unfold pk_next. rewrite Pk. cbn [bind]. unfold v_err. do 2 eexists. split; [reflexivity|exact G].
      - destruct (pk_peek step2 u) as [[x u']| |] eqn:Eu; [destruct K as (v' & -> & V); cbn [bind] | right; rewrite K; reflexivity | right; rewrite K; reflexivity].
        apply peeked_is in Eu. pose proof V as (F1 & F2 & F3 & F4 & F5 & F6 & F7 & F8).
        assert (X : pk_next step1 v' = Ret (x, set_src v' (v_src v') (v_count v') None) /\ pk_next step2 u' = Ret (x, set_src u' (v_src u') (v_count u') None)).
        { unfold pk_next. rewrite F3, Eu. split; reflexivity. }
        destruct X as (X1 & X2). destruct x as [[p [s|e]]|].
        + destruct (s_num s =? 8).
          * rewrite X1, X2. cbn [bind]. right. unfold set_src, set_pos, reinitialize_message. cbn. rewrite F5, F6. eexists. split; [reflexivity|]. unfold VR. cbn. tauto.
          * right. cbv zeta. rewrite F5, F6. eexists. split; [reflexivity|]. unfold VR. cbn. tauto.
        + rewrite X1, X2. cbn [bind]. apply err_agrees. unfold VR, set_src. cbn. tauto.
        + rewrite F4. apply err_agrees. exact V.
    Qed.
    Lemma v_next_agrees v u : VR v u -> agree VR halts (v_next step1 v) (v_next step2 u).
    Proof.
      intros V. pose proof V as (_ & _ & _ & _ & _ & _ & F7 & _). unfold v_next. rewrite F7. destruct (v_state u) as [| |n|].
      - apply sect0_agrees. exact V.
      - apply sect234_agrees. exact V.
      - destruct n as [|[q|[q|q|]|]|q]; try (right; reflexivity);
          repeat match goal with |- context [match ?x with xI _ => _ | xO _ => _ | xH => _ end] => destruct x; try (right; reflexivity) end;
          first [apply num_agrees | apply sect234_agrees | apply sect8_agrees]; first [exact V | apply VR_has3; exact V].
      - right. eexists. split; [reflexivity|exact V].
    Qed.
    Definition IR (b : @isub S) (c : @isub T) : Prop := VR (is_v b) (is_v c) /\ is_log b = is_log c /\ is_0 b = is_0 c /\ is_1 b = is_1 c /\ is_2 b = is_2 c /\ is_3 b = is_3 c.
    Lemma iloop_agrees fuel : forall b c c4 c5 c6 c7, IR b c -> agree IR halts (isub_loop step1 fuel b c4 c5 c6 c7) (isub_loop step2 fuel c c4 c5 c6 c7).
    Proof.
      induction fuel as [|fuel IH]; intros b c c4 c5 c6 c7 (V & E1 & E2 & E3 & E4 & E5); cbn [isub_loop]; [right; reflexivity|].
      rewrite E1, E2, E3, E4, E5. destruct (v_next_agrees _ _ V) as [(e & b' & -> & G)|K].
      - left. cbn [bind]. do 2 eexists. split; [reflexivity|exact G].
      - destruct (v_next step2 (is_v c)) as [[x u']| |]; [destruct K as (v' & -> & V'); cbn [bind] | right; rewrite K; reflexivity | right; rewrite K; reflexivity].
        destruct x as [[[[[p mc] smc] s]|e]|].
        + cbv zeta. cbn [is_cache is_log is_0 is_1 is_2 is_3 is_v is_clear].
          repeat match goal with |- context [match ?x with Z0 => _ | Zpos _ => _ | Zneg _ => _ end] => destruct x; try (right; reflexivity) end;
          repeat match goal with |- context [match ?x with xI _ => _ | xO _ => _ | xH => _ end] => destruct x; try (right; reflexivity) end;
          try (apply IH; unfold IR; cbn; tauto).
          destruct (p =? 0); right; eexists; (split; [reflexivity|]); unfold IR; cbn; tauto.
        + right. eexists. split; [reflexivity|]. unfold IR. cbn. tauto.
        + right. eexists. split; [reflexivity|]. unfold IR. cbn. tauto.
    Qed.
    Lemma inext_agrees b c : IR b c -> agree IR halts (isub_next step1 b) (isub_next step2 c).
    Proof. apply iloop_agrees. Qed.
  End Two.
End Gen.
