(** Reading a whole file: what [grib2_read] returns, and that it terminates. *)
From Coq Require Import Lia ZifyBool ZifyNat.
From Verif Require Import Model.Base Model.Errors Model.Sections Model.Reader Model.Parser Model.Context.
From Verif Require Import Spec.ReaderS Spec.ParserS Proofs.BaseLemmas Proofs.ReaderP Proofs.SectionStreamP Proofs.ParserP.
From Verif Require Import Proofs.ParserRun Proofs.ParserShape Proofs.ParserSim Proofs.ParserSrc Proofs.Progress.

Section R.
  Variable m : mode.
  Notation step := (next_section m).
  Notation inext := (isub_next step).

  Lemma read_loop_S : forall fuel b acc, read_loop m (S fuel) b acc =
    let! r := inext b in
    match r with
    | (None, b') => Ret (Ok (rev acc), b')
    | (Some (Err e), b') => Ret (Err e, b')
    | (Some (Ok u), b') => read_loop m fuel b' (u :: acc)
    end.
  Proof. reflexivity. Qed.
  Local Opaque isub_next vsub_next.

  Lemma read_loop_ok : forall l fuel c acc e, Run (MkIter _ c inext) (map Ok l) e -> (length l < fuel)%nat ->
    match e with
    | End => exists c', read_loop m fuel c acc = Ret (Ok (rev acc ++ l), c')
    | Crash => read_loop m fuel c acc = Panic
    end.
  Proof.
    induction l as [|u l IH]; intros [|fuel] c acc e HR Hf; cbn [length] in Hf; try lia; cbn [map] in HR; inversion HR; subst;
      rewrite next_mk in *; rewrite read_loop_S.
    - destruct (inext c) as [[o c']| |]; cbn [bind] in *; try discriminate. injection H as -> <-.
      exists c'. rewrite app_nil_r. reflexivity.
    - destruct (inext c) as [[o c']| |]; cbn [bind] in *; try discriminate. reflexivity.
    - destruct (inext c) as [[o c']| |]; cbn [bind] in *; try discriminate.
      match goal with H : Ret _ = Ret _ |- _ => injection H as -> <- end.
      specialize (IH fuel c' (u :: acc) e ltac:(eassumption) ltac:(lia)). cbn [rev] in IH. rewrite <- app_assoc in IH. exact IH.
  Qed.

  Lemma read_loop_err : forall l fuel c acc e it', Steps (MkIter _ c inext) (map Ok l ++ [Err e]) it' -> (length l < fuel)%nat ->
    exists c', read_loop m fuel c acc = Ret (Err e, c').
  Proof.
    induction l as [|u l IH]; intros [|fuel] c acc e it' HR Hf; cbn [length] in Hf; try lia; cbn [map app] in HR; inversion HR; subst;
      rewrite next_mk in *; rewrite read_loop_S.
    - destruct (inext c) as [[o c']| |]; cbn [bind] in *; try discriminate. 
      match goal with H : Ret _ = Ret _ |- _ => injection H as -> <- end. exists c'. reflexivity.
    - destruct (inext c) as [[o c']| |]; cbn [bind] in *; try discriminate.
      match goal with H : Ret _ = Ret _ |- _ => injection H as -> <- end.
      eapply IH; [eassumption|lia].
  Qed.

  Lemma read_loop_inv : forall fuel c acc r c', read_loop m fuel c acc = Ret (r, c') ->
    match r with
    | Ok subs => exists l c1, subs = rev acc ++ l /\ SSteps inext c (map Ok l) c1 /\ inext c1 = Ret (None, c')
    | Err e => exists l c1, SSteps inext c (map Ok l) c1 /\ inext c1 = Ret (Some (Err e), c')
    end.
  Proof.
    induction fuel as [|fuel IH]; intros c acc r c' H; [discriminate|]. rewrite read_loop_S in H.
    destruct (inext c) as [[[[u|e]|] c1]| |] eqn:E; cbn [bind] in H; try discriminate.
    - specialize (IH c1 (u :: acc) r c' H). destruct r as [subs|e].
      + destruct IH as (l & c2 & -> & HS & HN). exists (u :: l), c2. cbn [rev]. rewrite <- app_assoc.
        split; [reflexivity|]. split; [|exact HN]. cbn [map]. econstructor; eassumption.
      + destruct IH as (l & c2 & HS & HN). exists (u :: l), c2. split; [|exact HN]. cbn [map]. econstructor; eassumption.
    - injection H as <- <-. exists [], c. split; [constructor|exact E].
    - injection H as <- <-. exists [], c. rewrite app_nil_r. split; [reflexivity|]. split; [constructor|exact E].
  Qed.

  Variable s0 : sstate.

  Lemma steps_joint : forall l c c1, SSteps inext c (map Ok l) c1 ->
    forall b seen, joint step s0 b c seen -> between (v_state (vs_v b)) ->
    exists b1 seen1, joint step s0 b1 c1 seen1 /\ between (v_state (vs_v b1)).
  Proof.
    intros l c c1 H. remember (map Ok l) as k eqn:Ek. revert l Ek.
    induction H as [c|c c2 c1 a k E HS IH]; intros l Ek b seen J Hb.
    - exists b, seen. auto.
    - destruct l as [|u l]; [discriminate|]. cbn [map] in Ek. injection Ek as -> Ek.
      pose proof (next_lockstep step s0 b c seen J Hb) as L. rewrite E in L.
      destruct (vsub_next step b) as [[[[u'|e]|] b']| |]; cbn [lockstep] in L; try contradiction.
      destruct L as (_ & Hb' & seen' & J' & _). exact (IH l Ek b' seen' J' Hb').
  Qed.

  (** Forward progress: at most one submessage per octet. *)
  Lemma steps_left : forall l s s', SSteps step s l s' -> okst s ->
    okst s' /\ left_of s' + zlen (filter (fun x => match x with Ok y => negb (s_num y =? 7) | Err _ => true end) l) <= left_of s.
  Proof.
    intros l s s' H. induction H as [s|s s1 s' a l E HS IH]; intros Ho.
    - split; [exact Ho|]. cbn [filter]. rewrite zlen_nil. lia.
    - pose proof (next_section_progress m s Ho) as P. rewrite E in P. destruct P as (Ho' & _ & _ & P).
      destruct (IH Ho') as [Ho2 IH']. split; [exact Ho2|]. cbn [filter].
      destruct P as [P|(_ & P & y & -> & Hy)].
      + destruct (match a with Ok y => negb (s_num y =? 7) | Err _ => true end); [rewrite zlen_cons|]; lia.
      + replace (s_num y =? 7) with true by lia. cbn [negb]. lia.
  Qed.

  Lemma fives_le : forall (v : validator sstate) seen, okst s0 -> trace step s0 v seen -> fives seen <= left_of s0.
  Proof.
    intros v seen Ho (pk & HS & _). destruct (steps_left _ _ _ HS Ho) as [_ H].
    rewrite filter_app, zlen_app in H.
    assert (F : fives seen <= zlen (filter (fun x : item => match x with Ok y => negb (s_num y =? 7) | Err _ => true end) (map Ok seen))).
    { clear. induction seen as [|s seen IH]; [cbn; lia|]. unfold fives in *. cbn [map filter].
      destruct (Z.eqb_spec (s_num s) 5) as [E|E].
      - replace (s_num s =? 7) with false by lia. cbn [negb]. rewrite !zlen_cons. lia.
      - destruct (negb (s_num s =? 7)); rewrite ?zlen_cons; lia. }
    pose proof (zlen_nonneg _ (filter (fun x : item => match x with Ok y => negb (s_num y =? 7) | Err _ => true end) pk)).
    unfold left_of in *. lia.
  Qed.

  Lemma next_section_no_div : forall s, okst s -> next_section m s <> Diverge.
  Proof. intros s Ho E. pose proof (next_section_progress m s Ho) as P. rewrite E in P. exact P. Qed.

  (** ** Termination *)
  Lemma read_loop_ends : forall fuel b c seen acc, okst s0 -> joint step s0 b c seen -> between (v_state (vs_v b)) ->
    left_of s0 < fives seen + Z.of_nat fuel -> read_loop m fuel c acc <> Diverge.
  Proof.
    induction fuel as [|fuel IH]; intros b c seen acc Ho J Hb Hf.
    - assert (T : trace step s0 (vs_v b) seen) by (destruct J as (_ & _ & _ & T & _); exact T).
      pose proof (fives_le _ _ Ho T). lia.
    - rewrite read_loop_S. pose proof (next_lockstep step s0 b c seen J Hb) as L.
      destruct (vsub_next step b) as [[[[u|e]|] b']| |], (inext c) as [[[[w|e']|] c']| |] eqn:Ei;
        cbn [lockstep] in L; try contradiction; cbn [bind]; try discriminate.
      + destruct L as (_ & Hb' & seen' & J' & Hs). apply (IH b' c' seen' (w :: acc) Ho J' Hb'). lia.
      + destruct L as (l & s & HS & Hd). exfalso. destruct (steps_left _ _ _ HS Ho) as [Ho' _].
        exact (next_section_no_div s Ho' Hd).
  Qed.

  (** ** A file that is read successfully *)
  Lemma read_loop_run : forall fuel acc r c', okst s0 -> read_loop m fuel (isub_new s0) acc = Ret (r, c') ->
    match r with
    | Ok subs => exists l, subs = rev acc ++ l /\
        Run (MkIter _ (isub_new s0) inext) (map Ok l) End /\
        Run (MkIter _ s0 step) (map Ok (rev (is_log c'))) End
    | Err e => exists l it', Steps (MkIter _ (isub_new s0) inext) (map Ok l ++ [Err e]) it'
    end.
  Proof.
    intros fuel acc r c' Ho H. apply read_loop_inv in H. destruct r as [subs|e].
    - destruct H as (l & c1 & -> & HS & HN). exists l. split; [reflexivity|].
      split. { eapply SSteps_Run_end; eassumption. }
      destruct (steps_joint l _ _ HS _ [] (joint_new step s0)) as (b1 & seen1 & J & Hb). { left. reflexivity. }
      pose proof (next_lockstep step s0 b1 c1 seen1 J Hb) as L. rewrite HN in L.
      destruct (vsub_next step b1) as [[[[u|e]|] b']| |]; cbn [lockstep] in L; try contradiction.
      exact (proj2 (proj2 L)).
    - destruct H as (l & c1 & HS & HN). exists l. eexists. apply SSteps_Steps.
      eapply SSteps_snoc; eassumption.
  Qed.
End R.
