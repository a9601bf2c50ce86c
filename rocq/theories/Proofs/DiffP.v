From Coq Require Import Lia ZifyBool ZifyNat.
From Verif Require Import Model.Base Model.Helpers Model.Errors Model.F32 Model.Diff Spec.Bits Spec.ComplexS.
From Verif Require Import Proofs.BaseLemmas Proofs.HelpersP Proofs.Bits2.
Ltac Zify.zify_post_hook ::= Z.div_mod_to_equations.

Lemma Run_mk_inv : forall A S (s : S) st (a : A) l e, Run (MkIter S s st) (a :: l) e ->
  exists s', st s = Ret (Some a, s') /\ Run (MkIter S s' st) l e.
Proof.
  intros A S s st a l e H. inversion H as [x x' Hx|x Hx|x x' a' l'' e'' Hx HR']; subst.
  rewrite next_mk in Hx. destruct (st s) as [[o s']| |] eqn:E; cbn [bind] in Hx; try discriminate.
  injection Hx as -> <-. eauto.
Qed.
Lemma Run_mk_nil : forall A S (s : S) (st : S -> outcome (option A * S)), Run (MkIter S s st) [] End ->
  exists s', st s = Ret (None, s').
Proof.
  intros A S s st H. inversion H as [x x' Hx|x Hx|x x' a' l'' e'' Hx HR']; subst.
  rewrite next_mk in Hx. destruct (st s) as [[o s']| |] eqn:E; cbn [bind] in Hx; try discriminate.
  injection Hx as -> <-. eauto.
Qed.
Lemma Run_mk_cons : forall A S (s s' : S) st (a : A) l e,
  st s = Ret (Some a, s') -> Run (MkIter S s' st) l e -> Run (MkIter S s st) (a :: l) e.
Proof. intros. eapply Run_cons; [|eassumption]. rewrite next_mk, H. reflexivity. Qed.
Lemma Run_mk_end : forall A S (s s' : S) (st : S -> outcome (option A * S)),
  st s = Ret (None, s') -> Run (MkIter S s st) [] End.
Proof. intros. eapply Run_end. rewrite next_mk, H. reflexivity. Qed.
Lemma iter_eta : forall A (it : iter A), it = MkIter (ist it) (icur it) (istep it).
Proof. destruct it; reflexivity. Qed.

Section D.
  Variable I : Type.
  Variable inner : I -> outcome (option dv * I).

  Lemma diff1_run_tail : forall m fld i p dummy first,
    Forall (fun v => is_i32 v) (normals fld) ->
    Run (MkIter I i inner) (differences1 dummy (Some p) fld) End ->
    Run (MkIter _ (D1 i first 1 p) (diff1_next I inner m)) fld End.
  Proof.
    intros m fld. induction fld as [|d fld IH]; intros i p dummy first HF HR.
    - cbn [differences1] in HR. apply Run_mk_nil in HR. destruct HR as (s' & E).
      eapply Run_mk_end. unfold diff1_next. rewrite E. reflexivity.
    - destruct d as [v| |]; cbn [differences1] in HR; apply Run_mk_inv in HR; destruct HR as (s' & E & HR).
      + cbn [normals flat_map app] in HF. apply Forall_cons_iff in HF. destruct HF as [Hv HF].
        eapply Run_mk_cons.
        * unfold diff1_next. rewrite E. cbn [bind]. change (1 =? 0) with false. cbv iota.
          rewrite arith_ok. 2:{ unfold is_i32 in Hv. rewrite p31 in Hv. mlia. }
          cbn [bind]. replace (v - p + p) with v by lia. reflexivity.
        * eapply IH; eauto.
      + eapply Run_mk_cons; [unfold diff1_next; rewrite E; reflexivity|]. eapply IH; eauto.
      + eapply Run_mk_cons; [unfold diff1_next; rewrite E; reflexivity|]. eapply IH; eauto.
  Qed.

  Lemma diff1_run_start : forall m fld i dummy d0 pv,
    Forall (fun v => is_i32 v) (normals fld) ->
    Run (MkIter I i inner) (differences1 dummy None fld) End ->
    Run (MkIter _ (D1 i [hd d0 (normals fld)] 0 pv) (diff1_next I inner m)) fld End.
  Proof.
    intros m fld. induction fld as [|d fld IH]; intros i dummy d0 pv HF HR.
    - cbn [differences1] in HR. apply Run_mk_nil in HR. destruct HR as (s' & E).
      eapply Run_mk_end. unfold diff1_next. rewrite E. reflexivity.
    - destruct d as [v| |]; cbn [differences1] in HR; apply Run_mk_inv in HR; destruct HR as (s' & E & HR).
      + cbn [normals flat_map app] in HF |- *. apply Forall_cons_iff in HF. destruct HF as [Hv HF].
        eapply Run_mk_cons.
        * unfold diff1_next. rewrite E. cbn [bind hd]. change (0 =? 0) with true. cbv iota. reflexivity.
        * change (0 + 1) with 1. eapply diff1_run_tail; eauto.
      + eapply Run_mk_cons; [unfold diff1_next; rewrite E; reflexivity|]. eapply IH; eauto.
      + eapply Run_mk_cons; [unfold diff1_next; rewrite E; reflexivity|]. eapply IH; eauto.
  Qed.

  (** Second order.  [good m p2 p1 fld]: evaluation of each item works out. *)
  Definition step_ok (m : mode) (d v p1 p2 : Z) : Prop :=
    (let! t := arith m I32 (2 * p1) in
     let! t := arith m I32 (d + t) in
     arith m I32 (t - p2)) = Ret v.

  Fixpoint good2 (m : mode) (p2 p1 : Z) (fld items : list dv) : Prop :=
    match fld, items with
    | [], [] => True
    | Normal v :: fld', Normal d :: items' => step_ok m d v p1 p2 /\ good2 m p1 v fld' items'
    | Missing1 :: fld', Missing1 :: items' => good2 m p2 p1 fld' items'
    | Missing2 :: fld', Missing2 :: items' => good2 m p2 p1 fld' items'
    | _, _ => False
    end.

  Lemma diff2_run_tail : forall m fld items i p2 p1 first,
    good2 m p2 p1 fld items ->
    Run (MkIter I i inner) items End ->
    Run (MkIter _ (D2 i first 2 p1 p2) (diff2_next I inner m)) fld End.
  Proof.
    intros m fld. induction fld as [|d fld IH]; intros items i p2 p1 first HG HR.
    - destruct items; [|destruct HG]. apply Run_mk_nil in HR. destruct HR as (s' & E).
      eapply Run_mk_end. unfold diff2_next. rewrite E. reflexivity.
    - destruct items as [|x items]; [destruct d; destruct HG|].
      apply Run_mk_inv in HR; destruct HR as (s' & E & HR).
      destruct d as [v| |]; destruct x as [d| |]; cbn [good2] in HG; try contradiction.
      + destruct HG as [HS HG]. unfold step_ok in HS.
        eapply Run_mk_cons.
        * unfold diff2_next. rewrite E. cbn [bind]. change (2 =? 0) with false. change (2 =? 1) with false. cbv iota.
          destruct (arith m I32 (2 * p1)) as [t| |]; try discriminate. cbn [bind] in HS |- *.
          destruct (arith m I32 (d + t)) as [t'| |]; try discriminate. cbn [bind] in HS |- *.
          rewrite HS. cbn [bind]. reflexivity.
        * eapply IH; eauto.
      + eapply Run_mk_cons; [unfold diff2_next; rewrite E; reflexivity|]. eapply IH; eauto.
      + eapply Run_mk_cons; [unfold diff2_next; rewrite E; reflexivity|]. eapply IH; eauto.
  Qed.
End D.

Section D2.
  Variable I : Type.
  Variable inner : I -> outcome (option dv * I).
  Variable m : mode.
  Variable red : Z -> Z.
  Variable P : Z -> Prop.
  Hypothesis step : forall v p1 p2, P v -> P p1 -> P p2 -> step_ok m (red ((v - p1) - (p1 - p2))) v p1 p2.

  Lemma good2_diff : forall fld dummy1 dummy2 p2 p1, P p2 -> P p1 -> Forall P (normals fld) ->
    good2 m p2 p1 fld (map (red_dv red) (differences2 dummy1 dummy2 (Some p2) (Some p1) fld)).
  Proof.
    induction fld as [|d fld IH]; intros dummy1 dummy2 p2 p1 H2 H1 HF; [exact Logic.I|].
    destruct d as [v| |]; cbn [differences2 map red_dv good2].
    - cbn [normals flat_map app] in HF. apply Forall_cons_iff in HF. destruct HF as [Hv HF].
      split; [apply step; assumption|]. apply IH; auto.
    - apply IH; auto.
    - apply IH; auto.
  Qed.

  Lemma diff2_run_mid : forall fld i dummy1 dummy2 p p1 d1, P p -> Forall P (normals fld) ->
    Run (MkIter I i inner) (map (red_dv red) (differences2 dummy1 dummy2 None (Some p) fld)) End ->
    Run (MkIter _ (D2 i [hd d1 (normals fld)] 1 p1 p) (diff2_next I inner m)) fld End.
  Proof.
    induction fld as [|d fld IH]; intros i dummy1 dummy2 p p1 d1 Hp HF HR.
    - cbn [differences2 map] in HR. apply Run_mk_nil in HR. destruct HR as (s' & E).
      eapply Run_mk_end. unfold diff2_next. rewrite E. reflexivity.
    - destruct d as [v| |]; cbn [differences2 map red_dv] in HR; apply Run_mk_inv in HR; destruct HR as (s' & E & HR).
      + cbn [normals flat_map app] in HF |- *. apply Forall_cons_iff in HF. destruct HF as [Hv HF].
        eapply Run_mk_cons.
        * unfold diff2_next. rewrite E. cbn [bind hd]. change (1 =? 0) with false. change (1 =? 1) with true. cbv iota. reflexivity.
        * change (1 + 1) with 2. eapply diff2_run_tail; [|exact HR]. apply good2_diff; auto.
      + eapply Run_mk_cons; [unfold diff2_next; rewrite E; reflexivity|]. eapply IH; eauto.
      + eapply Run_mk_cons; [unfold diff2_next; rewrite E; reflexivity|]. eapply IH; eauto.
  Qed.

  Lemma diff2_run_start : forall fld i dummy1 dummy2 d0 d1 p1 p2, Forall P (normals fld) ->
    Run (MkIter I i inner) (map (red_dv red) (differences2 dummy1 dummy2 None None fld)) End ->
    Run (MkIter _ (D2 i [nth 0 (normals fld) d0; nth 1 (normals fld) d1] 0 p1 p2) (diff2_next I inner m)) fld End.
  Proof.
    induction fld as [|d fld IH]; intros i dummy1 dummy2 d0 d1 p1 p2 HF HR.
    - cbn [differences2 map] in HR. apply Run_mk_nil in HR. destruct HR as (s' & E).
      eapply Run_mk_end. unfold diff2_next. rewrite E. reflexivity.
    - destruct d as [v| |]; cbn [differences2 map red_dv] in HR; apply Run_mk_inv in HR; destruct HR as (s' & E & HR).
      + cbn [normals flat_map app] in HF |- *. apply Forall_cons_iff in HF. destruct HF as [Hv HF].
        eapply Run_mk_cons.
        * unfold diff2_next. rewrite E. cbn [bind nth]. change (0 =? 0) with true. cbv iota. reflexivity.
        * change (0 + 1) with 1. cbn [nth].
          replace (nth 0 (flat_map (fun d => match d with Normal v0 => [v0] | _ => [] end) fld) d1)
            with (hd d1 (normals fld)).
          2:{ unfold normals. destruct (flat_map _ fld); reflexivity. }
          eapply diff2_run_mid; eauto.
      + eapply Run_mk_cons; [unfold diff2_next; rewrite E; reflexivity|].
        change (normals (Missing1 :: fld)) with (normals fld) in *. eapply IH; eauto.
      + eapply Run_mk_cons; [unfold diff2_next; rewrite E; reflexivity|].
        change (normals (Missing2 :: fld)) with (normals fld) in *. eapply IH; eauto.
  Qed.
End D2.

Lemma diff1_correct : forall m it fld dummy d0,
  Forall is_i32 (normals fld) -> Run it (differences1 dummy None fld) End ->
  Run (diff1_iter m it [hd d0 (normals fld)]) fld End.
Proof.
  intros. unfold diff1_iter. eapply diff1_run_start; eauto. rewrite <- iter_eta. eassumption.
Qed.

Lemma map_red_id : forall l, map (red_dv (fun z => z)) l = l.
Proof. induction l as [|[v| |] l IH]; cbn [map red_dv]; congruence. Qed.

Lemma wrap_mod : forall t z, wrap t z mod 2 ^ bits_of t = z mod 2 ^ bits_of t.
Proof.
  intros t z. unfold wrap. cbv zeta.
  assert (P : 0 < 2 ^ bits_of t) by (destruct t; reflexivity).
  destruct (is_signed t && (2 ^ (bits_of t - 1) <=? z mod 2 ^ bits_of t)).
  - rewrite Zminus_mod, Z_mod_same_full, Z.sub_0_r, !Z.mod_mod by lia. reflexivity.
  - apply Z.mod_mod. lia.
Qed.
Lemma wrap_cong : forall t a b, a mod 2 ^ bits_of t = b mod 2 ^ bits_of t -> wrap t a = wrap t b.
Proof. intros. unfold wrap. rewrite H. reflexivity. Qed.
Lemma arith_W : forall t z, arith Wrapping t z = Ret (wrap t z).
Proof.
  intros. rewrite arith_wrapping. destruct (in_range t z) eqn:E; [|reflexivity].
  f_equal. symmetry. apply wrap_id. apply in_range_spec. exact E.
Qed.

(** Fields whose sums fit, in both build modes; any 32-bit field without overflow checks. *)
Lemma sums_fit_tl : forall x vs, sums_fit (x :: vs) -> sums_fit vs.
Proof. intros x vs H before p2 p1 v after E. apply (H (x :: before) p2 p1 v after). rewrite E. reflexivity. Qed.
Lemma sums_fit_hd : forall p2 p1 v vs, sums_fit (p2 :: p1 :: v :: vs) -> is_i32 (2 * p1) /\ is_i32 (v + p2).
Proof. intros p2 p1 v vs H. apply (H [] p2 p1 v vs). reflexivity. Qed.

Lemma step_fit : forall m v p1 p2, is_i32 v -> (m = Checked -> is_i32 (2 * p1) /\ is_i32 (v + p2)) ->
  step_ok m ((v - p1) - (p1 - p2)) v p1 p2.
Proof.
  intros m v p1 p2 Hv HS. unfold step_ok. destruct m.
  - destruct (HS eq_refl) as [H1 H2]. unfold is_i32 in *. change (2 ^ 31) with 2147483648 in *.
    rewrite arith_ok by mlia. cbn [bind]. rewrite arith_ok by mlia. cbn [bind].
    rewrite arith_ok by mlia. f_equal. lia.
  - rewrite !arith_W. cbn [bind]. rewrite !arith_W. cbn [bind]. rewrite arith_W. f_equal.
    transitivity (wrap I32 v).
    + apply wrap_cong. rewrite Zminus_mod, wrap_mod, <- Zminus_mod.
      replace (v - p1 - (p1 - p2) + wrap I32 (2 * p1) - p2) with ((v - 2 * p1) + wrap I32 (2 * p1)) by lia.
      rewrite Zplus_mod, wrap_mod, <- Zplus_mod. f_equal. lia.
    + apply wrap_id. unfold is_i32 in Hv. split; [exact (proj1 Hv)|].
      change (max_of I32) with (2 ^ 31 - 1). lia.
Qed.

Lemma good2_fit : forall m fld dummy1 dummy2 p2 p1, Forall is_i32 (normals fld) ->
  (m = Checked -> sums_fit (p2 :: p1 :: normals fld)) ->
  good2 m p2 p1 fld (differences2 dummy1 dummy2 (Some p2) (Some p1) fld).
Proof.
  intros m fld. induction fld as [|d fld IH]; intros dummy1 dummy2 p2 p1 HF HS; [exact Logic.I|].
  destruct d as [v| |]; cbn [differences2 good2].
  - cbn [normals flat_map app] in HF, HS. apply Forall_cons_iff in HF. destruct HF as [Hv HF].
    split.
    + apply step_fit; [exact Hv|]. intros E. exact (sums_fit_hd _ _ _ _ (HS E)).
    + apply IH; [exact HF|]. intros E. exact (sums_fit_tl _ _ (HS E)).
  - apply IH; assumption.
  - apply IH; assumption.
Qed.

Lemma diff2_fit_mid : forall m I inner fld i dummy1 dummy2 p p1 d1,
  Forall is_i32 (normals fld) -> (m = Checked -> sums_fit (p :: normals fld)) ->
  Run (MkIter I i inner) (differences2 dummy1 dummy2 None (Some p) fld) End ->
  Run (MkIter _ (D2 i [hd d1 (normals fld)] 1 p1 p) (diff2_next I inner m)) fld End.
Proof.
  intros m I inner. induction fld as [|d fld IH]; intros i dummy1 dummy2 p p1 d1 HF HS HR.
  - cbn [differences2] in HR. apply Run_mk_nil in HR. destruct HR as (s' & E).
    eapply Run_mk_end. unfold diff2_next. rewrite E. reflexivity.
  - destruct d as [v| |]; cbn [differences2] in HR; apply Run_mk_inv in HR; destruct HR as (s' & E & HR).
    + cbn [normals flat_map app] in HF, HS |- *. apply Forall_cons_iff in HF. destruct HF as [Hv HF].
      eapply Run_mk_cons.
      * unfold diff2_next. rewrite E. cbn [bind hd]. change (1 =? 0) with false. change (1 =? 1) with true. cbv iota. reflexivity.
      * change (1 + 1) with 2. eapply diff2_run_tail; [|exact HR]. apply good2_fit; assumption.
    + eapply Run_mk_cons; [unfold diff2_next; rewrite E; reflexivity|]. eapply IH; eauto.
    + eapply Run_mk_cons; [unfold diff2_next; rewrite E; reflexivity|]. eapply IH; eauto.
Qed.

Lemma diff2_fit_start : forall m I inner fld i dummy1 dummy2 d0 d1 p1 p2,
  Forall is_i32 (normals fld) -> (m = Checked -> sums_fit (normals fld)) ->
  Run (MkIter I i inner) (differences2 dummy1 dummy2 None None fld) End ->
  Run (MkIter _ (D2 i [nth 0 (normals fld) d0; nth 1 (normals fld) d1] 0 p1 p2) (diff2_next I inner m)) fld End.
Proof.
  intros m I inner. induction fld as [|d fld IH]; intros i dummy1 dummy2 d0 d1 p1 p2 HF HS HR.
  - cbn [differences2] in HR. apply Run_mk_nil in HR. destruct HR as (s' & E).
    eapply Run_mk_end. unfold diff2_next. rewrite E. reflexivity.
  - destruct d as [v| |]; cbn [differences2] in HR; apply Run_mk_inv in HR; destruct HR as (s' & E & HR).
    + cbn [normals flat_map app] in HF, HS |- *. apply Forall_cons_iff in HF. destruct HF as [Hv HF].
      eapply Run_mk_cons.
      * unfold diff2_next. rewrite E. cbn [bind nth]. change (0 =? 0) with true. cbv iota. reflexivity.
      * change (0 + 1) with 1. cbn [nth].
        replace (nth 0 (flat_map (fun d => match d with Normal v0 => [v0] | _ => [] end) fld) d1)
          with (hd d1 (normals fld)).
        2:{ unfold normals. destruct (flat_map _ fld); reflexivity. }
        eapply diff2_fit_mid; eauto.
    + eapply Run_mk_cons; [unfold diff2_next; rewrite E; reflexivity|].
      change (normals (Missing1 :: fld)) with (normals fld) in *. eapply IH; eauto.
    + eapply Run_mk_cons; [unfold diff2_next; rewrite E; reflexivity|].
      change (normals (Missing2 :: fld)) with (normals fld) in *. eapply IH; eauto.
Qed.

Lemma diff2_correct_fit : forall m it fld dummy1 dummy2 d0 d1,
  Forall is_i32 (normals fld) -> (m = Checked -> sums_fit (normals fld)) ->
  Run it (differences2 dummy1 dummy2 None None fld) End ->
  Run (diff2_iter m it [nth 0 (normals fld) d0; nth 1 (normals fld) d1]) fld End.
Proof.
  intros m it fld dummy1 dummy2 d0 d1 HF HS HR. unfold diff2_iter.
  eapply diff2_fit_start; try eassumption. rewrite <- iter_eta. eassumption.
Qed.

(** With overflow checks, the first sum that does not fit makes the iterator panic. *)
Section Overflow.
  Variable I : Type.
  Variable inner : I -> outcome (option dv * I).
  Variables (v : Z) (post : list dv) (dummy1 dummy2 : Z).

  Lemma Run_mk_inv' : forall (i : I) (a : dv) l, Run (MkIter I i inner) (a :: l) End ->
    exists s', inner i = Ret (Some a, s') /\ Run (MkIter I s' inner) l End.
  Proof. intros. apply Run_mk_inv. assumption. Qed.

  Lemma over_tail : forall pre i p2 p1 first before q2 q1,
    Forall is_i32 (normals pre) -> sums_fit (p2 :: p1 :: normals pre) ->
    p2 :: p1 :: normals pre = before ++ [q2; q1] -> ~ (is_i32 (2 * q1) /\ is_i32 (v + q2)) ->
    Run (MkIter I i inner) (differences2 dummy1 dummy2 (Some p2) (Some p1) (pre ++ Normal v :: post)) End ->
    Run (MkIter _ (D2 i first 2 p1 p2) (diff2_next I inner Checked)) pre Crash.
  Proof.
    induction pre as [|d pre IH]; intros i p2 p1 first before q2 q1 HF HS HE HN HR.
    - cbn [app differences2] in HR. apply Run_mk_inv' in HR. destruct HR as (s' & E & HR).
      assert (HB : before = [] /\ q2 = p2 /\ q1 = p1).
      { cbn [normals flat_map] in HE. destruct before as [|x [|y before]]; cbn [app] in HE.
        - injection HE as -> ->. auto.
        - injection HE as _ HE. discriminate.
        - injection HE as _ _ HE. destruct before; discriminate. }
      destruct HB as (_ & -> & ->).
      apply Run_crash. rewrite next_mk. unfold diff2_next. rewrite E. cbn [bind].
      change (2 =? 0) with false. change (2 =? 1) with false. cbv iota.
      rewrite arith_checked. destruct (in_range I32 (2 * p1)) eqn:R1; [|reflexivity]. cbn [bind].
      replace (v - p1 - (p1 - p2) + 2 * p1) with (v + p2) by lia.
      rewrite arith_checked. destruct (in_range I32 (v + p2)) eqn:R2; [|reflexivity]. exfalso. apply HN.
      apply in_range_spec in R1, R2. unfold is_i32. change (min_of I32) with (- 2 ^ 31) in *. change (max_of I32) with (2 ^ 31 - 1) in *. lia.
    - destruct d as [w| |]; cbn [app differences2] in HR; apply Run_mk_inv' in HR; destruct HR as (s' & E & HR).
      + cbn [normals flat_map app] in HF, HS, HE. apply Forall_cons_iff in HF. destruct HF as [Hw HF].
        pose proof (step_fit Checked w p1 p2 Hw (fun _ => sums_fit_hd _ _ _ _ HS)) as HO. unfold step_ok in HO.
        eapply Run_mk_cons.
        * unfold diff2_next. rewrite E. cbn [bind]. change (2 =? 0) with false. change (2 =? 1) with false. cbv iota.
          destruct (arith Checked I32 (2 * p1)) as [t| |]; try discriminate. cbn [bind] in HO |- *.
          match type of HO with (let! _ := ?a in _) = _ => destruct a as [t'| |]; try discriminate end. cbn [bind] in HO |- *.
          rewrite HO. cbn [bind]. reflexivity.
        * destruct before as [|x before].
          { cbn [app] in HE. injection HE as _ HE. destruct pre; discriminate. }
          cbn [app] in HE. injection HE as _ HE.
          eapply (IH _ _ _ _ before); eauto using sums_fit_tl.
      + eapply Run_mk_cons; [unfold diff2_next; rewrite E; reflexivity|]. eapply IH; eauto.
      + eapply Run_mk_cons; [unfold diff2_next; rewrite E; reflexivity|]. eapply IH; eauto.
  Qed.
  Lemma over_mid : forall pre i p p1 d1 before q2 q1,
    Forall is_i32 (normals pre) -> sums_fit (p :: normals pre) ->
    p :: normals pre = before ++ [q2; q1] -> ~ (is_i32 (2 * q1) /\ is_i32 (v + q2)) ->
    Run (MkIter I i inner) (differences2 dummy1 dummy2 None (Some p) (pre ++ Normal v :: post)) End ->
    Run (MkIter _ (D2 i [hd d1 (normals pre)] 1 p1 p) (diff2_next I inner Checked)) pre Crash.
  Proof.
    induction pre as [|d pre IH]; intros i p p1 d1 before q2 q1 HF HS HE HN HR.
    - exfalso. cbn [normals flat_map] in HE. destruct before as [|x [|y before]]; discriminate.
    - destruct d as [w| |]; cbn [app differences2] in HR; apply Run_mk_inv' in HR; destruct HR as (s' & E & HR).
      + cbn [normals flat_map app] in HF, HS, HE |- *. apply Forall_cons_iff in HF. destruct HF as [Hw HF].
        eapply Run_mk_cons.
        * unfold diff2_next. rewrite E. cbn [bind hd]. change (1 =? 0) with false. change (1 =? 1) with true. cbv iota. reflexivity.
        * change (1 + 1) with 2. eapply (over_tail pre _ _ _ _ before); eauto.
      + eapply Run_mk_cons; [unfold diff2_next; rewrite E; reflexivity|]. eapply IH; eauto.
      + eapply Run_mk_cons; [unfold diff2_next; rewrite E; reflexivity|]. eapply IH; eauto.
  Qed.

  Lemma over_start : forall pre i d0 d1 p1 p2 before q2 q1,
    Forall is_i32 (normals pre) -> sums_fit (normals pre) ->
    normals pre = before ++ [q2; q1] -> ~ (is_i32 (2 * q1) /\ is_i32 (v + q2)) ->
    Run (MkIter I i inner) (differences2 dummy1 dummy2 None None (pre ++ Normal v :: post)) End ->
    Run (MkIter _ (D2 i [nth 0 (normals pre) d0; nth 1 (normals pre) d1] 0 p1 p2) (diff2_next I inner Checked)) pre Crash.
  Proof.
    induction pre as [|d pre IH]; intros i d0 d1 p1 p2 before q2 q1 HF HS HE HN HR.
    - exfalso. cbn [normals flat_map] in HE. destruct before as [|x before]; discriminate.
    - destruct d as [w| |]; cbn [app differences2] in HR; apply Run_mk_inv' in HR; destruct HR as (s' & E & HR).
      + cbn [normals flat_map app] in HF, HS, HE |- *. apply Forall_cons_iff in HF. destruct HF as [Hw HF].
        eapply Run_mk_cons.
        * unfold diff2_next. rewrite E. cbn [bind nth]. change (0 =? 0) with true. cbv iota. reflexivity.
        * change (0 + 1) with 1. cbn [nth].
          replace (nth 0 (flat_map (fun d => match d with Normal v0 => [v0] | _ => [] end) pre) d1)
            with (hd d1 (normals pre)).
          2:{ unfold normals. destruct (flat_map _ pre); reflexivity. }
          eapply over_mid; eauto.
      + eapply Run_mk_cons; [unfold diff2_next; rewrite E; reflexivity|].
        change (normals (Missing1 :: pre)) with (normals pre) in *. eapply IH; eauto.
      + eapply Run_mk_cons; [unfold diff2_next; rewrite E; reflexivity|].
        change (normals (Missing2 :: pre)) with (normals pre) in *. eapply IH; eauto.
  Qed.
End Overflow.

Lemma normals_app : forall a b, normals (a ++ b) = normals a ++ normals b.
Proof. intros. unfold normals. apply flat_map_app. Qed.

(** A sum that does not fit: panic there, after all points before it. *)
Lemma diff2_overflow : forall it pre v post before p2 p1 dummy1 dummy2 d0 d1,
  let fld := pre ++ Normal v :: post in
  Forall is_i32 (normals pre) -> sums_fit (normals pre) ->
  normals pre = before ++ [p2; p1] -> ~ (is_i32 (2 * p1) /\ is_i32 (v + p2)) ->
  Run it (differences2 dummy1 dummy2 None None fld) End ->
  Run (diff2_iter Checked it [nth 0 (normals fld) d0; nth 1 (normals fld) d1]) pre Crash.
Proof.
  intros it pre v post before p2 p1 dummy1 dummy2 d0 d1 fld HF HS HE HN HR. unfold diff2_iter.
  assert (L : (2 <= length (normals pre))%nat) by (rewrite HE, app_length; cbn [length]; lia).
  replace (nth 0 (normals fld) d0) with (nth 0 (normals pre) d0) by (unfold fld; rewrite normals_app, app_nth1 by lia; reflexivity).
  replace (nth 1 (normals fld) d1) with (nth 1 (normals pre) d1) by (unfold fld; rewrite normals_app, app_nth1 by lia; reflexivity).
  eapply over_start; try eassumption. rewrite <- iter_eta. eassumption.
Qed.

(** Without overflow checks: every 32-bit field, the stored differences being reduced
    to 32 bits. *)
Lemma diff2_correct_wrapping : forall it fld dummy1 dummy2 d0 d1,
  Forall is_i32 (normals fld) ->
  Run it (map (red_dv (wrap I32)) (differences2 dummy1 dummy2 None None fld)) End ->
  Run (diff2_iter Wrapping it [nth 0 (normals fld) d0; nth 1 (normals fld) d1]) fld End.
Proof.
  intros it fld dummy1 dummy2 d0 d1 HF HR. unfold diff2_iter.
  eapply (diff2_run_start (ist it) (istep it) Wrapping (wrap I32) is_i32).
  - intros v p1 p2 H H1 H2. unfold step_ok. rewrite !arith_W. cbn [bind]. rewrite !arith_W. cbn [bind].
    rewrite arith_W. f_equal.
    rewrite <- (wrap_id I32 v) at 2. 2:{ unfold is_i32 in H. rewrite p31 in H. mlia. }
    apply wrap_cong. change (2 ^ bits_of I32) with (2 ^ 32).
    rewrite Zminus_mod, (wrap_mod I32). change (2 ^ bits_of I32) with (2 ^ 32).
    rewrite Zplus_mod, !(wrap_mod I32). change (2 ^ bits_of I32) with (2 ^ 32).
    rewrite <- Zplus_mod, <- Zminus_mod. f_equal. lia.
  - exact HF.
  - rewrite <- iter_eta. eassumption.
Qed.

Lemma diff1_correct_wrapping : forall it fld dummy d0,
  Forall is_i32 (normals fld) ->
  Run it (map (red_dv (wrap I32)) (differences1 dummy None fld)) End ->
  Run (diff1_iter Wrapping it [hd d0 (normals fld)]) fld End.
Proof.
  assert (T : forall I (inner : I -> outcome (option dv * I)) fld i p dummy first,
    Forall is_i32 (normals fld) ->
    Run (MkIter I i inner) (map (red_dv (wrap I32)) (differences1 dummy (Some p) fld)) End ->
    Run (MkIter _ (D1 i first 1 p) (diff1_next I inner Wrapping)) fld End).
  { intros I inner fld. induction fld as [|d fld IH]; intros i p dummy first HF HR.
    - cbn [differences1 map] in HR. apply Run_mk_nil in HR. destruct HR as (s' & E).
      eapply Run_mk_end. unfold diff1_next. rewrite E. reflexivity.
    - destruct d as [v| |]; cbn [differences1 map red_dv] in HR; apply Run_mk_inv in HR; destruct HR as (s' & E & HR).
      + cbn [normals flat_map app] in HF. apply Forall_cons_iff in HF. destruct HF as [Hv HF].
        assert (EV : wrap I32 (wrap I32 (v - p) + p) = v).
        { rewrite <- (wrap_id I32 v) at 2. 2:{ unfold is_i32 in Hv. rewrite p31 in Hv. mlia. }
          apply wrap_cong. rewrite Zplus_mod, wrap_mod, <- Zplus_mod. f_equal. lia. }
        eapply Run_mk_cons.
        * unfold diff1_next. rewrite E. cbn [bind]. change (1 =? 0) with false. cbv iota.
          rewrite arith_W, EV. cbn [bind]. reflexivity.
        * eapply IH; eauto.
      + eapply Run_mk_cons; [unfold diff1_next; rewrite E; reflexivity|]. eapply IH; eauto.
      + eapply Run_mk_cons; [unfold diff1_next; rewrite E; reflexivity|]. eapply IH; eauto. }
  intros it fld dummy d0 HF HR. unfold diff1_iter.
  rewrite (iter_eta _ it) in HR. revert HF HR.
  generalize (icur it) as i. generalize (istep it) as inner. generalize 0 at 2 as pv.
  intros pv inner i. revert i pv.
  induction fld as [|d fld IH]; intros i pv HF HR.
  - cbn [differences1 map] in HR. apply Run_mk_nil in HR. destruct HR as (s' & E).
    eapply Run_mk_end. unfold diff1_next. rewrite E. reflexivity.
  - destruct d as [v| |]; cbn [differences1 map red_dv] in HR; apply Run_mk_inv in HR; destruct HR as (s' & E & HR).
    + cbn [normals flat_map app] in HF |- *. apply Forall_cons_iff in HF. destruct HF as [Hv HF].
      eapply Run_mk_cons.
      * unfold diff1_next. rewrite E. cbn [bind hd]. change (0 =? 0) with true. cbv iota. reflexivity.
      * change (0 + 1) with 1. eapply T; eauto.
    + eapply Run_mk_cons; [unfold diff1_next; rewrite E; reflexivity|]. eapply IH; eauto.
    + eapply Run_mk_cons; [unfold diff1_next; rewrite E; reflexivity|]. eapply IH; eauto.
Qed.

(** With overflow checks a representable field whose second differences are
    representable can still panic. *)
Lemma diff2_checked_refuted : exists fld,
  Forall is_i32 (normals fld) /\ Forall is_i32 (normals (differences2 0 0 None None fld))
  /\ Run (diff2_iter Checked (iter_of_list (differences2 0 0 None None fld))
            [nth 0 (normals fld) 0; nth 1 (normals fld) 0])
         [Normal 2000000000; Normal 2000000000] Crash.
Proof.
  exists [Normal 2000000000; Normal 2000000000; Normal 2000000000]. split; [|split].
  - repeat constructor; vm_compute; congruence.
  - repeat constructor; vm_compute; congruence.
  - unfold diff2_iter. eapply Run_mk_cons; [vm_compute; reflexivity|]. eapply Run_mk_cons; [vm_compute; reflexivity|].
    eapply Run_crash. rewrite next_mk. vm_compute. reflexivity.
Qed.

(** The descriptors at the head of section 7. *)
Lemma spdiff_roundtrip : forall m (n : nat) firsts zmin rest, (1 <= n <= 4)%nat ->
  (1 <= length firsts <= 2)%nat ->
  Forall (fun v => Z.abs v < 2 ^ (8 * Z.of_nat n - 1)) (zmin :: firsts) ->
  exists d, spdiff_new m (flat_map (sm_bytes n) firsts ++ sm_bytes n zmin ++ rest)
              (Z.of_nat (length firsts)) (Z.of_nat n) = Ret (Ok d)
    /\ spdiff_len d = Z.of_nat n * (Z.of_nat (length firsts) + 1)
    /\ spdiff_minimum m d = Ret zmin
    /\ collect 300 (first_values m d) = Ret firsts.
Proof.
  intros m n firsts zmin rest Hn Hf HF.
  apply Forall_cons_iff in HF. destruct HF as [Hz HF].
  assert (Ls : forall v, zlen (sm_bytes n v) = Z.of_nat n) by (intros; unfold sm_bytes; apply zlen_be_bytes).
  assert (HL : forall l, zlen (flat_map (sm_bytes n) l) = Z.of_nat n * zlen l).
  { induction l as [|a l IH]; cbn [flat_map]; [rewrite !zlen_nil; lia|].
    rewrite zlen_app, zlen_cons, Ls, IH. lia. }
  exists (SpDiff (flat_map (sm_bytes n) firsts ++ sm_bytes n zmin) (Z.of_nat n)).
  assert (EL : zlen (flat_map (sm_bytes n) firsts ++ sm_bytes n zmin) = Z.of_nat n * (Z.of_nat (length firsts) + 1)).
  { rewrite zlen_app, HL, Ls. unfold zlen. lia. }
  assert (B : Z.of_nat n * (Z.of_nat (length firsts) + 1) <= 12) by nia.
  assert (B0 : Z.of_nat n * (Z.of_nat (length firsts) + 1) = Z.of_nat n * Z.of_nat (length firsts) + Z.of_nat n) by lia.
  assert (B1 : 0 <= Z.of_nat n * Z.of_nat (length firsts)) by nia.
  assert (EE : first_value_end_pos m (SpDiff (flat_map (sm_bytes n) firsts ++ sm_bytes n zmin) (Z.of_nat n))
               = Ret (Z.of_nat n * Z.of_nat (length firsts))).
  { unfold first_value_end_pos, spdiff_len. cbn [sp_slice sp_octets]. rewrite EL.
    rewrite arith_ok by mlia. f_equal. lia. }
  split; [|split; [|split]].
  - unfold spdiff_new.
    replace ((Z.of_nat n =? 0) || (4 <? Z.of_nat n)) with false by lia.
    rewrite arith_ok by mlia. cbn [bind].
    change (flat_map (sm_bytes n) firsts ++ sm_bytes n zmin ++ rest)
      with ([] ++ flat_map (sm_bytes n) firsts ++ sm_bytes n zmin ++ rest).
    rewrite (app_assoc (flat_map _ _)).
    rewrite slice_split; [reflexivity|reflexivity|].
    rewrite EL, zlen_nil. lia.
  - unfold spdiff_len. cbn [sp_slice]. exact EL.
  - unfold spdiff_minimum. rewrite EE. cbn [bind sp_slice].
    unfold slice_from. rewrite <- (app_nil_r (sm_bytes n zmin)).
    rewrite slice_split.
    + cbn [bind]. apply grib_int_from_bytes_roundtrip; assumption.
    + rewrite HL. unfold zlen. lia.
    + rewrite !zlen_app, zlen_nil. lia.
  - assert (G : forall l pre, flat_map (sm_bytes n) firsts = flat_map (sm_bytes n) pre ++ flat_map (sm_bytes n) l ->
        length firsts = (length pre + length l)%nat -> Forall (fun v => Z.abs v < 2 ^ (8 * Z.of_nat n - 1)) l ->
        Run (MkIter Z (Z.of_nat n * zlen pre) (first_values_next m (SpDiff (flat_map (sm_bytes n) firsts ++ sm_bytes n zmin) (Z.of_nat n)))) l End).
    { induction l as [|a l IH]; intros pre Hpre Hlen Hall.
      - eapply Run_mk_end. unfold first_values_next. rewrite EE. cbn [bind].
        cbn [length] in Hlen. replace (Z.of_nat n * Z.of_nat (length firsts) <=? Z.of_nat n * zlen pre) with true.
        { reflexivity. } symmetry. unfold zlen. apply Z.leb_le. nia.
      - apply Forall_cons_iff in Hall. destruct Hall as [Ha Hall].
        eapply Run_mk_cons.
        + unfold first_values_next. rewrite EE. cbn [bind].
          replace (Z.of_nat n * Z.of_nat (length firsts) <=? Z.of_nat n * zlen pre) with false.
          2:{ symmetry. cbn [length] in Hlen. unfold zlen. apply Z.leb_gt. nia. }
          cbn [sp_slice sp_octets]. rewrite Hpre. cbn [flat_map]. rewrite <- !app_assoc.
          rewrite slice_split; [|rewrite HL; reflexivity|rewrite HL, Ls; reflexivity].
          cbn [bind]. rewrite grib_int_from_bytes_roundtrip by assumption. cbn [bind]. reflexivity.
        + replace (Z.of_nat n * zlen pre + Z.of_nat n) with (Z.of_nat n * zlen (pre ++ [a])) by (rewrite zlen_app, zlen_cons, zlen_nil; lia).
          apply IH; [|rewrite app_length; cbn [length] in *; lia|assumption].
          rewrite flat_map_app, Hpre. cbn [flat_map]. rewrite app_nil_r, <- app_assoc. reflexivity. }
    specialize (G firsts [] eq_refl eq_refl HF).
    unfold first_values. replace 0 with (Z.of_nat n * zlen (@nil Z)) by (rewrite zlen_nil; lia).
    apply Run_collect in G.
    clear -G Hf.
    revert G. generalize (MkIter Z (Z.of_nat n * zlen (@nil Z)) (first_values_next m (SpDiff (flat_map (sm_bytes n) firsts ++ sm_bytes n zmin) (Z.of_nat n)))).
    intros i G.
    assert (M : forall A k (it : iter A) l, collect k it = Ret l -> forall k', (k <= k')%nat -> collect k' it = Ret l).
    { clear. intros A. induction k as [|k IH]; intros it l H k' Hk; [discriminate|].
      destruct k' as [|k']; [lia|]. cbn [collect] in H |- *.
      destruct (next it) as [[[x|] i']| |]; cbn [bind] in H |- *; try discriminate; [|exact H].
      destruct (collect k i') as [l0| |] eqn:E; cbn [bind] in H; try discriminate.
      rewrite (IH _ _ E) by lia. exact H. }
    eapply M; [exact G|]. lia.
Qed.

Lemma sums_fit_small : forall vs, Forall (fun v => Z.abs v < 2 ^ 30) vs -> sums_fit vs.
Proof.
  intros vs H before p2 p1 v after E. rewrite E in H. apply Forall_app in H. destruct H as [_ H].
  inversion H as [|? ? H2 H']; subst. inversion H' as [|? ? H1 H'']; subst. inversion H'' as [|? ? Hv _]; subst.
  unfold is_i32. change (2 ^ 30) with 1073741824 in *. change (2 ^ 31) with 2147483648. lia.
Qed.

Lemma sums_fit_short : forall a b, sums_fit [a; b].
Proof.
  intros a b before p2 p1 v after E. exfalso. apply (f_equal (@length Z)) in E. rewrite app_length in E. cbn [length] in E. lia.
Qed.
Lemma sums_fit_cons : forall p2 p1 v vs, is_i32 (2 * p1) /\ is_i32 (v + p2) -> sums_fit (p1 :: v :: vs) -> sums_fit (p2 :: p1 :: v :: vs).
Proof.
  intros p2 p1 v vs H HS before q2 q1 w after E. destruct before as [|x before]; cbn [app] in E.
  - injection E as <- <- <- <-. exact H.
  - injection E as <- E. exact (HS before q2 q1 w after E).
Qed.

Lemma sums_fit_cases : forall vs, sums_fit vs \/ exists before p2 p1 v after,
  vs = before ++ p2 :: p1 :: v :: after /\ sums_fit (before ++ [p2; p1]) /\ ~ (is_i32 (2 * p1) /\ is_i32 (v + p2)).
Proof.
  assert (D : forall z, is_i32 z \/ ~ is_i32 z) by (intros; unfold is_i32; lia).
  induction vs as [|p2 vs IH]; [left; intros before ? ? ? ? E; destruct before; discriminate|].
  destruct vs as [|p1 [|v vs]].
  - left. intros before ? ? ? ? E. apply (f_equal (@length Z)) in E. rewrite app_length in E. cbn [length] in E. lia.
  - left. apply sums_fit_short.
  - destruct (D (2 * p1)) as [D1|D1]; [destruct (D (v + p2)) as [D2|D2]|].
    2,3: right; exists [], p2, p1, v, vs; split; [reflexivity|split; [apply sums_fit_short|tauto]].
    destruct IH as [IH|(before & q2 & q1 & w & after & E & HS & HN)].
    + left. apply sums_fit_cons; auto.
    + right. exists (p2 :: before), q2, q1, w, after. split; [cbn [app]; f_equal; exact E|]. split; [|exact HN].
      destruct before as [|x [|y before]]; cbn [app] in E, HS |- *.
      * injection E as <- <- E. apply sums_fit_cons; auto. 
      * injection E as <- <- E. apply sums_fit_cons; auto.
      * injection E as <- <- E. apply sums_fit_cons; auto.
Qed.

Lemma normals_split : forall fld a v b, normals fld = a ++ v :: b ->
  exists pre post, fld = pre ++ Normal v :: post /\ normals pre = a /\ normals post = b.
Proof.
  induction fld as [|d fld IH]; intros a v b E.
  - destruct a; discriminate.
  - destruct d as [w| |].
    + cbn [normals flat_map app] in E. destruct a as [|x a]; cbn [app] in E.
      * injection E as -> E. exists [], fld. repeat split. exact E.
      * injection E as -> E. destruct (IH a v b E) as (pre & post & -> & <- & <-).
        exists (Normal x :: pre), post. repeat split.
    + destruct (IH a v b E) as (pre & post & -> & <- & <-). exists (Missing1 :: pre), post. repeat split.
    + destruct (IH a v b E) as (pre & post & -> & <- & <-). exists (Missing2 :: pre), post. repeat split.
Qed.

(** With overflow checks: exactly the fields whose sums fit. *)
Lemma diff2_checked : forall it fld dummy1 dummy2 d0 d1,
  Forall is_i32 (normals fld) -> Run it (differences2 dummy1 dummy2 None None fld) End ->
  let out := diff2_iter Checked it [nth 0 (normals fld) d0; nth 1 (normals fld) d1] in
  (sums_fit (normals fld) -> Run out fld End) /\
  (~ sums_fit (normals fld) -> exists pre v post before p2 p1,
     fld = pre ++ Normal v :: post /\ normals pre = before ++ [p2; p1] /\ ~ (is_i32 (2 * p1) /\ is_i32 (v + p2)) /\
     Run out pre Crash).
Proof.
  intros it fld dummy1 dummy2 d0 d1 HF HR out. split.
  - intros HS. eapply diff2_correct_fit; eauto.
  - intros HN. destruct (sums_fit_cases (normals fld)) as [HS|(before & p2 & p1 & v & after & E & HS & HN')]; [contradiction|].
    replace (before ++ p2 :: p1 :: v :: after) with ((before ++ [p2; p1]) ++ v :: after) in E by (rewrite <- app_assoc; reflexivity).
    destruct (normals_split _ _ _ _ E) as (pre & post & Ef & Ep & _).
    exists pre, v, post, before, p2, p1. split; [exact Ef|]. split; [exact Ep|]. split; [exact HN'|].
    unfold out. subst fld. eapply diff2_overflow; try eassumption.
    + rewrite normals_app in HF. apply Forall_app in HF. exact (proj1 HF).
    + rewrite Ep. exact HS.
Qed.
