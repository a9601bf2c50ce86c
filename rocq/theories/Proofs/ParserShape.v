(** The beginnings of well-formed messages, and streams over sequences that stop
    being well-formed. *)
From Coq Require Import Lia ZifyBool ZifyNat.
From Verif Require Import Model.Base Model.Errors Model.Sections Model.Parser.
From Verif Require Import Spec.ParserS Proofs.BaseLemmas Proofs.ParserP Proofs.ParserRun.

Definition filler (n : Z) : section := MkSection n 0 0 None.

Lemma group_extend : forall g t q s h, wf_group g -> group_sections g = t ++ q -> q <> [] ->
  follow h t (s_num s) -> (h = false -> gr3 g <> None) ->
  exists g' q', wf_group g' /\ group_sections g' = t ++ s :: q' /\ (h = false -> gr3 g' <> None).
Proof.
  intros [g2 g3 g4 g5 g6 g7] t q s h (H2 & H3 & H23 & H4 & H5 & H6 & H7) E Hq Hf H3'.
  cbn [gr2 gr3 gr4 gr5 gr6 gr7] in *.
  destruct t as [|t0 t].
  { clear E. unfold follow in Hf. cbn in Hf. destruct Hf as [Hf|[Hf|[Hf ->]]].
    - exists (MkGroup (Some s) (Some (filler 3)) (filler 4) (filler 5) (filler 6) (filler 7)). eexists.
      split; [|split; [reflexivity|discriminate]]. cbn. repeat split; auto. discriminate.
    - exists (MkGroup None (Some s) (filler 4) (filler 5) (filler 6) (filler 7)). eexists.
      split; [|split; [reflexivity|discriminate]]. cbn. repeat split; auto; discriminate.
    - exists (MkGroup None None s (filler 5) (filler 6) (filler 7)). eexists.
      split; [|split; [reflexivity|discriminate]]. cbn. repeat split; auto. }
  destruct g3 as [s3|]; [destruct g2 as [s2|]|destruct g2 as [s2|]; [exfalso; apply H23; congruence|]];
    unfold group_sections in E; cbn [opt_list gr2 gr3 gr4 gr5 gr6 gr7 map app] in E; injection E as <- E;
    cbn [opt_num] in *; unfold follow in Hf.
  Ltac wfg := cbn [wf_group gr2 gr3 gr4 gr5 gr6 gr7]; unfold wf_group; cbn [gr2 gr3 gr4 gr5 gr6 gr7 opt_num filler s_num]; repeat split; auto; try discriminate; lia.
  - destruct t as [|t1 t].
    { cbn in Hf. exists (MkGroup (Some s2) (Some s) (filler 4) (filler 5) (filler 6) (filler 7)). eexists.
      split; [wfg|split; [reflexivity|discriminate]]. }
    injection E as <- E. destruct t as [|t2 t].
    { cbn in Hf. exists (MkGroup (Some s2) (Some s3) s (filler 5) (filler 6) (filler 7)). eexists.
      split; [wfg|split; [reflexivity|discriminate]]. }
    injection E as <- E. destruct t as [|t3 t].
    { cbn in Hf. exists (MkGroup (Some s2) (Some s3) g4 s (filler 6) (filler 7)). eexists.
      split; [wfg|split; [reflexivity|discriminate]]. }
    injection E as <- E. destruct t as [|t4 t].
    { cbn in Hf. exists (MkGroup (Some s2) (Some s3) g4 g5 s (filler 7)). eexists.
      split; [wfg|split; [reflexivity|discriminate]]. }
    injection E as <- E. destruct t as [|t5 t].
    { cbn in Hf. exists (MkGroup (Some s2) (Some s3) g4 g5 g6 s). eexists.
      split; [wfg|split; [reflexivity|discriminate]]. }
    injection E as <- E. destruct t; destruct q; cbn in E; congruence.
  - destruct t as [|t2 t].
    { cbn in Hf. exists (MkGroup None (Some s3) s (filler 5) (filler 6) (filler 7)). eexists.
      split; [wfg|split; [reflexivity|discriminate]]. }
    injection E as <- E. destruct t as [|t3 t].
    { cbn in Hf. exists (MkGroup None (Some s3) g4 s (filler 6) (filler 7)). eexists.
      split; [wfg|split; [reflexivity|discriminate]]. }
    injection E as <- E. destruct t as [|t4 t].
    { cbn in Hf. exists (MkGroup None (Some s3) g4 g5 s (filler 7)). eexists.
      split; [wfg|split; [reflexivity|discriminate]]. }
    injection E as <- E. destruct t as [|t5 t].
    { cbn in Hf. exists (MkGroup None (Some s3) g4 g5 g6 s). eexists.
      split; [wfg|split; [reflexivity|discriminate]]. }
    injection E as <- E. destruct t; destruct q; cbn in E; congruence.
  - destruct t as [|t3 t].
    { cbn in Hf. exists (MkGroup None None g4 s (filler 6) (filler 7)). eexists.
      split; [wfg|split; [reflexivity|exact H3']]. }
    injection E as <- E. destruct t as [|t4 t].
    { cbn in Hf. exists (MkGroup None None g4 g5 s (filler 7)). eexists.
      split; [wfg|split; [reflexivity|exact H3']]. }
    injection E as <- E. destruct t as [|t5 t].
    { cbn in Hf. exists (MkGroup None None g4 g5 g6 s). eexists.
      split; [wfg|split; [reflexivity|exact H3']]. }
    injection E as <- E. destruct t; destruct q; cbn in E; congruence.
Qed.

Lemma group_follow : forall g t s q h, wf_group g -> group_sections g = t ++ s :: q ->
  (h = false -> gr3 g <> None) -> follow h t (s_num s).
Proof.
  intros [g2 g3 g4 g5 g6 g7] t s q h (H2 & H3 & H23 & H4 & H5 & H6 & H7) E H3'.
  cbn [gr2 gr3 gr4 gr5 gr6 gr7] in *.
  destruct g3 as [s3|]; [destruct g2 as [s2|]|destruct g2 as [s2|]; [exfalso; apply H23; congruence|]];
    unfold group_sections in E; cbn [opt_list gr2 gr3 gr4 gr5 gr6 gr7 map app] in E; cbn [opt_num] in *;
    unfold follow, group_start;
    repeat (destruct t as [|? t]; [cbn [app] in E; injection E as <- E; cbn [rev app]; lia || (destruct h; [lia|exfalso; apply H3'; reflexivity])
      |cbn [app] in E; injection E as <- E]); destruct t; discriminate.
Qed.

(** The last section of a beginning of a group, with the number of the next one. *)
Lemma group_last : forall g t s q, wf_group g -> group_sections g = t ++ s :: q -> q <> [] -> 2 <= s_num s <= 6.
Proof.
  intros [g2 g3 g4 g5 g6 g7] t s q (H2 & H3 & H23 & H4 & H5 & H6 & H7) E Hq.
  cbn [gr2 gr3 gr4 gr5 gr6 gr7] in *.
  destruct g3 as [s3|]; destruct g2 as [s2|];
    unfold group_sections in E; cbn [opt_list gr2 gr3 gr4 gr5 gr6 gr7 map app] in E; cbn [opt_num] in *;
    repeat (destruct t as [|? t]; [cbn [app] in E; injection E as <- E; lia || (destruct q; [exfalso; apply Hq; reflexivity|discriminate])
      |cbn [app] in E; injection E as <- E]); destruct t; discriminate.
Qed.

Lemma split_groups : forall gs s8 p q, flat_map group_sections gs ++ [s8] = p ++ q -> q <> [] ->
  exists gs1 gs2 t, gs = gs1 ++ gs2 /\ p = flat_map group_sections gs1 ++ t /\
    ((gs2 = [] /\ t = [] /\ q = [s8]) \/
     exists g gs3 q', gs2 = g :: gs3 /\ group_sections g = t ++ q' /\ q' <> [] /\
       q = q' ++ flat_map group_sections gs3 ++ [s8]).
Proof.
  induction gs as [|g gs IH]; intros s8 p q E Hq.
  - exists [], [], []. split; [reflexivity|]. cbn [flat_map app] in *.
    destruct p as [|p0 p]; [cbn [app] in E; subst q; split; auto|].
    injection E as _ E. destruct p; destruct q; cbn in E; congruence.
  - cbn [flat_map] in E. rewrite <- app_assoc in E.
    destruct (app_eq_app _ _ _ _ E) as (w & [[E1 E2]|[E1 E2]]).
    + destruct w as [|w0 w].
      * rewrite app_nil_r in E1. cbn [app] in E2. subst p q.
        destruct (IH s8 [] _ eq_refl Hq) as (gs1 & gs2 & t & -> & Et & D).
        symmetry in Et. apply app_eq_nil in Et. destruct Et as [Et ->].
        exists (g :: gs1), gs2, []. split; [reflexivity|]. cbn [flat_map]. rewrite Et, !app_nil_r. auto.
      * exists [], (g :: gs), p. split; [reflexivity|]. split; [reflexivity|]. right.
        exists g, gs, (w0 :: w). split; [reflexivity|]. split; [exact E1|]. split; [discriminate|exact E2].
    + destruct (IH s8 w q E2 Hq) as (gs1 & gs2 & t & -> & -> & D).
      exists (g :: gs1), gs2, t. split; [reflexivity|]. split; [|exact D].
      cbn [flat_map]. rewrite <- app_assoc. exact E1.
Qed.

(** Beginning of a message, and the numbers that may follow. *)
Inductive shape : list section -> (Z -> Prop) -> Prop :=
| sh_0 : shape [] (fun x => x = 0)
| sh_1 : forall s0, s_num s0 = 0 -> shape [s0] (fun x => x = 1)
| sh_g : forall s0 s1 gs t, s_num s0 = 0 -> s_num s1 = 1 -> Forall wf_group gs ->
    match gs with [] => True | g :: _ => gr3 g <> None end ->
    (exists g q, wf_group g /\ q <> [] /\ group_sections g = t ++ q /\ (gs = [] -> gr3 g <> None)) ->
    shape (s0 :: s1 :: flat_map group_sections gs ++ t) (follow2 gs t).

Definition some_group : group := MkGroup None (Some (filler 3)) (filler 4) (filler 5) (filler 6) (filler 7).
Lemma some_group_wf : wf_group some_group.
Proof. unfold some_group, wf_group; cbn. repeat split; auto; discriminate. Qed.

Lemma shape_of : forall m pre s q, wf_message m -> message_sections m = pre ++ s :: q ->
  exists P, shape pre P /\ P (s_num s).
Proof.
  intros [s0 s1 gs s8] pre s q (H0 & H1 & H8 & Hg & g & gs' & Eg & H3) E.
  cbn [ms0 ms1 groups ms8] in *. unfold message_sections in E. cbn [ms0 ms1 groups ms8] in E.
  destruct pre as [|p0 pre].
  { cbn [app] in E. injection E as <- E. eexists. split; [constructor|exact H0]. }
  cbn [app] in E. injection E as <- E. destruct pre as [|p1 pre].
  { cbn [app] in E. injection E as <- E. eexists. split; [constructor; exact H0|exact H1]. }
  cbn [app] in E. injection E as <- E.
  destruct (split_groups gs s8 pre (s :: q) E ltac:(discriminate)) as (gs1 & gs2 & t & Egs & -> & D).
  assert (Hf : Forall wf_group gs1 /\ Forall wf_group gs2). { rewrite Egs in Hg. apply Forall_app in Hg. exact Hg. }
  assert (H31 : match gs1 with [] => True | g :: _ => gr3 g <> None end).
  { destruct gs1; [exact I|]. rewrite Egs in Eg. injection Eg as <- _. exact H3. }
  destruct D as [(-> & -> & Eq)|(g0 & gs3 & q' & -> & Eg0 & Hq' & Eq)].
  - injection Eq as -> _. exists (follow2 gs1 []). split.
    + constructor; auto; [tauto|]. exists some_group, (group_sections some_group).
      split; [exact some_group_wf|]. split; [discriminate|]. split; [reflexivity|discriminate].
    + right. split; [reflexivity|]. split; [|exact H8]. rewrite Egs in Eg. destruct gs1; discriminate.
  - destruct Hf as [Hf1 Hf2]. inversion_clear Hf2 as [|? ? Hg0 _].
    assert (H30 : gs1 = [] -> gr3 g0 <> None). { intros ->. rewrite Egs in Eg. injection Eg as -> _. exact H3. }
    exists (follow2 gs1 t). split.
    + constructor; auto. exists g0, q'. auto.
    + left. destruct q' as [|x q']; [congruence|]. cbn [app] in Eq. injection Eq as <- _.
      apply (group_follow g0 t s q'); [exact Hg0|exact Eg0|].
      destruct gs1; [intros _; apply H30; reflexivity|discriminate].
Qed.

Lemma shape_may_follow : forall pre P s, shape pre P -> P (s_num s) -> may_follow pre s.
Proof.
  intros pre P s Hs Hp. destruct Hs as [|s0 H0|s0 s1 gs t H0 H1 Hw H3 (g & q & Hg & Hq & Eg & Hg3)].
  - exists (MkMessage s (filler 1) [some_group] (filler 8)). eexists. split; [|reflexivity].
    unfold wf_message. cbn. split; [exact Hp|]. split; [reflexivity|]. split; [reflexivity|].
    split; [constructor; [exact some_group_wf|constructor]|]. eexists; eexists. split; [reflexivity|discriminate].
  - exists (MkMessage s0 s [some_group] (filler 8)). eexists. split; [|reflexivity].
    unfold wf_message. cbn. split; [exact H0|]. split; [exact Hp|]. split; [reflexivity|].
    split; [constructor; [exact some_group_wf|constructor]|]. eexists; eexists. split; [reflexivity|discriminate].
  - destruct Hp as [Hp|(-> & Hn & Hp)].
    + destruct (group_extend g t q s (negb match gs with [] => true | _ => false end) Hg Eg Hq Hp)
        as (g' & q' & Hg' & Eg' & H3').
      { destruct gs; [intros _; apply Hg3; reflexivity|discriminate]. }
      exists (MkMessage s0 s1 (gs ++ [g']) (filler 8)), (q' ++ [filler 8]). split.
      * unfold wf_message. cbn [ms0 ms1 groups ms8]. split; [exact H0|]. split; [exact H1|]. split; [reflexivity|].
        split; [apply Forall_app; split; [exact Hw|constructor; [exact Hg'|constructor]]|].
        destruct gs as [|g1 gs]; cbn [app]; eexists; eexists; (split; [reflexivity|]); [apply H3'; reflexivity|exact H3].
      * unfold message_sections. cbn [ms0 ms1 groups ms8]. rewrite flat_map_app. cbn [flat_map].
        rewrite app_nil_r, Eg'. cbn [app]. rewrite <- !app_assoc. reflexivity.
    + exists (MkMessage s0 s1 gs s), []. split.
      * unfold wf_message. cbn [ms0 ms1 groups ms8]. split; [exact H0|]. split; [exact H1|]. split; [exact Hp|].
        split; [exact Hw|]. destruct gs as [|g1 gs]; [congruence|]. eexists; eexists. split; [reflexivity|exact H3].
      * unfold message_sections. cbn [ms0 ms1 groups ms8]. rewrite app_nil_r. reflexivity.
Qed.

(** The numbers that may follow are determined by the last section. *)
Definition nexts (pre : list section) (x : Z) : Prop :=
  match rev pre with
  | [] => x = 0
  | s :: _ =>
      if s_num s =? 1 then x = 2 \/ x = 3
      else if s_num s =? 7 then x = 2 \/ x = 3 \/ x = 4 \/ x = 8
      else x = s_num s + 1
  end.

Lemma group_ends : forall g, wf_group g -> exists q s, group_sections g = q ++ [s] /\ s_num s = 7.
Proof.
  intros [g2 g3 g4 g5 g6 g7] (_ & _ & _ & _ & _ & _ & H7). cbn in H7.
  exists (opt_list g2 ++ opt_list g3 ++ [g4; g5; g6]), g7. split; [|exact H7].
  unfold group_sections. cbn. rewrite <- !app_assoc. reflexivity.
Qed.

Lemma shape_nexts : forall pre P, shape pre P -> forall x, P x <-> nexts pre x.
Proof.
  intros pre P Hs x. destruct Hs as [|s0 H0|s0 s1 gs t H0 H1 Hw H3 (g & q & Hg & Hq & Eg & Hg3)].
  - reflexivity.
  - unfold nexts. cbn [rev app]. rewrite H0. cbn. lia.
  - unfold follow2, follow, nexts. destruct t as [|t0 t'] using rev_ind.
    + rewrite app_nil_r. destruct gs as [|g1 gs] using rev_ind.
      * cbn [flat_map rev app negb]. rewrite H1. cbn [Z.eqb Pos.eqb]. unfold group_start.
        split; [intros [[|[|[]]]|(_ & F & _)]; auto; congruence|]. intros [|]; auto.
      * apply Forall_app in Hw. destruct Hw as [_ Hw]. inversion_clear Hw as [|? ? Hg1 _].
        destruct (group_ends g1 Hg1) as (q1 & s & E1 & H7).
        rewrite flat_map_app. cbn [flat_map]. rewrite app_nil_r, E1.
        replace (s0 :: s1 :: flat_map group_sections gs ++ q1 ++ [s]) with ((s0 :: s1 :: flat_map group_sections gs ++ q1) ++ [s])
          by (cbn [app]; rewrite <- app_assoc; reflexivity).
        rewrite rev_unit, H7. cbn [Z.eqb Pos.eqb rev]. unfold group_start.
        assert (N : gs ++ [g1] <> []) by (destruct gs; discriminate).
        destruct (gs ++ [g1]); [congruence|]. cbn [negb]. intuition congruence.
    + clear IHt'. rename t0 into s.
      replace (s0 :: s1 :: flat_map group_sections gs ++ t' ++ [s]) with ((s0 :: s1 :: flat_map group_sections gs ++ t') ++ [s])
          by (cbn [app]; rewrite <- app_assoc; reflexivity).
      rewrite !rev_unit. rewrite <- app_assoc in Eg. cbn [app] in Eg.
      pose proof (group_last g t' s q Hg Eg Hq) as Hl.
      replace (s_num s =? 1) with false by lia. replace (s_num s =? 7) with false by lia.
      split; [intros [F|(F & _)]; [exact F|destruct t'; discriminate]|intros F; left; exact F].
Qed.

(** ** the stream over an unfinished message *)
Lemma stuck_start0 : forall f x l n pos mc smc h c0 c1 c2 c3 c4 c5 c6 c7,
  head_not (fun y => y = 0) (x :: l) ->
  exists b', vsub_loop lstep (S f) (MkVsub (MkV (x :: l) n None pos mc smc StartOfMessage h) c0 c1 c2 c3) c4 c5 c6 c7 =
    Ret (Some (Err (stuck_err false (x :: l) n)), b') /\ dead b'.
Proof.
  intros f x l n pos mc smc h c0 c1 c2 c3 c4 c5 c6 c7 Hx.
  cbn [vsub_loop vs_v]. unfold v_next. cbn [v_state]. unfold ensure_sect0.
  cbn [pk_next v_peeked enum_next v_src v_count lstep bind v_pos v_mc v_smc v_state v_has3 set_src set_pos].
  destruct x as [s|e]; cbn [head_not stuck_err andb] in *.
  - replace (s_num s =? 0) with false by lia. eexists. split; reflexivity.
  - eexists. split; reflexivity.
Qed.

Lemma message_stuck : forall pre P rest n pos mc, 0 <= n -> shape pre P -> head_not P rest ->
  (rest = [] -> pre <> []) ->
  exists us e b2, SSteps vnext (at_message (map Ok pre ++ rest) n pos mc) (map Ok us ++ [Err e]) b2 /\
    dead b2 /\ order_error pre (n + zlen pre) rest e /\ partial_submessages mc pre rest us.
Proof.
  intros pre P rest n pos mc Hn Hs Hr Hne.
  destruct Hs as [|s0 H0|s0 s1 gs t H0 H1 Hw H3 Hg].
  - destruct rest as [|x rest]; [exfalso; apply Hne; reflexivity|].
    destruct (stuck_start0 9 x rest n pos mc 0 false dflt dflt None dflt dflt dflt dflt dflt Hr) as (b' & Hb & Hd).
    exists [], (stuck_err false (x :: rest) n), b'.
    split. { econstructor; [exact Hb|constructor]. }
    split; [exact Hd|]. split; [|constructor; cbn; lia].
    rewrite zlen_nil, Z.add_0_r. destruct x as [s|e]; cbn [order_error stuck_err andb]; [|reflexivity].
    right. split; [left; discriminate|reflexivity].
  - destruct (stuck_num 8 0 rest (n + 1) mc 0 false s0 dflt None dflt dflt dflt dflt dflt) as (b' & Hb & Hd); [auto|exact Hr|].
    exists [], (stuck_err false rest (n + 1)), b'. split.
    { econstructor; [|constructor]. unfold vsub_next, at_message. cbn [map app].
      change (MkV (Ok s0 :: rest) n None pos mc 0 StartOfMessage false) with
        (pend false (Ok s0) rest n pos mc 0 StartOfMessage false).
      rewrite (turn0 9) by assumption.
      replace (MkV rest (n + 1) None n mc 0 (EndOfSect 0) false) with (MkV rest (n + 1) None (n + 1 - 1) mc 0 (EndOfSect 0) false)
        by (f_equal; lia).
      exact Hb. }
    split; [exact Hd|]. split; [|constructor; cbn; lia].
    unfold zlen. cbn [length]. destruct rest as [|[s|e] rest]; cbn [order_error stuck_err andb].
    + f_equal.
    + right. split; [left; discriminate|reflexivity].
    + reflexivity.
  - assert (T : forall b c e us, vsub_loop lstep 8 (MkVsub (MkV (map Ok (flat_map group_sections gs ++ t) ++ rest) (n + 1 + 1) None (n + 1) mc 0 (EndOfSect 1) false) s0 s1 None dflt) dflt dflt dflt dflt
        = Ret (Some c, b) -> hd_error (map Ok us ++ [Err e]) = Some c -> forall b2, SSteps vnext b (tl (map Ok us ++ [Err e])) b2 ->
        SSteps vnext (at_message (map Ok (s0 :: s1 :: flat_map group_sections gs ++ t) ++ rest) n pos mc) (map Ok us ++ [Err e]) b2).
    { intros b c e us Hb Hc b2 Hs. destruct (map Ok us ++ [Err e]) as [|c' l'] eqn:El; [discriminate|].
      injection Hc as ->. cbn [tl] in Hs. econstructor; [|exact Hs].
      unfold vsub_next, at_message. cbn [map app].
      change (MkV (Ok s0 :: Ok s1 :: (map Ok (flat_map group_sections gs ++ t) ++ rest)) n None pos mc 0 StartOfMessage false)
        with (pend false (Ok s0) (Ok s1 :: (map Ok (flat_map group_sections gs ++ t) ++ rest)) n pos mc 0 StartOfMessage false).
      rewrite (turn0 9) by assumption.
      change (MkV (Ok s1 :: (map Ok (flat_map group_sections gs ++ t) ++ rest)) (n + 1) None n mc 0 (EndOfSect 0) false)
        with (pend false (Ok s1) (map Ok (flat_map group_sections gs ++ t) ++ rest) (n + 1) n mc 0 (EndOfSect 0) false).
      rewrite (turn1 8) by assumption. exact Hb. }
    assert (Un : unfinished (s0 :: s1 :: flat_map group_sections gs ++ t) s0 s1 gs t).
    { split; [reflexivity|]. split; [exact Hw|]. destruct Hg as (g & q & A & B & C & _). exists g, q. auto. }
    assert (Z2 : n + zlen (s0 :: s1 :: flat_map group_sections gs ++ t) = n + 1 + 1 + zlen (flat_map group_sections gs ++ t)) by (rewrite !zlen_cons; lia).
    rewrite Z2.
    destruct (map Ok (flat_map group_sections gs ++ t) ++ rest) as [|x l] eqn:E.
    + apply app_eq_nil in E. destruct E as [E1 ->]. apply map_eq_nil in E1. apply app_eq_nil in E1.
      destruct E1 as [E1 ->]. destruct gs as [|g' gs]; [|destruct (group_sections_nonempty g') as (y & q' & Ey);
        cbn in E1; rewrite Ey in E1; discriminate].
      destruct (stuck_start_end 7 (n + 1 + 1) mc 0 s0 s1 None dflt dflt dflt dflt dflt) as (b' & Hb & Hd).
      exists [], (UnexpectedEndOfData (n + 1 + 1 - 1)), b'. split.
      { eapply T; [|reflexivity|constructor].
        replace (MkV [] (n + 1 + 1) None (n + 1) mc 0 (EndOfSect 1) false) with
          (@MkV (list item) [] (n + 1 + 1) None (n + 1 + 1 - 1) mc 0 (EndOfSect 1) false) by (f_equal; lia).
        exact Hb. }
      split; [exact Hd|]. split; [cbn [order_error flat_map app]; rewrite zlen_nil; f_equal; lia|].
      eapply partial_long; [exact Un|reflexivity|]. intros [|k] v Hv; discriminate Hv.
    + destruct (groups_stuck gs 1 [] t s0 s1 rest (EndOfSect 1) false (n + 1 + 1) (n + 1) mc false None dflt dflt dflt dflt dflt x l)
        as (us & r & b1 & b2 & Hloop & Hsteps & Hhd & Hd & Hl0 & Hl1 & Hl2 & Hall).
      { lia. } { exact Hw. } { left; reflexivity. } { split; [discriminate|congruence]. }
      { split; [reflexivity|]. split; [discriminate|]. right. destruct gs; [exact I|exact H3]. }
      { destruct Hg as (g & q & A & B & C & D). exists g, q. auto. }
      { exact Hr. } { exact E. }
      eexists us, _, b2. split.
      { eapply T; [|exact Hhd|exact Hsteps].
        destruct (map Ok (flat_map group_sections gs ++ t) ++ rest); [discriminate|]. injection E as -> ->.
        exact Hloop. }
      split; [exact Hd|]. split.
      { cbn [app]. destruct rest as [|[s|e] rest]; cbn [order_error stuck_err]; [reflexivity| |reflexivity].
        cbn [length]. rewrite app_length.
        destruct gs as [|g gs].
        - cbn [flat_map length]. destruct t as [|t0 t]; cbn [andb length].
          + destruct (Z.eqb_spec (s_num s) 4) as [F|F]; [left|right]; auto.
          + right. split; [left; lia|reflexivity].
        - cbn [andb]. right. split; [left|reflexivity]. cbn [flat_map]. rewrite app_length.
          destruct (group_sections_nonempty g) as (y & q' & ->). cbn [length]. lia. }
      eapply partial_long; [exact Un| |exact Hall].
      unfold reported. destruct t as [|t0 t]; [|apply Hl1; left; discriminate].
      destruct rest as [|[s|e] rest]; [apply Hl2; reflexivity| |apply Hl2; reflexivity].
      apply Hl1. right. reflexivity.
Qed.

Lemma broken_head : forall pre P rest, shape pre P -> broken pre rest -> head_not P rest /\ (rest = [] -> pre <> []).
Proof.
  intros pre P [|[s|e] rest] Hs Hb; cbn [broken head_not] in *; (split; [|auto || congruence]); auto.
  intros F. apply Hb. exact (shape_may_follow pre P s Hs F).
Qed.

Lemma viable_shape : forall pre, viable pre -> exists P, shape pre P.
Proof.
  intros pre (m & q & Hm & Hq & E). destruct q as [|s q]; [congruence|].
  destruct (shape_of m pre s q Hm E) as (P & Hs & _). exists P. exact Hs.
Qed.

Lemma viable_nil : viable [].
Proof.
  exists (MkMessage (filler 0) (filler 1) [some_group] (filler 8)). eexists. split; [|split; [|reflexivity]].
  - unfold wf_message. cbn. do 3 (split; [reflexivity|]).
    split; [constructor; [exact some_group_wf|constructor]|]. eexists; eexists. split; [reflexivity|discriminate].
  - discriminate.
Qed.

Lemma follow_dec : forall h t x, {follow h t x} + {~ follow h t x}.
Proof.
  intros h t x. unfold follow. destruct (rev t).
  - unfold group_start. destruct (Z.eq_dec x 2); [left; auto|]. destruct (Z.eq_dec x 3); [left; auto|].
    destruct (Z.eq_dec x 4); [|right; lia]. destruct h; [left; auto|right; intros [|[|[]]]; congruence].
  - apply Z.eq_dec.
Qed.

Lemma nexts_dec : forall pre x, {nexts pre x} + {~ nexts pre x}.
Proof.
  intros pre x. unfold nexts. destruct (rev pre) as [|s r]; [apply Z.eq_dec|].
  destruct (s_num s =? 1).
  { destruct (Z.eq_dec x 2); [left; auto|]. destruct (Z.eq_dec x 3); [left; auto|right; lia]. }
  destruct (s_num s =? 7); [|apply Z.eq_dec].
  destruct (Z.eq_dec x 2); [left; auto|]. destruct (Z.eq_dec x 3); [left; auto|].
  destruct (Z.eq_dec x 4); [left; auto|]. destruct (Z.eq_dec x 8); [left; auto|right; lia].
Qed.

Lemma may_follow_dec : forall pre s, viable pre -> {may_follow pre s} + {~ may_follow pre s}.
Proof.
  intros pre s Hv. destruct (nexts_dec pre (s_num s)) as [H|H].
  - left. destruct (viable_shape pre Hv) as (P & Hs). apply (shape_may_follow pre P s Hs).
    apply (shape_nexts pre P Hs). exact H.
  - right. intros (m & q & Hm & E). destruct (shape_of m pre s q Hm E) as (P & Hs & Hp).
    apply H. apply (shape_nexts pre P Hs). exact Hp.
Qed.

(** Every sequence is well-formed or breaks somewhere. *)
Lemma wf_or_broken : forall l pre, viable pre ->
  (exists ms, Forall wf_message ms /\ map Ok pre ++ l = map Ok (flat_map message_sections ms)) \/
  (exists ms pre' rest, Forall wf_message ms /\ viable pre' /\ broken pre' rest /\
     map Ok pre ++ l = map Ok (flat_map message_sections ms ++ pre') ++ rest).
Proof.
  induction l as [|[s|e] l IH]; intros pre Hv.
  - destruct pre as [|p0 pre].
    + left. exists []. split; [constructor|reflexivity].
    + right. exists [], (p0 :: pre), []. split; [constructor|]. split; [exact Hv|]. split; [discriminate|reflexivity].
  - destruct (may_follow_dec pre s Hv) as [(m & q & Hm & E)|Hn].
    2:{ right. exists [], pre, (Ok s :: l). split; [constructor|]. split; [exact Hv|]. split; [exact Hn|reflexivity]. }
    assert (A : map Ok pre ++ Ok s :: l = map Ok (pre ++ [s]) ++ l) by (rewrite map_app, <- app_assoc; reflexivity).
    destruct q as [|q0 q].
    + destruct (IH [] viable_nil) as [(ms & Hms & El)|(ms & pre' & rest & Hms & Hv' & Hb & El)]; cbn [map app] in El.
      * left. exists (m :: ms). split; [constructor; assumption|]. rewrite A, <- E, El. cbn [flat_map]. rewrite map_app. reflexivity.
      * right. exists (m :: ms), pre', rest. split; [constructor; assumption|]. split; [exact Hv'|]. split; [exact Hb|].
        rewrite A, <- E, El. cbn [flat_map]. rewrite !map_app, <- !app_assoc. reflexivity.
    + rewrite A. apply IH. exists m, (q0 :: q). split; [exact Hm|]. split; [discriminate|].
      rewrite <- app_assoc. exact E.
  - right. exists [], pre, (Err e :: l). split; [constructor|]. split; [exact Hv|]. split; [exact I|reflexivity].
Qed.
