(** The value-producing stream over any source of sections behaves as over the list
    of the sections the source yields. *)
From Coq Require Import Lia ZifyBool ZifyNat.
From Verif Require Import Model.Base Model.Errors Model.Sections Model.Parser.
From Verif Require Import Spec.ParserS Proofs.BaseLemmas Proofs.ParserP Proofs.ParserRun Proofs.ParserShape Proofs.ParserSim.

Lemma Steps_in_Run : forall A (it it' : iter A) l a, Steps it (l ++ [a]) it' ->
  forall l' e, Run it l' e -> In a l'.
Proof.
  intros A it it' l a H. remember (l ++ [a]) as k eqn:Ek. revert l Ek.
  induction H as [it|it it1 it' x k En HS IH]; intros l Ek l' e HR.
  - destruct l; discriminate.
  - inversion HR as [? ? En'|? En'|? it2 y l'' ? En' HR']; subst; rewrite En in En'; try discriminate.
    injection En' as <- <-. destruct l as [|z l]; injection Ek as -> Ek.
    + left; reflexivity.
    + right. exact (IH l Ek l'' e HR').
Qed.

Section Src.
  Context {S : Type} (step : S -> outcome (option item * S)).
  Notation V1 := (validator S).
  Notation V2 := (validator (list item)).
  Definition live (v1 : V1) (v2 : V2) : Prop := Run (MkIter S (v_src v1) step) (v_src v2) End.
  Definition rest_of (v : V2) := (v_count v, v_peeked v, v_pos v, v_mc v, v_smc v, v_state v, v_has3 v).
  Definition rest_of1 (v : V1) := (v_count v, v_peeked v, v_pos v, v_mc v, v_smc v, v_state v, v_has3 v).
  Definition eqf v1 v2 := rest_of1 v1 = rest_of v2.

  Lemma pk_next_src : forall v1 v2, eqf v1 v2 -> live v1 v2 ->
    exists x v1' v2', pk_next step v1 = Ret (x, v1') /\ pk_next lstep v2 = Ret (x, v2') /\ eqf v1' v2' /\
      (x = None \/ live v1' v2').
  Proof.
    intros [a1 b1 c1 d1 e1 f1 g1 h1] [a2 b2 c2 d2 e2 f2 g2 h2] E L. unfold eqf, rest_of, rest_of1, live in *.
    cbn in E, L. injection E as -> -> -> -> -> -> ->. unfold pk_next. cbn [v_peeked v_src v_count].
    destruct c2 as [r|].
    - do 3 eexists. split; [reflexivity|]. split; [reflexivity|]. split; [reflexivity|]. right. exact L.
    - unfold enum_next. cbn [v_src v_count].
      inversion L as [? ? En| |? it' x l' ? En L']; subst; rewrite next_mk in En;
        destruct (step a1) as [[[y|] s']| |]; cbn [bind] in En; try discriminate.
      + cbn [lstep bind]. do 3 eexists. split; [reflexivity|]. split; [reflexivity|]. split; [reflexivity|]. left; reflexivity.
      + injection En as -> <-. cbn [lstep bind]. do 3 eexists. split; [reflexivity|]. split; [reflexivity|]. split; [reflexivity|].
        right. exact L'.
  Qed.

  Lemma pk_peek_src : forall v1 v2, eqf v1 v2 -> live v1 v2 ->
    exists x v1' v2', pk_peek step v1 = Ret (x, v1') /\ pk_peek lstep v2 = Ret (x, v2') /\ eqf v1' v2' /\
      (x = None \/ live v1' v2').
  Proof.
    intros [a1 b1 c1 d1 e1 f1 g1 h1] [a2 b2 c2 d2 e2 f2 g2 h2] E L. unfold eqf, rest_of, rest_of1, live in *.
    cbn in E, L. injection E as -> -> -> -> -> -> ->. unfold pk_peek. cbn [v_peeked v_src v_count].
    destruct c2 as [r|].
    - do 3 eexists. split; [reflexivity|]. split; [reflexivity|]. split; [reflexivity|]. right. exact L.
    - unfold enum_next. cbn [v_src v_count].
      inversion L as [? ? En| |? it' x l' ? En L']; subst; rewrite next_mk in En;
        destruct (step a1) as [[[y|] s']| |]; cbn [bind] in En; try discriminate.
      + cbn [lstep bind]. do 3 eexists. split; [reflexivity|]. split; [reflexivity|]. split; [reflexivity|]. left; reflexivity.
      + injection En as -> <-. cbn [lstep bind]. do 3 eexists. split; [reflexivity|]. split; [reflexivity|]. split; [reflexivity|].
        right. exact L'.
  Qed.

  Definition vrel (v1 : V1) (v2 : V2) : Prop := eqf v1 v2 /\ (v_state v2 = EndOfStream \/ live v1 v2).

  Definition out_rel {A} (x : outcome (option A * V1)) (y : outcome (option A * V2)) : Prop :=
    match x, y with
    | Panic, Panic => True
    | Ret (r, v1), Ret (r', v2) => r = r' /\ eqf v1 v2 /\ (r = None \/ vrel v1 v2)
    | _, _ => False
    end.

  Ltac start v1 v2 H L :=
    destruct (pk_next_src v1 v2 H L) as (x & w1 & w2 & -> & -> & He & Hx); cbn [bind];
    destruct w1 as [a1 b1 c1 d1 e1 f1 g1 h1]; destruct w2 as [a2 b2 c2 d2 e2 f2 g2 h2];
    unfold eqf, rest_of, rest_of1 in He; cbn in He; injection He as -> -> -> -> -> -> ->;
    destruct x as [[p [s|e]]|]; (destruct Hx as [Hx|Hx]; [try discriminate Hx|]);
    cbn [set_state set_pos set_has3 v_src v_count v_peeked v_pos v_mc v_smc v_state v_has3].
  Ltac fin := unfold v_err, v_ok; cbn [out_rel set_state set_pos set_has3 v_src v_count v_peeked v_pos v_mc v_smc v_state v_has3];
    split; [reflexivity|]; split; [reflexivity|]; first [left; reflexivity | right; split; [reflexivity|]; first [left; reflexivity | right; assumption]].

  Lemma ensure_num_src : forall v1 v2 n, eqf v1 v2 -> live v1 v2 ->
    out_rel (ensure_sect_num step v1 n) (ensure_sect_num lstep v2 n).
  Proof.
    intros v1 v2 n H L. unfold ensure_sect_num. start v1 v2 H L; try fin.
    destruct (s_num s =? n); fin.
  Qed.

  Lemma ensure0_src : forall v1 v2, eqf v1 v2 -> live v1 v2 ->
    out_rel (ensure_sect0 step v1) (ensure_sect0 lstep v2).
  Proof.
    intros v1 v2 H L. unfold ensure_sect0. start v1 v2 H L; try fin.
    destruct (s_num s =? 0); fin.
  Qed.

  Lemma ensure234_src : forall v1 v2, eqf v1 v2 -> live v1 v2 ->
    out_rel (ensure_sect_2_or_3_or_4 step v1) (ensure_sect_2_or_3_or_4 lstep v2).
  Proof.
    intros v1 v2 H L. unfold ensure_sect_2_or_3_or_4. start v1 v2 H L; try fin.
    destruct (s_num s =? 2); [fin|]. destruct (s_num s =? 3); [fin|]. destruct (s_num s =? 4); [|fin].
    destruct h2; fin.
  Qed.

  Lemma ensure8_src : forall v1 v2, eqf v1 v2 -> live v1 v2 ->
    out_rel (ensure_sect8 step v1) (ensure_sect8 lstep v2).
  Proof.
    intros v1 v2 H L. unfold ensure_sect8.
    destruct (pk_peek_src v1 v2 H L) as (x & y1 & y2 & -> & -> & Hy & Hz); cbn [bind].
    destruct x as [[p0 [q0|q0]]|].
    - destruct Hz as [Hz|Hz]; [discriminate|]. destruct (s_num q0 =? 8).
      + start y1 y2 Hy Hz; try exact I.
        cbn [out_rel reinitialize_message v_src v_count v_peeked v_pos v_mc v_smc v_state v_has3].
        split; [reflexivity|]. split; [reflexivity|]. right. split; [reflexivity|]. right. exact Hx.
      + destruct y1 as [a1 b1 c1 d1 e1 f1 g1 h1]; destruct y2 as [a2 b2 c2 d2 e2 f2 g2 h2].
        unfold eqf, rest_of, rest_of1 in Hy; cbn in Hy; injection Hy as -> -> -> -> -> -> ->.
        cbn [out_rel reinitialize_message v_src v_count v_peeked v_pos v_mc v_smc v_state v_has3].
        split; [reflexivity|]. split; [reflexivity|]. right. split; [reflexivity|]. right. exact Hz.
    - destruct Hz as [Hz|Hz]; [discriminate|]. start y1 y2 Hy Hz; try exact I; fin.
    - clear Hz. destruct y1 as [a1 b1 c1 d1 e1 f1 g1 h1]; destruct y2 as [a2 b2 c2 d2 e2 f2 g2 h2].
      unfold eqf, rest_of, rest_of1 in Hy; cbn in Hy; injection Hy as -> -> -> -> -> -> ->. fin.
  Qed.

  Lemma v_next_src : forall v1 v2, vrel v1 v2 -> out_rel (v_next step v1) (v_next lstep v2).
  Proof.
    intros v1 v2 [H L]. unfold v_next.
    assert (Es : v_state v1 = v_state v2) by (unfold eqf, rest_of, rest_of1 in H; congruence).
    rewrite Es. destruct L as [L|L].
    - rewrite L. split; [reflexivity|]. split; [exact H|left; reflexivity].
    - destruct (v_state v2) as [| |n|].
      + apply ensure0_src; assumption.
      + apply ensure234_src; assumption.
      + destruct n as [|n|n]; [apply ensure_num_src; assumption| |exact I].
        assert (Hs : eqf (set_has3 v1 true) (set_has3 v2 true)).
        { destruct v1, v2. unfold eqf, rest_of, rest_of1 in *. cbn in *. congruence. }
        destruct n as [[[]|[]|]|[[]|[]|]|]; try exact I;
          first [apply ensure_num_src; assumption|apply ensure234_src; assumption|apply ensure8_src; assumption].
      + split; [reflexivity|]. split; [exact H|left; reflexivity].
  Qed.

  Definition brel (b1 : @vsub S) (b2 : @vsub (list item)) : Prop :=
    vrel (vs_v b1) (vs_v b2) /\ vs_0 b1 = vs_0 b2 /\ vs_1 b1 = vs_1 b2 /\ vs_2 b1 = vs_2 b2 /\ vs_3 b1 = vs_3 b2.

  Definition bout_rel {A} (x : outcome (option A * @vsub S)) (y : outcome (option A * @vsub (list item))) : Prop :=
    match x, y with
    | Panic, Panic => True
    | Diverge, Diverge => True
    | Ret (r, b1), Ret (r', b2) => r = r' /\ (r = None \/ brel b1 b2)
    | _, _ => False
    end.

  Lemma vsub_loop_src : forall f b1 b2 c4 c5 c6 c7, brel b1 b2 ->
    bout_rel (vsub_loop step f b1 c4 c5 c6 c7) (vsub_loop lstep f b2 c4 c5 c6 c7).
  Proof.
    induction f as [|f IH]; intros b1 b2 c4 c5 c6 c7 (Hv & E0 & E1 & E2 & E3); [exact I|].
    cbn [vsub_loop]. rewrite E0, E1, E2, E3.
    pose proof (v_next_src _ _ Hv) as P.
    destruct (v_next step (vs_v b1)) as [[r v1']| |]; destruct (v_next lstep (vs_v b2)) as [[r' v2']| |]; cbn [out_rel bind] in *;
      try contradiction; try exact I.
    destruct P as (<- & He & P).
    destruct r as [[[[[p mc] smc] s]|e]|].
    - destruct P as [P|P]; [discriminate|].
      destruct (s_num s) as [|n|n]; [|destruct n as [[[]|[[]|[]|]|]|[[]|[[]|[]|]|]|]; try exact I|exact I].
      all: try (apply IH; unfold brel; cbn [vs_v vs_0 vs_1 vs_2 vs_3]; auto; fail).
      destruct (p =? 0); (split; [reflexivity|]); right; unfold brel, vs_clear; cbn [vs_v vs_0 vs_1 vs_2 vs_3]; auto.
    - destruct P as [P|P]; [discriminate|]. split; [reflexivity|]. right. unfold brel; cbn [vs_v vs_0 vs_1 vs_2 vs_3]; auto.
    - split; [reflexivity|]. left; reflexivity.
  Qed.

  Lemma vloop_none : forall f (b : @vsub S) v c4 c5 c6 c7, v_next step (vs_v b) = Ret (None, v) ->
    vsub_loop step (Datatypes.S f) b c4 c5 c6 c7 = Ret (None, MkVsub v (vs_0 b) (vs_1 b) (vs_2 b) (vs_3 b)).
  Proof. intros f b v c4 c5 c6 c7 E. cbn [vsub_loop]. rewrite E. reflexivity. Qed.

  Lemma vsub_next_src : forall b1 b2, brel b1 b2 -> bout_rel (vsub_next step b1) (vsub_next lstep b2).
  Proof. intros b1 b2. exact (vsub_loop_src 10 b1 b2 _ _ _ _). Qed.

  Lemma SSteps_src : forall l b2 b2', SSteps (vsub_next lstep) b2 l b2' -> forall b1, brel b1 b2 ->
    exists b1', SSteps (vsub_next step) b1 l b1' /\ brel b1' b2'.
  Proof.
    intros l b2 b2' H. induction H as [b2|b2 b3 b2' a l E _ IH]; intros b1 Hb.
    - exists b1. split; [constructor|exact Hb].
    - pose proof (vsub_next_src b1 b2 Hb) as P. rewrite E in P.
      destruct (vsub_next step b1) as [[r b1']| |] eqn:E1; cbn [bout_rel] in P; try contradiction.
      destruct P as [-> [P|P]]; [discriminate|].
      destruct (IH b1' P) as (b1'' & HS & Hr). exists b1''. split; [|exact Hr]. econstructor; [exact E1|exact HS].
  Qed.

  Lemma brel_new : forall s l, Run (MkIter S s step) l End -> brel (vsub_new s) (vsub_new l).
  Proof.
    intros s l H. unfold brel, vsub_new. cbn [vs_v vs_0 vs_1 vs_2 vs_3]. split; [|auto].
    split; [reflexivity|]. right. exact H.
  Qed.

  (** Over a source whose sections are [l]. *)
  Lemma stream_wf : forall s ms l, Run (MkIter S s step) l End -> Forall wf_message ms ->
    l = map Ok (flat_map message_sections ms) ->
    exists us, Run (MkIter _ (vsub_new s) (vsub_next step)) (map Ok us) End /\ submessages_of_all 0 ms us.
  Proof.
    intros s ms l HR Hw ->.
    destruct (messages_run ms [] 0 0 0 ltac:(lia) Hw) as (us & n' & pos' & HS & -> & HU).
    rewrite app_nil_r in HS. exists us. split; [|exact HU].
    destruct (SSteps_src _ _ _ HS (vsub_new s) (brel_new s _ HR)) as (b1 & HS1 & (HV & _)).
    pose proof (v_next_src _ _ HV) as P.
    change (v_next lstep (vs_v (at_message [] (0 + zlen (flat_map message_sections ms)) pos' (0 + zlen ms))))
      with (@Ret (option (result (Z * Z * Z * section) parse_error) * V2) (None, vs_v (at_message [] (0 + zlen (flat_map message_sections ms)) pos' (0 + zlen ms)))) in P.
    destruct (v_next step (vs_v b1)) as [[r v]| |] eqn:E; cbn [out_rel] in P; try contradiction.
    destruct P as (-> & _ & _).
    assert (En : exists b2, vsub_next step b1 = Ret (None, b2)).
    { eexists. exact (vloop_none 9 b1 v _ _ _ _ E). }
    destruct En as (b2 & En).
    eapply SSteps_Run_end; [exact HS1|exact En].
  Qed.

  Lemma only_none_dead : forall n (b : @vsub S), v_state (vs_v b) = EndOfStream ->
    only_none n (MkIter _ b (vsub_next step)).
  Proof.
    induction n as [|n IH]; intros b H; [exact I|]. cbn [only_none].
    exists (MkIter _ b (vsub_next step)). split; [|apply IH; exact H].
    rewrite next_mk, dead_vnext by exact H. reflexivity.
  Qed.

  Lemma stream_broken : forall s ms pre rest l, Run (MkIter S s step) l End -> Forall wf_message ms ->
    viable pre -> broken pre rest -> l = map Ok (flat_map message_sections ms ++ pre) ++ rest ->
    exists us us' e it',
      submessages_of_all 0 ms us /\ partial_submessages (zlen ms) pre rest us' /\
      order_error pre (zlen (flat_map message_sections ms ++ pre)) rest e /\
      Steps (MkIter _ (vsub_new s) (vsub_next step)) (map Ok us ++ map Ok us' ++ [Err e]) it' /\
      forall n, only_none n it'.
  Proof.
    intros s ms pre rest l HR Hw Hv Hb ->.
    destruct (viable_shape pre Hv) as (P & Hs). destruct (broken_head pre P rest Hs Hb) as (Hh & Hne).
    destruct (messages_run ms (map Ok pre ++ rest) 0 0 0 ltac:(lia) Hw) as (us & n' & pos' & HS & -> & HU).
    pose proof (zlen_nonneg _ (flat_map message_sections ms)) as Hz.
    destruct (message_stuck pre P rest (0 + zlen (flat_map message_sections ms)) pos' (0 + zlen ms) ltac:(lia) Hs Hh Hne)
      as (us' & e & b2 & HS' & Hd & He & Hp).
    rewrite map_app, <- app_assoc in HR.
    destruct (SSteps_src _ _ _ (SSteps_app _ _ _ _ _ _ HS _ _ HS') (vsub_new s) (brel_new s _ HR)) as (b1 & HS1 & ((HV & _) & _)).
    exists us, us', e, (MkIter _ b1 (vsub_next step)).
    split; [exact HU|]. split; [exact Hp|].
    split. { rewrite zlen_app. replace (zlen (flat_map message_sections ms) + zlen pre) with (0 + zlen (flat_map message_sections ms) + zlen pre) by lia. exact He. }
    split. { apply SSteps_Steps. exact HS1. }
    intros n. apply only_none_dead. unfold dead in Hd. unfold eqf, rest_of, rest_of1 in HV. congruence.
  Qed.

  Lemma stream_iff : forall s l, Run (MkIter S s step) l End ->
    (exists us, Run (MkIter _ (vsub_new s) (vsub_next step)) (map Ok us) End) <->
    (exists ms, Forall wf_message ms /\ l = map Ok (flat_map message_sections ms)).
  Proof.
    intros s l HR. split.
    - intros (us & Hus). destruct (wf_or_broken l [] viable_nil) as [(ms & Hw & E)|(ms & pre & rest & Hw & Hv & Hb & E)]; cbn [map app] in E.
      + exists ms. auto.
      + exfalso. destruct (stream_broken s ms pre rest l HR Hw Hv Hb E) as (us1 & us2 & e & it' & _ & _ & _ & HS & _).
        assert (F : In (Err e) (map Ok us)).
        { rewrite app_assoc in HS. exact (Steps_in_Run _ _ _ _ _ HS _ _ Hus). }
        apply in_map_iff in F. destruct F as (u & F & _). discriminate.
    - intros (ms & Hw & E). destruct (stream_wf s ms l HR Hw E) as (us & H & _). exists us. exact H.
  Qed.
End Src.
