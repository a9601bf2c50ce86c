(** The value-producing stream over a source of sections that crashes, or of which only
    the first items are known. *)
From Coq Require Import Lia ZifyBool ZifyNat.
From Verif Require Import Model.Base Model.Errors Model.Sections Model.Parser.
From Verif Require Import Spec.ParserS Proofs.BaseLemmas Proofs.ParserP Proofs.ParserRun Proofs.ParserShape Proofs.ParserSim Proofs.ParserSrc.

(** What lies at the mark: nothing known, or a crash. *)
Inductive kind := KNone | KCrash | KAny.
Notation mark := NotGRIB.

Section Stop.
  Context {S : Type} (step : S -> outcome (option item * S)) (k : kind).
  Notation V1 := (validator S).
  Notation V2 := (validator (list item)).

  Inductive feeds : S -> list item -> Prop :=
  | f_end : forall s s', k = KNone -> step s = Ret (None, s') -> feeds s []
  | f_ok : forall s x s' l, step s = Ret (Some (Ok x), s') -> feeds s' l -> feeds s (Ok x :: l)
  | f_err : forall s e s' l, k = KNone -> step s = Ret (Some (Err e), s') -> feeds s (Err e :: l)
  | f_crash : forall s l, k = KCrash -> step s = Panic -> feeds s (Err mark :: l)
  | f_any : forall s l, k = KAny -> feeds s (Err mark :: l).

  Definition at_mark {A} (x : outcome A) : Prop :=
    match k with KNone => False | KCrash => x = Panic | KAny => True end.

  Definition live (v1 : V1) (v2 : V2) : Prop := feeds (v_src v1) (v_src v2).
  Definition rest_of (v : V2) := (v_count v, v_peeked v, v_pos v, v_mc v, v_smc v, v_state v, v_has3 v).
  Definition rest_of1 (v : V1) := (v_count v, v_peeked v, v_pos v, v_mc v, v_smc v, v_state v, v_has3 v).
  Definition eqf v1 v2 := rest_of1 v1 = rest_of v2.

  (** The peeked item is never the mark. *)
  Definition pkok (v : V2) : Prop := k = KNone \/ forall p, v_peeked v <> Some (Some (p, Err mark)).
  Definition xok (x : option (Z * item)) : Prop := k = KNone \/ forall p, x <> Some (p, Err mark).
  Definition errx (x : option (Z * item)) : Prop := match x with Some (_, Ok _) => False | _ => True end.

  Lemma pk_next_src : forall v1 v2, eqf v1 v2 -> pkok v2 -> live v1 v2 ->
    (exists p v2', at_mark (pk_next step v1) /\ pk_next lstep v2 = Ret (Some (p, Err mark), v2')) \/
    exists x v1' v2', pk_next step v1 = Ret (x, v1') /\ pk_next lstep v2 = Ret (x, v2') /\ eqf v1' v2' /\ xok x /\
      v_peeked v2' = None /\ (errx x \/ live v1' v2').
  Proof.
    intros [a1 b1 c1 d1 e1 f1 g1 h1] [a2 b2 c2 d2 e2 f2 g2 h2] E HP L. unfold eqf, rest_of, rest_of1, live, pkok, xok, at_mark in *.
    cbn in E, L, HP. injection E as -> -> -> -> -> -> ->. unfold pk_next. cbn [v_peeked v_src v_count].
    destruct c2 as [r|].
    - right. do 3 eexists. split; [reflexivity|]. split; [reflexivity|]. split; [reflexivity|].
      split. { destruct HP as [HP|HP]; [left; exact HP|right]. intros p F. apply (HP p). congruence. }
      split; [reflexivity|]. right. exact L.
    - unfold enum_next. cbn [v_src v_count].
      inversion L as [s s' K En|s x s' l En L'|s e s' l K En|s l K En|s l K]; subst.
      + right. rewrite En. cbn [lstep bind]. do 3 eexists. split; [reflexivity|]. split; [reflexivity|]. split; [reflexivity|].
        split; [left; exact K|]. split; [reflexivity|left; exact I].
      + right. rewrite En. cbn [lstep bind]. do 3 eexists. split; [reflexivity|]. split; [reflexivity|]. split; [reflexivity|].
        split; [right; discriminate|]. split; [reflexivity|]. right. exact L'.
      + right. rewrite En. cbn [lstep bind]. do 3 eexists. split; [reflexivity|]. split; [reflexivity|]. split; [reflexivity|].
        split; [left; exact K|]. split; [reflexivity|left; exact I].
      + left. rewrite En. rewrite K. cbn [lstep bind]. do 2 eexists. split; reflexivity.
      + left. rewrite K. cbn [lstep bind]. do 2 eexists. split; [exact I|reflexivity].
  Qed.

  Lemma pk_peek_src : forall v1 v2, eqf v1 v2 -> pkok v2 -> live v1 v2 ->
    (exists p v2', at_mark (pk_peek step v1) /\ pk_peek lstep v2 = Ret (Some (p, Err mark), v2') /\
       v_peeked v2' = Some (Some (p, Err mark))) \/
    exists x v1' v2', pk_peek step v1 = Ret (x, v1') /\ pk_peek lstep v2 = Ret (x, v2') /\ eqf v1' v2' /\ xok x /\
      v_peeked v2' = Some x /\ (errx x \/ live v1' v2').
  Proof.
    intros [a1 b1 c1 d1 e1 f1 g1 h1] [a2 b2 c2 d2 e2 f2 g2 h2] E HP L. unfold eqf, rest_of, rest_of1, live, pkok, xok, at_mark in *.
    cbn in E, L, HP. injection E as -> -> -> -> -> -> ->. unfold pk_peek. cbn [v_peeked v_src v_count].
    destruct c2 as [r|].
    - right. do 3 eexists. split; [reflexivity|]. split; [reflexivity|]. split; [reflexivity|].
      split. { destruct HP as [HP|HP]; [left; exact HP|right]. intros p F. apply (HP p). congruence. }
      split; [reflexivity|]. right. exact L.
    - unfold enum_next. cbn [v_src v_count].
      inversion L as [s s' K En|s x s' l En L'|s e s' l K En|s l K En|s l K]; subst.
      + right. rewrite En. cbn [lstep bind]. do 3 eexists. split; [reflexivity|]. split; [reflexivity|]. split; [reflexivity|].
        split; [left; exact K|]. split; [reflexivity|left; exact I].
      + right. rewrite En. cbn [lstep bind]. do 3 eexists. split; [reflexivity|]. split; [reflexivity|]. split; [reflexivity|].
        split; [right; discriminate|]. split; [reflexivity|]. right. exact L'.
      + right. rewrite En. cbn [lstep bind]. do 3 eexists. split; [reflexivity|]. split; [reflexivity|]. split; [reflexivity|].
        split; [left; exact K|]. split; [reflexivity|left; exact I].
      + left. rewrite En. rewrite K. cbn [lstep bind]. do 2 eexists. split; [reflexivity|]. split; reflexivity.
      + left. rewrite K. cbn [lstep bind]. do 2 eexists. split; [exact I|]. split; reflexivity.
  Qed.

  Definition vrel (v1 : V1) (v2 : V2) : Prop := eqf v1 v2 /\ pkok v2 /\ (v_state v2 = EndOfStream \/ live v1 v2).

  Definition out_rel {A} (x : outcome (option (result A parse_error) * V1)) (y : outcome (option (result A parse_error) * V2)) : Prop :=
    (at_mark x /\ exists v2, y = Ret (Some (Err mark), v2)) \/
    match x, y with
    | Panic, Panic => True
    | Ret (r, v1), Ret (r', v2) => r = r' /\ (k = KNone \/ r <> Some (Err mark)) /\ eqf v1 v2 /\ (r = None \/ vrel v1 v2)
    | _, _ => False
    end.

  Lemma at_mark_bind : forall A B (x : outcome A) (f : A -> outcome B), at_mark x -> at_mark (bind x f).
  Proof. unfold at_mark. intros A B x f H. destruct k; auto. rewrite H. reflexivity. Qed.

  Ltac start v1 v2 H HP L :=
    let P := fresh in let Px := fresh in
    destruct (pk_next_src v1 v2 H HP L) as [(p & w2 & P & Px)|(x & w1 & w2 & P & Px & He & Hk & Hpk & Hx)]; rewrite ?Px;
    [left; split; [apply at_mark_bind; exact P|eexists; reflexivity]|right; rewrite P; cbn [bind]; clear P Px];
    destruct w1 as [a1 b1 c1 d1 e1 f1 g1 h1]; destruct w2 as [a2 b2 c2 d2 e2 f2 g2 h2];
    unfold eqf, rest_of, rest_of1 in He; cbn in He; injection He as -> -> -> -> -> -> ->; cbn in Hpk;
    destruct x as [[p [s|e]]|]; (destruct Hx as [Hx|Hx]; [try contradiction Hx|]);
    cbn [set_state set_pos set_has3 v_src v_count v_peeked v_pos v_mc v_smc v_state v_has3].
  Ltac fin Hk := unfold v_err, v_ok; cbn [set_state set_pos set_has3 v_src v_count v_peeked v_pos v_mc v_smc v_state v_has3];
    split; [reflexivity|]; split; [first [right; discriminate | destruct Hk as [Hk|Hk]; [left; exact Hk|right; intros F; injection F as ->; eapply Hk; reflexivity]]|];
    split; [reflexivity|]; first [left; reflexivity | right; split; [reflexivity|]; split; [right; intros ?; cbn; subst; discriminate|]; first [left; reflexivity | right; assumption]].

  Lemma ensure_num_src : forall v1 v2 n, eqf v1 v2 -> pkok v2 -> live v1 v2 ->
    out_rel (ensure_sect_num step v1 n) (ensure_sect_num lstep v2 n).
  Proof.
    intros v1 v2 n H HP L. unfold ensure_sect_num. start v1 v2 H HP L; try fin Hk.
    destruct (s_num s =? n); fin Hk.
  Qed.

  Lemma ensure0_src : forall v1 v2, eqf v1 v2 -> pkok v2 -> live v1 v2 ->
    out_rel (ensure_sect0 step v1) (ensure_sect0 lstep v2).
  Proof.
    intros v1 v2 H HP L. unfold ensure_sect0. start v1 v2 H HP L; try fin Hk.
    destruct (s_num s =? 0); fin Hk.
  Qed.

  Lemma ensure234_src : forall v1 v2, eqf v1 v2 -> pkok v2 -> live v1 v2 ->
    out_rel (ensure_sect_2_or_3_or_4 step v1) (ensure_sect_2_or_3_or_4 lstep v2).
  Proof.
    intros v1 v2 H HP L. unfold ensure_sect_2_or_3_or_4. start v1 v2 H HP L; try fin Hk.
    destruct (s_num s =? 2); [fin Hk|]. destruct (s_num s =? 3); [fin Hk|]. destruct (s_num s =? 4); [|fin Hk].
    destruct h2; fin Hk.
  Qed.

  Lemma pk_next_peeked : forall A (st : A -> outcome (option item * A)) v x, v_peeked v = Some x ->
    pk_next st v = Ret (x, set_src v (v_src v) (v_count v) None).
  Proof. intros A st v x H. unfold pk_next. rewrite H. reflexivity. Qed.

  Lemma ensure8_src : forall v1 v2, eqf v1 v2 -> pkok v2 -> live v1 v2 ->
    out_rel (ensure_sect8 step v1) (ensure_sect8 lstep v2).
  Proof.
    intros v1 v2 H HP L. unfold ensure_sect8.
    destruct (pk_peek_src v1 v2 H HP L) as [(p & w2 & Hm & Ey & Epk)|(x & y1 & y2 & Ex & Ey & Hy & Hk & Hpk & Hz)]; rewrite Ey.
    - left. split; [apply at_mark_bind; exact Hm|]. cbn [bind]. rewrite (pk_next_peeked _ lstep w2 _ Epk). cbn [bind].
      eexists. reflexivity.
    - rewrite Ex. cbn [bind]. clear Ex Ey. right.
      destruct y1 as [a1 b1 c1 d1 e1 f1 g1 h1]; destruct y2 as [a2 b2 c2 d2 e2 f2 g2 h2].
      unfold eqf, rest_of, rest_of1 in Hy; cbn in Hy; injection Hy as -> -> -> -> -> -> ->; cbn in Hpk. subst c2.
      destruct x as [[p0 [q0|q0]]|]; (destruct Hz as [Hz|Hz]; [try contradiction Hz|]).
      + destruct (s_num q0 =? 8).
        * unfold pk_next. cbn [bind set_src set_pos reinitialize_message v_src v_count v_peeked v_pos v_mc v_smc v_state v_has3].
          split; [reflexivity|]. split; [right; discriminate|]. split; [reflexivity|]. right. split; [reflexivity|].
          split; [right; cbn; intros ? F; discriminate F|]. right. exact Hz.
        * cbn [reinitialize_message v_src v_count v_peeked v_pos v_mc v_smc v_state v_has3].
          split; [reflexivity|]. split; [right; discriminate|]. split; [reflexivity|]. right. split; [reflexivity|].
          split; [right; intros ?; discriminate|]. right. exact Hz.
      + unfold pk_next. cbn [bind set_src set_pos reinitialize_message v_src v_count v_peeked v_pos v_mc v_smc v_state v_has3]. fin Hk.
      + unfold pk_next. cbn [bind set_src set_pos reinitialize_message v_src v_count v_peeked v_pos v_mc v_smc v_state v_has3]. fin Hk.
      + fin Hk.
      + fin Hk.
  Qed.

  Lemma v_next_src : forall v1 v2, vrel v1 v2 -> out_rel (v_next step v1) (v_next lstep v2).
  Proof.
    intros v1 v2 (H & HP & L). unfold v_next.
    assert (Es : v_state v1 = v_state v2) by (unfold eqf, rest_of, rest_of1 in H; congruence).
    rewrite Es. destruct L as [L|L].
    - rewrite L. right. split; [reflexivity|]. split; [right; discriminate|]. split; [exact H|left; reflexivity].
    - destruct (v_state v2) as [| |n|].
      + apply ensure0_src; assumption.
      + apply ensure234_src; assumption.
      + destruct n as [|n|n]; [apply ensure_num_src; assumption| |right; exact I].
        assert (Hs : eqf (set_has3 v1 true) (set_has3 v2 true)).
        { destruct v1, v2. unfold eqf, rest_of, rest_of1 in *. cbn in *. congruence. }
        destruct n as [[[]|[]|]|[[]|[]|]|]; try (right; exact I);
          first [apply ensure_num_src; assumption|apply ensure234_src; assumption|apply ensure8_src; assumption].
      + right. split; [reflexivity|]. split; [right; discriminate|]. split; [exact H|left; reflexivity].
  Qed.

  Definition brel (b1 : @vsub S) (b2 : @vsub (list item)) : Prop :=
    vrel (vs_v b1) (vs_v b2) /\ vs_0 b1 = vs_0 b2 /\ vs_1 b1 = vs_1 b2 /\ vs_2 b1 = vs_2 b2 /\ vs_3 b1 = vs_3 b2.

  Definition bout_rel {A} (x : outcome (option (result A parse_error) * @vsub S))
    (y : outcome (option (result A parse_error) * @vsub (list item))) : Prop :=
    (at_mark x /\ exists b2, y = Ret (Some (Err mark), b2)) \/
    match x, y with
    | Panic, Panic => True
    | Diverge, Diverge => True
    | Ret (r, b1), Ret (r', b2) => r = r' /\ (k = KNone \/ r <> Some (Err mark)) /\ (r = None \/ brel b1 b2)
    | _, _ => False
    end.

  Lemma vsub_loop_src : forall f b1 b2 c4 c5 c6 c7, brel b1 b2 ->
    bout_rel (vsub_loop step f b1 c4 c5 c6 c7) (vsub_loop lstep f b2 c4 c5 c6 c7).
  Proof.
    induction f as [|f IH]; intros b1 b2 c4 c5 c6 c7 (Hv & E0 & E1 & E2 & E3); [right; exact I|].
    cbn [vsub_loop]. rewrite E0, E1, E2, E3.
    destruct (v_next_src _ _ Hv) as [(Hm & v2 & ->)|P].
    { left. split; [apply at_mark_bind; exact Hm|]. cbn [bind]. eexists. reflexivity. }
    destruct (v_next step (vs_v b1)) as [[r v1']| |]; destruct (v_next lstep (vs_v b2)) as [[r' v2']| |]; cbn [bind] in *;
      try contradiction; try (right; exact I).
    destruct P as (<- & Hk & He & P).
    destruct r as [[[[[p mc] smc] s]|e]|].
    - destruct P as [P|P]; [discriminate|].
      destruct (s_num s) as [|n|n]; [|destruct n as [[[]|[[]|[]|]|]|[[]|[[]|[]|]|]|]; try (right; exact I)|right; exact I].
      all: try (apply IH; unfold brel; cbn [vs_v vs_0 vs_1 vs_2 vs_3]; auto; fail).
      destruct (p =? 0); right; (split; [reflexivity|]); (split; [right; discriminate|]); right; unfold brel, vs_clear; cbn [vs_v vs_0 vs_1 vs_2 vs_3]; auto.
    - destruct P as [P|P]; [discriminate|]. right. split; [reflexivity|].
      split. { destruct Hk as [Hk|Hk]; [left; exact Hk|right; intros F; apply Hk; congruence]. }
      right. unfold brel; cbn [vs_v vs_0 vs_1 vs_2 vs_3]; auto.
    - right. split; [reflexivity|]. split; [right; discriminate|left; reflexivity].
  Qed.

  Lemma vsub_next_src : forall b1 b2, brel b1 b2 -> bout_rel (vsub_next step b1) (vsub_next lstep b2).
  Proof. intros b1 b2. exact (vsub_loop_src 10 b1 b2 _ _ _ _). Qed.

  Lemma SSteps_src : forall l b2 b2', SSteps (vsub_next lstep) b2 l b2' -> ~ In (Err mark) l \/ k = KNone -> forall b1, brel b1 b2 ->
    exists b1', SSteps (vsub_next step) b1 l b1' /\ brel b1' b2'.
  Proof.
    intros l b2 b2' H. induction H as [b2|b2 b3 b2' a l E _ IH]; intros Hn b1 Hb.
    - exists b1. split; [constructor|exact Hb].
    - destruct (vsub_next_src b1 b2 Hb) as [(Hm & b4 & E4)|P].
      { exfalso. rewrite E in E4. injection E4 as -> _. destruct Hn as [Hn|Hn]; [apply Hn; left; reflexivity|].
        unfold at_mark in Hm. rewrite Hn in Hm. exact Hm. }
      rewrite E in P. destruct (vsub_next step b1) as [[r b1']| |] eqn:E1; try contradiction.
      destruct P as (-> & _ & [P|P]); [discriminate|].
      destruct (IH ltac:(destruct Hn as [Hn|Hn]; [left; intros F; apply Hn; right; exact F|right; exact Hn]) b1' P) as (b1'' & HS & Hr).
      exists b1''. split; [|exact Hr]. econstructor; [exact E1|exact HS].
  Qed.

  Lemma brel_new : forall s l, feeds s l -> brel (vsub_new s) (vsub_new l).
  Proof.
    intros s l H. unfold brel, vsub_new. cbn [vs_v vs_0 vs_1 vs_2 vs_3]. split; [|auto].
    split; [reflexivity|]. split; [right; intros p; discriminate|]. right. exact H.
  Qed.
End Stop.

Section Api.
  Context {S : Type} (step : S -> outcome (option item * S)).

  Lemma feeds_steps : forall k s l s', SSteps step s (map Ok l) s' -> forall rest, feeds step k s' rest ->
    feeds step k s (map Ok l ++ rest).
  Proof.
    intros k s l s' H. remember (map Ok l) as q eqn:Eq. revert l Eq.
    induction H as [s|s s1 s' a q E HS IH]; intros l Eq rest HF; [exact HF|].
    destruct l as [|x l]; [discriminate|]. injection Eq as -> Eq. cbn [app].
    eapply f_ok; [exact E|]. exact (IH l Eq rest HF).
  Qed.

  (** A source that crashes after a beginning that is in order. *)
  Lemma value_crash : forall s s' ms pre, SSteps step s (map Ok (flat_map message_sections ms ++ pre)) s' -> step s' = Panic ->
    Forall wf_message ms -> viable pre ->
    exists us us', submessages_of_all 0 ms us /\ partial_submessages (zlen ms) pre [Err mark] us' /\
      Run (MkIter _ (vsub_new s) (vsub_next step)) (map Ok (us ++ us')) Crash.
  Proof.
    intros s s' ms pre HS HP Hw Hv.
    pose proof (feeds_steps KCrash s _ s' HS [Err mark] (f_crash step KCrash s' [] eq_refl HP)) as HF.
    destruct (viable_shape pre Hv) as (P & Hs). destruct (broken_head pre P [Err mark] Hs I) as (Hh & Hne).
    destruct (messages_run ms (map Ok pre ++ [Err mark]) 0 0 0 ltac:(lia) Hw) as (us & n' & pos' & HS1 & -> & HU).
    pose proof (zlen_nonneg _ (flat_map message_sections ms)) as Hz.
    destruct (message_stuck pre P [Err mark] (0 + zlen (flat_map message_sections ms)) pos' (0 + zlen ms) ltac:(lia) Hs Hh Hne)
      as (us' & e & b2 & HS2 & Hd & He & Hp). cbn [order_error] in He. subst e.
    rewrite map_app, <- app_assoc in HF.
    assert (HS3 : SSteps (vsub_next lstep) (at_message (map Ok (flat_map message_sections ms) ++ map Ok pre ++ [Err mark]) 0 0 0) (map Ok (us ++ us') ++ [Err mark]) b2).
    { rewrite map_app, <- app_assoc. eapply SSteps_app; eassumption. }
    exists us, us'. split; [exact HU|]. split; [exact Hp|].
    assert (HS4 : exists b3, SSteps (vsub_next lstep) (vsub_new (map Ok (flat_map message_sections ms) ++ map Ok pre ++ [Err mark])) (map Ok (us ++ us')) b3 /\
       vsub_next lstep b3 = Ret (Some (Err mark), b2)).
    { clear - HS3. unfold at_message in HS3. remember (map Ok (us ++ us') ++ [Err mark]) as q eqn:Eq.
      change (vsub_new (map Ok (flat_map message_sections ms) ++ map Ok pre ++ [Err mark])) with
        (MkVsub (MkV (map Ok (flat_map message_sections ms) ++ map Ok pre ++ [Err mark]) 0 None 0 0 0 StartOfMessage false) dflt dflt None dflt).
      revert Eq. generalize (us ++ us'). induction HS3 as [s|s s1 s' a q E HS IH]; intros l Eq.
      - destruct l; discriminate.
      - destruct l as [|u l].
        + cbn [map app] in Eq. injection Eq as -> ->. inversion HS; subst. exists s. split; [constructor|exact E].
        + cbn [map app] in Eq. injection Eq as -> ->. destruct (IH l eq_refl) as (b3 & A & B).
          exists b3. split; [econstructor; eassumption|exact B]. }
    destruct HS4 as (b3 & HS4 & E4).
    destruct (SSteps_src step KCrash _ _ _ HS4) with (b1 := vsub_new s) as (b1 & HS5 & Hr).
    { left. intros F. apply in_map_iff in F. destruct F as (? & ? & _). discriminate. }
    { apply brel_new. exact HF. }
    assert (E5 : vsub_next step b1 = Panic).
    { destruct (vsub_next_src step KCrash b1 b3 Hr) as [(Hm & _)|Q]; [exact Hm|]. rewrite E4 in Q.
      destruct (vsub_next step b1) as [[r b4]| |]; try contradiction. destruct Q as (-> & [F|F] & _); [discriminate|congruence]. }
    apply SSteps_Steps in HS5. rewrite <- (app_nil_r (map Ok (us ++ us'))).
    clear - HS5 E5. remember (MkIter _ b1 (vsub_next step)) as it1 eqn:E1. revert E1.
    induction HS5 as [it|it it1 it' a l E HS IH]; intros E1; [subst it; eapply Run_crash; rewrite next_mk, E5; reflexivity|].
    cbn [app]. econstructor; [exact E|]. apply IH. exact E1.
  Qed.

  (** A source with something out of order. *)
  Lemma value_stop : forall s s' ms pre rest, SSteps step s (map Ok (flat_map message_sections ms ++ pre)) s' ->
    (match rest with
     | [] => exists s2, step s' = Ret (None, s2)
     | x :: _ => exists s2, step s' = Ret (Some x, s2)
     end) ->
    Forall wf_message ms -> viable pre -> broken pre rest ->
    exists us us' e it', submessages_of_all 0 ms us /\ partial_submessages (zlen ms) pre rest us' /\
      order_error pre (zlen (flat_map message_sections ms ++ pre)) rest e /\
      Steps (MkIter _ (vsub_new s) (vsub_next step)) (map Ok us ++ map Ok us' ++ [Err e]) it' /\
      (forall n, only_none n it') /\
      Run (MkIter _ (vsub_new s) (vsub_next step)) (map Ok (us ++ us') ++ [Err e]) End.
  Proof.
    intros s s' ms pre rest HS HP Hw Hv Hb.
    set (k := match rest with Ok _ :: _ => KAny | _ => KNone end).
    set (rest' := match rest with Ok x :: _ => [Ok x; Err mark] | _ => rest end).
    assert (HF : feeds step k s (map Ok (flat_map message_sections ms ++ pre) ++ rest')).
    { eapply feeds_steps; [exact HS|]. unfold k, rest'. destruct rest as [|[x|e] rest].
      - destruct HP as (s2 & HP). eapply f_end; [reflexivity|exact HP].
      - destruct HP as (s2 & HP). eapply f_ok; [exact HP|]. apply f_any. reflexivity.
      - destruct HP as (s2 & HP). eapply f_err; [reflexivity|exact HP]. }
    assert (Hb' : broken pre rest') by (unfold rest'; destruct rest as [|[x|e] rest]; exact Hb).
    destruct (viable_shape pre Hv) as (P & Hs). destruct (broken_head pre P rest' Hs Hb') as (Hh & Hne).
    destruct (messages_run ms (map Ok pre ++ rest') 0 0 0 ltac:(lia) Hw) as (us & n' & pos' & HS1 & -> & HU).
    pose proof (zlen_nonneg _ (flat_map message_sections ms)) as Hz.
    destruct (message_stuck pre P rest' (0 + zlen (flat_map message_sections ms)) pos' (0 + zlen ms) ltac:(lia) Hs Hh Hne)
      as (us' & e & b2 & HS2 & Hd & He & Hp).
    rewrite map_app, <- app_assoc in HF.
    assert (HE : k = KNone \/ e <> mark).
    { unfold k, rest' in *. destruct rest as [|[x|e'] rest]; [left; reflexivity| |left; reflexivity].
      right. intros ->. cbn [order_error] in He. destruct He as [(_ & _ & F)|(_ & F)]; discriminate. }
    destruct (SSteps_src step k _ _ _ (SSteps_app _ _ _ _ _ _ HS1 _ _ HS2)) with (b1 := vsub_new s) as (b1 & HS5 & Hr).
    { destruct HE as [HE|HE]; [right; exact HE|left]. intros F.
      apply in_app_or in F. destruct F as [F|F]; [apply in_map_iff in F; destruct F as (? & ? & _); discriminate|].
      apply in_app_or in F. destruct F as [F|[F|[]]]; [apply in_map_iff in F; destruct F as (? & ? & _); discriminate|congruence]. }
    { apply brel_new. exact HF. }
    exists us, us', e. eexists. split; [exact HU|].
    split. { revert Hp. unfold rest'. destruct rest as [|[x|e'] rest]; intros Hp; try exact Hp.
             destruct Hp as [A|s0 s1 gs t us' A B C]; [constructor; exact A|econstructor; eassumption]. }
    split. { rewrite zlen_app. unfold rest' in He. destruct rest as [|[x|e'] rest]; exact He. }
    assert (Hd1 : v_state (vs_v b1) = EndOfStream).
    { destruct Hr as ((HV & _) & _). unfold dead in Hd. unfold eqf, rest_of, rest_of1 in HV. congruence. }
    split; [apply SSteps_Steps; exact HS5|]. split; [intros n; apply only_none_dead; exact Hd1|].
    rewrite map_app, <- app_assoc. eapply SSteps_Run_end; [exact HS5|]. apply dead_vnext. exact Hd1.
  Qed.
End Api.
