(** The two submessage streams run in lockstep, over any source of sections. *)
From Coq Require Import Lia ZifyBool ZifyNat.
From Verif Require Import Model.Base Model.Errors Model.Sections Model.Parser.
From Verif Require Import Spec.ParserS Proofs.BaseLemmas Proofs.ParserP Proofs.ParserRun.

(** Moves of the validator on a section that is in order. *)
Inductive trans : vstate -> bool -> Z -> vstate -> bool -> Prop :=
| t_0 : forall h, trans StartOfMessage h 0 (EndOfSect 0) h
| t_1 : forall h, trans (EndOfSect 0) h 1 (EndOfSect 1) h
| t_2 : forall st h, at_group st -> trans st h 2 (EndOfSect 2) h
| t_3 : forall st h, at_group st -> trans st h 3 (EndOfSect 3) true
| t_4 : forall st, at_group st -> trans st true 4 (EndOfSect 4) true
| t_23 : forall h, trans (EndOfSect 2) h 3 (EndOfSect 3) true
| t_num : forall k h, 3 <= k <= 6 -> trans (EndOfSect k) h (k + 1) (EndOfSect (k + 1)) h
| t_8 : forall h, trans (EndOfSect 7) h 8 StartOfMessage false.

Section Trace.
  Context {S : Type} (step : S -> outcome (option item * S)) (s0 : S).

  Definition trace (v : validator S) (seen : list section) : Prop :=
    exists pk, SSteps step s0 (map Ok seen ++ pk) (v_src v) /\
      v_count v = zlen seen + zlen pk /\
      match v_peeked v with
      | None => pk = []
      | Some (Some (n, x)) => n = zlen seen /\ pk = [x]
      | Some None => False
      end.

  Definition same_but_src (v v' : validator S) : Prop :=
    v_pos v' = v_pos v /\ v_mc v' = v_mc v /\ v_smc v' = v_smc v /\ v_state v' = v_state v /\ v_has3 v' = v_has3 v.

  Lemma SSteps_snoc : forall A (st : S -> outcome (option A * S)) a l b x c,
    SSteps st a l b -> st b = Ret (Some x, c) -> SSteps st a (l ++ [x]) c.
  Proof. intros. eapply SSteps_app; [eassumption|]. econstructor; [eassumption|constructor]. Qed.

  Lemma SSteps_Run_end : forall A (st : S -> outcome (option A * S)) a l b c,
    SSteps st a l b -> st b = Ret (None, c) -> Run (MkIter S a st) l End.
  Proof.
    intros A st a l b c H. induction H; intros E.
    - econstructor. rewrite next_mk, E. reflexivity.
    - econstructor; [rewrite next_mk, H; reflexivity|]. apply IHSSteps. exact E.
  Qed.

  Lemma pk_next_trace : forall v seen x v', trace v seen -> pk_next step v = Ret (x, v') ->
    same_but_src v v' /\
    match x with
    | None => Run (MkIter S s0 step) (map Ok seen) End
    | Some (n, Ok s) => n = zlen seen /\ trace v' (seen ++ [s])
    | Some (n, Err e) => SSteps step s0 (map Ok seen ++ [Err e]) (v_src v')
    end.
  Proof.
    intros v seen x v' (pk & Hs & Hc & Hp) E. unfold pk_next in E.
    destruct (v_peeked v) as [[[n y]|]|] eqn:Epk; [| destruct Hp |].
    - injection E as <- <-. split; [repeat split|]. destruct Hp as [-> ->].
      destruct y as [s|e]; [|cbn [set_src v_src]; exact Hs]. split; [reflexivity|]. exists [].
      cbn [set_src v_src v_count v_peeked]. rewrite map_app, app_nil_r. cbn [map].
      split; [exact Hs|]. split; [|reflexivity]. rewrite Hc, zlen_app, !zlen_cons, !zlen_nil. lia.
    - subst pk. rewrite app_nil_r in Hs. unfold enum_next in E.
      destruct (step (v_src v)) as [[[y|] s']| |] eqn:Es; cbn [bind] in E; try discriminate.
      + injection E as <- <-. split; [repeat split|]. cbn [set_src v_src].
        pose proof (SSteps_snoc _ _ _ _ _ _ _ Hs Es) as Hs'.
        destruct y as [s|e]; [|exact Hs'].
        split. { rewrite Hc, zlen_nil. lia. }
        exists []. cbn [set_src v_src v_count v_peeked]. rewrite map_app, app_nil_r. cbn [map].
        split; [exact Hs'|]. split; [|rewrite Epk; reflexivity].
        rewrite Hc, !zlen_app, !zlen_cons, !zlen_nil. lia.
      + injection E as <- <-. split; [repeat split|]. exact (SSteps_Run_end _ _ _ _ _ _ Hs Es).
  Qed.

  Lemma pk_peek_trace : forall v seen x v', trace v seen -> pk_peek step v = Ret (x, v') ->
    same_but_src v v' /\ v_peeked v' = Some x /\
    match x with
    | None => Run (MkIter S s0 step) (map Ok seen) End
    | Some (n, y) => n = zlen seen /\ trace v' seen
    end.
  Proof.
    intros v seen x v' (pk & Hs & Hc & Hp) E. unfold pk_peek in E.
    destruct (v_peeked v) as [[[n y]|]|] eqn:Epk; [| destruct Hp |].
    - injection E as <- <-. split; [repeat split|]. split; [exact Epk|]. destruct Hp as [-> ->]. split; [reflexivity|].
      exists [y]. rewrite Epk. auto.
    - subst pk. rewrite app_nil_r in Hs. unfold enum_next in E.
      destruct (step (v_src v)) as [[[y|] s']| |] eqn:Es; cbn [bind] in E; try discriminate.
      + injection E as <- <-. split; [repeat split|]. split; [reflexivity|].
        pose proof (SSteps_snoc _ _ _ _ _ _ _ Hs Es) as Hs'.
        rewrite zlen_nil in Hc. split; [lia|].
        exists [y]. cbn [set_src v_src v_count v_peeked].
        split; [exact Hs'|]. split; [rewrite zlen_cons, zlen_nil; lia|]. split; [lia|reflexivity].
      + injection E as <- <-. split; [repeat split|]. split; [reflexivity|].
        exact (SSteps_Run_end _ _ _ _ _ _ Hs Es).
  Qed.


  Definition v_post (v : validator S) (seen : list section)
    (r : option (result (Z * Z * Z * section) parse_error)) (v' : validator S) : Prop :=
    match r with
    | None => v_state v = StartOfMessage /\ v_state v' = StartOfMessage /\ Run (MkIter S s0 step) (map Ok seen) End
    | Some (Err e) => v_state v' = EndOfStream
    | Some (Ok (p, mc, smc, s)) =>
        mc = v_mc v /\ smc = v_smc v /\
        ((p = zlen seen /\ trace v' (seen ++ [s]) /\
          trans (v_state v) (v_has3 v) (s_num s) (v_state v') (v_has3 v')) \/
         (p = 0 /\ s = new_8 0 /\ trace v' seen /\ v_state v = EndOfSect 7 /\
          v_state v' = StartOfSubmessage /\ v_has3 v' = v_has3 v))
    end.

  Lemma trace_fields : forall v v' seen, v_src v' = v_src v -> v_count v' = v_count v -> v_peeked v' = v_peeked v ->
    trace v seen -> trace v' seen.
  Proof. intros v v' seen E1 E2 E3 (pk & A & B & C). exists pk. rewrite E1, E2, E3. auto. Qed.

  Ltac done_trace := (eapply trace_fields; [| | |eassumption]; reflexivity).

  Lemma ensure_num_post : forall v seen num r v', trace v seen ->
    ensure_sect_num step v num = Ret (r, v') ->
    match r with
    | None => False
    | Some (Err e) => v_state v' = EndOfStream
    | Some (Ok (p, mc, smc, s)) => mc = v_mc v /\ smc = v_smc v /\ p = zlen seen /\ trace v' (seen ++ [s]) /\
        s_num s = num /\ v_state v' = EndOfSect num /\ v_has3 v' = v_has3 v
    end.
  Proof.
    intros v seen num r v' Ht E. unfold ensure_sect_num in E.
    destruct (pk_next step v) as [[x w]| |] eqn:Epk; cbn [bind] in E; try discriminate.
    destruct (pk_next_trace v seen x w Ht Epk) as ((F1 & F2 & F3 & F4 & F5) & Hx).
    destruct x as [[p [s|e]]|].
    - destruct Hx as [-> Hx]. destruct (Z.eqb_spec (s_num s) num) as [En|En].
      + unfold v_ok in E. injection E as <- <-. cbn [set_pos set_state v_pos v_mc v_smc v_state v_has3].
        rewrite F2, F3, F5. repeat (split; [reflexivity|]). split; [|auto]. done_trace.
      + unfold v_err in E. injection E as <- <-. reflexivity.
    - unfold v_err in E. injection E as <- <-. reflexivity.
    - unfold v_err in E. injection E as <- <-. reflexivity.
  Qed.

  Lemma v_next_post : forall v seen r v', trace v seen -> v_state v <> EndOfStream ->
    v_next step v = Ret (r, v') -> v_post v seen r v'.
  Proof.
    intros v seen r v' Ht Hne E. unfold v_next in E. unfold v_post.
    assert (G : forall v0 num, trace v0 seen -> v_mc v0 = v_mc v -> v_smc v0 = v_smc v ->
      trans (v_state v) (v_has3 v) num (EndOfSect num) (v_has3 v0) ->
      ensure_sect_num step v0 num = Ret (r, v') ->
      match r with
      | None => v_state v = StartOfMessage /\ v_state v' = StartOfMessage /\ Run (MkIter S s0 step) (map Ok seen) End
      | Some (Err e) => v_state v' = EndOfStream
      | Some (Ok (p, mc, smc, s)) =>
        mc = v_mc v /\ smc = v_smc v /\
        ((p = zlen seen /\ trace v' (seen ++ [s]) /\
          trans (v_state v) (v_has3 v) (s_num s) (v_state v') (v_has3 v')) \/
         (p = 0 /\ s = new_8 0 /\ trace v' seen /\ v_state v = EndOfSect 7 /\
          v_state v' = StartOfSubmessage /\ v_has3 v' = v_has3 v))
      end).
    { intros v0 num H0 M0 M1 T En. pose proof (ensure_num_post v0 seen num r v' H0 En) as P.
      destruct r as [[[[[p mc] smc] s]|e]|]; [|exact P|destruct P].
      destruct P as (-> & -> & -> & P1 & P2 & P3 & P4). rewrite P2, P3, P4.
      split; [exact M0|]. split; [exact M1|]. left. auto. }
    assert (G2 : at_group (v_state v) -> ensure_sect_2_or_3_or_4 step v = Ret (r, v') ->
      match r with
      | None => v_state v = StartOfMessage /\ v_state v' = StartOfMessage /\ Run (MkIter S s0 step) (map Ok seen) End
      | Some (Err e) => v_state v' = EndOfStream
      | Some (Ok (p, mc, smc, s)) =>
        mc = v_mc v /\ smc = v_smc v /\
        ((p = zlen seen /\ trace v' (seen ++ [s]) /\
          trans (v_state v) (v_has3 v) (s_num s) (v_state v') (v_has3 v')) \/
         (p = 0 /\ s = new_8 0 /\ trace v' seen /\ v_state v = EndOfSect 7 /\
          v_state v' = StartOfSubmessage /\ v_has3 v' = v_has3 v))
      end).
    { intros Hg En. unfold ensure_sect_2_or_3_or_4 in En.
      destruct (pk_next step v) as [[x w]| |] eqn:Epk; cbn [bind] in En; try discriminate.
      destruct (pk_next_trace v seen x w Ht Epk) as ((F1 & F2 & F3 & F4 & F5) & Hx).
      destruct x as [[p [s|e]]|].
      - destruct Hx as [-> Hx].
        destruct (Z.eqb_spec (s_num s) 2) as [E2|E2].
        { injection En as <- <-. cbn [set_pos set_state v_pos v_mc v_smc v_state v_has3]. rewrite F2, F3, F5, E2.
          split; [reflexivity|]. split; [reflexivity|]. left. split; [reflexivity|]. split; [done_trace|]. apply t_2; exact Hg. }
        destruct (Z.eqb_spec (s_num s) 3) as [E3|E3].
        { injection En as <- <-. cbn [set_has3 set_pos set_state v_pos v_mc v_smc v_state v_has3]. rewrite F2, F3, E3.
          split; [reflexivity|]. split; [reflexivity|]. left. split; [reflexivity|]. split; [done_trace|]. apply t_3; exact Hg. }
        destruct (Z.eqb_spec (s_num s) 4) as [E4|E4].
        2:{ injection En as <- <-. reflexivity. }
        cbn [set_pos v_has3] in En. rewrite F5 in En. destruct (v_has3 v) eqn:Eh; [|injection En as <- <-; reflexivity].
        injection En as <- <-. cbn [set_pos set_state v_pos v_mc v_smc v_state v_has3]. rewrite F2, F3, F5, E4.
        split; [reflexivity|]. split; [reflexivity|]. left. split; [reflexivity|]. split; [done_trace|]. apply t_4; exact Hg.
      - injection En as <- <-. reflexivity.
      - injection En as <- <-. reflexivity. }
    destruct (v_state v) as [| |n|] eqn:Est; [| | |congruence].
    - unfold ensure_sect0 in E.
      destruct (pk_next step v) as [[x w]| |] eqn:Epk; cbn [bind] in E; try discriminate.
      destruct (pk_next_trace v seen x w Ht Epk) as ((F1 & F2 & F3 & F4 & F5) & Hx).
      destruct x as [[p [s|e]]|].
      + destruct Hx as [-> Hx]. destruct (Z.eqb_spec (s_num s) 0) as [En|En].
        * injection E as <- <-. cbn [set_pos set_state v_pos v_mc v_smc v_state v_has3]. rewrite F2, F3, F5, En.
          split; [reflexivity|]. split; [reflexivity|]. left. split; [reflexivity|]. split; [done_trace|]. constructor.
        * injection E as <- <-. reflexivity.
      + injection E as <- <-. reflexivity.
      + injection E as <- <-. rewrite F4, Est. auto.
    - apply G2; [right; reflexivity|exact E].
    - destruct n as [|n|n]; [apply (G v 1); auto; constructor| |discriminate].
      assert (Hcase : EndOfSect (Zpos n) = EndOfSect 1 \/ n = 2%positive \/ n = 3%positive \/ n = 4%positive \/ n = 5%positive \/ n = 6%positive \/ n = 7%positive \/ False).
      { destruct n as [[[]|[]|]|[[]|[]|]|]; try discriminate; auto 10. }
      destruct Hcase as [Hc|[->|[->|[->|[->|[->|[->|[]]]]]]]].
      + injection Hc as ->. apply G2; [left; reflexivity|exact E].
      + apply (G (set_has3 v true) 3); auto. apply t_23.
      + apply (G v 4); auto. apply (t_num 3). lia.
      + apply (G v 5); auto. apply (t_num 4). lia.
      + apply (G v 6); auto. apply (t_num 5). lia.
      + apply (G v 7); auto. apply (t_num 6). lia.
      + unfold ensure_sect8 in E.
        destruct (pk_peek step v) as [[x w]| |] eqn:Epk; cbn [bind] in E; try discriminate.
        destruct (pk_peek_trace v seen x w Ht Epk) as ((F1 & F2 & F3 & F4 & F5) & Fp & Hx).
        destruct x as [[p [s|e]]|].
        * destruct Hx as [-> Hx]. destruct (Z.eqb_spec (s_num s) 8) as [En|En].
          -- unfold pk_next in E. rewrite Fp in E. cbn [bind] in E. injection E as <- <-.
             cbn [set_pos set_src reinitialize_message v_pos v_mc v_smc v_state v_has3].
             split; [exact F2|]. split; [exact F3|]. left. split; [reflexivity|]. split; [|rewrite En; constructor].
             destruct Hx as (pk & A & B & C). rewrite Fp in C. destruct C as [_ ->].
             exists []. cbn [v_src v_count v_peeked]. rewrite app_nil_r, map_app. split; [exact A|].
             split; [|reflexivity]. rewrite B. unfold zlen. rewrite app_length. cbn [length]. cbn [reinitialize_message v_count]. lia.
          -- injection E as <- <-. cbn [v_pos v_mc v_smc v_state v_has3].
             split; [exact F2|]. split; [exact F3|]. right.
             split; [reflexivity|]. split; [reflexivity|]. split; [done_trace|]. auto.
        * destruct (pk_next step w) as [[[[q [?|?]]|] w']| |]; cbn [bind] in E; try discriminate.
          injection E as <- <-. reflexivity.
        * injection E as <- <-. reflexivity.
  Qed.

  (** Some call reachable from the start never returns. *)
  Definition step_diverges : Prop := exists l s, SSteps step s0 l s /\ step s = Diverge.
  Lemma pk_next_div : forall v seen, trace v seen -> pk_next step v = Diverge -> step_diverges.
  Proof.
    intros v seen (pk & HS & _) E. unfold pk_next in E. destruct (v_peeked v); [discriminate|]. unfold enum_next in E.
    destruct (step (v_src v)) as [[[y|] s']| |] eqn:Es; cbn [bind] in E; try discriminate. eexists _, (v_src v). split; eassumption.
  Qed.
  Lemma pk_peek_div : forall v seen, trace v seen -> pk_peek step v = Diverge -> step_diverges.
  Proof.
    intros v seen (pk & HS & _) E. unfold pk_peek in E. destruct (v_peeked v); [discriminate|]. unfold enum_next in E.
    destruct (step (v_src v)) as [[[y|] s']| |] eqn:Es; cbn [bind] in E; try discriminate. eexists _, (v_src v). split; eassumption.
  Qed.
  Lemma pk_next_peeked : forall v x, v_peeked v = Some x -> pk_next step v <> Diverge.
  Proof. intros v x E. unfold pk_next. rewrite E. discriminate. Qed.
  Lemma v_next_div : forall v seen, trace v seen -> v_next step v = Diverge -> step_diverges.
  Proof.
    assert (N : forall v seen num, trace v seen -> ensure_sect_num step v num = Diverge -> step_diverges).
    { intros v seen num Ht E. unfold ensure_sect_num in E. destruct (pk_next step v) as [[[[p [s|e]]|] w]| |] eqn:Ep; cbn [bind] in E; try discriminate.
      - destruct (s_num s =? num); discriminate.
      - exact (pk_next_div _ _ Ht Ep). }
    assert (G : forall v seen, trace v seen -> ensure_sect_2_or_3_or_4 step v = Diverge -> step_diverges).
    { intros v seen Ht E. unfold ensure_sect_2_or_3_or_4 in E. destruct (pk_next step v) as [[[[p [s|e]]|] w]| |] eqn:Ep; cbn [bind] in E; try discriminate.
      - destruct (s_num s =? 2); [discriminate|]. destruct (s_num s =? 3); [discriminate|]. destruct (s_num s =? 4); [|discriminate].
        destruct (v_has3 _); discriminate.
      - exact (pk_next_div _ _ Ht Ep). }
    intros v seen Ht E. unfold v_next in E. destruct (v_state v) as [| |n|].
    - unfold ensure_sect0 in E. destruct (pk_next step v) as [[[[p [s|e]]|] w]| |] eqn:Ep; cbn [bind] in E; try discriminate.
      + destruct (s_num s =? 0); discriminate.
      + exact (pk_next_div _ _ Ht Ep).
    - exact (G _ _ Ht E).
    - assert (E8 : ensure_sect8 step v = Diverge -> step_diverges).
      { intros E'. unfold ensure_sect8 in E'. destruct (pk_peek step v) as [[[[p [s|e]]|] w]| |] eqn:Ep; cbn [bind] in E'; try discriminate.
        all: try (destruct (pk_peek_trace _ _ _ _ Ht Ep) as (_ & Pk & _)).
        - destruct (s_num s =? 8); [|discriminate].
          destruct (pk_next step w) as [[[[p' [s'|e']]|] w']| |] eqn:Ep'; cbn [bind] in E'; try discriminate. exact (False_ind _ (pk_next_peeked _ _ Pk Ep')).
        - destruct (pk_next step w) as [[[[p' [s'|e']]|] w']| |] eqn:Ep'; cbn [bind] in E'; try discriminate. exact (False_ind _ (pk_next_peeked _ _ Pk Ep')).
        - exact (pk_peek_div _ _ Ht Ep). }
      destruct n as [|n|n]; [exact (N _ _ _ Ht E)| |discriminate].
      destruct n as [[[]|[]|]|[[]|[]|]|]; try discriminate; first [exact (N _ _ _ Ht E)|eapply N; [|exact E]; eapply trace_fields; [| | |exact Ht]; reflexivity|exact (G _ _ Ht E)|exact (E8 E)].
    - discriminate.
  Qed.
End Trace.

Section Joint.
  Context {S : Type} (step : S -> outcome (option item * S)) (s0 : S).
  Notation src0 := (MkIter S s0 step).

  Definition ptr (seen : list section) (s : section) (p : Z) : Prop :=
    0 <= p /\ nth_error seen (Z.to_nat p) = Some s.
  Definition optr (seen : list section) (o : option section) (q : option Z) : Prop :=
    match o, q with None, None => True | Some s, Some p => ptr seen s p | _, _ => False end.

  Lemma ptr_app : forall seen s p l, ptr seen s p -> ptr (seen ++ l) s p.
  Proof.
    intros seen s p l [H E]. split; [exact H|]. rewrite nth_error_app1; [exact E|].
    apply nth_error_Some. congruence.
  Qed.
  Lemma optr_app : forall seen o q l, optr seen o q -> optr (seen ++ l) o q.
  Proof. intros seen [s|] [p|] l; cbn; auto. apply ptr_app. Qed.
  Lemma ptr_last : forall seen s, ptr (seen ++ [s]) s (zlen seen).
  Proof.
    intros seen s. split; [apply zlen_nonneg|]. unfold zlen. rewrite Nat2Z.id, nth_error_app2, Nat.sub_diag by lia.
    reflexivity.
  Qed.

  (** Which cached indices are meaningful in which state. *)
  Definition caches (seen : list section) (st : vstate) (h : bool) c0 c1 c2 c3 (d0 d1 : Z) d2 d3 : Prop :=
    (st <> StartOfMessage -> seen <> []) /\
    (st <> StartOfMessage -> ptr seen c0 d0) /\
    (st <> StartOfMessage -> st <> EndOfSect 0 -> ptr seen c1 d1) /\
    optr seen c2 d2 /\
    (h = true -> ptr seen c3 d3) /\
    (forall k, st = EndOfSect k -> 3 <= k -> h = true).
  Definition locals (seen : list section) (st : vstate) c4 c5 c6 c7 (d4 d5 d6 d7 : Z) : Prop :=
    forall k, st = EndOfSect k ->
      (4 <= k -> ptr seen c4 d4) /\ (5 <= k -> ptr seen c5 d5) /\ (6 <= k -> ptr seen c6 d6) /\ (7 <= k -> ptr seen c7 d7).

  Definition joint (b : @vsub S) (c : @isub S) (seen : list section) : Prop :=
    is_v c = vs_v b /\ rev (is_log c) = seen /\
    v_state (vs_v b) <> EndOfStream /\ trace step s0 (vs_v b) seen /\
    caches seen (v_state (vs_v b)) (v_has3 (vs_v b)) (vs_0 b) (vs_1 b) (vs_2 b) (vs_3 b) (is_0 c) (is_1 c) (is_2 c) (is_3 c).

  Definition between (st : vstate) : Prop := st = StartOfMessage \/ st = StartOfSubmessage.

  Lemma trace_points : forall v seen s p, trace step s0 v seen -> ptr seen s p -> points src0 s p.
  Proof.
    intros v seen s p (pk & Hs & _) [Hp E]. split; [exact Hp|].
    exists (map Ok seen ++ pk), (MkIter S (v_src v) step). split; [apply SSteps_Steps; exact Hs|].
    rewrite nth_error_app1 by (rewrite map_length; apply nth_error_Some; congruence).
    rewrite nth_error_map, E. reflexivity.
  Qed.

  (** How one call of [next] on each compares. *)
  Definition fives (l : list section) : Z := zlen (filter (fun s => s_num s =? 5) l).
  Lemma fives_snoc : forall l s, fives (l ++ [s]) = fives l + (if s_num s =? 5 then 1 else 0).
  Proof. intros l s. unfold fives. rewrite filter_app, zlen_app. cbn [filter]. destruct (s_num s =? 5); reflexivity. Qed.
  Definition before5 (st : vstate) : bool :=
    match st with StartOfMessage | StartOfSubmessage => true | EndOfSect k => k <=? 4 | EndOfStream => false end.
  Definition rank (st : vstate) : Z :=
    match st with StartOfMessage => 0 | StartOfSubmessage => 2 | EndOfSect k => k + 1 | EndOfStream => 0 end.

  Definition lockstep (n : Z) (x : outcome (option (result (submessage section) parse_error) * @vsub S))
                      (y : outcome (option (result (submessage Z) parse_error) * @isub S)) : Prop :=
    match x, y with
    | Panic, Panic => True
    | Diverge, Diverge => step_diverges step s0
    | Ret (None, b), Ret (None, c) =>
        is_v c = vs_v b /\
        v_state (vs_v b) = StartOfMessage /\ Run src0 (map Ok (rev (is_log c))) End
    | Ret (Some (Err e), b), Ret (Some (Err e'), c) =>
        e = e' /\ is_v c = vs_v b /\ v_state (vs_v b) = EndOfStream
    | Ret (Some (Ok u), b), Ret (Some (Ok w), c) =>
        same_submessage src0 u w /\ between (v_state (vs_v b)) /\
        exists seen, joint b c seen /\ n <= fives seen
    | _, _ => False
    end.

  Lemma snoc_nonempty : forall (l : list section) x, l ++ [x] <> [].
  Proof. intros l x. destruct l; discriminate. Qed.

  Ltac ngo := match goal with |- _ <> _ => intro; discriminate | _ => idtac end.
  Ltac cch A B C D E F :=
    unfold caches; split; [intros _; apply snoc_nonempty|];
    split; [intros ?; first [apply ptr_last | apply ptr_app, B; first [discriminate|assumption] | congruence]|];
    split; [intros ? ?; first [apply ptr_last | apply ptr_app, C; first [discriminate|assumption] | congruence]|];
    split; [first [exact (ptr_last _ _) | apply optr_app; exact D]|];
    split; [intros ?; first [apply ptr_last | apply ptr_app, E; first [assumption|reflexivity|congruence] | discriminate]|];
    intros k' Hk Hk'; try discriminate; try reflexivity; injection Hk as <-; try lia; auto.

  Lemma loop_lockstep : forall f b c seen c4 c5 c6 c7 d4 d5 d6 d7,
    joint b c seen -> locals seen (v_state (vs_v b)) c4 c5 c6 c7 d4 d5 d6 d7 ->
    9 <= Z.of_nat f + rank (v_state (vs_v b)) -> (forall k, v_state (vs_v b) = EndOfSect k -> 0 <= k <= 7) ->
    lockstep (fives seen + if before5 (v_state (vs_v b)) then 1 else 0) (vsub_loop step f b c4 c5 c6 c7) (isub_loop step f c d4 d5 d6 d7).
  Proof.
    induction f as [|f IH]; intros b c seen c4 c5 c6 c7 d4 d5 d6 d7 (Ev & El & Hne & Ht & Hc) Hl Hr Hrk.
    { exfalso. cbn [Z.of_nat Z.add] in Hr. destruct (v_state (vs_v b)) as [| |k|]; cbn [rank] in Hr; try lia; specialize (Hrk k eq_refl); lia. }
    cbn [vsub_loop isub_loop]. rewrite Ev.
    destruct (v_next step (vs_v b)) as [[r v']| |] eqn:En; cbn [bind]; [|exact I|exact (v_next_div step s0 _ _ Ht En)].
    pose proof (v_next_post step s0 _ seen r v' Ht Hne En) as P. unfold v_post in P.
    destruct r as [[[[[p mc] smc] s]|e]|].
    2:{ cbn [lockstep vs_v is_v]. auto. }
    2:{ destruct P as (P1 & P2 & P3). cbn [lockstep vs_v is_v is_log]. split; [reflexivity|].
        rewrite El. auto. }
    destruct P as (-> & -> & [(-> & Ht' & T)|(-> & -> & Ht' & P1 & P2 & P3)]).
    2:{ (* the stand-in for the end section *)
        cbn [new_8 s_num Z.eqb]. cbn [lockstep vs_v is_v]. rewrite P1 in *.
        destruct Hc as (A & B & C & D & E & F). destruct (Hl 7 eq_refl) as (L4 & L5 & L6 & L7).
        specialize (B ltac:(discriminate)). specialize (C ltac:(discriminate) ltac:(discriminate)).
        specialize (F 7 eq_refl ltac:(lia)). specialize (E F).
        split.
        { unfold same_submessage. cbn [u_mi u_si u_0 u_1 u_2 u_3 u_4 u_5 u_6 u_7 u_8 is_0 is_1 is_2 is_3].
          do 2 (split; [reflexivity|]).
          split; [exact (trace_points _ _ _ _ Ht B)|]. split; [exact (trace_points _ _ _ _ Ht C)|].
          split; [destruct (vs_2 b), (is_2 c); cbn in *; auto; exact (trace_points _ _ _ _ Ht D)|].
          split; [exact (trace_points _ _ _ _ Ht E)|].
          split; [exact (trace_points _ _ _ _ Ht (L4 ltac:(lia)))|]. split; [exact (trace_points _ _ _ _ Ht (L5 ltac:(lia)))|].
          split; [exact (trace_points _ _ _ _ Ht (L6 ltac:(lia)))|]. split; [exact (trace_points _ _ _ _ Ht (L7 ltac:(lia)))|].
          right. split; reflexivity. }
        split; [right; exact P2|]. exists seen. split; [|cbn [before5 Z.leb Z.compare Pos.compare Pos.compare_cont]; lia]. unfold joint. cbn [vs_v is_v is_log vs_0 vs_1 vs_2 vs_3 is_0 is_1 is_2 is_3].
        split; [reflexivity|]. split; [exact El|]. rewrite P2. split; [discriminate|]. split; [exact Ht'|].
        unfold caches. split; [intros _; apply A; discriminate|]. split; [auto|]. split; [auto|]. split; [exact D|].
        split; [auto|]. intros k Hk; discriminate. }
    remember (v_state (vs_v b)) as st eqn:Est. remember (v_has3 (vs_v b)) as h eqn:Eh.
    remember (s_num s) as N eqn:EN. remember (v_state v') as st' eqn:Est'. remember (v_has3 v') as h' eqn:Eh'.
    destruct Hc as (A & B & C & D & E & F). unfold locals in Hl.
    Ltac jnt El Ht' Est' Eh' := unfold joint; cbn [vs_v is_v is_log vs_0 vs_1 vs_2 vs_3 is_0 is_1 is_2 is_3 is_cache rev];
      split; [reflexivity|]; split; [rewrite El; reflexivity|]; rewrite <- Est', <- Eh';
      split; [discriminate|]; split; [exact Ht'|].
    assert (G : forall n n' x y, n' <= n -> lockstep n x y -> lockstep n' x y).
    { intros n n' [[[[u|e]|] b']| |] [[[[w|e']|] c']| |] Hn; cbn [lockstep]; auto.
      intros (Q1 & Q2 & sn & Q3 & Q4). split; [exact Q1|]. split; [exact Q2|]. exists sn. split; [exact Q3|lia]. }
    Ltac app IH G s seen Est' EN := eapply G; [|apply (IH _ _ (seen ++ [s]))];
      [cbn [vs_v]; rewrite fives_snoc, <- EN, <- ?Est'; cbn [before5 Z.leb Z.eqb Pos.eqb Z.compare Pos.compare Pos.compare_cont] | | |cbn [vs_v]; rewrite <- Est'; cbn [rank] in *; try lia
      |cbn [vs_v]; rewrite <- Est'; intros k' Hk'; injection Hk' as <-; lia].
    destruct T as [h|h|st h Hg|st h Hg|st Hg|h|k h Hk|h].
    - cbn iota. app IH G s seen Est' EN.
      + lia.
      + jnt El Ht' Est' Eh'. cch A B C D E F.
      + cbn [vs_v]. rewrite <- Est'. intros k Hk. injection Hk as <-. lia.
    - cbn iota. app IH G s seen Est' EN.
      + lia.
      + jnt El Ht' Est' Eh'. cch A B C D E F.
      + cbn [vs_v]. rewrite <- Est'. intros k Hk. injection Hk as <-. lia.
    - cbn iota. assert (st <> StartOfMessage /\ st <> EndOfSect 0 /\ before5 st = true /\ rank st = 2) as (N1 & N2 & N3 & N4)
        by (destruct Hg as [->| ->]; (split; [discriminate|]); (split; [discriminate|]); split; reflexivity).
      app IH G s seen Est' EN.
      + rewrite N3. lia.
      + jnt El Ht' Est' Eh'. cch A B C D E F.
      + cbn [vs_v]. rewrite <- Est'. intros k Hk. injection Hk as <-. lia.
    - cbn iota. assert (st <> StartOfMessage /\ st <> EndOfSect 0 /\ before5 st = true /\ rank st = 2) as (N1 & N2 & N3 & N4)
        by (destruct Hg as [->| ->]; (split; [discriminate|]); (split; [discriminate|]); split; reflexivity).
      app IH G s seen Est' EN.
      + rewrite N3. lia.
      + jnt El Ht' Est' Eh'. cch A B C D E F.
      + cbn [vs_v]. rewrite <- Est'. intros k Hk. injection Hk as <-. lia.
    - cbn iota. assert (st <> StartOfMessage /\ st <> EndOfSect 0 /\ before5 st = true /\ rank st = 2) as (N1 & N2 & N3 & N4)
        by (destruct Hg as [->| ->]; (split; [discriminate|]); (split; [discriminate|]); split; reflexivity).
      app IH G s seen Est' EN.
      + rewrite N3. lia.
      + jnt El Ht' Est' Eh'. cch A B C D E F.
      + cbn [vs_v]. rewrite <- Est'. intros k Hk. injection Hk as <-. split; [intros _; apply ptr_last|lia].
    - cbn iota. app IH G s seen Est' EN.
      + lia.
      + jnt El Ht' Est' Eh'. cch A B C D E F.
      + cbn [vs_v]. rewrite <- Est'. intros k Hk. injection Hk as <-. lia.
    - destruct (Hl k eq_refl) as (L4 & L5 & L6 & L7).
      assert (Hh : h = true) by (apply (F k eq_refl); lia).
      assert (NZ : k <> 0) by lia.
      assert (J : forall d0' d1' d2' d3', d0' = is_0 c -> d1' = is_1 c -> d2' = is_2 c -> d3' = is_3 c ->
        joint (MkVsub v' (vs_0 b) (vs_1 b) (vs_2 b) (vs_3 b)) (is_cache (MkIsub v' (is_log c) d0' d1' d2' d3') s) (seen ++ [s])).
      { intros d0' d1' d2' d3' -> -> -> ->. jnt El Ht' Est' Eh'. unfold caches.
        split; [intros _; apply snoc_nonempty|]. split; [intros _; apply ptr_app, B; first [discriminate|assumption]|].
        split; [intros _ _; apply ptr_app, C; [discriminate|congruence]|]. split; [apply optr_app; exact D|].
        split; [intros; apply ptr_app, E; exact Hh|]. intros; exact Hh. }
      specialize (J _ _ _ _ eq_refl eq_refl eq_refl eq_refl).
      assert (Hk' : k = 3 \/ k = 4 \/ k = 5 \/ k = 6) by lia.
      destruct Hk' as [->|[->|[->| ->]]]; cbn [Z.add Pos.add Pos.succ] in *; cbn iota;
        (app IH G s seen Est' EN; [lia|exact J|]); cbn [vs_v]; rewrite <- Est'; intros k' Hk'; injection Hk' as <-;
        (split; [intros ?; first [apply ptr_last|apply ptr_app, L4; lia|lia]|]);
        (split; [intros ?; first [lia|apply ptr_last|apply ptr_app, L5; lia]|]);
        (split; [intros ?; first [lia|apply ptr_last|apply ptr_app, L6; lia]|]);
        intros ?; first [lia|apply ptr_last|apply ptr_app, L7; lia].
    - cbn iota. destruct (Hl 7 eq_refl) as (L4 & L5 & L6 & L7).
      assert (Hh : h = true) by (apply (F 7 eq_refl); lia).
      assert (Hpos : zlen seen =? 0 = false).
      { destruct seen; [exfalso; apply A; [discriminate|reflexivity]|]. rewrite zlen_cons. pose proof (zlen_nonneg _ seen). lia. }
      rewrite Hpos. cbn [lockstep].
      specialize (B ltac:(discriminate)). specialize (C ltac:(discriminate) ltac:(discriminate)).
      specialize (E Hh).
      split.
      { unfold same_submessage. cbn [u_mi u_si u_0 u_1 u_2 u_3 u_4 u_5 u_6 u_7 u_8 is_0 is_1 is_2 is_3].
        do 2 (split; [reflexivity|]).
        split; [exact (trace_points _ _ _ _ Ht B)|]. split; [exact (trace_points _ _ _ _ Ht C)|].
        split; [destruct (vs_2 b), (is_2 c); cbn in *; auto; exact (trace_points _ _ _ _ Ht D)|].
        split; [exact (trace_points _ _ _ _ Ht E)|].
        split; [exact (trace_points _ _ _ _ Ht (L4 ltac:(lia)))|]. split; [exact (trace_points _ _ _ _ Ht (L5 ltac:(lia)))|].
        split; [exact (trace_points _ _ _ _ Ht (L6 ltac:(lia)))|]. split; [exact (trace_points _ _ _ _ Ht (L7 ltac:(lia)))|].
        left. exact (trace_points _ _ _ _ Ht' (ptr_last seen s)). }
      split; [left; symmetry; exact Est'|]. exists (seen ++ [s]). split; [|rewrite fives_snoc; cbn [before5 Z.leb Z.compare Pos.compare Pos.compare_cont]; destruct (s_num s =? 5); lia].
      unfold joint, vs_clear, is_clear. cbn [vs_v is_v is_log vs_0 vs_1 vs_2 vs_3 is_0 is_1 is_2 is_3 is_cache rev].
      split; [reflexivity|]. split; [rewrite El; reflexivity|]. rewrite <- Est', <- Eh'.
      split; [discriminate|]. split; [exact Ht'|].
      unfold caches. split; [congruence|]. split; [congruence|]. split; [congruence|]. split; [exact I|].
      split; [discriminate|]. intros; discriminate.
  Qed.

  Lemma next_lockstep : forall b c seen, joint b c seen -> between (v_state (vs_v b)) ->
    lockstep (fives seen + 1) (vsub_next step b) (isub_next step c).
  Proof.
    intros b c seen J Hb.
    replace (fives seen + 1) with (fives seen + if before5 (v_state (vs_v b)) then 1 else 0)
      by (destruct Hb as [->| ->]; reflexivity).
    apply (loop_lockstep 10 b c seen); [exact J| | |].
    - intros k Hk. destruct Hb as [Hb|Hb]; rewrite Hb in Hk; discriminate.
    - destruct Hb as [->| ->]; cbn [rank]; lia.
    - intros k Hk. destruct Hb as [Hb|Hb]; rewrite Hb in Hk; discriminate.
  Qed.

  Lemma joint_new : joint (vsub_new s0) (isub_new s0) [].
  Proof.
    unfold joint, vsub_new, isub_new. cbn. split; [reflexivity|]. split; [reflexivity|]. split; [discriminate|].
    split. { exists []. split; [constructor|]. split; reflexivity. }
    unfold caches. split; [congruence|]. split; [congruence|]. split; [congruence|]. split; [exact I|].
    split; [discriminate|]. intros; discriminate.
  Qed.

  Lemma dead_vloop : forall f (b : @vsub S) c4 c5 c6 c7, v_state (vs_v b) = EndOfStream ->
    vsub_loop step (Datatypes.S f) b c4 c5 c6 c7 = Ret (None, b).
  Proof.
    intros f [v c0 c1 c2 c3] c4 c5 c6 c7 H. cbn [vs_v] in H. cbn [vsub_loop vs_v].
    unfold v_next. rewrite H. reflexivity.
  Qed.
  Lemma dead_vnext : forall (b : @vsub S), v_state (vs_v b) = EndOfStream ->
    vsub_next step b = Ret (None, b).
  Proof. intros b H. exact (dead_vloop 9 b _ _ _ _ H). Qed.
  Lemma dead_iloop : forall f (b : @isub S) c4 c5 c6 c7, v_state (is_v b) = EndOfStream ->
    isub_loop step (Datatypes.S f) b c4 c5 c6 c7 = Ret (None, b).
  Proof.
    intros f [v lg c0 c1 c2 c3] c4 c5 c6 c7 H. cbn [is_v] in H. cbn [isub_loop is_v].
    unfold v_next. rewrite H. reflexivity.
  Qed.
  Lemma dead_inext : forall (b : @isub S), v_state (is_v b) = EndOfStream ->
    isub_next step b = Ret (None, b).
  Proof. intros b H. exact (dead_iloop 9 b _ _ _ _ H). Qed.

  (** Either in lockstep or both finished. *)
  Definition paired (b : @vsub S) (c : @isub S) : Prop :=
    (exists seen, joint b c seen /\ between (v_state (vs_v b))) \/
    (is_v c = vs_v b /\ v_state (vs_v b) = EndOfStream).

  Lemma paired_v : forall l it e, Run it l e -> forall b c, it = MkIter _ b (vsub_next step) -> paired b c ->
    exists l', Run (MkIter _ c (isub_next step)) l' e /\ Forall2 (same_item src0) l l'.
  Proof.
    intros l it e H. induction H as [it it' E|it E|it it' a l e E HR IH]; intros b c -> Hp.
    all: rewrite next_mk in E.
    - exists []. split; [|constructor]. destruct Hp as [(seen & J & Hb)|(Ev & Hd)].
      + pose proof (next_lockstep b c seen J Hb) as L. destruct (vsub_next step b) as [[[[u|er]|] b']| |]; cbn [bind] in E; try discriminate.
        destruct (isub_next step c) as [[[[w|er]|] c']| |] eqn:Ei; try destruct L.
        eapply Run_end. rewrite next_mk, Ei. reflexivity.
      + eapply Run_end. rewrite next_mk, dead_inext; [reflexivity|congruence].
    - exists []. split; [|constructor]. destruct Hp as [(seen & J & Hb)|(Ev & Hd)].
      + pose proof (next_lockstep b c seen J Hb) as L. destruct (vsub_next step b) as [[[[u|er]|] b']| |]; cbn [bind] in E; try discriminate.
        destruct (isub_next step c) as [[[[w|er]|] c']| |] eqn:Ei; try destruct L.
        eapply Run_crash. rewrite next_mk, Ei. reflexivity.
      + rewrite (dead_vnext b Hd) in E. discriminate.
    - destruct Hp as [(seen & J & Hb)|(Ev & Hd)]; [|rewrite (dead_vnext b Hd) in E; discriminate].
      pose proof (next_lockstep b c seen J Hb) as L.
      destruct (vsub_next step b) as [[[[u|er]|] b']| |]; cbn [bind] in E; try discriminate; injection E as <- <-.
      + destruct (isub_next step c) as [[[[w|er]|] c']| |] eqn:Ei; try destruct L.
        destruct H0 as (Hb' & seen' & J' & _).
        destruct (IH b' c' eq_refl) as (l' & HR' & HF); [left; exists seen'; auto|].
        exists (Ok w :: l'). split; [|constructor; [exact H|exact HF]].
        econstructor; [rewrite next_mk, Ei; reflexivity|exact HR'].
      + destruct (isub_next step c) as [[[[w|er']|] c']| |] eqn:Ei; try destruct L.
        destruct H0 as [Ev Hd]. subst er'.
        destruct (IH b' c' eq_refl) as (l' & HR' & HF); [right; auto|].
        exists (Err er :: l'). split; [|constructor; [reflexivity|exact HF]].
        econstructor; [rewrite next_mk, Ei; reflexivity|exact HR'].
  Qed.

  Lemma paired_i : forall l' it e, Run it l' e -> forall b c, it = MkIter _ c (isub_next step) -> paired b c ->
    exists l, Run (MkIter _ b (vsub_next step)) l e /\ Forall2 (same_item src0) l l'.
  Proof.
    intros l it e H. induction H as [it it' E|it E|it it' a l e E HR IH]; intros b c -> Hp.
    all: rewrite next_mk in E.
    - exists []. split; [|constructor]. destruct Hp as [(seen & J & Hb)|(Ev & Hd)].
      + pose proof (next_lockstep b c seen J Hb) as L. destruct (isub_next step c) as [[[[u|er]|] c']| |]; cbn [bind] in E; try discriminate.
        destruct (vsub_next step b) as [[[[w|er]|] b']| |] eqn:Ei; try destruct L.
        eapply Run_end. rewrite next_mk, Ei. reflexivity.
      + eapply Run_end. rewrite next_mk, dead_vnext; [reflexivity|congruence].
    - exists []. split; [|constructor]. destruct Hp as [(seen & J & Hb)|(Ev & Hd)].
      + pose proof (next_lockstep b c seen J Hb) as L. destruct (isub_next step c) as [[[[u|er]|] c']| |]; cbn [bind] in E; try discriminate.
        destruct (vsub_next step b) as [[[[w|er]|] b']| |] eqn:Ei; try destruct L.
        eapply Run_crash. rewrite next_mk, Ei. reflexivity.
      + rewrite (dead_inext c) in E by congruence. discriminate.
    - destruct Hp as [(seen & J & Hb)|(Ev & Hd)]; [|rewrite (dead_inext c) in E by congruence; discriminate].
      pose proof (next_lockstep b c seen J Hb) as L.
      destruct (isub_next step c) as [[[[w|er]|] c']| |]; cbn [bind] in E; try discriminate; injection E as <- <-.
      + destruct (vsub_next step b) as [[[[u|er]|] b']| |] eqn:Ei; try destruct L.
        destruct H0 as (Hb' & seen' & J' & _).
        destruct (IH b' c' eq_refl) as (l' & HR' & HF); [left; exists seen'; auto|].
        exists (Ok u :: l'). split; [|constructor; [exact H|exact HF]].
        econstructor; [rewrite next_mk, Ei; reflexivity|exact HR'].
      + destruct (vsub_next step b) as [[[[w|er']|] b']| |] eqn:Ei; try destruct L.
        destruct H0 as [Ev Hd]. subst er'.
        destruct (IH b' c' eq_refl) as (l' & HR' & HF); [right; auto|].
        exists (Err er :: l'). split; [|constructor; [reflexivity|exact HF]].
        econstructor; [rewrite next_mk, Ei; reflexivity|exact HR'].
  Qed.
End Joint.
