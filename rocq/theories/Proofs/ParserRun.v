(** Runs of the value-producing submessage stream over lists of sections. *)
From Coq Require Import Lia ZifyBool ZifyNat.
From Verif Require Import Model.Base Model.Errors Model.Sections Model.Parser.
From Verif Require Import Spec.ParserS Proofs.BaseLemmas Proofs.ParserP.

Notation vnext := (vsub_next lstep).
Notation vstate_t := (@vsub (list item)).

Lemma latest_snoc : forall A (l : list (option A)) x, latest (l ++ [x]) = orelse x (latest l).
Proof.
  induction l as [|a l IH]; intros x; cbn [app latest].
  - destruct x; reflexivity.
  - rewrite IH. destruct x; reflexivity.
Qed.

Lemma SSteps_app : forall S A (step : S -> outcome (option A * S)) s l s1, SSteps step s l s1 ->
  forall l' s2, SSteps step s1 l' s2 -> SSteps step s (l ++ l') s2.
Proof. induction 1; intros l' s2 H'; [exact H'|]. cbn [app]. econstructor; eauto. Qed.

Lemma SSteps_Steps : forall S A (step : S -> outcome (option A * S)) s l s', SSteps step s l s' ->
  Steps (MkIter S s step) l (MkIter S s' step).
Proof.
  induction 1; [constructor|]. econstructor; [|exact IHSSteps].
  rewrite next_mk, H. reflexivity.
Qed.

Lemma group_sections_nonempty : forall g, exists x q, group_sections g = x :: q.
Proof. intros [[|] [|] g4 g5 g6 g7]; eexists; eexists; reflexivity. Qed.

Lemma glen_pos : forall g, 0 < glen g.
Proof. intros g. unfold glen. destruct (group_sections_nonempty g) as (x & q & ->). rewrite zlen_cons. pose proof (zlen_nonneg _ q). lia. Qed.

Lemma first_num : forall g x q, wf_group g -> group_sections g = x :: q -> s_num x <> 8.
Proof.
  intros [[s2|] [s3|] g4 g5 g6 g7] x q (H2 & H3 & H23 & H4 & H5 & H6 & H7) E;
    cbn in *; injection E as <- <-; lia.
Qed.

(** Groups already done, as the cache sees them. *)
Definition cache_ok (prev : list group) (c2 : option section) (c3 : section) (h : bool) (g : option group) : Prop :=
  c2 = latest (map gr2 prev) /\
  (h = true -> Some c3 = latest (map gr3 prev)) /\
  (h = true \/ match g with Some g => gr3 g <> None | None => True end).

Lemma is_sub_intro : forall i s0 s1 s8 prev g gs c2 c3 h, cache_ok prev c2 c3 h (Some g) ->
  is_submessage i s0 s1 (prev ++ g :: gs) s8 (length prev)
    (MkSubmessage i (Z.of_nat (length prev)) s0 s1 (orelse (gr2 g) c2)
       (match gr3 g with Some s => s | None => c3 end) (gr4 g) (gr5 g) (gr6 g) (gr7 g)
       (match gs with [] => s8 | _ => new_8 0 end)).
Proof.
  intros i s0 s1 s8 prev g gs c2 c3 h (E2 & E3 & Hh). unfold is_submessage.
  cbn [u_mi u_si u_0 u_1 u_2 u_3 u_4 u_5 u_6 u_7 u_8].
  assert (F : firstn (S (length prev)) (prev ++ g :: gs) = prev ++ [g]).
  { replace (S (length prev)) with (length prev + 1)%nat by lia.
    rewrite firstn_app_2. reflexivity. }
  rewrite F, !map_app. cbn [map]. rewrite !latest_snoc. subst c2.
  do 5 (split; [reflexivity|]).
  split. { destruct (gr3 g); [reflexivity|]. destruct Hh as [->|Hh]; [|congruence]. cbn [orelse]. auto. }
  split. { exists g. rewrite nth_error_app2 by lia. rewrite Nat.sub_diag. auto. }
  rewrite app_length. destruct gs.
  - cbn [length]. replace (S (length prev) =? length prev + 1)%nat with true by lia. reflexivity.
  - replace (S (length prev) =? length prev + length (g :: g0 :: gs))%nat with false by (cbn [length]; lia). reflexivity.
Qed.

Lemma cache_ok_next : forall prev c2 c3 h g g', cache_ok prev c2 c3 h (Some g) ->
  cache_ok (prev ++ [g]) (orelse (gr2 g) c2) (match gr3 g with Some s => s | None => c3 end) true g'.
Proof.
  intros prev c2 c3 h g g' (E2 & E3 & Hh). unfold cache_ok. rewrite !map_app. cbn [map]. rewrite !latest_snoc.
  subst c2. split; [reflexivity|]. split; [|auto]. intros _.
  destruct (gr3 g); [reflexivity|]. destruct Hh as [->|Hh]; [|congruence]. auto.
Qed.

(** The remaining groups of a message, up to and including its end section. *)
Lemma groups_run : forall gs g f prev s0 s1 s8 rest st pk n pos mc h c2 c3 c4 c5 c6 c7 x l,
  0 <= n -> Forall wf_group (g :: gs) -> s_num s8 = 8 -> at_group st ->
  cache_ok prev c2 c3 h (Some g) ->
  map Ok (flat_map group_sections (g :: gs) ++ [s8]) ++ rest = x :: l ->
  exists u us b1 n' pos',
  vsub_loop lstep (7 + f) (MkVsub (pend pk x l n pos mc (Z.of_nat (length prev)) st h) s0 s1 c2 c3) c4 c5 c6 c7
    = Ret (Some (Ok u), b1) /\
  SSteps vnext b1 (map Ok us) (at_message rest n' pos' (mc + 1)) /\
  n' = n + zlen (flat_map group_sections (g :: gs) ++ [s8]) /\
  length us = length gs /\
  forall k v, nth_error (u :: us) k = Some v ->
    is_submessage mc s0 s1 (prev ++ g :: gs) s8 (length prev + k) v.
Proof.
  induction gs as [|g' gs IH]; intros g f prev s0 s1 s8 rest st pk n pos mc h c2 c3 c4 c5 c6 c7 x l
    Hn Hw H8 Hst Hc E; inversion_clear Hw as [|? ? Hg Hgs].
  - cbn [flat_map] in E. rewrite app_nil_r, map_app, <- app_assoc in E. cbn [map app] in E.
    pose proof (glen_pos g) as Hlen.
    rewrite (group_next f g (Ok s8 :: rest)) with (1 := Hn); auto.
    2:{ destruct Hc as (_ & _ & Hc). exact Hc. }
    unfold after_group. rewrite H8. cbn [Z.eqb Pos.eqb].
    eexists. exists []. eexists. exists (n + glen g - 1 + 1 + 1). eexists.
    split; [reflexivity|]. split; [constructor|].
    split. { cbn [flat_map]. rewrite app_nil_r, zlen_app, zlen_cons, zlen_nil. unfold glen. lia. }
    split; [reflexivity|].
    intros [|k] v Hv; [|destruct k; discriminate Hv]. injection Hv as <-.
    rewrite Nat.add_0_r. exact (is_sub_intro mc s0 s1 s8 prev g [] c2 c3 h Hc).
  - pose proof (glen_pos g) as Hlen.
    change (flat_map group_sections (g :: g' :: gs)) with (group_sections g ++ flat_map group_sections (g' :: gs)) in *.
    destruct (group_sections_nonempty g') as (y & q & Ey).
    rewrite <- app_assoc, map_app, <- app_assoc in E.
    assert (E' : map Ok (flat_map group_sections (g' :: gs) ++ [s8]) ++ rest =
                 Ok y :: (map Ok (q ++ flat_map group_sections gs ++ [s8]) ++ rest)).
    { cbn [flat_map]. rewrite Ey, <- !app_assoc. reflexivity. }
    rewrite (group_next f g (map Ok (flat_map group_sections (g' :: gs) ++ [s8]) ++ rest)) with (1 := Hn); auto.
    2:{ destruct Hc as (_ & _ & Hc). exact Hc. }
    unfold after_group. rewrite E'.
    assert (Hy : s_num y <> 8). { inversion_clear Hgs as [|? ? Hg' _]. exact (first_num g' y q Hg' Ey). }
    replace (s_num y =? 8) with false by lia.
    pose proof (cache_ok_next prev c2 c3 h g (Some g') Hc) as Hc'.
    assert (Ln : Z.of_nat (length prev) + 1 = Z.of_nat (length (prev ++ [g]))) by (rewrite app_length; cbn [length]; lia).
    rewrite Ln.
    destruct (IH g' 3%nat (prev ++ [g]) s0 s1 s8 rest StartOfSubmessage true (n + glen g - 1 + 1) (n + glen g - 1) mc true _ _ dflt dflt dflt dflt _ _
      ltac:(lia) Hgs H8 (or_intror eq_refl) Hc' E') as (u & us & b1 & n' & pos' & Hloop & Hsteps & Hn' & Hlen' & Hall).
    eexists. exists (u :: us). eexists. exists n', pos'.
    split; [reflexivity|].
    split. { cbn [map]. econstructor; [|exact Hsteps]. exact Hloop. }
    split. { rewrite Hn'. rewrite !zlen_app. unfold glen. lia. }
    split. { cbn [length]. lia. }
    intros [|k] v Hv.
    + injection Hv as <-. rewrite Nat.add_0_r.
      exact (is_sub_intro mc s0 s1 s8 prev g (g' :: gs) c2 c3 h Hc).
    + cbn [nth_error] in Hv. apply Hall in Hv. rewrite <- app_assoc in Hv. cbn [app] in Hv.
      rewrite app_length in Hv. cbn [length] in Hv.
      replace (length prev + S k)%nat with (length prev + 1 + k)%nat by lia. exact Hv.
Qed.

Lemma message_run : forall m rest n pos mc, 0 <= n -> wf_message m ->
  exists us n' pos', SSteps vnext (at_message (map Ok (message_sections m) ++ rest) n pos mc)
    (map Ok us) (at_message rest n' pos' (mc + 1)) /\
  n' = n + zlen (message_sections m) /\ submessages_of mc m us.
Proof.
  intros [s0 s1 gs s8] rest n pos mc Hn (H0 & H1 & H8 & Hg & g & gs' & Eg & H3).
  cbn [ms0 ms1 groups ms8] in *. subst gs.
  assert (E : exists x l, map Ok (flat_map group_sections (g :: gs') ++ [s8]) ++ rest = x :: l).
  { destruct (group_sections_nonempty g) as (y & q & Ey). cbn [flat_map]. rewrite Ey. eexists; eexists; reflexivity. }
  destruct E as (x & l & E).
  assert (Hc : cache_ok [] None dflt false (Some g)). { split; [reflexivity|]. split; [discriminate|auto]. }
  destruct (groups_run gs' g 1%nat [] s0 s1 s8 rest (EndOfSect 1) false (n + 1 + 1) (n + 1) mc false None dflt dflt dflt dflt dflt x l
    ltac:(lia) Hg H8 (or_introl eq_refl) Hc E) as (u & us & b1 & n' & pos' & Hloop & Hsteps & Hn' & Hlen & Hall).
  exists (u :: us), n', pos'. split.
  { cbn [map]. econstructor; [|exact Hsteps]. unfold vsub_next, at_message, message_sections.
    cbn [ms0 ms1 groups ms8 map app].
    change (MkV (Ok s0 :: Ok s1 :: (map Ok (flat_map group_sections (g :: gs') ++ [s8]) ++ rest)) n None pos mc 0 StartOfMessage false)
      with (pend false (Ok s0) (Ok s1 :: (map Ok (flat_map group_sections (g :: gs') ++ [s8]) ++ rest)) n pos mc 0 StartOfMessage false).
    rewrite (turn0 9) by assumption.
    change (MkV (Ok s1 :: (map Ok (flat_map group_sections (g :: gs') ++ [s8]) ++ rest)) (n + 1) None n mc 0 (EndOfSect 0) false)
      with (pend false (Ok s1) (map Ok (flat_map group_sections (g :: gs') ++ [s8]) ++ rest) (n + 1) n mc 0 (EndOfSect 0) false).
    rewrite (turn1 8) by assumption. rewrite E.
    exact Hloop. }
  split. { rewrite Hn'. unfold message_sections. cbn [ms0 ms1 groups ms8]. rewrite !zlen_cons. lia. }
  split. { cbn [groups length]. lia. }
  intros k v Hv. exact (Hall k v Hv).
Qed.

Lemma messages_run : forall ms rest n pos mc, 0 <= n -> Forall wf_message ms ->
  exists us n' pos', SSteps vnext (at_message (map Ok (flat_map message_sections ms) ++ rest) n pos mc)
    (map Ok us) (at_message rest n' pos' (mc + zlen ms)) /\
  n' = n + zlen (flat_map message_sections ms) /\ submessages_of_all mc ms us.
Proof.
  induction ms as [|m ms IH]; intros rest n pos mc Hn Hw.
  - exists [], n, pos. split. { cbn. rewrite Z.add_0_r. constructor. }
    split; [cbn; lia|constructor].
  - inversion_clear Hw as [|? ? Hm Hms].
    destruct (message_run m (map Ok (flat_map message_sections ms) ++ rest) n pos mc Hn Hm) as (us & n1 & pos1 & S1 & -> & U1).
    pose proof (zlen_nonneg _ (message_sections m)).
    destruct (IH rest (n + zlen (message_sections m)) pos1 (mc + 1) ltac:(lia) Hms) as (us' & n2 & pos2 & S2 & -> & U2).
    exists (us ++ us'). eexists. exists pos2. split.
    + cbn [flat_map]. rewrite !map_app, <- app_assoc. eapply SSteps_app; [exact S1|].
      rewrite zlen_cons. replace (mc + (1 + zlen ms)) with (mc + 1 + zlen ms) by lia. exact S2.
    + split. { cbn [flat_map]. rewrite zlen_app. lia. }
      constructor; assumption.
Qed.

(** ** unfinished messages *)
Definition follow2 (gs : list group) (t : list section) (x : Z) : Prop :=
  follow (negb (match gs with [] => true | _ => false end)) t x \/ (t = [] /\ gs <> [] /\ x = 8).

Definition readable_head (rest : list item) : bool := match rest with Ok _ :: _ => true | _ => false end.

Lemma head_not_mono : forall (p q : Z -> Prop) rest, (forall x, q x -> p x) -> head_not p rest -> head_not q rest.
Proof. intros p q [|[s|e] r] H; cbn; auto. Qed.

Lemma groups_stuck : forall gs f prev t s0 s1 rest st pk n pos mc h c2 c3 c4 c5 c6 c7 x l,
  0 <= n -> Forall wf_group gs -> at_group st ->
  (h = true <-> prev <> []) ->
  cache_ok prev c2 c3 h (match gs with [] => None | g :: _ => Some g end) ->
  (exists g q, wf_group g /\ q <> [] /\ group_sections g = t ++ q /\
               (prev = [] -> gs = [] -> gr3 g <> None)) ->
  head_not (follow2 (prev ++ gs) t) rest ->
  map Ok (flat_map group_sections gs ++ t) ++ rest = x :: l ->
  exists us r b1 b2,
  vsub_loop lstep (7 + f) (MkVsub (pend pk x l n pos mc (Z.of_nat (length prev)) st h) s0 s1 c2 c3) c4 c5 c6 c7
    = Ret (Some r, b1) /\
  SSteps vnext b1 (tl (map Ok us ++
    [Err (stuck_err (match prev ++ gs, t with [], [] => true | _, _ => false end) rest
            (n + zlen (flat_map group_sections gs ++ t)))])) b2 /\
  hd_error (map Ok us ++
    [Err (stuck_err (match prev ++ gs, t with [], [] => true | _, _ => false end) rest
            (n + zlen (flat_map group_sections gs ++ t)))]) = Some r /\
  dead b2 /\
  (length us = length gs \/ (t = [] /\ readable_head rest = false /\ S (length us) = length gs)) /\
  (t <> [] \/ readable_head rest = true -> length us = length gs) /\
  (t = [] -> readable_head rest = false -> length us = pred (length gs)) /\
  forall k v, nth_error us k = Some v ->
    is_submessage mc s0 s1 (prev ++ gs) no_end_section (length prev + k) v.
Proof.
  induction gs as [|g gs IH]; intros f prev t s0 s1 rest st pk n pos mc h c2 c3 c4 c5 c6 c7 x l
    Hn Hw Hst Hh Hc (gt & q & Hgt & Hq & Egt & Hg3) Hr E.
  - cbn [flat_map app] in E. rewrite app_nil_r in *.
    assert (Hfol : head_not (follow h t) rest).
    { revert Hr. apply head_not_mono. intros y Hy. left.
      replace (negb match prev with [] => true | _ => false end) with h; [exact Hy|].
      destruct prev; cbn; [|apply Hh; discriminate]. destruct h; [|reflexivity]. exfalso. apply Hh; reflexivity. }
    destruct (group_stuck f gt t q rest st pk n pos mc (Z.of_nat (length prev)) h s0 s1 c2 c3 c4 c5 c6 c7 x l)
      as (b' & Hb & Hd); auto.
    { destruct prev as [|p0 pr]; [right; apply Hg3; reflexivity|left; apply Hh; discriminate]. }
    exists [], (Err (stuck_err (match t with [] => negb h | _ => false end) rest (n + zlen t))), b', b'.
    cbn [map app tl hd_error flat_map length].
    split; [exact Hb|]. split; [constructor|].
    split. { f_equal. f_equal. destruct prev; destruct t; try reflexivity; f_equal.
             - destruct h; [exfalso; apply Hh; reflexivity|reflexivity].
             - destruct h; [reflexivity|]. exfalso. assert (false = true) by (apply Hh; discriminate). discriminate. }
    split; [exact Hd|]. split; [left; reflexivity|]. split; [reflexivity|]. split; [reflexivity|].
    intros [|k] v Hv; discriminate Hv.
  - inversion_clear Hw as [|? ? Hg Hgs]. pose proof (glen_pos g) as Hlen.
    change (flat_map group_sections (g :: gs)) with (group_sections g ++ flat_map group_sections gs) in *.
    rewrite <- app_assoc, map_app, <- app_assoc in E.
    rewrite (group_next f g (map Ok (flat_map group_sections gs ++ t) ++ rest)) with (1 := Hn); auto.
    2:{ destruct Hc as (_ & _ & Hc). exact Hc. }
    assert (Enil : match prev ++ g :: gs with [] => match t with [] => true | _ => false end | _ => false end = false)
      by (destruct prev; reflexivity).
    assert (Enil' : (match prev ++ g :: gs, t with [], [] => true | _, _ => false end) = false)
      by (destruct prev; reflexivity).
    rewrite Enil'. clear Enil Enil'.
    rewrite !zlen_app.
    unfold after_group. destruct (map Ok (flat_map group_sections gs ++ t) ++ rest) as [|y l'] eqn:E'.
    { apply app_eq_nil in E'. destruct E' as [E1 ->]. apply map_eq_nil in E1. apply app_eq_nil in E1.
      destruct E1 as [E1 ->]. destruct gs as [|g' gs]; [|destruct (group_sections_nonempty g') as (y & q' & Ey);
        cbn in E1; rewrite Ey in E1; discriminate].
      exists []. eexists. eexists. eexists. split; [reflexivity|]. cbn [map app tl].
      split; [constructor|]. split. { cbn [hd_error stuck_err]. unfold glen. rewrite zlen_nil. cbn [flat_map].
        rewrite zlen_nil. do 4 f_equal. lia. }
      split; [reflexivity|]. split; [right; auto|]. split. { intros [F|F]; [congruence|discriminate]. }
      split; [reflexivity|]. intros [|k] v Hv; discriminate Hv. }
    destruct y as [y|e].
    2:{ assert (T : gs = [] /\ t = []).
        { destruct gs as [|g' gs]; [|destruct (group_sections_nonempty g') as (y & q' & Ey);
            cbn in E'; rewrite Ey in E'; discriminate].
          destruct t; [auto|discriminate]. }
        destruct T as [-> ->]. cbn [flat_map app map] in E'. subst rest.
        exists []. eexists. eexists. eexists. split; [reflexivity|]. cbn [map app tl].
        split; [constructor|]. split; [reflexivity|]. split; [reflexivity|]. split; [right; auto|].
        split. { intros [F|F]; [congruence|discriminate]. }
        split; [reflexivity|]. intros [|k] v Hv; discriminate Hv. }
    assert (Hy : s_num y <> 8).
    { destruct gs as [|g' gs].
      - destruct t as [|t0 t].
        + cbn [flat_map app map] in E'. subst rest. intros F. apply Hr. right. split; [reflexivity|]. split; [|exact F].
          destruct prev; discriminate.
        + cbn [flat_map app map] in E'. injection E' as -> _.
          exact (first_num gt y (t ++ q) Hgt Egt).
      - inversion_clear Hgs as [|? ? Hg' _]. destruct (group_sections_nonempty g') as (z & q' & Ez).
        cbn [flat_map] in E'. rewrite Ez in E'. cbn [app map] in E'. injection E' as -> _. exact (first_num g' y q' Hg' Ez). }
    replace (s_num y =? 8) with false by lia.
    pose proof (cache_ok_next prev c2 c3 h g (match gs with [] => None | g :: _ => Some g end) Hc) as Hc'.
    assert (Ln : Z.of_nat (length prev) + 1 = Z.of_nat (length (prev ++ [g]))) by (rewrite app_length; cbn [length]; lia).
    rewrite Ln.
    assert (EP : (prev ++ [g]) ++ gs = prev ++ g :: gs) by (rewrite <- app_assoc; reflexivity).
    destruct (IH 3%nat (prev ++ [g]) t s0 s1 rest StartOfSubmessage true (n + glen g - 1 + 1) (n + glen g - 1) mc true _ _ dflt dflt dflt dflt _ _
      ltac:(lia) Hgs (or_intror eq_refl) ltac:(split; [intros _; destruct prev; discriminate|reflexivity]) Hc'
      ltac:(exists gt, q; split; [exact Hgt|split; [exact Hq|split; [exact Egt|intros F; destruct prev; discriminate]]])
      ltac:(rewrite EP; exact Hr) E')
      as (us & r & b1 & b2 & Hloop & Hsteps & Hhd & Hd & Hl0 & Hl1 & Hl2 & Hall).
    rewrite EP in *.
    assert (Enil' : (match prev ++ g :: gs, t with [], [] => true | _, _ => false end) = false)
      by (destruct prev; reflexivity).
    rewrite Enil' in *. clear Enil'.
    eexists (_ :: us). eexists. eexists. exists b2. split; [reflexivity|]. cbn [map app tl hd_error].
    replace (n + (zlen (group_sections g) + zlen (flat_map group_sections gs) + zlen t))
      with (n + glen g - 1 + 1 + zlen (flat_map group_sections gs ++ t)) by (rewrite zlen_app; unfold glen; lia).
    split. { destruct us as [|u us]; cbn [map app tl hd_error] in *; injection Hhd as Hhd; subst r;
             (econstructor; [exact Hloop|exact Hsteps]). }
    split; [reflexivity|]. split; [exact Hd|].
    assert (Hne : t = [] -> readable_head rest = false -> gs <> []).
    { intros -> F ->. cbn [flat_map app map] in E'. subst rest. discriminate. }
    split. { cbn [length]. destruct Hl0 as [Hl0|(A & B & C)]; [left; lia|right; auto]. }
    split. { intros F. cbn [length]. rewrite Hl1 by exact F. reflexivity. }
    split. { intros A B. specialize (Hl2 A B). specialize (Hne A B). cbn [length pred]. destruct gs; [congruence|cbn [length pred] in *; lia]. }
    intros [|k] v Hv.
    + injection Hv as <-. rewrite Nat.add_0_r.
      destruct gs as [|g' gs].
      * exact (is_sub_intro mc s0 s1 no_end_section prev g [] c2 c3 h Hc).
      * exact (is_sub_intro mc s0 s1 no_end_section prev g (g' :: gs) c2 c3 h Hc).
    + cbn [nth_error] in Hv. apply Hall in Hv.
      rewrite app_length in Hv. cbn [length] in Hv.
      replace (length prev + S k)%nat with (length prev + 1 + k)%nat by lia. exact Hv.
Qed.
