(** Lemmas about the section order validator and the submessage streams. *)
From Coq Require Import Lia ZifyBool ZifyNat.
From Verif Require Import Model.Base Model.Errors Model.Sections Model.Parser.
From Verif Require Import Spec.ParserS Proofs.BaseLemmas.

(** ** streams over a list of items *)
Definition lstep (s : list item) : outcome (option item * list item) :=
  match s with [] => Ret (None, []) | a :: s' => Ret (Some a, s') end.

Notation dflt := default_section.

(** What happens after the section 7 (at index [last]) of group [g]. *)
Definition after_group (rest : list item) (last mc smc : Z) (c0 c1 : section) (c2 : option section) (c3 : section)
  (g : group) : outcome (option (result (submessage section) parse_error) * vsub) :=
  match rest with
  | [] => Ret (Some (Err (UnexpectedEndOfData last)),
               MkVsub (MkV [] (last + 1) (Some None) last mc smc EndOfStream true) c0 c1 c2 c3)
  | Err e :: r => Ret (Some (Err e),
               MkVsub (MkV r (last + 1 + 1) None last mc smc EndOfStream true) c0 c1 c2 c3)
  | Ok s :: r =>
      if s_num s =? 8 then
        Ret (Some (Ok (MkSubmessage mc smc c0 c1 c2 c3 (gr4 g) (gr5 g) (gr6 g) (gr7 g) s)),
             MkVsub (MkV r (last + 1 + 1) None (last + 1) (mc + 1) 0 StartOfMessage false) dflt dflt None dflt)
      else
        Ret (Some (Ok (MkSubmessage mc smc c0 c1 c2 c3 (gr4 g) (gr5 g) (gr6 g) (gr7 g) (new_8 0))),
             MkVsub (MkV r (last + 1 + 1) (Some (Some (last + 1, Ok s))) last mc (smc + 1) StartOfSubmessage true)
               c0 c1 c2 c3)
  end.

Definition orelse {A} (a b : option A) : option A := match a with Some _ => a | None => b end.

(** State in front of a message / of a further submessage, [l] being what is left. *)
Definition at_message (l : list item) (n pos mc : Z) : vsub :=
  MkVsub (MkV l n None pos mc 0 StartOfMessage false) dflt dflt None dflt.
Definition at_submessage (x : item) (l : list item) (n pos mc smc : Z) c0 c1 c2 c3 : vsub :=
  MkVsub (MkV l (n + 1) (Some (Some (n, x))) pos mc smc StartOfSubmessage true) c0 c1 c2 c3.

Definition glen (g : group) : Z := zlen (group_sections g).

(** Validator about to receive [x], peeked already or not. *)
Definition pend (pk : bool) (x : item) (l : list item) (n pos mc smc : Z) (st : vstate) (h : bool) : validator (list item) :=
  if pk then MkV l (n + 1) (Some (Some (n, x))) pos mc smc st h
  else MkV (x :: l) n None pos mc smc st h.

Lemma pk_next_pend : forall pk x l n pos mc smc st h,
  pk_next lstep (pend pk x l n pos mc smc st h) = Ret (Some (n, x), MkV l (n + 1) None pos mc smc st h).
Proof. intros [] x l n pos mc smc st h; reflexivity. Qed.

Lemma v_state_pend : forall pk x l n pos mc smc st h, v_state (pend pk x l n pos mc smc st h) = st.
Proof. intros []; reflexivity. Qed.

(** One turn of the loop, for each transition. *)
Section Turns.
  Variables (f : nat) (pk : bool) (s : section) (l : list item) (n pos mc smc : Z) (h : bool).
  Variables (c0 c1 c3 c4 c5 c6 c7 : section) (c2 : option section).
  Notation P st := (pend pk (Ok s) l n pos mc smc st h).
  Notation Q st h := (MkV l (n + 1) None n mc smc st h).
  Ltac turn H := cbn [vsub_loop vs_v]; unfold v_next; rewrite v_state_pend;
    cbn iota; unfold ensure_sect_num, ensure_sect_2_or_3_or_4, ensure_sect0;
    rewrite ?pk_next_pend; cbn [bind]; rewrite H; cbn [Z.eqb Pos.eqb]; cbn iota;
    cbn [v_ok set_state set_pos set_has3 v_src v_count v_peeked v_pos v_mc v_smc v_state v_has3 bind];
    rewrite H; reflexivity.

  Lemma turn0 : s_num s = 0 ->
    vsub_loop lstep (S f) (MkVsub (P StartOfMessage) c0 c1 c2 c3) c4 c5 c6 c7 =
    vsub_loop lstep f (MkVsub (Q (EndOfSect 0) h) s c1 c2 c3) c4 c5 c6 c7.
  Proof. intros H. turn H. Qed.
  Lemma turn1 : s_num s = 1 ->
    vsub_loop lstep (S f) (MkVsub (P (EndOfSect 0)) c0 c1 c2 c3) c4 c5 c6 c7 =
    vsub_loop lstep f (MkVsub (Q (EndOfSect 1) h) c0 s c2 c3) c4 c5 c6 c7.
  Proof. intros H. turn H. Qed.
  Definition at_group (st : vstate) := st = EndOfSect 1 \/ st = StartOfSubmessage.
  Lemma turn2 : forall st, at_group st -> s_num s = 2 ->
    vsub_loop lstep (S f) (MkVsub (P st) c0 c1 c2 c3) c4 c5 c6 c7 =
    vsub_loop lstep f (MkVsub (Q (EndOfSect 2) h) c0 c1 (Some s) c3) c4 c5 c6 c7.
  Proof. intros st [->| ->] H; turn H. Qed.
  Lemma turn3 : forall st, at_group st -> s_num s = 3 ->
    vsub_loop lstep (S f) (MkVsub (P st) c0 c1 c2 c3) c4 c5 c6 c7 =
    vsub_loop lstep f (MkVsub (Q (EndOfSect 3) true) c0 c1 c2 s) c4 c5 c6 c7.
  Proof. intros st [->| ->] H; turn H. Qed.
  Lemma turn4 : forall st, at_group st -> s_num s = 4 -> h = true ->
    vsub_loop lstep (S f) (MkVsub (P st) c0 c1 c2 c3) c4 c5 c6 c7 =
    vsub_loop lstep f (MkVsub (Q (EndOfSect 4) h) c0 c1 c2 c3) s c5 c6 c7.
  Proof.
    intros st [->| ->] H E; rewrite E.
    all: cbn [vsub_loop vs_v]; unfold v_next; rewrite v_state_pend; cbn iota; unfold ensure_sect_2_or_3_or_4;
      rewrite ?pk_next_pend; cbn [bind]; rewrite H; cbn [Z.eqb Pos.eqb]; cbn iota;
      cbn [v_ok set_state set_pos set_has3 v_src v_count v_peeked v_pos v_mc v_smc v_state v_has3 bind];
      cbn iota; cbn [bind v_pos v_mc v_smc]; rewrite H; reflexivity.
  Qed.
  Lemma turn23 : s_num s = 3 ->
    vsub_loop lstep (S f) (MkVsub (pend false (Ok s) l n pos mc smc (EndOfSect 2) h) c0 c1 c2 c3) c4 c5 c6 c7 =
    vsub_loop lstep f (MkVsub (Q (EndOfSect 3) true) c0 c1 c2 s) c4 c5 c6 c7.
  Proof.
    intros H. cbn [vsub_loop vs_v]; unfold v_next; cbn [pend v_state]; cbn iota.
    change (set_has3 (MkV (Ok s :: l) n None pos mc smc (EndOfSect 2) h) true) with (pend false (Ok s) l n pos mc smc (EndOfSect 2) true).
    unfold ensure_sect_num. rewrite pk_next_pend. cbn [bind]. rewrite H. cbn [Z.eqb Pos.eqb]. cbn iota.
    cbn [v_ok set_state set_pos set_has3 v_src v_count v_peeked v_pos v_mc v_smc v_state v_has3 bind].
    rewrite H. reflexivity.
  Qed.
  Lemma turn34 : s_num s = 4 ->
    vsub_loop lstep (S f) (MkVsub (P (EndOfSect 3)) c0 c1 c2 c3) c4 c5 c6 c7 =
    vsub_loop lstep f (MkVsub (Q (EndOfSect 4) h) c0 c1 c2 c3) s c5 c6 c7.
  Proof. intros H. turn H. Qed.
  Lemma turn5 : s_num s = 5 ->
    vsub_loop lstep (S f) (MkVsub (P (EndOfSect 4)) c0 c1 c2 c3) c4 c5 c6 c7 =
    vsub_loop lstep f (MkVsub (Q (EndOfSect 5) h) c0 c1 c2 c3) c4 s c6 c7.
  Proof. intros H. turn H. Qed.
  Lemma turn6 : s_num s = 6 ->
    vsub_loop lstep (S f) (MkVsub (P (EndOfSect 5)) c0 c1 c2 c3) c4 c5 c6 c7 =
    vsub_loop lstep f (MkVsub (Q (EndOfSect 6) h) c0 c1 c2 c3) c4 c5 s c7.
  Proof. intros H. turn H. Qed.
  Lemma turn7 : s_num s = 7 ->
    vsub_loop lstep (S f) (MkVsub (P (EndOfSect 6)) c0 c1 c2 c3) c4 c5 c6 c7 =
    vsub_loop lstep f (MkVsub (Q (EndOfSect 7) h) c0 c1 c2 c3) c4 c5 c6 s.
  Proof. intros H. turn H. Qed.
End Turns.

Lemma turn_end : forall f rest last mc smc c0 c1 c2 c3 c4 c5 c6 c7 g2 g3, 0 <= last ->
  vsub_loop lstep (S f) (MkVsub (MkV rest (last + 1) None last mc smc (EndOfSect 7) true) c0 c1 c2 c3) c4 c5 c6 c7 =
  after_group rest last mc smc c0 c1 c2 c3 (MkGroup g2 g3 c4 c5 c6 c7).
Proof.
  intros f rest last mc smc c0 c1 c2 c3 c4 c5 c6 c7 g2 g3 Hl.
  cbn [vsub_loop vs_v]. unfold v_next. cbn [v_state]. cbn iota. unfold ensure_sect8, after_group.
  destruct rest as [|[s|e] r].
  - reflexivity.
  - cbn [pk_peek enum_next v_src v_peeked lstep bind v_count set_src v_pos v_mc v_smc v_state v_has3 gr4 gr5 gr6 gr7].
    destruct (Z.eqb_spec (s_num s) 8) as [E|E].
    + cbn [pk_next v_peeked bind set_src v_src v_count set_pos v_pos v_mc v_smc v_state v_has3].
      rewrite E. cbn iota. replace (last + 1 =? 0) with false by lia. reflexivity.
    + cbn [bind v_src v_count v_peeked v_pos v_mc v_smc v_has3]. reflexivity.
  - reflexivity.
Qed.

Ltac app_map := cbn [map app group_sections opt_list gr2 gr3 gr4 gr5 gr6 gr7].

Lemma group_next : forall f g rest st pk n pos mc smc h c0 c1 c2 c3 c4 c5 c6 c7 x l, 0 <= n ->
  wf_group g -> at_group st -> (h = true \/ gr3 g <> None) ->
  map Ok (group_sections g) ++ rest = x :: l ->
  vsub_loop lstep (7 + f) (MkVsub (pend pk x l n pos mc smc st h) c0 c1 c2 c3) c4 c5 c6 c7 =
  after_group rest (n + glen g - 1) mc smc c0 c1 (orelse (gr2 g) c2)
    (match gr3 g with Some s => s | None => c3 end) g.
Proof.
  intros f [g2 g3 g4 g5 g6 g7] rest st pk n pos mc smc h c0 c1 c2 c3 c4 c5 c6 c7 x l
    Hn (H2 & H3 & H23 & H4 & H5 & H6 & H7) Hst Hh E.
  cbn [gr2 gr3 gr4 gr5 gr6 gr7] in *.
  assert (F : forall s0 l0 n0 pos0 mc0 smc0 st0 h0, MkV (Ok s0 :: l0) n0 None pos0 mc0 smc0 st0 h0 =
    pend false (Ok s0) l0 n0 pos0 mc0 smc0 st0 h0) by reflexivity.
  destruct g3 as [s3|]; [destruct g2 as [s2|]|destruct g2 as [s2|]; [exfalso; apply H23; congruence|]];
    unfold group_sections in E; cbn [opt_list gr2 gr3 gr4 gr5 gr6 gr7 map app] in E; injection E as <- <-;
    cbn [opt_num orelse] in *; unfold glen, group_sections; cbn [opt_list gr2 gr3 gr4 gr5 gr6 gr7 app].
  - change (7 + f)%nat with (S (6 + f)). rewrite (turn2 (6 + f)) by assumption. rewrite F.
    change (6 + f)%nat with (S (5 + f)). rewrite turn23 by assumption. rewrite F.
    change (5 + f)%nat with (S (4 + f)). rewrite turn34 by assumption. rewrite F.
    change (4 + f)%nat with (S (3 + f)). rewrite turn5 by assumption. rewrite F.
    change (3 + f)%nat with (S (2 + f)). rewrite turn6 by assumption. rewrite F.
    change (2 + f)%nat with (S (1 + f)). rewrite turn7 by assumption.
    change (1 + f)%nat with (S f). rewrite turn_end with (g2 := Some s2) (g3 := Some s3) by lia.
    f_equal; unfold zlen; cbn [length]; lia.
  - change (7 + f)%nat with (S (6 + f)). rewrite (turn3 (6 + f)) by assumption. rewrite F.
    change (6 + f)%nat with (S (5 + f)). rewrite turn34 by assumption. rewrite F.
    change (5 + f)%nat with (S (4 + f)). rewrite turn5 by assumption. rewrite F.
    change (4 + f)%nat with (S (3 + f)). rewrite turn6 by assumption. rewrite F.
    change (3 + f)%nat with (S (2 + f)). rewrite turn7 by assumption.
    change (2 + f)%nat with (S (1 + f)). rewrite turn_end with (g2 := None) (g3 := Some s3) by lia.
    f_equal; unfold zlen; cbn [length]; lia.
  - destruct Hh as [->|Hh]; [|congruence].
    change (7 + f)%nat with (S (6 + f)). rewrite (turn4 (6 + f)) by auto. rewrite F.
    change (6 + f)%nat with (S (5 + f)). rewrite turn5 by assumption. rewrite F.
    change (5 + f)%nat with (S (4 + f)). rewrite turn6 by assumption. rewrite F.
    change (4 + f)%nat with (S (3 + f)). rewrite turn7 by assumption.
    change (3 + f)%nat with (S (2 + f)). rewrite turn_end with (g2 := None) (g3 := None) by lia.
    f_equal; unfold zlen; cbn [length]; lia.
Qed.

(** ** sequences that stop being well-formed *)
Definition dead (b : @vsub (list item)) : Prop := v_state (vs_v b) = EndOfStream.

Definition stuck_err (nogrid : bool) (rest : list item) (n : Z) : parse_error :=
  match rest with
  | [] => UnexpectedEndOfData (n - 1)
  | Err e :: _ => e
  | Ok s :: _ => if nogrid && (s_num s =? 4) then NoGridDefinition n else InvalidSectionOrder n
  end.

Definition head_not (p : Z -> Prop) (rest : list item) : Prop :=
  match rest with Ok s :: _ => ~ p (s_num s) | _ => True end.

Lemma stuck_num : forall f k rest n mc smc h c0 c1 c2 c3 c4 c5 c6 c7,
  k = 0 \/ k = 2 \/ k = 3 \/ k = 4 \/ k = 5 \/ k = 6 -> head_not (fun x => x = k + 1) rest ->
  exists b', vsub_loop lstep (S f) (MkVsub (MkV rest n None (n - 1) mc smc (EndOfSect k) h) c0 c1 c2 c3) c4 c5 c6 c7 =
    Ret (Some (Err (stuck_err false rest n)), b') /\ dead b'.
Proof.
  intros f k rest n mc smc h c0 c1 c2 c3 c4 c5 c6 c7 Hk Hr.
  destruct rest as [|[s|e] r]; cbn [head_not stuck_err andb] in *.
  - destruct Hk as [->|[->|[->|[->|[->| ->]]]]]; eexists; (split; [reflexivity|reflexivity]).
  - destruct Hk as [->|[->|[->|[->|[->| ->]]]]]; cbn [vsub_loop vs_v]; unfold v_next; cbn [v_state]; cbn iota;
      unfold ensure_sect_num; cbn [pk_next set_has3 v_peeked enum_next v_src v_count lstep bind v_pos v_mc v_smc v_state v_has3 set_src];
      match goal with |- context [s_num s =? ?j] => replace (s_num s =? j) with false by lia end;
      cbn iota; eexists; (split; [reflexivity|reflexivity]).
  - destruct Hk as [->|[->|[->|[->|[->| ->]]]]]; eexists; (split; [reflexivity|reflexivity]).
Qed.

(** At the start of a group nothing fits. *)
Definition group_start (h : bool) (x : Z) : Prop := x = 2 \/ x = 3 \/ (x = 4 /\ h = true).

Lemma stuck_start : forall f st pk x l n pos mc smc h c0 c1 c2 c3 c4 c5 c6 c7,
  at_group st -> head_not (group_start h) (x :: l) ->
  exists b', vsub_loop lstep (S f) (MkVsub (pend pk x l n pos mc smc st h) c0 c1 c2 c3) c4 c5 c6 c7 =
    Ret (Some (Err (stuck_err (negb h) (x :: l) n)), b') /\ dead b'.
Proof.
  intros f st pk x l n pos mc smc h c0 c1 c2 c3 c4 c5 c6 c7 Hst Hx.
  cbn [vsub_loop vs_v]. unfold v_next. rewrite v_state_pend.
  assert (Ev : v_next lstep (pend pk x l n pos mc smc st h) = ensure_sect_2_or_3_or_4 lstep (pend pk x l n pos mc smc st h)).
  { unfold v_next. rewrite v_state_pend. destruct Hst as [->| ->]; reflexivity. }
  unfold v_next in Ev. rewrite v_state_pend in Ev. rewrite Ev. clear Ev.
  unfold ensure_sect_2_or_3_or_4. rewrite pk_next_pend. cbn [bind].
  destruct x as [s|e]; cbn [head_not stuck_err] in *; unfold group_start in Hx.
  2:{ eexists. split; reflexivity. }
  replace (s_num s =? 2) with false by lia. replace (s_num s =? 3) with false by lia.
  destruct (Z.eqb_spec (s_num s) 4) as [E|E].
  - destruct h; [lia|]. eexists. split; reflexivity.
  - cbn iota. rewrite andb_false_r. eexists. split; reflexivity.
Qed.

Lemma stuck_start_end : forall f n mc smc c0 c1 c2 c3 c4 c5 c6 c7,
  exists b', vsub_loop lstep (S f) (MkVsub (MkV [] n None (n - 1) mc smc (EndOfSect 1) false) c0 c1 c2 c3) c4 c5 c6 c7 =
    Ret (Some (Err (UnexpectedEndOfData (n - 1))), b') /\ dead b'.
Proof. intros. eexists. split; reflexivity. Qed.

(** Section numbers that may come after the beginning [t] of a group. *)
Definition follow (h : bool) (t : list section) (x : Z) : Prop :=
  match rev t with
  | [] => group_start h x
  | s :: _ => x = s_num s + 1
  end.

Lemma group_stuck : forall f g t q rest st pk n pos mc smc h c0 c1 c2 c3 c4 c5 c6 c7 x l,
  wf_group g -> at_group st -> (h = true \/ gr3 g <> None) ->
  group_sections g = t ++ q -> q <> [] ->
  head_not (follow h t) rest ->
  map Ok t ++ rest = x :: l ->
  exists b',
  vsub_loop lstep (7 + f) (MkVsub (pend pk x l n pos mc smc st h) c0 c1 c2 c3) c4 c5 c6 c7 =
    Ret (Some (Err (stuck_err (match t with [] => negb h | _ => false end) rest (n + zlen t))), b') /\ dead b'.
Proof.
  intros f [g2 g3 g4 g5 g6 g7] t q rest st pk n pos mc smc h c0 c1 c2 c3 c4 c5 c6 c7 x l
    (H2 & H3 & H23 & H4 & H5 & H6 & H7) Hst Hh E Hq Hr Hx.
  cbn [gr2 gr3 gr4 gr5 gr6 gr7] in *.
  destruct t as [|t0 t].
  { cbn [map app] in Hx. subst rest. rewrite zlen_nil, Z.add_0_r.
    apply (stuck_start (6 + f)); assumption. }
  cbn [map app] in Hx. injection Hx as <- <-.
  assert (FIN : forall f' k n' mc smc h' c0 c1 c2 c3 c4 c5 c6 c7,
    k = 2 \/ k = 3 \/ k = 4 \/ k = 5 \/ k = 6 -> follow h (t0 :: t) = (fun x => x = k + 1) ->
    n' = n + zlen (t0 :: t) ->
    exists b', vsub_loop lstep (S f') (MkVsub (MkV rest n' None (n' - 1) mc smc (EndOfSect k) h') c0 c1 c2 c3) c4 c5 c6 c7 =
      Ret (Some (Err (stuck_err false rest (n + zlen (t0 :: t)))), b') /\ dead b').
  { intros f' k n' mc' smc' h' d0 d1 d2 d3 d4 d5 d6 d7 Hk Hf ->. rewrite Hf in Hr.
    apply stuck_num; [tauto|exact Hr]. }
  assert (F : forall s0 l0 n0 pos0 mc0 smc0 st0 h0, MkV (Ok s0 :: l0) n0 None pos0 mc0 smc0 st0 h0 =
    pend false (Ok s0) l0 n0 pos0 mc0 smc0 st0 h0) by reflexivity.
  assert (PN : forall l0 n0 mc0 smc0 st0 h0, MkV l0 (n0 + 1) None n0 mc0 smc0 st0 h0 =
    @MkV (list item) l0 (n0 + 1) None (n0 + 1 - 1) mc0 smc0 st0 h0) by (intros; f_equal; lia).
  Ltac fin FIN PN k Hk := rewrite PN; apply (FIN _ k);
    [tauto|unfold follow; cbn [rev app]; rewrite Hk; reflexivity|unfold zlen; cbn [length]; lia].
  destruct g3 as [s3|]; [destruct g2 as [s2|]|destruct g2 as [s2|]; [exfalso; apply H23; congruence|]];
    unfold group_sections in E; cbn [opt_list gr2 gr3 gr4 gr5 gr6 gr7 map app] in E; injection E as <- E;
    cbn [opt_num] in *.
  - change (7 + f)%nat with (S (6 + f)). rewrite (turn2 (6 + f)) by assumption.
    destruct t as [|t1 t]; [fin FIN PN 2 H2|]. injection E as <- E. cbn [map app]. rewrite F.
    change (6 + f)%nat with (S (5 + f)). rewrite turn23 by assumption.
    destruct t as [|t2 t]; [fin FIN PN 3 H3|]. injection E as <- E. cbn [map app]. rewrite F.
    change (5 + f)%nat with (S (4 + f)). rewrite turn34 by assumption.
    destruct t as [|t3 t]; [fin FIN PN 4 H4|]. injection E as <- E. cbn [map app]. rewrite F.
    change (4 + f)%nat with (S (3 + f)). rewrite turn5 by assumption.
    destruct t as [|t4 t]; [fin FIN PN 5 H5|]. injection E as <- E. cbn [map app]. rewrite F.
    change (3 + f)%nat with (S (2 + f)). rewrite turn6 by assumption.
    destruct t as [|t5 t]; [fin FIN PN 6 H6|]. injection E as <- E.
    destruct t; destruct q; cbn in E; congruence.
  - change (7 + f)%nat with (S (6 + f)). rewrite (turn3 (6 + f)) by assumption.
    destruct t as [|t2 t]; [fin FIN PN 3 H3|]. injection E as <- E. cbn [map app]. rewrite F.
    change (6 + f)%nat with (S (5 + f)). rewrite turn34 by assumption.
    destruct t as [|t3 t]; [fin FIN PN 4 H4|]. injection E as <- E. cbn [map app]. rewrite F.
    change (5 + f)%nat with (S (4 + f)). rewrite turn5 by assumption.
    destruct t as [|t4 t]; [fin FIN PN 5 H5|]. injection E as <- E. cbn [map app]. rewrite F.
    change (4 + f)%nat with (S (3 + f)). rewrite turn6 by assumption.
    destruct t as [|t5 t]; [fin FIN PN 6 H6|]. injection E as <- E.
    destruct t; destruct q; cbn in E; congruence.
  - destruct Hh as [->|Hh]; [|congruence].
    change (7 + f)%nat with (S (6 + f)). rewrite (turn4 (6 + f)) by auto.
    destruct t as [|t3 t]; [fin FIN PN 4 H4|]. injection E as <- E. cbn [map app]. rewrite F.
    change (6 + f)%nat with (S (5 + f)). rewrite turn5 by assumption.
    destruct t as [|t4 t]; [fin FIN PN 5 H5|]. injection E as <- E. cbn [map app]. rewrite F.
    change (5 + f)%nat with (S (4 + f)). rewrite turn6 by assumption.
    destruct t as [|t5 t]; [fin FIN PN 6 H6|]. injection E as <- E.
    destruct t; destruct q; cbn in E; congruence.
Qed.
