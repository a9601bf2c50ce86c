(** Whole files: what a successful read returns, when it succeeds, termination. *)
From Coq Require Import Lia ZifyBool ZifyNat.
From Verif Require Import Model.Base Model.Errors Model.Sections Model.Reader Model.Parser Model.Context.
From Verif Require Import Spec.ReaderS Spec.ParserS Proofs.BaseLemmas Proofs.ReaderP Proofs.SectionStreamP Proofs.ParserP.
From Verif Require Import Proofs.ParserRun Proofs.ParserShape Proofs.ParserSim Proofs.ParserSrc Proofs.Progress Proofs.ContextP.
Local Opaque isub_next vsub_next.

Lemma Run_Steps_prefix : forall A (it it' : iter A) l, Steps it l it' -> forall k e, Run it k e -> exists q, k = l ++ q /\ Run it' q e.
Proof.
  intros A it it' l H. induction H as [it|it it1 it' a l E HS IH]; intros k e HR.
  - exists k. auto.
  - inversion HR; subst.
    + rewrite E in H. discriminate.
    + rewrite E in H. discriminate.
    + rewrite E in H. injection H as <- <-. destruct (IH _ _ H0) as (q & -> & Hq). exists q. auto.
Qed.

Lemma points_entry : forall it secs s p, Run it (map Ok secs) End -> points it s p -> entry secs s p.
Proof.
  intros it secs s p HR (Hp & l & it' & HS & Hn). destruct (Run_Steps_prefix _ _ _ _ HS _ _ HR) as (q & E & _).
  split; [exact Hp|].
  assert (Hn' : nth_error (map (@Ok section parse_error) secs) (Z.to_nat p) = Some (Ok s)).
  { rewrite E, nth_error_app1; [exact Hn|]. apply nth_error_Some. congruence. }
  rewrite nth_error_map in Hn'. destruct (nth_error secs (Z.to_nat p)); [|discriminate]. cbn in Hn'. congruence.
Qed.

Lemma same_indexes : forall it secs u w, Run it (map Ok secs) End -> same_submessage it u w -> indexes secs u w.
Proof.
  intros it secs u w HR (A & B & C0 & C1 & C2 & C3 & C4 & C5 & C6 & C7 & C8).
  pose proof (points_entry it secs) as P.
  unfold indexes. repeat (split; [first [assumption | apply P; assumption | idtac]|]).
  - destruct (u_2 u), (u_2 w); cbn in *; auto.
  - destruct C8; auto.
Qed.

Lemma Forall2_Ok : forall it us l, Forall2 (same_item it) l (map Ok us) ->
  exists vs, l = map Ok vs /\ Forall2 (same_submessage it) vs us.
Proof.
  induction us as [|u us IH]; intros l H; cbn [map] in H.
  - inversion H. exists []. split; constructor.
  - inversion H as [|x y l1 l2 Hx Hr]; subst. destruct (IH _ Hr) as (vs & -> & HF). destruct x as [v|e]; [|destruct Hx].
    exists (v :: vs). split; [reflexivity|]. constructor; assumption.
Qed.
Lemma Forall2_Ok' : forall it us l, Forall2 (same_item it) (map Ok us) l ->
  exists vs, l = map Ok vs /\ Forall2 (same_submessage it) us vs.
Proof.
  induction us as [|u us IH]; intros l H; cbn [map] in H.
  - inversion H. exists []. split; constructor.
  - inversion H as [|x y l1 l2 Hx Hr]; subst. destruct (IH _ Hr) as (vs & -> & HF). destruct y as [v|e]; [|destruct Hx].
    exists (v :: vs). split; [reflexivity|]. constructor; assumption.
Qed.

Lemma F2_length : forall A B (R : A -> B -> Prop) l l', Forall2 R l l' -> length l = length l'.
Proof. intros A B R l l' H. induction H; cbn [length]; congruence. Qed.

Lemma joint_between : forall S (step : S -> _) s, paired step s (vsub_new s) (isub_new s).
Proof. intros S step s. left. exists []. split; [apply joint_new|left; reflexivity]. Qed.

Lemma okst_start : forall d p sc, zlen d < 2 ^ 63 -> 0 <= p -> okst (MkSstate (MkSrc d p sc) 0 0).
Proof. intros. split; cbn [st_src data pos]; assumption. Qed.

Lemma grib2_read_inv : forall m fuel s g, grib2_read m fuel s = Ret (Ok g) -> zlen (data s) < 2 ^ 63 -> 0 <= pos s ->
  Run (section_stream m s) (map Ok (g_sections g)) End /\
  exists ms us, Forall wf_message ms /\ g_sections g = flat_map message_sections ms /\
    submessages_of_all 0 ms us /\ Forall2 (indexes (g_sections g)) us (g_subs g).
Proof.
  intros m fuel s g H Hl Hp. unfold grib2_read in H.
  destruct (read_loop m fuel (isub_new (MkSstate s 0 0)) []) as [[[subs|e] c']| |] eqn:E; cbn [bind] in H; try discriminate.
  injection H as <-. cbn [g_sections g_subs].
  assert (Ho : okst (MkSstate s 0 0)) by (split; assumption).
  destruct (read_loop_run m _ _ _ _ _ Ho E) as (l & Es & HI & HR). cbn [rev app] in Es. subst subs.
  split; [exact HR|].
  destruct (paired_i (next_section m) (MkSstate s 0 0) _ _ _ HI _ _ eq_refl (joint_between _ _ _)) as (lv & HV & HF).
  destruct (Forall2_Ok _ _ _ HF) as (vs & -> & HF').
  destruct (proj1 (stream_iff (next_section m) _ _ HR)) as (ms & Hw & Em). { exists vs. exact HV. }
  assert (Em' : rev (is_log c') = flat_map message_sections ms).
  { clear - Em. revert Em. generalize (rev (is_log c')) (flat_map message_sections ms).
    induction l as [|a l IH]; intros [|b l'] H; cbn [map] in H; try discriminate; [reflexivity|].
    injection H as -> H. f_equal. apply IH. exact H. }
  destruct (stream_wf (next_section m) _ ms _ HR Hw Em) as (us & HU & HUs).
  assert (vs = us). { pose proof (Run_det _ _ _ _ HV _ _ HU) as (Q & _). clear - Q. revert us Q. induction vs as [|v vs IH]; intros [|u us] Q; cbn [map] in Q; try discriminate; [reflexivity|]. injection Q as -> Q. f_equal. auto. }
  subst us. exists ms, vs. split; [exact Hw|]. split; [exact Em'|]. split; [exact HUs|].
  clear - HF' HR. induction HF' as [|u w us ws Hx HF IH]; constructor; [|exact IH]. eapply same_indexes; eassumption.
Qed.

Lemma Run_last_len : forall m s l e, okst s -> Run (MkIter _ s (next_section m)) l e ->
  zlen (filter (fun x => match x with Ok y => negb (s_num y =? 7) | Err _ => true end) l) <= left_of s.
Proof.
  intros m s l e Ho HR.
  assert (G : forall it l e, Run it l e -> forall s, it = MkIter _ s (next_section m) -> exists s', SSteps (next_section m) s l s').
  { clear. intros it l e H. induction H as [it it' E|it E|it it' a l e E HR IH]; intros s ->.
    - exists s. constructor.
    - exists s. constructor.
    - rewrite next_mk in E. destruct (next_section m s) as [[o s1]| |] eqn:En; cbn [bind] in E; try discriminate.
      injection E as -> <-. destruct (IH s1 eq_refl) as (s' & HS). exists s'. econstructor; eassumption. }
  destruct (G _ _ _ HR s eq_refl) as (s' & HS). destruct (steps_left m _ _ _ HS Ho) as [_ H].
  unfold left_of in *. lia.
Qed.

Lemma submessages_length2 : forall ms i us, submessages_of_all i ms us -> Forall wf_message ms ->
  zlen us <= fives (flat_map message_sections ms).
Proof.
  induction ms as [|m ms IH]; intros i us H Hw; inversion H as [|i' m' ms' us0 us1 Hu Ha]; subst.
  - cbn. lia.
  - inversion Hw as [|? ? Hm Hms]; subst. specialize (IH _ _ Ha Hms). destruct Hu as [H2 _].
    cbn [flat_map]. unfold fives in *. rewrite filter_app, !zlen_app.
    assert (G : zlen us0 <= zlen (filter (fun s => s_num s =? 5) (message_sections m))); [|lia].
    destruct Hm as (_ & _ & _ & Hg & _). unfold message_sections. cbn [filter].
    assert (G2 : zlen us0 <= zlen (filter (fun s => s_num s =? 5) (flat_map group_sections (groups m)))).
    { replace (zlen us0) with (zlen (groups m)) by (unfold zlen; lia). clear - Hg.
      induction Hg as [|g gs Hg Hgs IH]; [cbn; lia|]. cbn [flat_map]. rewrite filter_app, zlen_app, zlen_cons.
      unfold group_sections at 1. rewrite !filter_app, !zlen_app. destruct Hg as (_ & _ & _ & _ & H5 & _).
      assert (1 <= zlen (filter (fun s => s_num s =? 5) [gr4 g; gr5 g; gr6 g; gr7 g])).
      { cbn [filter]. rewrite H5. change (5 =? 5) with true. cbv iota.
        destruct (s_num (gr4 g) =? 5); rewrite ?zlen_cons; pose proof (zlen_nonneg _ (filter (fun s => s_num s =? 5) [gr6 g; gr7 g])) as F; cbn [filter] in F; lia. }
      pose proof (zlen_nonneg _ (filter (fun s => s_num s =? 5) (opt_list (gr2 g)))).
      pose proof (zlen_nonneg _ (filter (fun s => s_num s =? 5) (opt_list (gr3 g)))). lia. }
    rewrite filter_app.
    pose proof (zlen_nonneg _ (filter (fun s => s_num s =? 5) [ms8 m])).
    destruct (s_num (ms0 m) =? 5), (s_num (ms1 m) =? 5); rewrite ?zlen_cons, ?zlen_app; lia.
Qed.

Lemma fives_filter : forall l, fives l <= zlen (filter (fun x : item => match x with Ok y => negb (s_num y =? 7) | Err _ => true end) (map Ok l)).
Proof.
  induction l as [|s l IH]; [cbn; lia|]. unfold fives in *. cbn [map filter].
  destruct (Z.eqb_spec (s_num s) 5) as [E|E].
  - replace (s_num s =? 7) with false by lia. cbn [negb]. rewrite !zlen_cons. lia.
  - destruct (negb (s_num s =? 7)); rewrite ?zlen_cons; lia.
Qed.

Lemma grib2_read_complete : forall m fuel s ms, zlen (data s) < 2 ^ 63 -> 0 <= pos s ->
  zlen (data s) < Z.of_nat fuel -> Forall wf_message ms ->
  Run (section_stream m s) (map Ok (flat_map message_sections ms)) End ->
  exists g, grib2_read m fuel s = Ret (Ok g) /\ g_sections g = flat_map message_sections ms.
Proof.
  intros m fuel s ms Hl Hp Hf Hw HR.
  destruct (stream_wf (next_section m) (MkSstate s 0 0) ms _ HR Hw eq_refl) as (us & HU & HUs).
  destruct (paired_v (next_section m) (MkSstate s 0 0) _ _ _ HU _ _ eq_refl (joint_between _ _ _)) as (li & HI & HF).
  destruct (Forall2_Ok' _ _ _ HF) as (ws & -> & HF').
  assert (Ho : okst (MkSstate s 0 0)) by (split; assumption).
  assert (Hlen : (length ws < fuel)%nat).
  { pose proof (F2_length _ _ _ _ _ HF') as HL. pose proof (submessages_length2 _ _ _ HUs Hw) as H1.
    pose proof (fives_filter (flat_map message_sections ms)) as H2.
    pose proof (Run_last_len m _ _ _ Ho HR) as H3. unfold left_of in H3. cbn [st_src] in H3. pose proof (zlen_nonneg _ (data s)). unfold zlen in *. lia. }
  destruct (read_loop_ok m ws fuel _ [] End HI Hlen) as (c' & E).
  assert (E' : grib2_read m fuel s = Ret (Ok (MkGrib2 (st_src (v_src (is_v c'))) (rev (is_log c')) ws))).
  { unfold grib2_read. rewrite E. reflexivity. }
  eexists. split; [exact E'|]. cbn [g_sections].
  destruct (grib2_read_inv _ _ _ _ E' Hl Hp) as (HR' & _). cbn [g_sections] in HR'.
  pose proof (Run_det _ _ _ _ HR' _ _ HR) as (Q & _). clear - Q. revert Q. generalize (rev (is_log c')), (flat_map message_sections ms).
  induction l as [|a l IH]; intros [|b l'] Q; cbn [map] in Q; try discriminate; [reflexivity|]. injection Q as -> Q. f_equal. auto.
Qed.

Lemma grib2_read_ends : forall m fuel s, zlen (data s) < 2 ^ 63 -> 0 <= pos s -> zlen (data s) < Z.of_nat fuel ->
  grib2_read m fuel s <> Diverge.
Proof.
  intros m fuel s Hl Hp Hf H. unfold grib2_read in H.
  assert (Ho : okst (MkSstate s 0 0)) by (split; assumption).
  pose proof (read_loop_ends m (MkSstate s 0 0) fuel _ _ [] [] Ho (joint_new _ _) (or_introl eq_refl)) as P.
  destruct (read_loop m fuel (isub_new (MkSstate s 0 0)) []) as [[[subs|e] c']| |]; cbn [bind] in H; try discriminate.
  apply P; [|reflexivity]. unfold left_of. cbn [st_src]. change (fives []) with 0. pose proof (zlen_nonneg _ (data s)). lia.
Qed.

Lemma grib2_read_iff : forall m fuel s, zlen (data s) < 2 ^ 63 -> 0 <= pos s -> zlen (data s) < Z.of_nat fuel ->
  (exists g, grib2_read m fuel s = Ret (Ok g)) <->
  (exists ms, Forall wf_message ms /\ Run (section_stream m s) (map Ok (flat_map message_sections ms)) End).
Proof.
  intros m fuel s Hl Hp Hf. split.
  - intros (g & E). destruct (grib2_read_inv _ _ _ _ E Hl Hp) as (HR & ms & us & Hw & Em & _).
    exists ms. rewrite <- Em. auto.
  - intros (ms & Hw & HR). destruct (grib2_read_complete m fuel s ms Hl Hp Hf Hw HR) as (g & E & _). eauto.
Qed.
