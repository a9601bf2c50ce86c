(** What reading a whole file returns, for every input. *)
From Coq Require Import Lia ZifyBool ZifyNat.
From Verif Require Import Model.Base Model.Errors Model.Sections Model.Reader Model.Parser Model.Context.
From Verif Require Import Spec.ReaderS Spec.ParserS Spec.ReadS Proofs.BaseLemmas Proofs.ReaderP Proofs.SectionStreamP Proofs.ExactP Proofs.ParserP.
From Verif Require Import Proofs.ParserRun Proofs.ParserShape Proofs.ParserSim Proofs.ParserSrc Proofs.ParserStop Proofs.Progress Proofs.ContextP Proofs.FileP Proofs.TableP.
Local Opaque isub_next vsub_next.

Section C.
  Variable m : mode.
  Notation step := (next_section m).

  Definition bit (pre : list section) : Z := match rev pre with s :: _ => if s_num s =? 7 then 0 else 1 | [] => 1 end.

  Definition stops (s' : sstate) (pre : list section) : Prop :=
    step s' = Panic \/
    (pre = [] /\ exists s2, step s' = Ret (None, s2)) \/
    (exists rest, broken pre rest /\
       match rest with
       | [] => exists s2, step s' = Ret (None, s2)
       | [x] => exists s2, step s' = Ret (Some x, s2)
       | _ => False
       end).

  Lemma classify : forall n s s' ms pre, okst s' -> SSteps step s (map Ok (flat_map message_sections ms ++ pre)) s' ->
    Forall wf_message ms -> viable pre -> 2 * left_of s' + bit pre <= Z.of_nat n ->
    exists s' ms pre, SSteps step s (map Ok (flat_map message_sections ms ++ pre)) s' /\
      Forall wf_message ms /\ viable pre /\ stops s' pre.
  Proof.
    induction n as [|n IH]; intros s s' ms pre Ho HS Hw Hv Hn.
    all: pose proof (next_section_progress m s' Ho) as P.
    all: assert (Hb : 0 <= bit pre) by (unfold bit; destruct (rev pre) as [|x ?]; [lia|destruct (s_num x =? 7); lia]).
    all: destruct (step s') as [[[[x|e]|] s1]| |] eqn:E; [| | | |contradiction].
    1,2: exfalso; destruct P as (_ & _ & P & _); lia.
    1,2: exists s', ms, pre; (split; [exact HS|]); (split; [exact Hw|]); (split; [exact Hv|]); unfold stops; rewrite E.
    - destruct pre as [|p0 pre]; [right; left; eauto|]. right. right. exists []. split; [discriminate|]. eauto.
    - left. reflexivity.
    - destruct P as (Ho1 & _ & P0 & P).
      destruct (may_follow_dec pre x Hv) as [HF|Hnf].
      2:{ exists s', ms, pre. split; [exact HS|]. split; [exact Hw|]. split; [exact Hv|]. right. right.
          exists [Ok x]. split; [exact Hnf|]. rewrite E. eauto. }
      assert (HS1 : SSteps step s (map Ok (flat_map message_sections ms ++ pre ++ [x])) s1).
      { rewrite app_assoc, map_app. eapply SSteps_snoc; [exact HS|exact E]. }
      destruct HF as (mm & q & Hm & Em). destruct q as [|q0 q].
      + (* end of the message *)
        assert (Hx8 : s_num x = 8).
        { destruct Hm as (_ & _ & H8 & _). unfold message_sections in Em.
          change (ms0 mm :: ms1 mm :: flat_map group_sections (groups mm) ++ [ms8 mm]) with
            ((ms0 mm :: ms1 mm :: flat_map group_sections (groups mm)) ++ [ms8 mm]) in Em.
          apply app_inj_tail in Em. destruct Em as (_ & <-). exact H8. }
        apply (IH s s1 (ms ++ [mm]) []); [exact Ho1| | | |].
        * rewrite app_nil_r, flat_map_app. cbn [flat_map]. rewrite app_nil_r, Em. exact HS1.
        * apply Forall_app. split; [exact Hw|]. constructor; [exact Hm|constructor].
        * apply viable_nil.
        * change (bit []) with 1. destruct P as [P|(_ & _ & y & Ey & H7)]; [lia|]. exfalso. injection Ey as <-. lia.
      + apply (IH s s1 ms (pre ++ [x])); [exact Ho1|exact HS1|exact Hw| |].
        * exists mm, (q0 :: q). split; [exact Hm|]. split; [discriminate|]. rewrite <- app_assoc. exact Em.
        * unfold bit. rewrite rev_app_distr. cbn [rev app].
          destruct (Z.eqb_spec (s_num x) 7) as [E7|E7].
          -- destruct P as [P|(_ & P & _)]; [lia|].
             (* the section before is number 6 *)
             destruct (viable_shape pre Hv) as (Q & Hs).
             assert (Hx : nexts pre 7).
             { apply (shape_nexts pre Q Hs).
               destruct (may_follow_dec pre x Hv) as [_|Hnf]; [|exfalso; apply Hnf; exists mm, (q0 :: q); auto].
               destruct (nexts_dec pre 7) as [Hd|Hd]; [apply (shape_nexts pre Q Hs); exact Hd|].
               exfalso. assert (HB : head_not Q [Ok x]).
               { cbn [head_not]. intros HQ. apply Hd. apply (shape_nexts pre Q Hs). rewrite <- E7. exact HQ. }
               destruct (shape_of mm pre x (q0 :: q) Hm Em) as (Q2 & Hs2 & HQ2).
               apply Hd. apply (shape_nexts pre Q2 Hs2). rewrite <- E7. exact HQ2. }
             unfold nexts in Hx. unfold bit in Hn, Hb.
             destruct (rev pre) as [|y r]; [lia|].
             destruct (Z.eqb_spec (s_num y) 1); [lia|]. destruct (Z.eqb_spec (s_num y) 7); lia.
          -- destruct P as [P|(_ & _ & y & Ey & H7)]; [lia|]. exfalso. injection Ey as <-. lia.
    - exists s', ms, pre. split; [exact HS|]. split; [exact Hw|]. split; [exact Hv|]. right. right.
      exists [Err e]. split; [exact I|]. rewrite E. eauto.
    - exists s', ms, pre. split; [exact HS|]. split; [exact Hw|]. split; [exact Hv|].
      destruct pre as [|p0 pre]; [right; left; rewrite E; eauto|]. right. right. exists []. split; [discriminate|]. rewrite E. eauto.
    - exists s', ms, pre. split; [exact HS|]. split; [exact Hw|]. split; [exact Hv|]. left. exact E.
  Qed.

  Lemma read_loop_mono : forall f f' c acc, (f <= f')%nat -> read_loop m f c acc <> Diverge ->
    read_loop m f' c acc = read_loop m f c acc.
  Proof.
    induction f as [|f IH]; intros f' c acc Hf Hd; [exfalso; apply Hd; reflexivity|].
    destruct f' as [|f']; [lia|]. rewrite !read_loop_S in *.
    destruct (isub_next step c) as [[[[u|e]|] c']| |]; cbn [bind] in *; try reflexivity. apply IH; [lia|exact Hd].
  Qed.

  Section Src.
  Variable s : src.
  Hypothesis (Hl : zlen (data s) < 2 ^ 63) (Hp : 0 <= pos s).
  Variable fuel : nat.
  Hypothesis Hf : zlen (data s) < Z.of_nat fuel.
  Notation st0 := (MkSstate s 0 0).

  Lemma read_big : forall f r, read_loop m f (isub_new st0) [] = r -> r <> Diverge ->
    read_loop m fuel (isub_new st0) [] = r.
  Proof.
    intros f r E Hd. pose proof (grib2_read_ends m fuel s Hl Hp Hf) as H. unfold grib2_read in H.
    destruct (le_lt_dec f fuel) as [L|L].
    - rewrite (read_loop_mono f fuel) by (try exact L; congruence). exact E.
    - rewrite <- (read_loop_mono fuel f); [exact E|lia|]. intros F. apply H. rewrite F. reflexivity.
  Qed.

  Lemma outcome_crash : forall s' ms pre, SSteps step st0 (map Ok (flat_map message_sections ms ++ pre)) s' ->
    Forall wf_message ms -> viable pre -> step s' = Panic -> grib2_read m fuel s = Panic.
  Proof.
    intros s' ms pre HS Hw Hv E. destruct (value_crash step st0 s' ms pre HS E Hw Hv) as (us & us' & _ & _ & HR).
    destruct (paired_v step st0 _ _ _ HR _ _ eq_refl (joint_between _ _ _)) as (li & HI & HF).
    destruct (Forall2_Ok' _ _ _ HF) as (ws & -> & _).
    pose proof (read_loop_ok m ws (S (length ws)) _ [] Crash HI ltac:(lia)) as HL. cbn beta iota in HL.
    unfold grib2_read. rewrite (read_big _ _ HL ltac:(discriminate)). reflexivity.
  Qed.

  Lemma Run_Steps : forall A (it : iter A) l e, Run it l e -> exists it', Steps it l it'.
  Proof.
    intros A it l e H. induction H as [it it' E|it E|it it' a l e E HR IH]; [eexists; constructor..|].
    destruct IH as (it2 & IH). exists it2. econstructor; eassumption.
  Qed.

  Lemma outcome_error : forall s' ms pre rest, SSteps step st0 (map Ok (flat_map message_sections ms ++ pre)) s' ->
    Forall wf_message ms -> viable pre -> broken pre rest ->
    match rest with
    | [] => exists s2, step s' = Ret (None, s2)
    | [x] => exists s2, step s' = Ret (Some x, s2)
    | _ => False
    end ->
    exists e, order_error pre (zlen (flat_map message_sections ms ++ pre)) rest e /\
      grib2_read m fuel s = Ret (Err (EParse e)).
  Proof.
    intros s' ms pre rest HS Hw Hv Hb HE.
    destruct (value_stop step st0 s' ms pre rest HS) as (us & us' & e & it' & _ & _ & He & _ & _ & HR); try assumption.
    { destruct rest as [|x [|? ?]]; [exact HE|exact HE|contradiction]. }
    destruct (paired_v step st0 _ _ _ HR _ _ eq_refl (joint_between _ _ _)) as (li & HI & HF).
    apply Forall2_app_inv_l in HF. destruct HF as (l1 & l2 & HF1 & HF2 & ->).
    destruct (Forall2_Ok' _ _ _ HF1) as (ws & -> & _).
    inversion HF2 as [|? y ? ? Hy HF3]; subst. inversion HF3; subst. destruct y as [w|e']; [destruct Hy|]. cbn [same_item] in Hy. subst e'.
    apply Run_Steps in HI. destruct HI as (it2 & HI).
    destruct (read_loop_err m ws (S (length ws)) _ [] e it2 HI ltac:(lia)) as (c' & HL).
    exists e. split; [exact He|]. unfold grib2_read. rewrite (read_big _ _ HL ltac:(discriminate)). reflexivity.
  Qed.

  Lemma outcome_ok : forall s' s2 ms, SSteps step st0 (map Ok (flat_map message_sections ms)) s' ->
    Forall wf_message ms -> step s' = Ret (None, s2) ->
    exists g, grib2_read m fuel s = Ret (Ok g) /\ g_sections g = flat_map message_sections ms.
  Proof.
    intros s' s2 ms HS Hw E. apply grib2_read_complete; try assumption.
    unfold section_stream. eapply SSteps_Run_end; eassumption.
  Qed.
  End Src.
End C.

Section Api.
  Context (m : mode) (d : list byte) (p : Z) (fuel : nat) (Hl : zlen d < 2 ^ 63) (Hp : 0 <= p <= zlen d) (Hf : zlen d < Z.of_nat fuel).
  Notation P := (m = Checked).
  Notation src0 := (MkSrc d p []).
  Notation st0 := (MkSstate src0 0 0).

  Lemma tiles_ssteps : forall l s endp cur endp' cur', Inv m d endp cur s -> sched (st_src s) = [] ->
    tiles P d endp cur l endp' cur' ->
    exists s', SSteps (next_section m) s (map Ok l) s' /\ Inv m d endp' cur' s' /\ sched (st_src s') = [].
  Proof.
    induction l as [|x l IH]; intros s endp cur endp' cur' HI Hs HT; cbn [map].
    - inversion HT; subst. exists s. split; [constructor|]. auto.
    - apply tiles_inv in HT. destruct HT as (e1 & c1 & T1 & T2).
      destruct (next_section_complete m d endp cur s x e1 c1 HI Hs T1) as (s1 & E & HI1 & Hs1).
      destruct (IH s1 e1 c1 endp' cur' HI1 Hs1 T2) as (s' & HS & HR).
      exists s'. split; [|exact HR]. econstructor; eassumption.
  Qed.
  Lemma ssteps_tiles : forall l s s' endp cur, Inv m d endp cur s -> sched (st_src s) = [] ->
    SSteps (next_section m) s (map Ok l) s' ->
    exists endp' cur', tiles P d endp cur l endp' cur' /\ Inv m d endp' cur' s' /\ sched (st_src s') = [].
  Proof.
    induction l as [|x l IH]; intros s s' endp cur HI Hs HS; cbn [map] in HS.
    - inversion HS; subst. exists endp, cur. split; [constructor|]. auto.
    - inversion HS as [|? s1 ? ? ? E HS']; subst. pose proof (next_section_spec m d endp cur s HI) as SP. rewrite E in SP.
      destruct SP as (e1 & c1 & HI1 & T & Hs1).
      destruct (IH s1 s' e1 c1 HI1 (Hs1 Hs) HS') as (e2 & c2 & T2 & HR).
      exists e2, c2. split; [eapply tiles_cons; eauto|exact HR].
  Qed.

  Lemma from_tiles : forall l endp cur, tiles P d p p l endp cur ->
    exists s', SSteps (next_section m) st0 (map Ok l) s' /\ Inv m d endp cur s' /\ sched (st_src s') = [].
  Proof. intros l endp cur T. exact (tiles_ssteps l _ p p endp cur (Inv_start m d p [] Hl Hp) eq_refl T). Qed.
  Lemma to_tiles : forall l s', SSteps (next_section m) st0 (map Ok l) s' ->
    exists endp cur, tiles P d p p l endp cur /\ Inv m d endp cur s' /\ sched (st_src s') = [].
  Proof. intros l s' HS. exact (ssteps_tiles l _ s' p p (Inv_start m d p [] Hl Hp) eq_refl HS). Qed.

  Lemma comes_next : forall endp cur s' rest, Inv m d endp cur s' -> sched (st_src s') = [] -> comes P d endp cur rest ->
    match rest with
    | [] => exists s2, next_section m s' = Ret (None, s2)
    | [x] => exists s2, next_section m s' = Ret (Some x, s2)
    | _ => False
    end.
  Proof.
    intros endp cur s' rest HI Hs HC. destruct rest as [|[x|e] [|? ?]]; cbn [comes] in HC; try contradiction.
    - exact (next_end _ _ _ _ _ HI Hs HC).
    - destruct HC as (e1 & c1 & T). apply tiles_inv in T. destruct T as (e2 & c2 & T & _).
      destruct (next_section_complete _ _ _ _ _ _ _ _ HI Hs T) as (s2 & E & _). eauto.
    - exact (next_fail _ _ _ _ _ _ HI Hs HC).
  Qed.

  Lemma next_comes : forall endp cur s' rest, Inv m d endp cur s' -> sched (st_src s') = [] ->
    match rest with
    | [] => exists s2, next_section m s' = Ret (None, s2)
    | [x] => exists s2, next_section m s' = Ret (Some x, s2)
    | _ => False
    end -> comes P d endp cur rest.
  Proof.
    intros endp cur s' rest HI Hs HC. pose proof (next_section_spec m d endp cur s' HI) as SP.
    destruct rest as [|[x|e] [|? ?]]; cbn [comes]; try contradiction; destruct HC as (s2 & E); rewrite E in SP.
    - apply SP. exact Hs.
    - destruct SP as (e1 & c1 & _ & T & _). exists e1, c1. eapply tiles_cons; [exact T|constructor].
    - apply SP. left. exact Hs.
  Qed.

  Let Hp0 : 0 <= pos src0 := proj1 Hp.

  (** The three cases cover every input. *)
  Lemma cases :
    (exists ms endp cur g, Forall wf_message ms /\ tiles P d p p (flat_map message_sections ms) endp cur /\ ends d endp cur /\
       grib2_read m fuel src0 = Ret (Ok g) /\ g_sections g = flat_map message_sections ms) \/
    (exists ms pre endp cur, Forall wf_message ms /\ viable pre /\ tiles P d p p (flat_map message_sections ms ++ pre) endp cur /\
       crashes P d endp cur /\ grib2_read m fuel src0 = Panic) \/
    (exists ms pre rest endp cur e, Forall wf_message ms /\ viable pre /\ tiles P d p p (flat_map message_sections ms ++ pre) endp cur /\
       comes P d endp cur rest /\ broken pre rest /\
       order_error pre (zlen (flat_map message_sections ms ++ pre)) rest e /\
       grib2_read m fuel src0 = Ret (Err (EParse e))).
  Proof.
    assert (Ho : okst st0) by (split; assumption).
    destruct (classify m (Z.to_nat (2 * left_of st0 + 1)) st0 st0 [] [] Ho) as (s' & ms & pre & HS & Hw & Hv & HC).
    { constructor. } { constructor. } { apply viable_nil. }
    { change (bit []) with 1. unfold left_of. lia. }
    destruct (to_tiles _ _ HS) as (endp & cur & T & HI & Hs).
    destruct HC as [HC|[(-> & s2 & HC)|(rest & Hb & HC)]].
    - right. left. exists ms, pre, endp, cur. split; [exact Hw|]. split; [exact Hv|]. split; [exact T|].
      split; [|exact (outcome_crash m src0 Hl Hp0 fuel Hf s' ms pre HS Hw Hv HC)].
      pose proof (next_section_spec m d endp cur s' HI) as SP. rewrite HC in SP. exact SP.
    - left. rewrite app_nil_r in *. destruct (outcome_ok m src0 Hl Hp0 fuel Hf s' s2 ms HS Hw HC) as (g & E & Eg).
      exists ms, endp, cur, g. split; [exact Hw|]. split; [exact T|]. split; [|auto].
      apply (next_comes endp cur s' [] HI Hs). eauto.
    - right. right. destruct (outcome_error m src0 Hl Hp0 fuel Hf s' ms pre rest HS Hw Hv Hb HC) as (e & He & E).
      exists ms, pre, rest, endp, cur, e. split; [exact Hw|]. split; [exact Hv|]. split; [exact T|].
      split; [exact (next_comes endp cur s' rest HI Hs HC)|]. auto.
  Qed.

  Lemma read_ok_iff : (exists g, grib2_read m fuel src0 = Ret (Ok g)) <->
    exists ms endp cur, Forall wf_message ms /\ tiles P d p p (flat_map message_sections ms) endp cur /\ ends d endp cur.
  Proof.
    split.
    - intros (g & E). destruct cases as [(ms & endp & cur & g' & A & B & C & _)|[(ms & pre & endp & cur & _ & _ & _ & _ & F)|(ms & pre & rest & endp & cur & e & _ & _ & _ & _ & _ & _ & F)]].
      + eauto 8. + congruence. + congruence.
    - intros (ms & endp & cur & Hw & T & HE). destruct (from_tiles _ _ _ T) as (s' & HS & HI & Hs).
      destruct (next_end _ _ _ _ _ HI Hs HE) as (s2 & E).
      destruct (outcome_ok m src0 Hl Hp0 fuel Hf s' s2 ms HS Hw E) as (g & Eg & _). eauto.
  Qed.

  Lemma read_crash_iff : grib2_read m fuel src0 = Panic <->
    exists ms pre endp cur, Forall wf_message ms /\ viable pre /\
      tiles P d p p (flat_map message_sections ms ++ pre) endp cur /\ crashes P d endp cur.
  Proof.
    split.
    - intros E. destruct cases as [(ms & endp & cur & g' & _ & _ & _ & F & _)|[(ms & pre & endp & cur & A & B & C & D & _)|(ms & pre & rest & endp & cur & e & _ & _ & _ & _ & _ & _ & F)]].
      + congruence. + eauto 10. + congruence.
    - intros (ms & pre & endp & cur & Hw & Hv & T & HE). destruct (from_tiles _ _ _ T) as (s' & HS & HI & Hs).
      exact (outcome_crash m src0 Hl Hp0 fuel Hf s' ms pre HS Hw Hv (next_crash _ _ _ _ _ HI Hs HE)).
  Qed.

  Lemma order_error_det : forall pre n rest e e', order_error pre n rest e -> order_error pre n rest e' -> e = e'.
  Proof.
    intros pre n [|[x|er] rest] e e' H H'; cbn [order_error] in *; try congruence. intuition congruence.
  Qed.

  Lemma read_error_iff : forall e, grib2_read m fuel src0 = Ret (Err (EParse e)) <->
    exists ms pre rest endp cur, Forall wf_message ms /\ viable pre /\
      tiles P d p p (flat_map message_sections ms ++ pre) endp cur /\ comes P d endp cur rest /\ broken pre rest /\
      order_error pre (zlen (flat_map message_sections ms ++ pre)) rest e.
  Proof.
    intros e. split.
    - intros E. destruct cases as [(ms & endp & cur & g' & _ & _ & _ & F & _)|[(ms & pre & endp & cur & A & B & C & D & F)|(ms & pre & rest & endp & cur & e' & A & B & C & D & H & G & F)]].
      + congruence. + congruence. + assert (e' = e) by congruence. subst e'. exists ms, pre, rest, endp, cur. auto 10.
    - intros (ms & pre & rest & endp & cur & Hw & Hv & T & HC & Hb & HE). destruct (from_tiles _ _ _ T) as (s' & HS & HI & Hs).
      destruct (outcome_error m src0 Hl Hp0 fuel Hf s' ms pre rest HS Hw Hv Hb (comes_next _ _ _ _ HI Hs HC)) as (e' & He & E).
      rewrite (order_error_det _ _ _ _ _ HE He). exact E.
  Qed.
End Api.
