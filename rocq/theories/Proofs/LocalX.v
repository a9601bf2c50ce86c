(** Reading files that differ only in packed data. *)
From Coq Require Import Lia ZifyBool ZifyNat.
From Verif Require Import Model.Base Model.Helpers Model.Errors Model.Sections Model.Reader Model.Parser Model.Context.
From Verif Require Import Spec.ReaderS Spec.ParserS Spec.ReadS Spec.LocalS.
From Verif Require Import Proofs.BaseLemmas Proofs.ReaderP Proofs.SectionStreamP Proofs.TableP Proofs.ExactP Proofs.ReaderX Proofs.LocalP.
From Verif Require Proofs.AgreeP Proofs.WordX Proofs.ReadX Proofs.FileP.
Ltac Zify.zify_post_hook ::= Z.div_mod_to_equations.

Section Read.
  Variables (m : mode) (d d' : list byte) (p : Z).
  Hypothesis Hl : zlen d < 2 ^ 63.
  Hypothesis Hp : 0 <= p <= zlen d.
  Hypothesis R : repacked (m = Checked) d d' p.
  Let P := m = Checked.
  Lemma H0p : 0 <= p. Proof. lia. Qed.
  Lemma Hl' : zlen d' < 2 ^ 63. Proof. rewrite (proj1 R). exact Hl. Qed.
  Lemma Hp' : 0 <= p <= zlen d'. Proof. rewrite (proj1 R). exact Hp. Qed.

  Lemma run_same : forall l e, Run (section_stream m (MkSrc d p [])) (map Ok l) e -> Run (section_stream m (MkSrc d' p [])) (map Ok l) e.
  Proof.
    intros l [|] H.
    - apply (end_iff m d p Hl Hp) in H. destruct H as (e & c & T & E). apply (end_iff m d' p Hl' Hp'). exists e, c.
      split; [eapply tiles_same; [exact H0p|exact R|exact T]|]. eapply ends_same; [exact H0p|exact R|exact T| |exact E]. intros x e1 c1 U. exact (tile_not_ends _ _ _ _ _ _ _ U E).
    - apply (crash_iff m d p Hl Hp) in H. destruct H as (e & c & T & E). apply (crash_iff m d' p Hl' Hp'). exists e, c.
      split; [eapply tiles_same; [exact H0p|exact R|exact T]|]. eapply crashes_same; [exact H0p|exact R|exact T| |exact E]. intros x e1 c1 U. exact (tile_not_crashes _ _ _ _ _ _ _ U E).
  Qed.
  Lemma error_same : forall l x, (exists it, Steps (section_stream m (MkSrc d p [])) (map Ok l ++ [Err x]) it) -> exists it, Steps (section_stream m (MkSrc d' p [])) (map Ok l ++ [Err x]) it.
  Proof.
    intros l x H. apply (error_iff m d p Hl Hp) in H. destruct H as (e & c & T & E). apply (error_iff m d' p Hl' Hp'). exists e, c.
    split; [eapply tiles_same; [exact H0p|exact R|exact T]|]. eapply fails_same; [exact H0p|exact R|exact T| |exact E]. intros y e1 c1 U. exact (tile_not_fails _ _ _ _ _ _ _ _ U E).
  Qed.

  (** ** A file that is read *)
  Notation it s := (MkIter sstate s (next_section m)).
  Definition Good (a b : sstate) : Prop :=
    exists endp cur l, Inv m d endp cur a /\ Inv m d' endp cur b /\ Run (it a) (map Ok l) End /\ Run (it b) (map Ok l) End /\
      (l = [] -> endp = cur /\ cur <= zlen d) /\ WordX.closed l /\ sched (st_src a) = [] /\ sched (st_src b) = [].
  Definition Dead (d0 : list byte) (s : sstate) : Prop := data (st_src s) = d0 /\ sched (st_src s) = [] /\ rest s = 0 /\ pos (st_src s) = zlen d0.
  Definition Same (a b : sstate) : Prop := Good a b \/ (Dead d a /\ Dead d' b).

  Lemma dead_step d0 s : zlen d0 < 2 ^ 63 -> Dead d0 s -> exists s', next_section m s = Ret (None, s') /\ Dead d0 s'.
  Proof.
    intros L (Hd & Hs & Hr & Hq). unfold next_section. rewrite Hr. cbn [Z.eqb]. unfold next_sect0. pose proof (zlen_nonneg _ d0) as Z0.
    assert (E : read_sect0 (st_src s) = Ret (Ok None, MkSrc d0 (zlen d0) [])).
    { unfold read_sect0. cbn [read_sect0_loop]. unfold rbind at 1, rread, read. rewrite Hs, Hd, Hq. cbn [bind].
      replace (Z.max 0 (Z.min 4096 (zlen d0 - zlen d0))) with 0 by lia. cbn [Z.to_nat firstn]. cbv zeta. change (zlen (@nil byte)) with 0. cbn [Z.ltb Z.compare]. unfold rret.
      rewrite Z.add_0_r. reflexivity. }
    rewrite E. cbn [bind]. eexists. split; [reflexivity|]. repeat split; auto.
  Qed.
  Lemma last_step d0 s endp : Inv m d0 endp endp s -> endp <= zlen d0 -> sched (st_src s) = [] -> Run (it s) (map Ok []) End -> exists s', next_section m s = Ret (None, s') /\ Dead d0 s'.
  Proof.
    intros I Hc Sc HR. pose proof I as [Hd Hlen Hq Hcur Hend Hrest Hwhole Hck]. cbn [map] in HR. inversion HR as [it0 it' E| |]; subst it0.
    assert (R0 : rest s = 0) by (rewrite Hrest, Z.sub_diag; reflexivity).
    rewrite next_mk in E. destruct (next_section m s) as [[[r|] s']| |] eqn:En; cbn [bind] in E; try discriminate. exists s'. split; [reflexivity|].
    unfold next_section in *. rewrite R0 in *. cbn [Z.eqb] in *. unfold next_sect0 in *.
    destruct (read_sect0 (st_src s)) as [[[[[o i]|]|e] s1]| |] eqn:E0; cbn [bind] in En; try discriminate.
    - destruct (arith m U64 _) as [w| |]; cbn [bind] in En; try discriminate. cbv zeta in En. destruct (arith m U64 (w + _)) as [w'| |]; cbn [bind] in En; try discriminate.
      destruct (arith m U64 _) as [w2| |]; cbn [bind] in En; discriminate.
    - injection En as <-. destruct (WordX.word_read_sect0_end _ _ E0 Sc ltac:(rewrite Hd; lia)) as (D1 & D2 & D3). repeat split; cbn [st_src rest]; congruence.
  Qed.
  Lemma same_step a b : Same a b -> AgreeP.agree Same (AgreeP.halts (fun _ => False)) (next_section m a) (next_section m b).
  Proof.
    intros [(endp & cur & l & Ia & Ib & Ra & Rb & L0 & C & Sa & Sb)|(Da & Db)]; right.
    - destruct l as [|x l].
      + destruct (L0 eq_refl) as (-> & Hc). destruct (last_step d a cur Ia Hc Sa Ra) as (a' & -> & Da). destruct (last_step d' b cur Ib ltac:(rewrite (proj1 R); exact Hc) Sb Rb) as (b' & -> & Db).
        exists a'. split; [reflexivity|]. right. auto.
      + cbn [map] in Ra, Rb. inversion Ra as [| |it0 it1 x0 l1 e0 Ea Ra']; subst. inversion Rb as [| |it0 it2 x0 l1 e0 Eb Rb']; subst.
        rewrite next_mk in Ea, Eb. pose proof (next_section_spec m d endp cur a Ia) as SA. pose proof (next_section_spec m d' endp cur b Ib) as SB.
        destruct (next_section m a) as [[[ra|] a1]| |] eqn:Na; cbn [bind] in Ea; try discriminate. injection Ea as -> <-.
        destruct (next_section m b) as [[[rb|] b1]| |] eqn:Nb; cbn [bind] in Eb; try discriminate. injection Eb as -> <-.
        destruct SA as (e1 & c1 & I1 & T1 & S1). specialize (S1 Sa). destruct SB as (e2 & c2 & I2 & T2 & S2). specialize (S2 Sb).
        assert (H0 : 0 <= cur) by (destruct Ia; lia).
        assert (E : e1 = e2 /\ c1 = c2).
        { pose proof (tile_cur _ _ _ _ _ _ _ H0 T1) as (A1 & _ & _ & _ & _ & _ & A2 & _ & A3). pose proof (tile_cur _ _ _ _ _ _ _ H0 T2) as (B1 & _ & _ & _ & _ & _ & B2 & _ & B3).
          split; [|lia]. destruct (Z.eq_dec (s_num x) 0) as [N|N]; [|rewrite A2, B2 by exact N; reflexivity].
          inversion T1; subst; cbn [s_num] in *; try lia. - specialize (A3 _ _ eq_refl). specialize (B3 _ _ eq_refl). cbn [s_offset] in *. lia.
          - match goal with X : body_at _ _ _ _ _ |- _ => apply WordX.body_num in X; lia end. }
        destruct E as (<- & <-). exists a1. split; [reflexivity|]. left. exists e1, c1, l. repeat (split; [assumption|]).
        split. { intros ->. pose proof (WordX.closed_one x C) as N8. inversion T1; subst; cbn [s_num] in N8; try lia. match goal with X : body_at _ _ _ _ _ |- _ => apply WordX.body_num in X; lia end. }
        split; [destruct l as [|y l]; [intros z Hz; discriminate|eapply WordX.closed_cons; exact C]|]. auto.
    - destruct (dead_step d a Hl Da) as (a' & -> & Da'). destruct (dead_step d' b Hl' Db) as (b' & -> & Db'). exists a'. split; [reflexivity|]. right. auto.
  Qed.
  Lemma loop_same fuel : forall b c acc, AgreeP.IR Same b c -> AgreeP.agree (AgreeP.IR Same) (fun _ => False) (read_loop m fuel b acc) (read_loop m fuel c acc).
  Proof.
    induction fuel as [|fuel IH]; intros b c acc H; cbn [read_loop]; [right; reflexivity|].
    destruct (AgreeP.inext_agrees (fun _ => False) (next_section m) (next_section m) Same same_step b c H) as [(e & b' & _ & [])|K].
    destruct (isub_next (next_section m) c) as [[x c']| |].
    - destruct K as (b' & -> & R'). cbn [bind]. destruct x as [[u|e]|]; [apply IH; exact R'| |]; right; eexists; (split; [reflexivity|exact R']).
    - rewrite K. right. reflexivity.
    - rewrite K. right. reflexivity.
  Qed.
  Variable fuel : nat.
  Hypothesis Hf : zlen d < Z.of_nat fuel.
  Lemma Hf' : zlen d' < Z.of_nat fuel. Proof. rewrite (proj1 R). exact Hf. Qed.
  Lemma read_ok g : grib2_read m fuel (MkSrc d p []) = Ret (Ok g) -> exists g', grib2_read m fuel (MkSrc d' p []) = Ret (Ok g') /\ g_sections g' = g_sections g /\ g_subs g' = g_subs g.
  Proof.
    intros H. destruct (FileP.grib2_read_inv m fuel _ g H Hl ltac:(cbn [pos]; lia)) as (HR & ms & us & W & Es & _).
    pose proof (run_same _ _ HR) as HR'.
    assert (G : Good (MkSstate (MkSrc d p []) 0 0) (MkSstate (MkSrc d' p []) 0 0)).
    { exists p, p, (g_sections g). split; [apply Inv_start; assumption|]. split; [apply Inv_start; [exact Hl'|exact Hp']|]. split; [exact HR|]. split; [exact HR'|]. split; [lia|]. split; [|auto].
      rewrite Es. apply WordX.messages_closed. exact W. }
    assert (R0 : AgreeP.IR Same (isub_new (MkSstate (MkSrc d p []) 0 0)) (isub_new (MkSstate (MkSrc d' p []) 0 0))).
    { unfold AgreeP.IR, isub_new, AgreeP.VR, v_new. cbn. repeat split; try reflexivity. left. exact G. }
    destruct (loop_same fuel _ _ [] R0) as [[]|K]. unfold grib2_read in *.
    destruct (read_loop m fuel (isub_new (MkSstate (MkSrc d' p []) 0 0)) []) as [[r c]| |].
    - destruct K as (b & E & V & E1 & _). rewrite E in H. cbn [bind] in *. destruct r as [subs|e]; [|discriminate]. eexists. split; [reflexivity|]. injection H as <-. cbn [g_sections g_subs]. rewrite E1. auto.
    - rewrite K in H. discriminate.
    - rewrite K in H. discriminate.
  Qed.
  Lemma read_any :
    match grib2_read m fuel (MkSrc d p []) with
    | Ret (Ok g) => exists g', grib2_read m fuel (MkSrc d' p []) = Ret (Ok g') /\ g_sections g' = g_sections g /\ g_subs g' = g_subs g
    | x => grib2_read m fuel (MkSrc d' p []) = x
    end.
  Proof.
    destruct (grib2_read m fuel (MkSrc d p [])) as [[g|e]| |] eqn:E.
    - apply read_ok. exact E.
    - assert (K : exists x, e = EParse x).
      { unfold grib2_read in E. destruct (read_loop m fuel _ []) as [[[u|x] c]| |]; cbn [bind] in E; try discriminate. injection E as <-. eauto. }
      destruct K as (x & ->). apply (ReadX.read_error_iff m d p fuel Hl Hp Hf) in E. apply (ReadX.read_error_iff m d' p fuel Hl' Hp' Hf').
      destruct E as (ms & pre & r & endp & cur & W & V & T & C & B & O). exists ms, pre, r, endp, cur. repeat (split; [assumption|]).
      split; [eapply tiles_same; [exact H0p|exact R|exact T]|]. split; [|auto].
      destruct r as [|[s|y] [|? ?]]; cbn [comes] in *; try contradiction.
      + eapply ends_same; [exact H0p|exact R|exact T| |exact C]. intros z e1 c1 U. exact (tile_not_ends _ _ _ _ _ _ _ U C).
      + destruct C as (e1 & c1 & C). exists e1, c1. eapply tiles_same_from; [exact H0p|exact R|exact T|exact C].
      + eapply fails_same; [exact H0p|exact R|exact T| |exact C]. intros z e1 c1 U. exact (tile_not_fails _ _ _ _ _ _ _ _ U C).
    - apply (ReadX.read_crash_iff m d p fuel Hl Hp Hf) in E. apply (ReadX.read_crash_iff m d' p fuel Hl' Hp' Hf').
      destruct E as (ms & pre & endp & cur & W & V & T & C). exists ms, pre, endp, cur. repeat (split; [assumption|]).
      split; [eapply tiles_same; [exact H0p|exact R|exact T]|]. eapply crashes_same; [exact H0p|exact R|exact T| |exact C]. intros z e1 c1 U. exact (tile_not_crashes _ _ _ _ _ _ _ U C).
    - exfalso. revert E. apply FileP.grib2_read_ends; cbn [data pos]; [exact Hl|lia|exact Hf].
  Qed.
End Read.
