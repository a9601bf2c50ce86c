(** Devices that fail. *)
From Coq Require Import Lia ZifyBool ZifyNat Strings.String.
From Verif Require Import Model.Base Model.Helpers Model.Errors Model.Sections Model.Reader Model.Parser Model.Context Model.Bitmap Model.Product Model.Decoder Model.Session Model.Tools Model.Device.
From Verif Require Import Spec.SessionS Spec.TablesS Spec.DeviceS Proofs.BaseLemmas Proofs.AgreeP.
From Verif Require Proofs.SessionX.
Ltac Zify.zify_post_hook ::= Z.div_mod_to_equations.

Definition Rel (P : list (option fault)) (B : list byte) (d : dev) (s : src) : Prop :=
  d_src d = s /\ data s = B /\ exists used, P = used ++ d_plan d /\ Forall harmless used.
(** The device gave up with the fault [f]. *)
Definition Stop (P : list (option fault)) (B : list byte) (d : dev) (e : parse_error) : Prop :=
  exists used f, P = used ++ Some f :: d_plan d /\ Forall harmless used /\ e = ReadErrorIo (fault_text f) /\ data (d_src d) = B.
Definition stopped {A} P B (x : outcome (result A parse_error * dev)) : Prop := exists e d, x = Ret (Err e, d) /\ Stop P B d e.
Definition tracks {A} (x : dd A) (y : rd A) : Prop := forall P B d s, Rel P B d s -> agree (Rel P B) (stopped P B) (x d) (y s).

Lemma tracks_ret A (a : A) : tracks (dret a) (rret a).
Proof. intros P B d s H. right. exists d. split; [reflexivity|exact H]. Qed.
Lemma tracks_fail A e : tracks (A := A) (dfail e) (rfail e).
Proof. intros P B d s H. right. exists d. split; [reflexivity|exact H]. Qed.
Lemma tracks_pure A (x : outcome A) : tracks (dpure x) (rpure x).
Proof. intros P B d s H. right. unfold dpure, rpure. destruct x; cbn [bind]; try reflexivity. exists d. split; [reflexivity|exact H]. Qed.
Lemma tracks_res A (x : outcome (result A parse_error)) : tracks (dres x) (rres x).
Proof. intros P B d s H. right. unfold dres, rres. destruct x; cbn [bind]; try reflexivity. exists d. split; [reflexivity|exact H]. Qed.
Lemma tracks_bind A C (x : dd A) (y : rd A) (f : A -> dd C) (g : A -> rd C) :
  tracks x y -> (forall a, tracks (f a) (g a)) -> tracks (dbind x f) (rbind y g).
Proof.
  intros H1 H2 P B d s R. specialize (H1 P B d s R). unfold dbind, rbind. destruct H1 as [(e & d' & -> & St)|H1].
  - left. exists e, d'. split; [reflexivity|exact St].
  - destruct (y s) as [[[a|e] s']| |].
    + destruct H1 as (d' & -> & R'). cbn [bind]. exact (H2 a P B d' s' R').
    + destruct H1 as (d' & -> & R'). cbn [bind]. right. eauto.
    + rewrite H1. right. reflexivity.
    + rewrite H1. right. reflexivity.
Qed.
Definition keeps {A} (x : rd A) : Prop := forall s, match x s with Ret (_, s') => data s' = data s | _ => True end.
Lemma Rel_step P B d s o p s' : Rel P B d s -> d_plan d = o :: p -> harmless o -> data s' = B -> Rel P B (MkDev s' p) s'.
Proof.
  intros (E1 & E2 & used & E3 & F) Ep Ho Hd. split; [reflexivity|]. split; [exact Hd|]. exists (used ++ [o]). cbn [d_plan].
  rewrite <- app_assoc. cbn [app]. rewrite <- Ep. split; [exact E3|]. apply Forall_app. auto.
Qed.
Lemma Rel_nil P B d s s' : Rel P B d s -> d_plan d = [] -> data s' = B -> Rel P B (MkDev s' []) s'.
Proof. intros (E1 & E2 & used & E3 & F) Ep Hd. split; [reflexivity|]. split; [exact Hd|]. exists used. cbn [d_plan]. rewrite <- Ep. auto. Qed.
Lemma tracks_call A (x : rd A) : keeps x -> tracks (dcall x) x.
Proof.
  intros K P B d s R. unfold dcall. pose proof R as (E1 & E2 & used & E3 & F). specialize (K s). rewrite E1.
  destruct (d_plan d) as [|[f|] p] eqn:Ep.
  - right. destruct (x s) as [[r s']| |]; cbn [bind]; try reflexivity. eexists. split; [reflexivity|]. eapply Rel_nil; eauto. congruence.
  - left. do 2 eexists. split; [reflexivity|]. exists used, f. cbn [d_plan d_src]. repeat split; auto.
  - right. destruct (x s) as [[r s']| |]; cbn [bind]; try reflexivity. eexists. split; [reflexivity|]. eapply Rel_step; eauto; [exact I|congruence].
Qed.
Lemma keeps_read n : keeps (rread n).
Proof. intros s. unfold rread, read. destruct (sched s); reflexivity. Qed.
Lemma keeps_seek p : keeps (seek_to p).
Proof. intros s. unfold seek_to. destruct (_ && _); reflexivity. Qed.
Lemma keeps_current k : keeps (seek_current k).
Proof. intros s. unfold seek_current, seek_to. destruct (_ && _); reflexivity. Qed.
Lemma tracks_read n : tracks (dread n) (rread n).
Proof. apply tracks_call, keeps_read. Qed.
Lemma tracks_seek p : tracks (dseek_to p) (seek_to p).
Proof. apply tracks_call, keeps_seek. Qed.
Lemma tracks_current k : tracks (dseek_current k) (seek_current k).
Proof. apply tracks_call, keeps_current. Qed.
Lemma tracks_again n : tracks (fun d => dread_again n (d_src d) (d_plan d)) (rread n).
Proof.
  intros P B d s (E1 & E2 & used & E3 & F). pose proof (keeps_read n s) as K. cbv beta. rewrite E1. revert used E3 F.
  generalize (d_plan d) as plan. clear E1 d. induction plan as [|o p IH]; intros used E3 F; cbn [dread_again].
  - right. destruct (rread n s) as [[r s']| |]; cbn [bind]; try reflexivity. eexists. split; [reflexivity|].
    split; [reflexivity|]. split; [congruence|]. exists used. auto.
  - destruct o as [[w|w]|].
    + apply (IH (used ++ [Some (Interrupted w)])); [now rewrite <- app_assoc|]. apply Forall_app. split; [exact F|]. constructor; [exact I|constructor].
    + left. do 2 eexists. split; [reflexivity|]. exists used, (Broken w). cbn [d_plan d_src]. repeat split; auto.
    + right. destruct (rread n s) as [[r s']| |]; cbn [bind]; try reflexivity. eexists. split; [reflexivity|].
      split; [reflexivity|]. split; [congruence|]. exists (used ++ [None]). cbn [d_plan]. rewrite <- app_assoc. split; [exact E3|].
      apply Forall_app. split; [exact F|]. constructor; [exact I|constructor].
Qed.
Lemma tracks_div A : tracks (A := A) (fun _ => Diverge) (fun _ => Diverge).
Proof. intros P B d s R. right. reflexivity. Qed.
Ltac track :=
  repeat first [ apply tracks_ret | apply tracks_fail | apply tracks_pure | apply tracks_res | apply tracks_read | apply tracks_seek | apply tracks_current
               | apply tracks_again | apply tracks_div
               | apply tracks_bind; [|intros ?]
               | match goal with
                 | |- tracks (match ?x with _ => _ end) _ => destruct x
                 | |- tracks (if ?x then _ else _) _ => destruct x
                 end ].
Lemma tracks_exact_loop fuel : forall n, tracks (dread_exact_loop fuel n) (read_exact_loop fuel n).
Proof. induction fuel as [|fuel IH]; intros n; cbn [dread_exact_loop read_exact_loop]; track. apply IH. Qed.
Lemma tracks_exact n : tracks (dread_exact n) (read_exact n).
Proof. intros P B d s R. unfold dread_exact, read_exact. pose proof R as (E & _). rewrite E. apply tracks_exact_loop. exact R. Qed.
Lemma tracks_sect0_loop fuel : forall o, tracks (dread_sect0_loop fuel o) (read_sect0_loop fuel o).
Proof. induction fuel as [|fuel IH]; intros o; cbn [dread_sect0_loop read_sect0_loop]; track. apply IH. Qed.
Lemma tracks_sect0 : tracks dread_sect0 read_sect0.
Proof. intros P B d s R. unfold dread_sect0, read_sect0. pose proof R as (E & _). rewrite E. apply tracks_sect0_loop. exact R. Qed.
Lemma tracks_alloc n : tracks (dvec_alloc n) (vec_alloc n).
Proof. unfold dvec_alloc, vec_alloc. track. Qed.
Lemma tracks_slice n : tracks (dread_slice n) (read_slice n).
Proof. unfold dread_slice, read_slice, dvec_alloc, vec_alloc. track. apply tracks_exact. Qed.
Lemma tracks_checked n : tracks (dread_checked n) (read_checked n).
Proof. unfold dread_checked, read_checked. track. Qed.
Lemma tracks_sect8 : tracks dread_sect8 read_sect8.
Proof. unfold dread_sect8, read_sect8. apply tracks_bind; [apply tracks_checked|intros ?]. track. Qed.
Lemma tracks_header : tracks dread_sect_header read_sect_header.
Proof. unfold dread_sect_header, read_sect_header. apply tracks_bind; [apply tracks_checked|intros ?]. track. Qed.
Lemma tracks_payload m h : tracks (dread_sect_payload m h) (read_sect_payload m h).
Proof.
  destruct h as [size num]. unfold dread_sect_payload, read_sect_payload, dread_sect6_payload, read_sect6_payload, dskip_sect7_payload, skip_sect7_payload. track.
  all: first [apply tracks_slice | apply tracks_exact | apply tracks_alloc].
Qed.
Lemma tracks_as_slice m sect : tracks (dread_sect_payload_as_slice m sect) (read_sect_payload_as_slice m sect).
Proof. unfold dread_sect_payload_as_slice, read_sect_payload_as_slice. track; first [apply tracks_exact | apply tracks_alloc]. Qed.

(** ** The section stream *)
Section Plan.
  Variables (P : list (option fault)) (B : list byte).
  Definition Given (e : parse_error) : Prop := exists used f rest, P = used ++ Some f :: rest /\ Forall harmless used /\ reports f e.
  Definition RelS (a : dstate) (s : sstate) : Prop := Rel P B (dt_dev a) (st_src s) /\ dt_whole a = whole s /\ dt_rest a = rest s.
  Notation halts := (AgreeP.halts Given).
  Lemma Stop_given d e : Stop P B d e -> Given e.
  Proof. intros (used & f & E & F & Rp & _). exists used, f, (d_plan d). repeat split; auto. left. exact Rp. Qed.

  Lemma next_sect0_agrees m a s : RelS a s -> agree RelS halts (dnext_sect0 m a) (next_sect0 m s).
  Proof.
    destruct a as [d w r], s as [s w' r']. intros (R & Ew & Er). cbn [dt_dev st_src dt_whole whole dt_rest rest] in *. subst w' r'.
    unfold dnext_sect0, next_sect0. cbn [dt_dev st_src dt_whole whole dt_rest rest].
    assert (K : forall d0 s0 w1, Rel P B d0 s0 -> agree RelS halts
      (let! r0 := dread_sect0 d0 in
       match r0 with
       | (Ok None, d') => Ret (None, MkDstate d' w1 r)
       | (Err e, d') => Ret (Some (Err e), MkDstate d' w1 r)
       | (Ok (Some (offset, ind)), d') =>
          let! w := arith m Usize (w1 + offset) in
          let total := match ind with B0 _ t => t | _ => 0 end in
          let! w' := arith m Usize (w + total) in
          let! r' := arith m Usize (total - 16) in
          Ret (Some (Ok (MkSection 0 w 16 (Some ind))), MkDstate d' w' r')
       end)
      (let! r0 := read_sect0 s0 in
       match r0 with
       | (Ok None, s') => Ret (None, MkSstate s' w1 r)
       | (Err e, s') => Ret (Some (Err e), MkSstate s' w1 r)
       | (Ok (Some (offset, ind)), s') =>
          let! w := arith m Usize (w1 + offset) in
          let total := match ind with B0 _ t => t | _ => 0 end in
          let! w' := arith m Usize (w + total) in
          let! r' := arith m Usize (total - 16) in
          Ret (Some (Ok (MkSection 0 w 16 (Some ind))), MkSstate s' w' r')
       end)).
    { intros d0 s0 w1 R0. destruct (tracks_sect0 P B d0 s0 R0) as [(e & d' & -> & St)|H].
      - left. cbn [bind]. do 2 eexists. split; [reflexivity|]. eapply Stop_given; exact St.
      - right. destruct (read_sect0 s0) as [[[[[off ind]|]|e] s']| |]; cbn [bind].
        + destruct H as (d' & -> & R'). cbn [bind]. destruct (arith m U64 (w1 + off)) as [w2| |]; cbn [bind]; try reflexivity.
          cbv zeta. destruct (arith m U64 (w2 + _)) as [w3| |]; cbn [bind]; try reflexivity.
          destruct (arith m U64 (_ - 16)) as [r3| |]; cbn [bind]; try reflexivity. eexists. split; [reflexivity|]. repeat split; apply R'.
        + destruct H as (d' & -> & R'). cbn [bind]. eexists. split; [reflexivity|]. repeat split; apply R'.
        + destruct H as (d' & -> & R'). cbn [bind]. eexists. split; [reflexivity|]. repeat split; apply R'.
        + rewrite H. reflexivity.
        + rewrite H. reflexivity. }
    destruct (w =? 0).
    - unfold dposition, dcall. pose proof R as (E1 & E2 & used & Ep & F). rewrite E1. destruct (d_plan d) as [|[f|] p] eqn:Ed; cbn [bind].
      + apply K. split; [reflexivity|]. split; [exact E2|]. exists used. auto.
      + left. do 2 eexists. split; [reflexivity|]. exists used, f, p. repeat split; auto. right. reflexivity.
      + apply K. eapply Rel_step; eauto. exact I.
    - cbn [bind]. apply K. exact R.
  Qed.

  Lemma next_sect8_agrees m a s : RelS a s -> agree RelS halts (dnext_sect8 m a) (next_sect8 m s).
  Proof.
    destruct a as [d w r], s as [s w' r']. intros (R & Ew & Er). cbn [dt_dev st_src dt_whole whole dt_rest rest] in *. subst w' r'.
    unfold dnext_sect8, next_sect8. cbn [dt_dev st_src dt_whole whole dt_rest rest].
    destruct (tracks_sect8 P B d s R) as [(e & d' & -> & St)|H].
    - left. cbn [bind]. do 2 eexists. split; [reflexivity|]. eapply Stop_given; exact St.
    - right. destruct (read_sect8 s) as [[[[u|]|e] s']| |]; cbn [bind].
      + destruct H as (d' & -> & R'). cbn [bind]. destruct (arith m U64 (w - r)) as [w2| |]; cbn [bind]; try reflexivity.
        destruct (arith m U64 (r - 4)) as [r3| |]; cbn [bind]; try reflexivity. eexists. split; [reflexivity|]. repeat split; apply R'.
      + destruct H as (d' & -> & R'). cbn [bind]. eexists. split; [reflexivity|]. repeat split; apply R'.
      + destruct H as (d' & -> & R'). cbn [bind]. eexists. split; [reflexivity|]. repeat split; apply R'.
      + rewrite H. reflexivity.
      + rewrite H. reflexivity.
  Qed.
  Lemma next_sect_agrees m a s : RelS a s -> agree RelS halts (dnext_sect m a) (next_sect m s).
  Proof.
    destruct a as [d w r], s as [s w' r']. intros (R & Ew & Er). cbn [dt_dev st_src dt_whole whole dt_rest rest] in *. subst w' r'.
    unfold dnext_sect, next_sect. cbn [dt_dev st_src dt_whole whole dt_rest rest].
    destruct (tracks_header P B d s R) as [(e & d' & -> & St)|H].
    - left. cbn [bind]. do 2 eexists. split; [reflexivity|]. eapply Stop_given; exact St.
    - destruct (read_sect_header s) as [[[[[size num]|]|e] s']| |]; cbn [bind].
      + destruct H as (d' & -> & R'). cbn [bind]. destruct (arith m U64 (w - r)) as [w2| |]; cbn [bind]; try (right; reflexivity).
        destruct (tracks_payload m (size, num) P B d' s' R') as [(e & d2 & -> & St)|H].
        * left. cbn [bind]. do 2 eexists. split; [reflexivity|]. eapply Stop_given; exact St.
        * right. destruct (read_sect_payload m (size, num) s') as [[[b|e] s2]| |]; cbn [bind].
          -- destruct H as (d2 & -> & R2). cbn [bind]. destruct (arith m U64 (r - size)) as [r3| |]; cbn [bind]; try reflexivity.
             eexists. split; [reflexivity|]. repeat split; apply R2.
          -- destruct H as (d2 & -> & R2). cbn [bind]. eexists. split; [reflexivity|]. repeat split; apply R2.
          -- rewrite H. reflexivity.
          -- rewrite H. reflexivity.
      + right. destruct H as (d' & -> & R'). cbn [bind]. eexists. split; [reflexivity|]. repeat split; apply R'.
      + right. destruct H as (d' & -> & R'). cbn [bind]. eexists. split; [reflexivity|]. repeat split; apply R'.
      + right. rewrite H. reflexivity.
      + right. rewrite H. reflexivity.
  Qed.
  Lemma next_agrees m a s : RelS a s -> agree RelS halts (dnext_section m a) (next_section m s).
  Proof.
    intros R. unfold dnext_section, next_section. pose proof R as (_ & _ & Er). rewrite Er.
    destruct (rest s =? 0); [apply next_sect0_agrees; exact R|]. destruct (rest s =? 4); [apply next_sect8_agrees|apply next_sect_agrees]; exact R.
  Qed.

End Plan.

(** ** Whole files *)
Lemma loop_agrees P B m fuel : forall b c acc, IR (RelS P B) b c ->
  agree (IR (RelS P B)) (fun x => exists e b', x = Ret (Err e, b') /\ Given P e) (dread_loop m fuel b acc) (read_loop m fuel c acc).
Proof.
  induction fuel as [|fuel IH]; intros b c acc R; cbn [dread_loop read_loop]; [right; reflexivity|].
  destruct (inext_agrees (Given P) (dnext_section m) (next_section m) (RelS P B) (next_agrees P B m) b c R) as [(e & b' & -> & G)|K].
  - left. cbn [bind]. eauto.
  - destruct (isub_next (next_section m) c) as [[x c']| |]; [destruct K as (b' & -> & R'); cbn [bind] | right; rewrite K; reflexivity | right; rewrite K; reflexivity].
    destruct x as [[u|e]|]; [apply IH; exact R'| |]; right; eexists; (split; [reflexivity|exact R']).
Qed.
Lemma RelS_start d : RelS (d_plan d) (data (d_src d)) (MkDstate d 0 0) (MkSstate (d_src d) 0 0).
Proof. repeat split. exists []. auto. Qed.
Lemma read_faults : forall m fuel d,
  (exists used rest, d_plan d = used ++ rest /\ Forall harmless used /\
     match grib2_read m fuel (d_src d) with
     | Ret (Ok g) => dev_read m fuel d = Ret (Ok (on_device g rest))
     | Ret (Err e) => dev_read m fuel d = Ret (Err e)
     | Panic => dev_read m fuel d = Panic
     | Diverge => dev_read m fuel d = Diverge
     end) \/
  (exists used f rest e, d_plan d = used ++ Some f :: rest /\ Forall harmless used /\ reports f e /\ dev_read m fuel d = Ret (Err (EParse e))).
Proof.
  intros m fuel d. assert (R0 : IR (RelS (d_plan d) (data (d_src d))) (isub_new (MkDstate d 0 0)) (isub_new (MkSstate (d_src d) 0 0))).
  { unfold IR, isub_new, VR. cbn. repeat split; try reflexivity. exists []. auto. }
  unfold dev_read, grib2_read. destruct (loop_agrees _ _ m fuel _ _ [] R0) as [(e & b' & -> & used & f & rest & E & F & Rp)|K].
  - right. cbn [bind]. exists used, f, rest, e. auto.
  - left. destruct (read_loop m fuel (isub_new (MkSstate (d_src d) 0 0)) []) as [[r c]| |]; cbn [bind].
    + destruct K as (b' & -> & R). cbn [bind]. destruct R as (((Rd & _) & _) & El & _). destruct Rd as (E1 & E2 & used & Ep & F).
      exists used, (d_plan (dt_dev (v_src (is_v b')))). split; [exact Ep|]. split; [exact F|]. destruct r as [subs|e]; [|reflexivity].
      unfold on_device. cbn [g_src g_sections g_subs]. rewrite <- E1, El. destruct (dt_dev (v_src (is_v b'))); reflexivity.
    + exists [], (d_plan d). rewrite K. auto.
    + exists [], (d_plan d). rewrite K. auto.
Qed.
(** ** The section stream *)
Lemma stream_faults : forall m d l a, SSteps (dnext_section m) (MkDstate d 0 0) l a ->
  (exists s, SSteps (next_section m) (MkSstate (d_src d) 0 0) l s) \/
  (exists l1 e l2 s used f rest, l = l1 ++ Err e :: l2 /\ SSteps (next_section m) (MkSstate (d_src d) 0 0) l1 s /\
     d_plan d = used ++ Some f :: rest /\ Forall harmless used /\ reports f e).
Proof.
  intros m d l a H. pose proof (RelS_start d) as R. revert R. generalize (MkSstate (d_src d) 0 0) as s. generalize (d_plan d) as P. generalize (data (d_src d)) as B.
  induction H as [a0|a0 a1 a' x l E H IH]; intros B P s R; [left; exists s; constructor|].
  destruct (next_agrees P B m a0 s R) as [(e & b & Eb & used & f & rest & Ep & F & Rp)|K].
  - right. assert (x = Err e) by congruence. subst x. exists [], e, l, s, used, f, rest. split; [reflexivity|]. split; [constructor|auto].
  - rewrite E in K. destruct (next_section m s) as [[y s1]| |] eqn:Es; try discriminate. destruct K as (a2 & Ea & R'). injection Ea as <- <-.
    destruct (IH B P s1 R') as [(s2 & Hs)|(l1 & e & l2 & s2 & used & f & rest & El & Hs & X)].
    + left. exists s2. econstructor; eauto.
    + right. exists (x :: l1), e, l2, s2, used, f, rest. split; [rewrite El; reflexivity|]. split; [econstructor; eauto|exact X].
Qed.

(** ** Decoding *)
Definition dstopped {A} P B (x : outcome (result A grib_error * dev)) : Prop :=
  exists used f d, x = Ret (Err (EParse (ReadErrorIo (fault_text f))), d) /\ P = used ++ Some f :: d_plan d /\ Forall harmless used /\ data (d_src d) = B.
Definition dtracks {A} (x : dev -> outcome (result A grib_error * dev)) (y : src -> outcome (result A grib_error * src)) : Prop :=
  forall P B d s, Rel P B d s -> agree (Rel P B) (dstopped P B) (x d) (y s).
Lemma dtracks_reread m sect : dtracks (fun d => dreread m d sect) (fun s => reread_grib m s sect).
Proof.
  intros P B d s R. unfold dreread, reread_grib, reread. destruct (tracks_as_slice m sect P B d s R) as [(e & d' & -> & used & f & E & F & -> & Hd)|K].
  - left. cbn [bind]. exists used, f, d'. auto.
  - right. destruct (read_sect_payload_as_slice m sect s) as [[[l|e] s']| |]; cbn [bind].
    1-2: destruct K as (d' & -> & R'); cbn [bind]; eexists; (split; [reflexivity|exact R']).
    all: rewrite K; reflexivity.
Qed.
Lemma dtracks_ret A (r : result A grib_error) : dtracks (fun d => Ret (r, d)) (fun s => Ret (r, s)).
Proof. intros P B d s R. right. exists d. split; [reflexivity|exact R]. Qed.
Lemma dtracks_pure A C (x : outcome A) (k : A -> dev -> outcome (result C grib_error * dev)) k' :
  (forall a, dtracks (k a) (k' a)) -> dtracks (fun d => let! a := x in k a d) (fun s => let! a := x in k' a s).
Proof. intros H P B d s R. destruct x as [a| |]; cbn [bind]; try (right; reflexivity). exact (H a P B d s R). Qed.
Lemma dtracks_try A C (x : dev -> outcome (result A grib_error * dev)) y (k : A -> dev -> outcome (result C grib_error * dev)) k' :
  dtracks x y -> (forall a, dtracks (k a) (k' a)) -> dtracks (fun d => try_dev (x d) k) (fun s => try_src (y s) k').
Proof.
  intros H1 H2 P B d s R. unfold try_dev, try_src. destruct (H1 P B d s R) as [(used & f & d' & -> & X)|K].
  - left. cbn [bind]. exists used, f, d'. auto.
  - destruct (y s) as [[[a|e] s']| |]; cbn [bind].
    + destruct K as (d' & -> & R'). cbn [bind]. exact (H2 a P B d' s' R').
    + right. destruct K as (d' & -> & R'). cbn [bind]. eexists. split; [reflexivity|exact R'].
    + right. rewrite K. reflexivity.
    + right. rewrite K. reflexivity.
Qed.
Lemma dtracks_decoder m v : dtracks (fun d => dev_decoder_from m d v) (fun s => decoder_from m s v).
Proof.
  unfold dev_decoder_from, decoder_from. destruct (s_body (snd (u_3 v))) as [[| | |p3| | | |]|]; try apply dtracks_ret.
  destruct (s_body (snd (u_5 v))) as [[| | | | |p5| |]|]; try apply dtracks_ret.
  destruct (s_body (snd (u_6 v))) as [[| | | | | |i|]|]; try apply dtracks_ret.
  apply dtracks_pure. intros total.
  apply (dtracks_try _ _ (fun d => dev_bitmap m d (snd (u_6 v)) i total) (fun s => decoder_bitmap m s (snd (u_6 v)) i total)).
  - unfold dev_bitmap, decoder_bitmap. destruct (i =? 0); [|destruct (i =? 255); apply dtracks_ret].
    apply (dtracks_try _ _ (fun d => dreread m d (snd (u_6 v))) (fun s => reread_grib m s (snd (u_6 v)))); [apply dtracks_reread|].
    intros l. apply dtracks_pure. intros. apply dtracks_ret.
  - intros bm. apply dtracks_pure. intros enc. apply dtracks_pure. intros tm.
    apply (dtracks_try _ _ (fun d => dreread m d (snd (u_5 v))) (fun s => reread_grib m s (snd (u_5 v)))); [apply dtracks_reread|]. intros s5.
    apply (dtracks_try _ _ (fun d => dreread m d (snd (u_7 v))) (fun s => reread_grib m s (snd (u_7 v)))); [apply dtracks_reread|]. intros s7. apply dtracks_ret.
Qed.
(** A decoder from any state of the device. *)
Lemma decode_faults : forall m d v,
  (exists used rest s', d_plan d = used ++ rest /\ Forall harmless used /\ data s' = data (d_src d) /\
     match decoded_alone m (data (d_src d)) v with
     | Ret r => dev_decoder_from m d v = Ret (r, MkDev s' rest)
     | Panic => dev_decoder_from m d v = Panic
     | Diverge => dev_decoder_from m d v = Diverge
     end) \/
  (exists used f rest s', d_plan d = used ++ Some f :: rest /\ Forall harmless used /\ data s' = data (d_src d) /\
     dev_decoder_from m d v = Ret (Err (EParse (ReadErrorIo (fault_text f))), MkDev s' rest)).
Proof.
  intros m d v. assert (R0 : Rel (d_plan d) (data (d_src d)) d (d_src d)). { repeat split. exists []. auto. }
  destruct (dtracks_decoder m v _ _ d (d_src d) R0) as [(used & f & d' & E & Ep & F & Hd)|K].
  - right. cbv beta in E. exists used, f, (d_plan d'), (d_src d'). rewrite E. destruct d'; auto.
  - left. cbv beta in K. pose proof (SessionX.decode_history m (data (d_src d)) v (d_src d) eq_refl) as D.
    destruct (decoded_alone m (data (d_src d)) v) as [r| |].
    + destruct D as (s' & E & Hd). rewrite E in K. destruct K as (d' & -> & E1 & E2 & used & Ep & F).
      exists used, (d_plan d'), (d_src d'). repeat split; auto; [congruence|]. destruct d'; reflexivity.
    + rewrite D in K. exists [], (d_plan d), (d_src d). auto.
    + rewrite D in K. exists [], (d_plan d), (d_src d). auto.
Qed.
Lemma Forall2_impl A C (R S : A -> C -> Prop) : (forall a b, R a b -> S a b) -> forall l l', Forall2 R l l' -> Forall2 S l l'.
Proof. intros H l l' F. induction F; constructor; auto. Qed.
Lemma attempts_faults : forall m vs d answers, attempts m d vs = Ret answers ->
  Forall2 (fun v r => decoded_alone m (data (d_src d)) v = Ret r \/ exists f, In (Some f) (d_plan d) /\ r = Err (EParse (ReadErrorIo (fault_text f)))) vs answers.
Proof.
  intros m. induction vs as [|v vs IH]; intros d answers H; cbn [attempts] in H; [injection H as <-; constructor|].
  destruct (decode_faults m d v) as [(used & rest & s' & Ep & F & Hd & K)|(used & f & rest & s' & Ep & F & Hd & K)].
  - destruct (decoded_alone m (data (d_src d)) v) as [r| |] eqn:Ea; rewrite K in H; cbn [bind] in H; try discriminate.
    destruct (attempts m (MkDev s' rest) vs) as [l| |] eqn:El; cbn [bind] in H; try discriminate. injection H as <-.
    constructor; [left; exact Ea|]. specialize (IH _ _ El). cbn [d_src d_plan] in IH. rewrite Hd in IH. eapply Forall2_impl; [|exact IH].
    intros a b [X|(f & X & Y)]; [left; exact X|right; exists f; split; [rewrite Ep; apply in_or_app; right; exact X|exact Y]].
  - rewrite K in H. cbn [bind] in H. destruct (attempts m (MkDev s' rest) vs) as [l| |] eqn:El; cbn [bind] in H; try discriminate. injection H as <-.
    constructor; [right; exists f; split; [rewrite Ep; apply in_or_app; right; left; reflexivity|reflexivity]|].
    specialize (IH _ _ El). cbn [d_src d_plan] in IH. rewrite Hd in IH. eapply Forall2_impl; [|exact IH].
    intros a b [X|(g & X & Y)]; [left; exact X|right; exists g; split; [rewrite Ep; apply in_or_app; right; right; exact X|exact Y]].
Qed.

(** The first call of the device asks for its position. *)
Lemma iloop_err S (step : S -> outcome (option item * S)) n s e s' : step s = Ret (Some (Err e), s') ->
  exists b, isub_loop step (Datatypes.S n) (isub_new s) 0 0 0 0 = Ret (Some (Err e), b).
Proof.
  intros E. cbn [isub_loop]. unfold isub_new, v_new. cbn [is_v]. unfold v_next. cbn [v_state]. unfold ensure_sect0, pk_next. cbn [v_peeked].
  unfold enum_next. cbn [v_src]. rewrite E. cbn [bind]. eexists. reflexivity.
Qed.
Lemma first_step m s f rest : dnext_section m (MkDstate (MkDev s (Some f :: rest)) 0 0) =
  Ret (Some (Err (ReadErrorIo (str "resetting the initial position failed: " ++ fault_text f))), MkDstate (MkDev s rest) 0 0).
Proof.
  unfold dnext_section. cbn [dt_rest]. change (0 =? 0) with true. unfold dnext_sect0. cbn [dt_rest dt_whole dt_dev]. change (0 =? 0) with true. cbv iota.
  unfold dposition, dcall. cbn [d_plan d_src bind]. generalize (str "resetting the initial position failed: "). intros t. reflexivity.
Qed.
Lemma first_fault : forall m fuel s f rest, (0 < fuel)%nat ->
  dev_read m fuel (MkDev s (Some f :: rest)) = Ret (Err (EParse (ReadErrorIo (text "resetting the initial position failed: " ++ fault_text f)))).
Proof.
  intros m fuel s f rest H. destruct fuel as [|fuel]; [lia|]. unfold dev_read.
  destruct (iloop_err _ (dnext_section m) 9 _ _ _ (first_step m s f rest)) as (b & E).
  assert (L : dread_loop m (Datatypes.S fuel) (isub_new (MkDstate (MkDev s (Some f :: rest)) 0 0)) [] = Ret (Err (ReadErrorIo (str "resetting the initial position failed: " ++ fault_text f)), b)).
  { cbn [dread_loop]. unfold isub_next. rewrite E. reflexivity. }
  rewrite L. reflexivity.
Qed.
