(** The statements of the property theorems C18-C22. *)
From Coq Require Import Lia ZifyBool ZifyNat.
From Verif Require Import Model.Base Model.Helpers Model.Errors Model.Sections Model.Reader Model.Parser Model.Context.
From Verif Require Import Spec.ReaderS Proofs.BaseLemmas Proofs.ReaderP Proofs.SectionStreamP Proofs.ExactP Proofs.Progress Proofs.TableP Proofs.ParserRun Proofs.ParserSim.

Lemma table_sound : forall m d p sched l it', zlen d < 2 ^ 63 -> 0 <= p <= zlen d ->
  Steps (section_stream m (MkSrc d p sched)) (map Ok l) it' ->
  exists endp cur, tiles (m = Checked) d p p l endp cur.
Proof.
  intros m d p sc l it' Hl Hp HS.
  destruct (steps_tiles m d l _ it' p p (Inv_start m d p sc Hl Hp) HS) as (s' & e2 & c2 & T & _). eauto.
Qed.

Lemma positions : forall m d p sched l it', zlen d < 2 ^ 63 -> 0 <= p <= zlen d ->
  Steps (section_stream m (MkSrc d p sched)) (map Ok l) it' ->
  Forall (header_at d) l /\
  (forall k x y, nth_error l k = Some x -> nth_error l (S k) = Some y ->
     s_offset x + s_size x <= s_offset y /\ (s_num y <> 0 -> s_offset y = s_offset x + s_size x)) /\
  (forall a x0 mid x8 b, l = a ++ x0 :: mid ++ x8 :: b ->
     Forall (fun x => s_num x <> 0) mid -> s_num x8 = 8 ->
     forall dis total, s_body x0 = Some (B0 dis total) -> s_offset x8 + s_size x8 = s_offset x0 + total).
Proof.
  intros m d p sc l it' Hl Hp HS. destruct (table_sound m d p sc l it' Hl Hp HS) as (e & c & T).
  assert (Hc : 0 <= p) by lia.
  split; [exact (tiles_headers _ _ _ _ _ _ _ Hc T)|]. split; [exact (tiles_adjacent _ _ _ _ _ _ _ Hc T)|].
  intros a x0 mid x8 b -> HF H8. exact (tiles_total _ _ _ _ _ _ _ _ _ _ _ Hc T HF H8).
Qed.

Lemma first_magic_found : forall d p, zlen d < 2 ^ 63 -> 0 <= p <= zlen d ->
  exists r s', read_sect0 (MkSrc d p []) = Ret (r, s') /\
  match r with
  | Ok None => forall j, p <= j -> ~ magic_at d j
  | Ok (Some (off, b)) => first_magic d p (p + off) /\ pos s' = p + off + 16 /\
      be (octets d (p + off + 7) 1) = 2 /\
      b = B0 (be (octets d (p + off + 6) 1)) (be (octets d (p + off + 8) 8))
  | Err e => exists k v, first_magic d p k /\ be (octets d (k + 7) 1) = v /\ v <> 2 /\ e = GRIBVersionMismatch v
  end.
Proof.
  intros d p Hl Hp. destruct (read_sect0_spec (MkSrc d p []) ltac:(cbn [pos]; lia) Hl) as (r & s' & E & _ & _ & P).
  exists r, s'. split; [exact E|]. cbn [data pos sched] in P. destruct r as [[[off b]|]|e]; cbn [read_sect0_post] in P.
  - destruct P as (A & B & C & D). auto.
  - destruct P as (_ & P). auto.
  - destruct e; try contradiction. destruct P as (k & A & B & C & D). exists k. eexists. eauto.
Qed.

Lemma read_exact_any : forall d p n sched, 0 <= n -> 0 <= p ->
  exists s', read_exact n (MkSrc d p sched) =
    Ret (if p + n <=? zlen d then Ok (octets d p n) else if n =? 0 then Ok [] else Err ReadErrorEof, s') /\
    (p + n <= zlen d -> pos s' = p + n).
Proof.
  intros d p n sc Hn Hp. destruct (read_exact_spec n (MkSrc d p sc) Hn Hp) as (sc' & _ & E). cbn [data pos sched] in E.
  rewrite E. destruct (Z.eqb_spec n 0) as [->|N]; cbn [orb].
  - eexists. rewrite octets_0. split; [|intros _; cbn [pos]; instantiate (1 := MkSrc d (p + 0) sc'); reflexivity]. destruct (p + 0 <=? zlen d); reflexivity.
  - destruct (Z.leb_spec (p + n) (zlen d)); eexists; (split; [reflexivity|]); [intros _; reflexivity|lia].
Qed.

Section Exact.
Context (m : mode) (d : list byte) (p : Z) (Hl : zlen d < 2 ^ 63) (Hp : 0 <= p <= zlen d).

Lemma crash_any : forall sched l, Run (section_stream m (MkSrc d p sched)) (map Ok l) Crash ->
  exists endp cur, tiles (m = Checked) d p p l endp cur /\ crashes (m = Checked) d endp cur.
Proof. intros sc l HR. exact (steps_crash m d l _ p p (Inv_start m d p sc Hl Hp) HR). Qed.

Lemma full_steps : forall l endp cur, tiles (m = Checked) d p p l endp cur ->
  exists s', Steps (section_stream m (MkSrc d p [])) (map Ok l) (MkIter sstate s' (next_section m)) /\
    Inv m d endp cur s' /\ sched (st_src s') = [].
Proof. intros l endp cur T. exact (tiles_steps m d l _ p p endp cur (Inv_start m d p [] Hl Hp) eq_refl T). Qed.

Lemma crash_iff : forall l, Run (section_stream m (MkSrc d p [])) (map Ok l) Crash <->
  exists endp cur, tiles (m = Checked) d p p l endp cur /\ crashes (m = Checked) d endp cur.
Proof.
  intros l. split; [apply crash_any|]. intros (endp & cur & T & C).
  destruct (full_steps l endp cur T) as (s' & HS & HI & Hs).
  rewrite <- (app_nil_r (map Ok l)). eapply Steps_Run; [exact HS|].
  eapply Run_crash. rewrite next_mk, (next_crash _ _ _ _ _ HI Hs C). reflexivity.
Qed.

Lemma end_iff : forall l, Run (section_stream m (MkSrc d p [])) (map Ok l) End <->
  exists endp cur, tiles (m = Checked) d p p l endp cur /\ ends d endp cur.
Proof.
  intros l. split.
  - intros HR. rewrite <- (app_nil_r (map Ok l)) in HR. apply Run_prefix in HR. destruct HR as (it' & HS & HR).
    destruct (steps_tiles m d l _ it' p p (Inv_start m d p [] Hl Hp) HS) as (s' & e2 & c2 & T & -> & HI & Hs).
    specialize (Hs eq_refl). exists e2, c2. split; [exact T|].
    inversion HR as [? ? E|? E|]; subst. rewrite next_mk in E.
    pose proof (next_section_spec m d e2 c2 s' HI) as SP.
    destruct (next_section m s') as [[[r|] s1]| |]; cbn [bind] in E; try discriminate. now apply SP.
  - intros (endp & cur & T & C). destruct (full_steps l endp cur T) as (s' & HS & HI & Hs).
    destruct (next_end _ _ _ _ _ HI Hs C) as (s2 & E).
    rewrite <- (app_nil_r (map Ok l)). eapply Steps_Run; [exact HS|].
    eapply Run_end. rewrite next_mk, E. reflexivity.
Qed.

Lemma error_any : forall sched l e it', Steps (section_stream m (MkSrc d p sched)) (map Ok l ++ [Err e]) it' ->
  sched = [] \/ e <> ReadErrorEof ->
  exists endp cur, tiles (m = Checked) d p p l endp cur /\ fails (m = Checked) d endp cur e.
Proof.
  intros sc l e it' HR HE. apply Steps_app_inv in HR. destruct HR as (it1 & HS & HR).
  destruct (steps_tiles m d l _ it1 p p (Inv_start m d p sc Hl Hp) HS) as (s' & e2 & c2 & T & -> & HI & Hs).
  exists e2, c2. split; [exact T|].
  inversion HR as [|? it2 ? ? ? E]; subst. rewrite next_mk in E.
  pose proof (next_section_spec m d e2 c2 s' HI) as SP.
  destruct (next_section m s') as [[[r|] s1]| |]; cbn [bind] in E; try discriminate.
  injection E as -> <-. apply SP. destruct HE as [->|HE]; auto.
Qed.

Lemma error_iff : forall l e, (exists it', Steps (section_stream m (MkSrc d p [])) (map Ok l ++ [Err e]) it') <->
  exists endp cur, tiles (m = Checked) d p p l endp cur /\ fails (m = Checked) d endp cur e.
Proof.
  intros l e. split; [intros (it' & HS); eapply error_any; eauto|].
  intros (endp & cur & T & C). destruct (full_steps l endp cur T) as (s' & HS & HI & Hs).
  destruct (next_fail _ _ _ _ _ _ HI Hs C) as (s2 & E). eexists.
  eapply Steps_app; [exact HS|]. econstructor; [rewrite next_mk, E; reflexivity|constructor].
Qed.

(** Short reads: everything but an early end and an early "end of data" error is what
    full reads would report. *)
Lemma crash_same : forall sched l, Run (section_stream m (MkSrc d p sched)) (map Ok l) Crash ->
  Run (section_stream m (MkSrc d p [])) (map Ok l) Crash.
Proof. intros sc l HR. apply crash_iff. eapply crash_any. exact HR. Qed.
Lemma error_same : forall sched l e it', e <> ReadErrorEof ->
  Steps (section_stream m (MkSrc d p sched)) (map Ok l ++ [Err e]) it' ->
  exists it2, Steps (section_stream m (MkSrc d p [])) (map Ok l ++ [Err e]) it2.
Proof. intros sc l e it' HE HS. apply error_iff. eapply error_any; eauto. Qed.
End Exact.

Lemma tiles_weaken : forall (P Q : Prop) d endp cur l e c, (Q -> P) -> tiles P d endp cur l e c -> tiles Q d endp cur l e c.
Proof. intros P Q d endp cur l e c HQ H. induction H; econstructor; eauto. Qed.

Lemma sections_end : forall d p sched, zlen d < 2 ^ 63 -> 0 <= p <= zlen d ->
  exists l e, Run (section_stream Checked (MkSrc d p sched)) l e /\ zlen l <= zlen d - p.
Proof.
  intros d p sc Hl Hp.
  destruct (section_stream_ends (length d) (MkSstate (MkSrc d p sc) 0 0)) as (l & e & HR & HL).
  - split; cbn [st_src data pos]; lia.
  - unfold left_of, zlen in *. cbn [st_src data pos]. lia.
  - exists l, e. split; [exact HR|]. unfold left_of in HL. cbn [st_src data pos] in HL. lia.
Qed.

Definition loop_bytes : list byte :=
  [x47; x52; x49; x42; x00; x00; x00; x02; x00; x00; x00; x00; x00; x00; x00; x64] ++ [x00; x00; x00; x00; x07].
Lemma endless : forall n, exists l it', length l = n /\ Steps (section_stream Wrapping (cursor loop_bytes)) l it'.
Proof.
  set (s1 := MkSstate (MkSrc loop_bytes 16 []) 100 84).
  assert (E1 : next_section Wrapping (MkSstate (cursor loop_bytes) 0 0) = Ret (Some (Ok (MkSection 0 0 16 (Some (B0 0 100)))), s1)) by (vm_compute; reflexivity).
  assert (E2 : next_section Wrapping s1 = Ret (Some (Ok (MkSection 7 16 0 (Some B7))), s1)) by (vm_compute; reflexivity).
  assert (G : forall n, exists l it', length l = n /\ Steps (MkIter _ s1 (next_section Wrapping)) l it').
  { induction n as [|n (l & it' & L & HS)].
    - eexists [], _. split; [reflexivity|constructor].
    - eexists (_ :: l), it'. split; [cbn [length]; now rewrite L|]. econstructor; [rewrite next_mk, E2; reflexivity|exact HS]. }
  intros [|n].
  - eexists [], _. split; [reflexivity|constructor].
  - destruct (G n) as (l & it' & L & HS). eexists (_ :: l), it'. split; [cbn [length]; now rewrite L|].
    econstructor; [unfold section_stream; rewrite next_mk, E1; reflexivity|exact HS].
Qed.
