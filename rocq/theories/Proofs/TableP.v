(** Elementary consequences of [tiles]; panics and endless streams of the reader. *)
From Coq Require Import Lia ZifyBool ZifyNat.
From Verif Require Import Model.Base Model.Helpers Model.Errors Model.Sections Model.Reader.
From Verif Require Import Spec.ReaderS Proofs.BaseLemmas Proofs.ReaderP Proofs.SectionStreamP Proofs.Progress.
Ltac Zify.zify_post_hook ::= Z.div_mod_to_equations.

Lemma body_num : forall d off size num b, body_at d off size num b -> 1 <= num <= 7.
Proof. intros d off size num b (_ & H). intuition lia. Qed.

Lemma tile_cur : forall P d endp cur x endp' cur', 0 <= cur -> tile P d endp cur x endp' cur' ->
  cur' = s_offset x + s_size x /\ cur <= s_offset x /\ (s_num x <> 0 -> s_offset x = cur) /\ header_at d x /\ 0 <= s_size x /\
  (s_num x = 0 -> endp = cur) /\ (s_num x <> 0 -> endp' = endp) /\ (s_num x = 8 -> endp' = cur') /\
  (forall a t, s_body x = Some (B0 a t) -> endp' = s_offset x + t).
Proof.
  intros P d endp cur x endp' cur' Hc H. unfold header_at. inversion H; subst; cbn [s_num s_offset s_size s_body].
  - destruct H0 as (F1 & (F2 & F3 & F4) & _). change (0 =? 0) with true. cbv iota. repeat split; try lia; try assumption.
    intros a t E. injection E as <- <-. lia.
  - change (8 =? 0) with false. change (8 =? 8) with true. cbv iota. repeat split; try lia; try assumption. discriminate.
  - pose proof (body_num _ _ _ _ _ H5) as R.
    replace (be (octets d (cur + 4) 1) =? 0) with false by lia. replace (be (octets d (cur + 4) 1) =? 8) with false by lia.
    cbv iota. pose proof (octets_be_range d cur 4 ltac:(lia)). repeat split; try lia.
    + eexists. split; [reflexivity|]. exact H5.
    + intros a t E. injection E as ->. destruct H5 as [_ H5]. intuition discriminate.
Qed.

Lemma tiles_headers : forall P d l endp cur endp' cur', 0 <= cur -> tiles P d endp cur l endp' cur' -> Forall (header_at d) l.
Proof.
  induction l as [|x l IH]; intros endp cur endp' cur' Hc H; [constructor|].
  apply tiles_inv in H. destruct H as (e1 & c1 & T & H). pose proof (tile_cur _ _ _ _ _ _ _ Hc T) as (E & F & G & HH & S & _).
  constructor; [exact HH|]. eapply IH; [|exact H]. lia.
Qed.

Lemma tiles_adjacent : forall P d l endp cur endp' cur', 0 <= cur -> tiles P d endp cur l endp' cur' ->
  forall k x y, nth_error l k = Some x -> nth_error l (S k) = Some y ->
  s_offset x + s_size x <= s_offset y /\ (s_num y <> 0 -> s_offset y = s_offset x + s_size x).
Proof.
  induction l as [|z l IH]; intros endp cur endp' cur' Hc H k x y Hx Hy; [destruct k; discriminate|].
  apply tiles_inv in H. destruct H as (e1 & c1 & T & H). pose proof (tile_cur _ _ _ _ _ _ _ Hc T) as (E & F & _ & _ & S & _).
  assert (Hc1 : 0 <= c1) by lia.
  destruct k as [|k]; cbn [nth_error] in *.
  - injection Hx as ->. destruct l as [|y' l]; [discriminate|]. injection Hy as ->.
    apply tiles_inv in H. destruct H as (e2 & c2 & T2 & _). pose proof (tile_cur _ _ _ _ _ _ _ Hc1 T2) as (_ & F2 & G2 & _). lia.
  - eapply IH; eassumption.
Qed.

Lemma tiles_app_inv : forall P d l l' endp cur endp2 cur2, tiles P d endp cur (l ++ l') endp2 cur2 ->
  exists endp' cur', tiles P d endp cur l endp' cur' /\ tiles P d endp' cur' l' endp2 cur2.
Proof.
  induction l as [|x l IH]; intros l' endp cur endp2 cur2 H.
  - exists endp, cur. split; [constructor|exact H].
  - cbn [app] in H. apply tiles_inv in H. destruct H as (e1 & c1 & T & H). destruct (IH _ _ _ _ _ H) as (e2 & c2 & T1 & T2).
    exists e2, c2. split; [eapply tiles_cons; eassumption|exact T2].
Qed.

Lemma tiles_nonneg : forall P d l endp cur endp' cur', 0 <= cur -> tiles P d endp cur l endp' cur' -> 0 <= cur'.
Proof.
  induction l as [|x l IH]; intros endp cur endp' cur' Hc H; [inversion H; subst; exact Hc|].
  apply tiles_inv in H. destruct H as (e1 & c1 & T & H). pose proof (tile_cur _ _ _ _ _ _ _ Hc T) as (E & F & G & HH & S & _).
  eapply IH; [|exact H]. lia.
Qed.

Lemma tiles_same_end : forall P d l endp cur endp' cur', 0 <= cur -> tiles P d endp cur l endp' cur' ->
  Forall (fun x => s_num x <> 0) l -> endp' = endp.
Proof.
  induction l as [|x l IH]; intros endp cur endp' cur' Hc H HF; [inversion H; reflexivity|].
  inversion HF as [|? ? Hx Hl]; subst.
  apply tiles_inv in H. destruct H as (e1 & c1 & T & H). pose proof (tile_cur _ _ _ _ _ _ _ Hc T) as (E & F & G & HH & S & _ & G2 & _).
  rewrite (IH e1 c1 endp' cur'); [|lia|exact H|exact Hl]. apply G2. exact Hx.
Qed.

(** From a section 0 to the section 8 that ends the message: exactly the total length. *)
Lemma tiles_total : forall P d a x0 mid x8 b endp cur endp' cur', 0 <= cur ->
  tiles P d endp cur (a ++ x0 :: mid ++ x8 :: b) endp' cur' ->
  Forall (fun x => s_num x <> 0) mid -> s_num x8 = 8 ->
  forall dis total, s_body x0 = Some (B0 dis total) -> s_offset x8 + s_size x8 = s_offset x0 + total.
Proof.
  intros P d a x0 mid x8 b endp cur endp' cur' Hc H HF H8 dis total HB.
  apply tiles_app_inv in H. destruct H as (e1 & c1 & Ta & H). pose proof (tiles_nonneg _ _ _ _ _ _ _ Hc Ta) as Hc1.
  apply tiles_inv in H. destruct H as (e2 & c2 & T0 & H).
  pose proof (tile_cur _ _ _ _ _ _ _ Hc1 T0) as (E2 & F2 & _ & _ & S2 & _ & _ & _ & B).
  apply tiles_app_inv in H. destruct H as (e3 & c3 & Tm & H).
  assert (Hc2 : 0 <= c2) by lia. pose proof (tiles_nonneg _ _ _ _ _ _ _ Hc2 Tm) as Hc3.
  pose proof (tiles_same_end _ _ _ _ _ _ _ Hc2 Tm HF) as Ee.
  apply tiles_inv in H. destruct H as (e4 & c4 & T8 & _).
  pose proof (tile_cur _ _ _ _ _ _ _ Hc3 T8) as (E4 & F4 & _ & _ & S4 & _ & Q & R & _).
  rewrite <- E4. rewrite <- (R H8). rewrite (Q ltac:(lia)). rewrite Ee. exact (B dis total HB).
Qed.

(** ** End of data *)
Lemma next_section_none : forall m d cur s, Inv m d cur cur s -> sched (st_src s) = [] ->
  (forall j, cur <= j -> ~ magic_at d j) -> exists s', next_section m s = Ret (None, s').
Proof.
  intros m d cur s [Hd Hlen Hp Hcur Hend Hrest Hwhole Hck] Hs Hn.
  assert (R0 : rest s = 0) by (rewrite Hrest, Z.sub_diag; reflexivity).
  unfold next_section. rewrite R0. change (0 =? 0) with true. cbv iota. unfold next_sect0.
  destruct (read_sect0_spec (st_src s)) as (r & s' & Er & Hd' & Hsc & HP); [lia|rewrite Hd; lia|].
  rewrite Er. cbn [bind]. rewrite Hd, Hp in HP. destruct r as [[[off b]|]|e]; cbn [read_sect0_post] in HP.
  - destruct HP as ((F1 & F2 & _) & _). exfalso. exact (Hn _ F1 F2).
  - eexists. reflexivity.
  - destruct e; try contradiction. destruct HP as (k & (F1 & F2 & _) & _). exfalso. exact (Hn _ F1 F2).
Qed.

Lemma Steps_Run : forall A (it it' : iter A) l, Steps it l it' -> forall l' e, Run it' l' e -> Run it (l ++ l') e.
Proof. intros A it it' l H. induction H; intros l' e HR; [exact HR|]. cbn [app]. econstructor; [eassumption|auto]. Qed.

Lemma full_table_run : forall m d p l, zlen d < 2 ^ 63 -> 0 <= p <= zlen d -> full_table (m = Checked) d p l ->
  Run (section_stream m (MkSrc d p [])) (map Ok l) End.
Proof.
  intros m d p l Hl Hp (e & T & Hn).
  destruct (tiles_steps m d l _ p p e e (Inv_start m d p [] Hl Hp) eq_refl T) as (s' & HS & HI & Hs).
  destruct (next_section_none m d e s' HI Hs Hn) as (s'' & E).
  rewrite <- (app_nil_r (map Ok l)). eapply Steps_Run; [exact HS|]. eapply Run_end. rewrite next_mk, E. reflexivity.
Qed.

(** ** Short reads *)
Lemma short_read_empty : forall m d p c sc, 0 <= p -> c < 16 -> Run (section_stream m (MkSrc d p (c :: sc))) [] End.
Proof.
  intros m d p c sc Hp Hc. unfold section_stream.
  assert (E : exists s', next_section m (MkSstate (MkSrc d p (c :: sc)) 0 0) = Ret (None, s')).
  { unfold next_section. cbn [rest]. change (0 =? 0) with true. cbv iota. unfold next_sect0. cbn [st_src whole rest].
    unfold read_sect0. cbn [data read_sect0_loop]. unfold rbind at 1, rread.
    destruct (read 4096 (MkSrc d p (c :: sc))) as [buf s1] eqn:Er. cbn [bind].
    assert (zlen buf < 16).
    { unfold read in Er. cbn [sched data pos] in Er. injection Er as <- _. unfold zlen. rewrite firstn_length. lia. }
    replace (zlen buf <? 16) with true by lia. unfold rret. cbn [bind]. eexists. reflexivity. }
  destruct E as (s' & E). eapply Run_end. rewrite next_mk, E. reflexivity.
Qed.

(** ** Overflow checks *)
Lemma arith_panic : forall z, ~ 0 <= z < 2 ^ 64 -> arith Checked Usize z = Panic.
Proof. intros z H. rewrite arith_U64_C. replace ((0 <=? z) && (z <? 2 ^ 64)) with false by lia. reflexivity. Qed.

Lemma Steps_app : forall A (it it1 : iter A) l, Steps it l it1 -> forall l' it2, Steps it1 l' it2 -> Steps it (l ++ l') it2.
Proof. intros A it it1 l H. induction H; intros l' it2 H2; [exact H2|]. cbn [app]. econstructor; eauto. Qed.
Lemma Steps_app_inv : forall A l l' (it it2 : iter A), Steps it (l ++ l') it2 -> exists it1, Steps it l it1 /\ Steps it1 l' it2.
Proof.
  intros A. induction l as [|x l IH]; intros l' it it2 H.
  - exists it. split; [constructor|exact H].
  - cbn [app] in H. inversion H as [|? it' ? ? ? E H']; subst. destruct (IH _ _ _ H') as (it1 & A1 & A2).
    exists it1. split; [econstructor; eassumption|exact A2].
Qed.
