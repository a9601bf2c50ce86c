(** Complex packing with room for a limited number of items: decoders and files. *)
From Coq Require Import Lia ZifyBool ZifyNat.
From Verif Require Import Model.Base Model.Helpers Model.Errors Model.F32 Model.Stream Model.Diff Model.Complex Model.Bitmap Model.Simple Model.Decoder Model.MemoryC.
From Verif Require Import Spec.Bits Spec.BitmapS Spec.ReaderS Spec.FieldsS Spec.RefuseS Spec.GroupsS Spec.MemoryCS.
From Verif Require Import Proofs.BaseLemmas Proofs.HelpersP Proofs.BitsP Proofs.StreamP Proofs.ReaderP Proofs.BitmapP Proofs.DiffP Proofs.FieldsP Proofs.RefuseX Proofs.GroupsP Proofs.GroupsX Proofs.NearP Proofs.MemoryCP Proofs.MemoryCF.
From Verif Require Proofs.ComplexP Proofs.DecodeP.
Ltac Zify.zify_post_hook ::= Z.div_mod_to_equations.

Lemma arith_total m z : 0 <= z -> arith m U32 z = Panic \/ arith m U32 z = Ret (z mod 2 ^ 32).
Proof.
  intros H. destruct (Z_lt_le_dec z (2 ^ 32)) as [L|L]; [right; apply arith_mod; auto|]. destruct m; [left|right; apply arith_mod; auto].
  unfold arith. destruct (in_range U32 z) eqn:E; [|reflexivity]. exfalso. unfold in_range in E. rewrite p32 in L. change (min_of U32) with 0 in E. change (max_of U32) with 4294967295 in E. lia.
Qed.
Lemma Run_imap_prefix {A B} (h : A -> outcome B) (g : A -> B) : forall l e (it : iter A), Run it l e -> e = End -> (forall a, In a l -> h a = Panic \/ h a = Ret (g a)) ->
  exists l1 l2 e, map g l = l1 ++ l2 /\ Run (imap h it) l1 e /\ (e = End -> l2 = []).
Proof.
  intros l e it R. induction R as [it it' E|it E|it it' a l e E R IH]; intros Ee H; try discriminate Ee; destruct it as [S s f]; unfold next in E; cbn [istep icur ist] in E; destruct (f s) as [[o s']| |] eqn:F; try discriminate E.
  - injection E as -> _. exists [], [], End. split; [reflexivity|]. split; [|auto]. eapply Run_end. unfold imap. rewrite next_mk. cbn [istep icur ist]. rewrite F. reflexivity.
  - injection E as -> <-. destruct (H a (or_introl eq_refl)) as [Ha|Ha].
    + exists [], (map g (a :: l)), Crash. split; [reflexivity|]. split; [|discriminate]. apply Run_crash. unfold imap. rewrite next_mk. cbn [istep icur ist]. rewrite F. cbn [bind]. rewrite Ha. reflexivity.
    + destruct (IH Ee) as (l1 & l2 & e1 & E1 & R1 & K1); [intros b Hb; apply H; right; exact Hb|]. exists (g a :: l1), l2, e1. cbn [map app]. rewrite E1. split; [reflexivity|]. split; [|exact K1].
      unfold imap in *. cbn [istep icur ist] in *. eapply Run_cons; [|exact R1]. rewrite next_mk. rewrite F. cbn [bind]. rewrite Ha. reflexivity.
Qed.
Lemma Run_chain_crash {A} (x : A) : forall (it : iter A) l e, Run it l e -> e = Crash -> Run (ichain_once it x) l Crash.
Proof.
  intros it l e R. induction R as [it it' E|it E|it it' a l e E R IH]; intros Ee; try discriminate Ee; destruct it as [S s f]; unfold next in E; cbn [istep icur ist] in E; destruct (f s) as [[o s']| |] eqn:F; try discriminate E.
  - apply Run_crash. unfold ichain_once. rewrite next_mk. cbn [istep icur ist]. rewrite F. reflexivity.
  - injection E as -> <-. specialize (IH Ee). unfold ichain_once in *. cbn [istep icur ist] in *. eapply Run_cons; [|exact IH]. rewrite next_mk, F. reflexivity.
Qed.

Lemma slice_bounds A (l : list A) a b r : slice l a b = Ret r -> 0 <= a <= b /\ b <= zlen l.
Proof. unfold slice. destruct (_ && _) eqn:E; [|discriminate]. lia. Qed.

(** What complex packing of a decoder with [counts_fit] is made of. *)
Inductive shape (p : list byte) (q : list byte) (m : mode) (mvm n z left : Z) : iter dv -> iter dv -> Prop :=
  mk_shape : forall R W L rn wn ln (r : R) (w : W) (l : L) data F ws ls rest ew el,
    Run (MkIter W w wn) ws ew -> Forall (fun x => 0 <= x) ws -> Run (MkIter L l ln) ls el -> group_lengths p q = ls ++ rest ->
    shape p q m mvm n z left (MkIter (flat_state R W L) ([], Some (GS r w l 0 0)) (flat_next R W L rn wn ln m mvm n z data F))
                             (MkIter (flat_state R W L) ([], Some (GS r w l 0 0)) (mflat_next R W L rn wn ln left m mvm n z data F)).
Lemma group_lengths_nonneg p q : Forall (fun x => 0 <= x) (group_lengths p q).
Proof. unfold group_lengths. apply Forall_app. split; [apply Forall_map, Forall_forall; intros x _; apply Z.mod_pos_bound; lia|]. constructor; [apply field_range; lia|constructor]. Qed.
Lemma packing_shape m p s o z left : counts_fit p -> 0 <= o ->
  oeq (shape p (skipn (Z.to_nat o) s) m (field p 23 23) (refs_bits p) z left) (decode_complex_packing m (complex_of p) s o (refs_bits p) z) (mem_complex_packing left m (complex_of p) s o (refs_bits p) z).
Proof.
  intros (Hng & F1 & F2 & F3) Ho. set (ng := num_groups p) in *.
  assert (Rn : 0 <= refs_bits p) by (apply field_range; lia). assert (Wn : 0 <= widths_bits p) by (apply field_range; lia). assert (Ln : 0 <= lengths_bits p) by (apply field_range; lia).
  assert (NG : ng < 2 ^ 32). { unfold ng, num_groups. pose proof (field_range p 32 35 ltac:(lia)). lia. }
  unfold decode_complex_packing, mem_complex_packing, complex_of. cbn [cp_ngroup cp_width_ref cp_width_nbit cp_len_ref cp_len_inc cp_len_last cp_len_nbit cp_missing].
  fold (num_groups p) (widths_bits p) (lengths_bits p). fold ng. rewrite !octet_length by lia. cbn [bind].
  assert (O1 : 0 <= octets_for ng (refs_bits p)) by (apply octets_for_nonneg; lia).
  assert (O2 : 0 <= octets_for ng (widths_bits p)) by (apply octets_for_nonneg; lia).
  assert (O3 : 0 <= octets_for ng (lengths_bits p)) by (apply octets_for_nonneg; lia).
  assert (FR : forall a b, a <= b -> 0 <= field p a b) by (intros a b Hab; apply field_range; lia).
  apply oeq_same'. intros d1 S1. apply oeq_same'. intros d2 S2. apply oeq_same'. intros d3 S3. rewrite p32 in NG. rewrite (arith_ok m U32 (ng - 1)) by mlia. cbn [bind]. apply oeq_same'. intros data _.
  apply slice_bounds in S2 as B2. pose proof (slice_bounds _ _ _ _ _ S3) as B3.
  destruct (stream_raw m s (o + octets_for ng (refs_bits p)) (widths_bits p) ng ng) as (d2' & S2' & R2); try lia. rewrite S2 in S2'. injection S2' as <-.
  destruct (stream_raw m s (o + octets_for ng (refs_bits p) + octets_for ng (widths_bits p)) (lengths_bits p) ng (ng - 1)) as (d3' & S3' & R3); try lia. rewrite S3 in S3'. injection S3' as <-.
  destruct (Run_imap_prefix (fun v => arith m U32 (field p 36 36 + v)) (fun v => (field p 36 36 + v) mod 2 ^ 32) _ _ _ R2 eq_refl) as (ws & wrest & ew & Ew & HW & _).
  { intros a Ha. apply raw_range in Ha. pose proof (FR 36 36 ltac:(lia)). apply arith_total. lia. }
  destruct (Run_imap_prefix (fun v => let! t := arith m U32 (field p 42 42 * v) in arith m U32 (field p 38 41 + t)) (fun v => (field p 38 41 + field p 42 42 * v) mod 2 ^ 32) _ _ _ R3 eq_refl) as (ls & lrest & el & El & HL & KL).
  { intros a Ha. apply raw_range in Ha. pose proof (FR 38 41 ltac:(lia)). pose proof (FR 42 42 ltac:(lia)). assert (0 <= field p 42 42 * a) by nia.
    destruct (arith_total m (field p 42 42 * a)) as [X|X]; [lia|rewrite X; left; reflexivity|]. rewrite X. cbn [bind].
    assert (0 <= (field p 42 42 * a) mod 2 ^ 32) by (apply Z.mod_pos_bound; lia).
    destruct (arith_total m (field p 38 41 + (field p 42 42 * a) mod 2 ^ 32)) as [Y|Y]; [lia|left; exact Y|right]. rewrite Y. rewrite Zplus_mod_idemp_r. reflexivity. }
  assert (GL : group_lengths p (skipn (Z.to_nat o) s) = ls ++ lrest ++ [field p 43 46]).
  { unfold group_lengths. rewrite app_assoc, <- El. f_equal. fold ng. f_equal.
    rewrite <- (firstn_skipn (Z.to_nat o) s) at 2. assert (Lo : zlen (firstn (Z.to_nat o) s) = o) by (unfold zlen; rewrite firstn_length; unfold zlen in B3; lia).
    replace (o + octets_for ng (refs_bits p) + octets_for ng (widths_bits p)) with (zlen (firstn (Z.to_nat o) s) + lengths_start p) by (unfold lengths_start, widths_start; fold ng; lia).
    symmetry. apply raw_app. unfold lengths_start, widths_start. fold ng. lia. }
  assert (HL' : exists ls' rest e, Run (ichain_once (imap (fun v => let! t := arith m U32 (field p 42 42 * v) in arith m U32 (field p 38 41 + t)) (itake (ng - 1) (bit_stream m d3 (lengths_bits p) (ng - 1)))) (field p 43 46)) ls' e /\ group_lengths p (skipn (Z.to_nat o) s) = ls' ++ rest).
  { destruct el.
    - rewrite KL in GL by reflexivity. exists (ls ++ [field p 43 46]), [], End. split; [apply Run_ichain_once, HL|]. rewrite app_nil_r. exact GL.
    - exists ls, (lrest ++ [field p 43 46]), Crash. split; [eapply Run_chain_crash; [exact HL|reflexivity]|exact GL]. }
  destruct HL' as (ls' & rest & e & HL' & GL').
  eexists. split; [reflexivity|]. econstructor.
  - rewrite <- iter_eta. exact HW.
  - assert (X : Forall (fun x => 0 <= x) (map (fun v => (field p 36 36 + v) mod 2 ^ 32) (raw s (o + octets_for ng (refs_bits p)) (widths_bits p) ng))) by (apply Forall_map, Forall_forall; intros x _; apply Z.mod_pos_bound; lia).
    rewrite Ew in X. apply Forall_app in X. exact (proj1 X).
  - rewrite <- iter_eta. exact HL'.
  - exact GL'.
Qed.

Lemma before_app left : forall l1 l2, 0 <= left -> Forall (fun x => 0 <= x) (l1 ++ l2) -> points_before left l1 <= points_before left (l1 ++ l2).
Proof.
  induction l1 as [|a l1 IH]; intros l2 Hl HF; cbn [points_before app]; [apply before_nonneg; assumption|]. cbn [app] in HF. apply Forall_cons_iff in HF. destruct HF as [H HF]. specialize (IH l2 Hl HF). destruct (a <=? left); lia.
Qed.

Section Decoder.
  Variables (c : codecs) (m : mode) (d : decoder).
  Notation p := (d_sect5 d).
  Notation t := (d_template d).
  Notation q := (skipn (Z.to_nat (descriptors p t)) (d_sect7 d)).

  Lemma used_args cp o n : used m d cp o n -> cp = complex_of p /\ o = descriptors p t /\ n = refs_bits p /\ 0 <= o.
  Proof.
    intros ((b0 & sp & E0 & E1 & ->) & b & E2 & E3 & H).
    assert (R47 : reaches p 47). { apply slice_bounds in E2. unfold reaches. lia. } assert (R21 : reaches p 21) by (unfold reaches in *; lia).
    destruct (simple_from m p R21) as (b1 & X0 & X1). rewrite E0 in X0. injection X0 as <-. rewrite E1 in X1. destruct (field p 21 21 =? 0); [|discriminate X1]. injection X1 as ->.
    destruct (complex_from p R47) as (b2 & X2 & X3). rewrite E2 in X2. injection X2 as <-. rewrite E3 in X3. injection X3 as ->. split; [reflexivity|].
    assert (G : o = descriptors p t /\ 0 <= o); [|destruct G; auto]. unfold descriptors.
    destruct H as [(T & ->)|(T & i & tt & k & sd & I1 & I2 & I3 & I4 & I5 & ->)]; rewrite T; [split; [reflexivity|lia]|]. change (3 =? 3) with true. cbv iota.
    assert (R49 : reaches p 49). { destruct (Z_le_gt_dec 44 (zlen p)) as [L|L]; [unfold reaches; lia|]. exfalso. unfold read_u8 in I4. rewrite (read_be_panic 1 p 43) in I4 by lia. discriminate I4. }
    assert (R48 : reaches p 48) by (unfold reaches in *; lia).
    rewrite (read_u8_field p 42 48) in I1 by (lia || exact R48). injection I1 as I1. rewrite (read_u8_field p 43 49) in I4 by (lia || exact R49). injection I4 as I4.
    assert (Et : table5_6_code tt = i /\ (i = 1 \/ i = 2)).
    { unfold table5_6_of in I2. destruct (Z.eqb_spec i 1) as [Q|Q]; [injection I2 as <-; cbn; lia|]. destruct (Z.eqb_spec i 2) as [Q2|Q2]; [injection I2 as <-; cbn; lia|]. destruct (i =? 255); [injection I2 as <-; contradiction|discriminate I2]. }
    destruct Et as (Et & Ei). rewrite Et in I5. rewrite spdiff_errors in I5. destruct ((k =? 0) || (4 <? k)) eqn:K; [discriminate I5|]. pose proof (field_range p 49 49 ltac:(lia)) as Fk.
    rewrite arith_ok in I5 by mlia. cbn [bind] in I5. destruct (slice (d_sect7 d) 0 ((i + 1) * k)) as [sl| |] eqn:Sl; cbn [bind] in I5; try discriminate I5. injection I5 as <-.
    pose proof (slice_bounds _ _ _ _ _ Sl) as Bs. rewrite (slice_octets _ 0 ((i + 1) * k)) in Sl by lia. injection Sl as <-. unfold spdiff_len. cbn [sp_slice]. rewrite zlen_octets by lia. rewrite I1, I4. split; [lia|nia].
  Qed.

  Lemma packing_less cp o n z left : oeq (short Full dv) (mem_complex_packing left m cp (d_sect7 d) o n z) (decode_complex_packing m cp (d_sect7 d) o n z).
  Proof.
    unfold decode_complex_packing, mem_complex_packing. cbv zeta. do 8 (apply oeq_same; intros ?). eexists. split; [reflexivity|]. apply short_mk. intros. apply mflat_less.
  Qed.

  Lemma any : forall left,
    match mem_dispatch left c m d with
    | Ret (Ok it) => exists it', dispatch c m d = Ret (Ok it') /\ forall l e, Run it l e -> Run it' l e
    | x => dispatch c m d = x
    end.
  Proof.
    intros left. rewrite mem_with, dispatch_eq. destruct (closed_dispatch (short Full) (short_closed Full) m (mem_complex_packing left m) (decode_complex_packing m) c d) as (_ & H); [intros; apply packing_less|].
    destruct (dispatch_with (mem_complex_packing left m) c m d) as [[it|e]| |]; cbn [oeq] in H; auto.
    - destruct H as (b & E & it' & -> & S). exists it'. split; [exact E|]. intros l e R. eapply short_run; eassumption.
    - destruct H as (b & E & H). cbn [req] in H. rewrite E, H. reflexivity.
  Qed.

  (** Groups that fit. *)
  Lemma enough : forall left, t = 2 \/ t = 3 -> counts_fit p -> Forall (fun l => l <= left) (group_lengths p q) ->
    forall it l e, dispatch c m d = Ret (Ok it) -> Run it l e -> exists it', mem_dispatch left c m d = Ret (Ok it') /\ Run it' l e.
  Proof.
    intros left Ht Hc HF it l e E HR. rewrite mem_with. rewrite dispatch_eq in E.
    destruct (closed_dispatch _ (near_closed True) m (decode_complex_packing m) (mem_complex_packing left m) c d) as (_ & H).
    { intros cp o n z U. destruct (used_args cp o n U) as (-> & -> & -> & Ho). pose proof (packing_shape m p (d_sect7 d) (descriptors p t) z left Hc Ho) as Sh.
      change (fun A : Type => near True (fun _ : A => True)) with (fun A : Type => near True (fun _ : A => True)).
      destruct (decode_complex_packing m (complex_of p) (d_sect7 d) (descriptors p t) (refs_bits p) z) as [a| |]; cbn [oeq] in *; auto.
      destruct Sh as (b & -> & Sh). exists b. split; [reflexivity|]. destruct Sh as [R W L rn wn ln r w l0 data F ws ls rest ew el HW FW HL GL].
      exists (flat_state R W L), (short_groups R W L ln left). eexists _, _, _. split; [reflexivity|]. split; [reflexivity|]. split.
      - unfold short_groups. cbn [snd gs_len]. exists ls, el. split; [exact HL|]. rewrite GL in HF. apply Forall_app in HF. exact (proj1 HF).
      - intros x Hx. pose proof (mflat_enough R W L rn wn ln left m (field p 23 23) (refs_bits p) z data F x Hx) as X.
        destruct (flat_next R W L rn wn ln m (field p 23 23) (refs_bits p) z data F x) as [[o s']| |]; auto. destruct X as (-> & X). auto. }
    rewrite E in H. cbn [oeq req] in H. destruct H as (y & Ey & it' & -> & N). exists it'. split; [exact Ey|]. eapply near_run; [exact HR|exact N|left; exact I].
  Qed.
End Decoder.

(** ** Groups that do not fit *)
(** Out of memory as a panic. *)
Definition dead {A} (it : iter A) : iter A := MkIter (ist it) (icur it) (fun s => match istep it s with Diverge => Panic | x => x end).
Definition dead_packing (left : Z) (m : mode) (p : complex_param) (s : list byte) (o n z : Z) : outcome (iter dv) :=
  let! it := mem_complex_packing left m p s o n z in Ret (dead it).
Lemma dead_most {A} k (it : iter A) : at_most k it -> at_most k (dead it).
Proof.
  intros M l it' St. assert (X : exists it2, Steps it l it2).
  { clear M. destruct it as [S s f]. unfold dead in St. cbn [istep icur ist] in St. remember (MkIter S s (fun s => match f s with Diverge => Panic | x => x end)) as i eqn:Ei. revert s Ei.
    induction St as [i|i i1 i' a l N St IH]; intros s ->; [eexists; constructor|]. unfold next in N. cbn [istep icur ist] in N. destruct (f s) as [[o s']| |] eqn:F; try discriminate N. injection N as -> <-.
    destruct (IH s' eq_refl) as (it2 & S2). exists it2. eapply Steps_cons; [|exact S2]. unfold next. cbn [istep icur ist]. rewrite F. reflexivity. }
  destruct X as (it2 & X). eapply M, X.
Qed.

Section Big.
  Variables (c : codecs) (m : mode) (d : decoder).
  Notation p := (d_sect5 d).
  Notation t := (d_template d).
  Let q := skipn (Z.to_nat (descriptors p t)) (d_sect7 d).
  Hypothesis Ht : t = 2 \/ t = 3.
  Hypothesis Hreach : reaches p (sect5_end p t).
  Hypothesis Hok : forall e, ~ refused p t e.
  Hypothesis Hc : counts_fit p.
  Hypothesis Hb : refs_bits p <= 31.
  Hypothesis Hm : m = Wrapping \/ (t = 2 /\ moderate p q).
  Hypothesis Hl : 0 <= d_total d <= 8 * zlen (d_bitmap d).
  Hypothesis Hthere : descriptors p t + values_start p <= zlen (d_sect7 d).
  Hypothesis Hvals : values_bits p q <= 8 * (zlen q - values_start p).

  Lemma too_big : forall left, 0 <= left -> points_before left (group_lengths p q) < values_count p q ->
    points_before left (group_lengths p q) < Z.of_nat (ones (firstn (Z.to_nat (d_total d)) (bits_of_bytes (d_bitmap d)))) ->
    exists it out it', dispatch c m d = Ret (Ok it) /\ Run it out End /\ mem_dispatch left c m d = Ret (Ok it') /\ forall l e, ~ Run it' l e.
  Proof.
    intros left Hleft Hk Ho. set (k := points_before left (group_lengths p q)) in *.
    pose proof (complex_values c m d Ht Hreach Hok Hc Hb Hm) as V. replace (descriptors p t + values_start p <=? zlen (d_sect7 d)) with true in V by lia. fold q in V.
    destruct V as (vals & out & Ev & HR & L1 & _). unfold ending_of in *. replace (values_bits p q <=? 8 * (zlen q - values_start p)) with true in * by lia. specialize (L1 eq_refl).
    pose proof (complex_dispatch c m d Ht Hreach Hok Hc Hb Hm Hl) as D. replace (descriptors p t + values_start p <=? zlen (d_sect7 d)) with true in D by lia. fold q in D.
    destruct D as (it & outs & Ed & HRd & _). specialize (HRd Hvals).
    (* the values of the third machine *)
    destruct (closed_dispatch _ (short_closed Dead) m (dead_packing left m) (decode_complex_packing m) c d) as (V3 & D3).
    { intros cp o n z _. pose proof (packing_less m d cp o n z left) as L. unfold dead_packing. destruct (mem_complex_packing left m cp (d_sect7 d) o n z) as [a| |]; cbn [oeq bind] in *; auto.
      destruct L as (b & -> & S & s & f & g & -> & -> & L). eexists. split; [reflexivity|]. apply short_mk. intros x. cbn [istep]. destruct (L x) as [->| ->]; [left; reflexivity|]. destruct (g x); [right|right|left]; reflexivity. }
    rewrite <- values_eq in V3. rewrite Ev in V3. destruct (values_with (dead_packing left m) c m d) as [[vals3|e3]| |] eqn:E3; cbn [oeq req] in V3; try discriminate V3; destruct V3 as (y & Ey & V3); [|discriminate V3 || (injection Ey as <-; discriminate V3)].
    injection Ey as <-. destruct V3 as (v' & Ev' & V3). injection Ev' as <-.
    assert (M3 : at_most k vals3).
    { eapply (values_most (dead_packing left m) c m d k vals3); [|exact Ht|exact E3]. intros cp o n z U. destruct (used_args m d cp o n U) as (-> & -> & -> & Ho').
      pose proof (packing_shape m p (d_sect7 d) (descriptors p t) z left Hc Ho') as Sh. fold q in Sh. unfold dead_packing.
      destruct (decode_complex_packing m (complex_of p) (d_sect7 d) (descriptors p t) (refs_bits p) z) as [a| |]; cbn [oeq] in Sh; [|rewrite Sh; exact I|rewrite Sh; exact I].
      destruct Sh as (b & -> & Sh). cbn [bind]. apply dead_most. destruct Sh as [R W L rn wn ln r w l0 data F ws ls rest ew el HW FW HL GL].
      apply mflat_at_most; [exact Hleft|]. unfold most. cbn [snd fst]. split; [lia|]. split; [lia|]. pose proof (group_lengths_nonneg p q) as GN.
      exists ws, ls, ew, el. repeat split; auto; [rewrite GL in GN; apply Forall_app in GN; exact (proj1 GN)|]. change (zlen (@nil dv)) with 0. unfold k. rewrite GL in *. pose proof (before_app left ls rest Hleft GN). lia. }
    assert (C3 : exists out3, Run vals3 out3 Crash /\ zlen out3 <= k).
    { destruct (dead_run _ _ _ HR _ V3) as [X|(l1 & l2 & _ & X)]; [exfalso; pose proof (Run_most _ _ _ _ M3 X); lia|]. exists l1. split; [exact X|]. eapply Run_most; eassumption. }
    destruct C3 as (out3 & R3 & L3).
    destruct (bitmap_iter_run _ f32_nan (d_bitmap d) vals3 out3 _ (d_total d) Hl R3) as (it3 & Ei & HI).
    set (bits := if d_total d <? 8 then _ else _) in *.
    assert (Ob : (ones (firstn (Z.to_nat (d_total d)) (bits_of_bytes (d_bitmap d))) <= ones bits)%nat).
    { unfold bits. destruct (d_total d <? 8); [lia|]. apply DecodeP.ones_firstn. }
    replace (ones bits <=? length out3)%nat with false in HI by (unfold zlen in L3; lia).
    assert (ED3 : dispatch_with (dead_packing left m) c m d = Ret (Ok it3)) by (unfold dispatch_with; rewrite E3; cbn [bind]; rewrite Ei; reflexivity).
    (* and the second one *)
    destruct (closed_dispatch _ (near_closed False) m (mem_complex_packing left m) (dead_packing left m) c d) as (_ & D2).
    { intros cp o n z _. unfold dead_packing. destruct (mem_complex_packing left m cp (d_sect7 d) o n z) as [a| |]; cbn [oeq bind]; auto. eexists. split; [reflexivity|]. destruct a as [S s f]. unfold dead. cbn [istep icur ist].
      exists S, (fun _ => True), s, f. eexists. split; [reflexivity|]. split; [reflexivity|]. split; [exact I|]. intros x _. destruct (f x) as [[o1 s']| |]; auto; intros []. }
    rewrite <- mem_with, ED3 in D2. pose proof (any c m d left) as A. rewrite Ed in A.
    destruct (mem_dispatch left c m d) as [[it'|e']| |] eqn:Em; cbn [oeq req] in D2; try discriminate A.
    destruct D2 as (y & Ey & it3' & E3' & N). subst y. injection Ey as <-. destruct A as (it0 & A1 & A). injection A1 as <-.
    exists it, outs, it'. repeat split; auto. intros l e Rl. destruct e.
    - pose proof (near_run _ _ _ _ _ _ Rl _ N (or_intror eq_refl)) as X. destruct (Run_det _ _ _ _ X _ _ HI) as (_ & K). discriminate K.
    - destruct (Run_det _ _ _ _ (A _ _ Rl) _ _ HRd) as (_ & K). discriminate K.
  Qed.
End Big.
