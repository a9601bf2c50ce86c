(** Templates 5.2 and 5.3 from arbitrary octets. *)
From Coq Require Import Lia ZifyBool ZifyNat.
From Verif Require Import Model.Base Model.Helpers Model.Errors Model.F32 Model.Stream Model.Bitmap Model.Diff Model.Complex Model.Simple Model.Decoder.
From Verif Require Import Spec.Bits Spec.BitmapS Spec.ReaderS Spec.FieldsS Spec.RefuseS Spec.GroupsS.
From Verif Require Import Proofs.BaseLemmas Proofs.HelpersP Proofs.BitsP Proofs.StreamP Proofs.Bits2 Proofs.BitmapP Proofs.DiffP Proofs.ReaderP Proofs.FieldsP Proofs.FieldsX Proofs.RefuseX Proofs.GroupsP.
From Verif Require Proofs.ComplexP Proofs.DecodeP.
Ltac Zify.zify_post_hook ::= Z.div_mod_to_equations.

Lemma arith_mod : forall m z, 0 <= z -> m = Wrapping \/ z < 2 ^ 32 -> arith m U32 z = Ret (z mod 2 ^ 32).
Proof.
  intros m z Hz Hm. destruct (Z_lt_le_dec z (2 ^ 32)) as [H|H].
  - rewrite Z.mod_small by lia. rewrite p32 in *. apply arith_ok; mlia.
  - destruct Hm as [->|Hm]; [|lia]. unfold arith. destruct (in_range U32 z) eqn:E.
    + exfalso. unfold in_range in E. rewrite p32 in H. change (min_of U32) with 0 in E. change (max_of U32) with 4294967295 in E. lia.
    + rewrite wrap_unsigned by reflexivity. reflexivity.
Qed.
Lemma octet_length : forall m n k, 0 <= n -> 0 <= k -> k * n + 7 < 2 ^ 32 -> get_octet_length m n k = Ret (octets_for k n).
Proof.
  intros m n k Hn Hk H. rewrite p32 in H. assert (0 <= k * n) by nia. unfold get_octet_length, octets_for.
  rewrite arith_ok by mlia. cbn [bind]. rewrite arith_ok by mlia. cbn [bind].
  rewrite shr_ok by (change (bits_of U32) with 32; lia). reflexivity.
Qed.
Lemma raw_range : forall q st n k x, In x (raw q st n k) -> 0 <= x < 2 ^ 32.
Proof. intros q st n k x H. unfold raw in H. apply in_map_iff in H. destruct H as (y & <- & _). apply Z.mod_pos_bound. lia. Qed.
Lemma raw_length : forall q st n k, length (raw q st n k) = Z.to_nat k.
Proof. intros. unfold raw. rewrite map_length, fields_length. reflexivity. Qed.
Lemma raw_app : forall pre q st n k, 0 <= st -> raw (pre ++ q) (zlen pre + st) n k = raw q st n k.
Proof.
  intros pre q st n k H. unfold raw. f_equal. rewrite bits_of_bytes_app.
  replace (Z.to_nat (8 * (zlen pre + st))) with (length (bits_of_bytes pre) + Z.to_nat (8 * st))%nat by (rewrite bits_of_bytes_length; unfold zlen; lia).
  apply fields_skip.
Qed.
Lemma Forall2_mapped : forall A B (f : A -> B) (g : A -> outcome B) l, (forall a, In a l -> g a = Ret (f a)) -> Forall2 (fun a b => g a = Ret b) l (map f l).
Proof. intros A B f g l H. induction l as [|a l IH]; cbn [map]; constructor; [apply H; left; reflexivity|]. apply IH. intros b Hb. apply H. right. exact Hb. Qed.

Definition ending_of (p q : list byte) : ending := if values_bits p q <=? 8 * (zlen q - values_start p) then End else Crash.

Lemma octets_for_nonneg : forall k n, 0 <= k -> 0 <= n -> 0 <= octets_for k n.
Proof. intros k n Hk Hn. unfold octets_for. assert (0 <= k * n) by nia. lia. Qed.

Lemma complex_total : forall m p pre q zmin, counts_fit p -> refs_bits p <= 31 ->
  m = Wrapping \/ (moderate p q /\ Z.abs zmin < 2 ^ 31 - 2 ^ 30) ->
  if values_start p <=? zlen q
  then exists it out, decode_complex_packing m (complex_of p) (pre ++ q) (zlen pre) (refs_bits p) zmin = Ret it /\
    Run it out (ending_of p q) /\ (ending_of p q = End -> zlen out = values_count p q) /\ (ending_of p q = Crash -> zlen out < values_count p q)
  else decode_complex_packing m (complex_of p) (pre ++ q) (zlen pre) (refs_bits p) zmin = Panic.
Proof.
  intros m p pre q zmin (Hng & F1 & F2 & F3) Hnb Hm.
  set (ng := num_groups p) in *. 
  assert (Rn : 0 <= refs_bits p) by (apply field_range; lia). assert (Wn : 0 <= widths_bits p) by (apply field_range; lia). assert (Ln : 0 <= lengths_bits p) by (apply field_range; lia).
  assert (NG : ng < 2 ^ 32). { unfold ng, num_groups. pose proof (field_range p 32 35 ltac:(lia)). lia. }
  unfold decode_complex_packing, complex_of. cbn [cp_ngroup cp_width_ref cp_width_nbit cp_len_ref cp_len_inc cp_len_last cp_len_nbit cp_missing].
  fold (num_groups p) (widths_bits p) (lengths_bits p). fold ng.
  rewrite !octet_length by lia. cbn [bind].
  assert (O1 : 0 <= octets_for ng (refs_bits p)) by (apply octets_for_nonneg; lia).
  assert (O2 : 0 <= octets_for ng (widths_bits p)) by (apply octets_for_nonneg; lia).
  assert (O3 : 0 <= octets_for ng (lengths_bits p)) by (apply octets_for_nonneg; lia).
  assert (VS : values_start p = octets_for ng (refs_bits p) + octets_for ng (widths_bits p) + octets_for ng (lengths_bits p)) by reflexivity.
  pose proof (zlen_nonneg _ pre) as Zp. pose proof (zlen_app _ pre q) as Za.
  destruct (values_start p <=? zlen q) eqn:V.
  2:{ match goal with |- context [slice ?l ?a ?b] => destruct (ComplexP.slice_cases _ l a b) as [(s1 & E1)|E1]; rewrite E1; cbn [bind]; [|reflexivity] end.
      match goal with |- context [slice ?l ?a ?b] => destruct (ComplexP.slice_cases _ l a b) as [(s2 & E2)|E2]; rewrite E2; cbn [bind]; [|reflexivity] end.
      match goal with |- context [slice ?l ?a ?b] => rewrite (slice_panic _ l a b) by lia end. reflexivity. }
  destruct (stream_raw m (pre ++ q) (zlen pre) (refs_bits p) ng ng) as (d1 & S1 & R1); try lia.
  destruct (stream_raw m (pre ++ q) (zlen pre + octets_for ng (refs_bits p)) (widths_bits p) ng ng) as (d2 & S2 & R2); try lia.
  destruct (stream_raw m (pre ++ q) (zlen pre + octets_for ng (refs_bits p) + octets_for ng (widths_bits p)) (lengths_bits p) ng (ng - 1)) as (d3 & S3 & R3); try lia.
  rewrite S1. cbn [bind]. rewrite S2. cbn [bind]. rewrite S3. cbn [bind].
  rewrite p32 in NG. rewrite (arith_ok m U32 (ng - 1)) by mlia. cbn [bind].
  set (e := zlen pre + octets_for ng (refs_bits p) + octets_for ng (widths_bits p) + octets_for ng (lengths_bits p)).
  assert (He : e = zlen pre + values_start p) by (subst e; lia).
  destruct (list_split_at _ q (values_start p)) as (q1 & q2 & Eq & Lq); [lia|].
  assert (Sf : slice_from (pre ++ q) e = Ret q2).
  { unfold slice_from. subst q. rewrite app_assoc in *. rewrite <- (app_nil_r ((pre ++ q1) ++ q2)), <- app_assoc.
    rewrite slice_split; [reflexivity|rewrite zlen_app; lia|rewrite ?app_nil_r, !zlen_app; lia]. }
  rewrite Sf. cbn [bind].
  set (refs := raw (pre ++ q) (zlen pre) (refs_bits p) ng) in *.
  assert (RW : raw (pre ++ q) (zlen pre + octets_for ng (refs_bits p)) (widths_bits p) ng = raw q (widths_start p) (widths_bits p) (num_groups p)) by (apply raw_app; exact O1).
  assert (RL : raw (pre ++ q) (zlen pre + octets_for ng (refs_bits p) + octets_for ng (widths_bits p)) (lengths_bits p) (ng - 1) = raw q (lengths_start p) (lengths_bits p) (num_groups p - 1)).
  { rewrite <- (raw_app pre q (lengths_start p)) by (unfold lengths_start, widths_start; fold ng; lia). f_equal. unfold lengths_start, widths_start. fold ng. lia. }
  rewrite RW in R2. rewrite RL in R3.
  assert (FR : forall a b, a <= b -> 0 <= field p a b) by (intros a b Hab; apply field_range; lia).
  match goal with |- context [imap ?f (itake ng (bit_stream m d2 _ _))] => assert (R2' : Run (imap f (itake ng (bit_stream m d2 (widths_bits p) ng))) (group_widths p q) End) end.
  { eapply Run_imap; [exact R2|]. unfold group_widths. apply Forall2_mapped. intros a Ha. pose proof (raw_range _ _ _ _ _ Ha). pose proof (FR 36 36 ltac:(lia)).
    apply arith_mod; [lia|]. destruct Hm as [->|((_ & _ & M & _) & _)]; [left; reflexivity|right]. rewrite Forall_forall in M. apply M. exact Ha. }
  match goal with |- context [ichain_once (imap ?f (itake (ng - 1) (bit_stream m d3 _ _))) ?x] => assert (R3' : Run (ichain_once (imap f (itake (ng - 1) (bit_stream m d3 (lengths_bits p) (ng - 1)))) x) (group_lengths p q) End) end.
  { apply Run_ichain_once. eapply Run_imap; [exact R3|]. apply Forall2_mapped. intros a Ha. pose proof (raw_range _ _ _ _ _ Ha). pose proof (FR 38 41 ltac:(lia)). pose proof (FR 42 42 ltac:(lia)).
    assert (0 <= field p 42 42 * a) by nia.
    destruct Hm as [->|((_ & _ & _ & M) & _)].
    - rewrite arith_mod by (auto; lia). cbn [bind]. rewrite arith_mod by (auto; lia). f_equal. rewrite Zplus_mod_idemp_r. reflexivity.
    - rewrite Forall_forall in M. specialize (M _ Ha). rewrite arith_mod by (auto; lia). cbn [bind]. rewrite (Z.mod_small (field p 42 42 * a)) by lia. apply arith_mod; auto; lia. }
  destruct (flat_total _ _ _ (istep (itake ng (bit_stream m d1 (refs_bits p) ng)))
     (istep (imap (fun v => arith m U32 (field p 36 36 + v)) (itake ng (bit_stream m d2 (widths_bits p) ng))))
     (istep (ichain_once (imap (fun v => let! t := arith m U32 (field p 42 42 * v) in arith m U32 (field p 38 41 + t)) (itake (ng - 1) (bit_stream m d3 (lengths_bits p) (ng - 1)))) (field p 43 46)))
     m (field p 23 23) (refs_bits p) zmin q2 ltac:(lia) (S (S (Z.to_nat ng))) refs (group_widths p q) (group_lengths p q)) with
     (r := icur (itake ng (bit_stream m d1 (refs_bits p) ng)))
     (w := icur (imap (fun v => arith m U32 (field p 36 36 + v)) (itake ng (bit_stream m d2 (widths_bits p) ng))))
     (l := icur (ichain_once (imap (fun v => let! t := arith m U32 (field p 42 42 * v) in arith m U32 (field p 38 41 + t)) (itake (ng - 1) (bit_stream m d3 (lengths_bits p) (ng - 1)))) (field p 43 46)))
     as (out & Lo & Lc & HR).
  - unfold group_widths, refs. rewrite map_length, !raw_length. reflexivity.
  - unfold group_lengths, refs. rewrite app_length, map_length, !raw_length. fold ng. cbn [length]. lia.
  - unfold refs. rewrite raw_length. lia.
  - unfold refs, raw. apply Forall_map, Forall_forall. intros x Hx. apply fields_range in Hx. rewrite Z2Nat.id in Hx by lia.
    assert (2 ^ refs_bits p <= 2 ^ 32) by (apply ComplexP.pow_le_mono; lia). rewrite Z.mod_small by lia. exact Hx.
  - unfold group_widths. apply Forall_map, Forall_forall. intros x _. apply Z.mod_pos_bound. lia.
  - unfold group_lengths. apply Forall_app. split; [apply Forall_map, Forall_forall; intros x _; apply Z.mod_pos_bound; lia|]. constructor; [apply FR; lia|constructor].
  - destruct Hm as [->|((M1 & M2 & _) & M3)]; [left; reflexivity|right]. auto.
  - rewrite <- iter_eta. exact R1.
  - rewrite <- iter_eta. exact R2'.
  - rewrite <- iter_eta. exact R3'.
  - assert (EE : fit q2 0 (group_widths p q) (group_lengths p q) = ending_of p q).
    { unfold fit, ending_of, values_bits. replace (zlen q - values_start p) with (zlen q2); [reflexivity|]. rewrite Eq, zlen_app. lia. }
    rewrite EE in Lo, Lc, HR. eexists _, out. split; [reflexivity|]. split; [exact HR|]. split; [exact Lo|exact Lc].
Qed.

(** ** Differences and values *)
Lemma Run_map_any : forall A B (f : A -> B) (it : iter A) l e, Run it l e -> Run (imap (fun a => Ret (f a)) it) (map f l) e.
Proof.
  intros A B f it l e H. induction H as [it it' Hn|it Hn|it it' a l e Hn HR IH].
  - unfold next in Hn. destruct (istep it (icur it)) as [[o s]| |] eqn:E; try discriminate Hn. injection Hn as -> <-.
    eapply Run_end. unfold imap. rewrite next_mk, E. reflexivity.
  - unfold next in Hn. destruct (istep it (icur it)) as [[o s]| |] eqn:E; try discriminate Hn.
    eapply Run_crash. unfold imap. rewrite next_mk, E. reflexivity.
  - unfold next in Hn. destruct (istep it (icur it)) as [[o s]| |] eqn:E; try discriminate Hn. injection Hn as -> <-.
    eapply Run_cons; [|exact IH]. unfold imap. rewrite next_mk, E. reflexivity.
Qed.

Lemma diff1_total : forall I (step : I -> outcome (option dv * I)) l e it first count prev,
  Run (MkIter I it step) l e -> (count = 0 -> first <> []) ->
  exists out, Run (MkIter _ (D1 it first count prev) (diff1_next I step Wrapping)) out e /\ length out = length l.
Proof.
  intros I step l. induction l as [|a l IH]; intros e it first count prev H Hf.
  - inversion H as [x x' Hx|x Hx|x x' a' l'' e'' Hx HR']; subst; rewrite next_mk in Hx.
    + destruct (step it) as [[o s]| |] eqn:E; try discriminate Hx. injection Hx as -> _. exists []. split; [|reflexivity].
      eapply Run_mk_end. unfold diff1_next. rewrite E. reflexivity.
    + destruct (step it) as [[o s]| |] eqn:E; try discriminate Hx. exists []. split; [|reflexivity].
      eapply Run_crash. rewrite next_mk. unfold diff1_next. rewrite E. reflexivity.
  - apply Run_mk_inv in H. destruct H as (it' & E & H). 
    assert (S : exists b s', diff1_next I step Wrapping (D1 it first count prev) = Ret (Some b, s') /\ d1_iter I s' = it' /\ (d1_count I s' = 0 -> d1_first I s' <> [])).
    { unfold diff1_next. rewrite E. cbn [bind]. destruct a as [v| |].
      - destruct (count =? 0) eqn:C.
        + destruct first as [|f first']; [exfalso; apply Hf; [lia|reflexivity]|]. eexists _, _. split; [reflexivity|]. cbn. split; [reflexivity|]. lia.
        + destruct (arith_W I32 (v + prev)) as (x & ->). cbn [bind]. eexists _, _. split; [reflexivity|]. cbn. split; [reflexivity|]. lia.
      - eexists _, _. split; [reflexivity|]. cbn. auto.
      - eexists _, _. split; [reflexivity|]. cbn. auto. }
    destruct S as (b & [it2 f2 c2 p2] & E2 & E3 & E4). cbn in E3, E4. subst it2.
    destruct (IH e it' f2 c2 p2 H E4) as (out & HR & Lo). exists (b :: out). split; [eapply Run_mk_cons; eassumption|cbn [length]; lia].
Qed.
Lemma diff2_total : forall I (step : I -> outcome (option dv * I)) l e it first count prev1 prev2,
  Run (MkIter I it step) l e -> 0 <= count -> count + zlen first >= 2 ->
  exists out, Run (MkIter _ (D2 it first count prev1 prev2) (diff2_next I step Wrapping)) out e /\ length out = length l.
Proof.
  intros I step l. induction l as [|a l IH]; intros e it first count prev1 prev2 H Hc Hf.
  - inversion H as [x x' Hx|x Hx|x x' a' l'' e'' Hx HR']; subst; rewrite next_mk in Hx.
    + destruct (step it) as [[o s]| |] eqn:E; try discriminate Hx. injection Hx as -> _. exists []. split; [|reflexivity].
      eapply Run_mk_end. unfold diff2_next. rewrite E. reflexivity.
    + destruct (step it) as [[o s]| |] eqn:E; try discriminate Hx. exists []. split; [|reflexivity].
      eapply Run_crash. rewrite next_mk. unfold diff2_next. rewrite E. reflexivity.
  - apply Run_mk_inv in H. destruct H as (it' & E & H). 
    assert (S : exists b s', diff2_next I step Wrapping (D2 it first count prev1 prev2) = Ret (Some b, s') /\ d2_iter I s' = it' /\ 0 <= d2_count I s' /\ d2_count I s' + zlen (d2_first I s') >= 2).
    { unfold diff2_next. rewrite E. cbn [bind]. destruct a as [v| |].
      - destruct (count =? 0) eqn:C; [|destruct (count =? 1) eqn:C1].
        + destruct first as [|f first']; [rewrite zlen_nil in Hf; exfalso; lia|]. rewrite zlen_cons in Hf. eexists _, _. split; [reflexivity|]. cbn [d2_iter d2_count d2_first]. split; [reflexivity|]. lia.
        + destruct first as [|f first']; [rewrite zlen_nil in Hf; exfalso; lia|]. rewrite zlen_cons in Hf. eexists _, _. split; [reflexivity|]. cbn [d2_iter d2_count d2_first]. split; [reflexivity|]. lia.
        + destruct (arith_W I32 (2 * prev1)) as (x & ->). cbn [bind]. destruct (arith_W I32 (v + x)) as (y & ->). cbn [bind]. destruct (arith_W I32 (y - prev2)) as (z & ->). cbn [bind].
          eexists _, _. split; [reflexivity|]. cbn [d2_iter d2_count d2_first]. split; [reflexivity|]. lia.
      - eexists _, _. split; [reflexivity|]. cbn [d2_iter d2_count d2_first]. auto.
      - eexists _, _. split; [reflexivity|]. cbn [d2_iter d2_count d2_first]. auto. }
    destruct S as (b & [it2 f2 c2 p2 q2] & E2 & E3 & E4 & E5). cbn [d2_iter d2_count d2_first] in E3, E4, E5. subst it2.
    destruct (IH e it' f2 c2 p2 q2 H E4 E5) as (out & HR & Lo). exists (b :: out). split; [eapply Run_mk_cons; eassumption|cbn [length]; lia].
Qed.

(** The extra descriptors. *)
Lemma spdiff_total : forall m s7 o k, o = 1 \/ o = 2 -> 1 <= k <= 4 -> (o + 1) * k <= zlen s7 ->
  exists d zmin first, spdiff_new m s7 o k = Ret (Ok d) /\ spdiff_len d = (o + 1) * k /\ spdiff_minimum m d = Ret zmin /\
    collect_first_values m d = Ret first /\ zlen first = o.
Proof.
  intros m s7 o k Ho Hk Hl. exists (SpDiff (octets s7 0 ((o + 1) * k)) k).
  assert (Ld : zlen (octets s7 0 ((o + 1) * k)) = (o + 1) * k) by (apply zlen_octets; nia).
  set (d := octets s7 0 ((o + 1) * k)) in *.
  assert (G : forall a b, 0 <= a -> 1 <= b <= 4 -> a + b <= (o + 1) * k -> exists s x, slice d a (a + b) = Ret s /\ grib_int_from_bytes m s = Ret x).
  { intros a b Ha Hb Hab. exists (octets d a b), (sign_magnitude (zlen (octets d a b)) (be (octets d a b))).
    split; [rewrite (slice_octets d a (a + b)) by lia; do 2 f_equal; lia|]. apply grib_int_from_bytes_spec. rewrite zlen_octets by lia. lia. }
  assert (E : first_value_end_pos m (SpDiff d k) = Ret (o * k)).
  { unfold first_value_end_pos, spdiff_len. cbn [sp_slice sp_octets]. rewrite Ld. replace ((o + 1) * k - k) with (o * k) by lia.
    assert (0 <= o * k <= 8) by (destruct Ho as [-> | ->]; lia). apply arith_ok. change (min_of Usize) with 0. change (max_of Usize) with 18446744073709551615. lia. }
  destruct (G (o * k) k ltac:(nia) Hk ltac:(nia)) as (s & x & Es & Ex).
  exists x. 
  assert (F : exists first, collect_first_values m (SpDiff d k) = Ret first /\ zlen first = o).
  { unfold collect_first_values, first_values.
    destruct (G 0 k ltac:(lia) Hk ltac:(nia)) as (s0 & x0 & Es0 & Ex0). 
    assert (N0 : first_values_next m (SpDiff d k) 0 = Ret (Some x0, 0 + k)).
    { unfold first_values_next. rewrite E. cbn [bind sp_slice sp_octets]. replace (o * k <=? 0) with false by nia. rewrite Es0. cbn [bind]. rewrite Ex0. reflexivity. }
    assert (C : forall n it i l, next it = Ret (Some i, l) -> @collect Z (S n) it = (let! r := collect n l in Ret (i :: r))).
    { intros n it i l Hn. cbn [collect]. rewrite Hn. reflexivity. }
    assert (C0 : forall n it l, next it = Ret (None, l) -> @collect Z (S n) it = Ret []).
    { intros n it l Hn. cbn [collect]. rewrite Hn. reflexivity. }
    change 300%nat with (S 299). erewrite C by (rewrite next_mk, N0; reflexivity).
    assert (NE : forall pos, o * k <= pos -> first_values_next m (SpDiff d k) pos = Ret (None, pos)).
    { intros pos Hp. unfold first_values_next. rewrite E. cbn [bind]. replace (o * k <=? pos) with true by lia. reflexivity. }
    destruct Ho as [Ho|Ho].
    - change 299%nat with (S 298). erewrite C0 by (rewrite next_mk, NE by lia; reflexivity). exists [x0]. split; [reflexivity|]. rewrite Ho. reflexivity.
    - destruct (G (0 + k) k ltac:(lia) Hk ltac:(nia)) as (s1 & x1 & Es1 & Ex1).
      assert (N1 : first_values_next m (SpDiff d k) (0 + k) = Ret (Some x1, 0 + k + k)).
      { unfold first_values_next. rewrite E. cbn [bind sp_slice sp_octets]. replace (o * k <=? 0 + k) with false by lia. rewrite Es1. cbn [bind]. rewrite Ex1. reflexivity. }
      change 299%nat with (S 298). erewrite C by (rewrite next_mk, N1; reflexivity).
      change 298%nat with (S 297). erewrite C0 by (rewrite next_mk, NE by lia; reflexivity). exists [x0; x1]. split; [reflexivity|]. rewrite Ho. reflexivity. }
  destruct F as (first & F & Lf). exists first. split.
  { rewrite spdiff_errors. replace ((k =? 0) || (4 <? k)) with false by lia. rewrite arith_ok by mlia. cbn [bind]. rewrite (slice_octets s7 0 ((o + 1) * k)) by nia. cbn [bind]. rewrite Z.sub_0_r. reflexivity. }
  split; [exact Ld|]. split; [|split; [exact F|exact Lf]].
  unfold spdiff_minimum. rewrite E. cbn [bind sp_slice]. unfold slice_from. rewrite Ld. replace ((o + 1) * k) with (o * k + k) by lia. rewrite Es. exact Ex.
Qed.
Lemma spdiff_short : forall m s7 o k, o = 1 \/ o = 2 -> 1 <= k <= 4 -> zlen s7 < (o + 1) * k -> spdiff_new m s7 o k = Panic.
Proof.
  intros m s7 o k Ho Hk Hl. rewrite spdiff_errors. replace ((k =? 0) || (4 <? k)) with false by lia. rewrite arith_ok by mlia. cbn [bind].
  rewrite slice_panic by lia. reflexivity.
Qed.

Section Decoder.
  Variables (c : codecs) (m : mode) (d : decoder).
  Notation p := (d_sect5 d).
  Notation t := (d_template d).
  Let q := skipn (Z.to_nat (descriptors p t)) (d_sect7 d).
  Hypothesis Ht : t = 2 \/ t = 3.
  Hypothesis Hreach : reaches p (sect5_end p t).
  Hypothesis Hok : forall e, ~ refused p t e.
  Hypothesis Hc : counts_fit p.
  Hypothesis Hb : refs_bits p <= 31.
  Hypothesis Hm : m = Wrapping \/ (t = 2 /\ moderate p q).

  Lemma complex_values :
    if descriptors p t + values_start p <=? zlen (d_sect7 d)
    then exists it out, template_values c m d = Ret (Ok it) /\ Run it out (ending_of p q) /\
      (ending_of p q = End -> zlen out = values_count p q) /\ (ending_of p q = Crash -> zlen out < values_count p q)
    else template_values c m d = Panic.
  Proof.
    assert (O21 : field p 21 21 = 0).
    { destruct (Z.eq_dec (field p 21 21) 0) as [E|E]; [exact E|]. exfalso. eapply Hok. apply refused_original; [cbn [In]; lia|exact E]. }
    assert (R47 : reaches p 47) by (destruct Ht as [E|E]; rewrite E in Hreach; cbn [sect5_end] in Hreach; unfold reaches in *; lia).
    assert (R21 : reaches p 21) by (unfold reaches in *; lia).
    destruct (simple_from m p R21) as (b1 & E1 & E2). rewrite O21 in E2. cbn [Z.eqb] in E2.
    destruct (complex_from p R47) as (b2 & E3 & E4).
    assert (U : (t = 2 \/ (t = 3 /\ In (field p 48 48) [1; 2])) -> complex_unsupported (complex_of p) = false).
    { intros H. unfold complex_unsupported, complex_of. cbn [cp_split cp_missing].
      destruct (negb (field p 22 22 =? 1) || (2 <? field p 23 23)) eqn:X; [|reflexivity]. exfalso. eapply Hok. apply refused_groups; [exact H|exact O21|lia]. }
    assert (VSn : 0 <= values_start p).
    { unfold values_start, lengths_start, widths_start. pose proof (proj1 Hc). assert (0 <= refs_bits p) by (apply field_range; lia). assert (0 <= widths_bits p) by (apply field_range; lia). assert (0 <= lengths_bits p) by (apply field_range; lia).
      pose proof (octets_for_nonneg (num_groups p) (refs_bits p)). pose proof (octets_for_nonneg (num_groups p) (widths_bits p)). pose proof (octets_for_nonneg (num_groups p) (lengths_bits p)). lia. }
    unfold template_values. destruct Ht as [E|E].
    - rewrite E. unfold decode_7_2, decode_7_2_ints. rewrite E1. cbn [bind]. rewrite E2. cbn [bind]. rewrite E3. cbn [bind]. rewrite E4. cbn [bind].
      rewrite U by auto. subst q. unfold descriptors in *. rewrite E in *. change (2 =? 3) with false in *. cbv iota in *. change (skipn (Z.to_nat 0) (d_sect7 d)) with (d_sect7 d) in *.
      pose proof (complex_total m p [] (d_sect7 d) 0 Hc Hb) as T. cbn [app] in T. change (zlen (@nil byte)) with 0 in T. change (sp_nbit (simple_of p)) with (refs_bits p).
      change (0 + values_start p) with (values_start p).
      specialize (T ltac:(destruct Hm as [->|(_ & M)]; [left; reflexivity|right; split; [exact M|vm_compute; reflexivity]])).
      destruct (values_start p <=? zlen (d_sect7 d)).
      + destruct T as (it & out & Ed & HR & L1 & L2). rewrite Ed. cbn [bind]. eexists _, _. split; [reflexivity|]. split; [apply Run_map_any; exact HR|].
        rewrite zlen_map. auto.
      + rewrite T. reflexivity.
    - assert (M : m = Wrapping) by (destruct Hm as [M|(M & _)]; [exact M|lia]).
      rewrite E in Hreach. cbn [sect5_end] in Hreach. assert (R48 : reaches p 48) by (unfold reaches in *; lia).
      rewrite E. unfold decode_7_3, decode_7_3_ints. rewrite E1. cbn [bind]. rewrite E2. cbn [bind]. rewrite E3. cbn [bind]. rewrite E4. cbn [bind].
      rewrite (read_u8_field p 42 48) by (lia || exact R48). cbn [bind]. rewrite (read_u8_field p 43 49) by (lia || exact Hreach).
      assert (O : field p 48 48 = 1 \/ field p 48 48 = 2).
      { destruct (Z.eq_dec (field p 48 48) 1) as [|N1]; [auto|]. destruct (Z.eq_dec (field p 48 48) 2) as [|N2]; [auto|]. exfalso.
        destruct (Z.eq_dec (field p 48 48) 255) as [N3|N3]; eapply Hok; [apply refused_order; assumption|apply refused_order_unknown; [exact E|exact O21|cbn [In]; lia]]. }
      assert (K : 1 <= field p 49 49 <= 4).
      { pose proof (field_range p 49 49 ltac:(lia)). destruct (Z_le_gt_dec 1 (field p 49 49)) as [K1|K1], (Z_le_gt_dec (field p 49 49) 4) as [K2|K2]; try lia;
          exfalso; eapply Hok; apply refused_descriptors; [exact E|exact O21|cbn [In]; lia|lia|exact E|exact O21|cbn [In]; lia|lia]. }
      specialize (U ltac:(right; split; [exact E|cbn [In]; lia])).
      assert (D : descriptors p t = (field p 48 48 + 1) * field p 49 49) by (unfold descriptors; rewrite E; reflexivity).
      subst q. rewrite E in D. rewrite E. rewrite D. set (o := field p 48 48) in *. set (k := field p 49 49) in *.
      change (sp_nbit (simple_of p)) with (refs_bits p).
      assert (TC : table5_6_of o = Some (if o =? 1 then FirstOrder else SecondOrder)) by (destruct O as [-> | ->]; reflexivity).
      rewrite TC. cbn [bind]. rewrite U. cbn [orb].
      replace (match (if o =? 1 then FirstOrder else SecondOrder) with Missing56 => true | _ => false end) with false by (destruct (o =? 1); reflexivity).
      replace (table5_6_code (if o =? 1 then FirstOrder else SecondOrder)) with o by (destruct O as [-> | ->]; reflexivity).
      destruct (Z_le_gt_dec ((o + 1) * k) (zlen (d_sect7 d))) as [Dl|Dl].
      2:{ replace ((o + 1) * k + values_start p <=? zlen (d_sect7 d)) with false by lia. rewrite spdiff_short by lia. reflexivity. }
      destruct (spdiff_total m (d_sect7 d) o k O K Dl) as (sd & zmin & first & F1 & F2 & F3 & F4 & F5). rewrite F1. cbn [bind]. rewrite F3. cbn [bind]. rewrite F2.
      destruct (list_split_at _ (d_sect7 d) ((o + 1) * k)) as (pre & qq & Eq & Lp); [nia|].
      assert (Sk : skipn (Z.to_nat ((o + 1) * k)) (d_sect7 d) = qq).
      { rewrite Eq. replace (Z.to_nat ((o + 1) * k)) with (length pre) by (unfold zlen in Lp; lia). rewrite skipn_app, skipn_all, Nat.sub_diag. reflexivity. }
      rewrite Sk. pose proof (complex_total m p pre qq zmin Hc Hb (or_introl M)) as T. rewrite <- Eq, Lp in T.
      replace ((o + 1) * k + values_start p <=? zlen (d_sect7 d)) with (values_start p <=? zlen qq) by (rewrite Eq, zlen_app; lia).
      destruct (values_start p <=? zlen qq); [|rewrite T; reflexivity].
      destruct T as (it & out & Ed & HR & L1 & L2). rewrite Ed. cbn [bind]. rewrite F4. cbn [bind]. rewrite (iter_eta _ it) in HR. subst m.
      destruct O as [O|O]; rewrite O in *; cbn [Z.eqb Pos.eqb bind].
      + destruct (diff1_total _ _ _ _ _ first 0 0 HR) as (out2 & HR2 & L3). { intros _ ->. rewrite zlen_nil in F5. lia. }
        eexists _, _. split; [reflexivity|]. split; [apply Run_map_any; exact HR2|]. rewrite zlen_map. unfold zlen in *. rewrite L3. auto.
      + destruct (diff2_total _ _ _ _ _ first 0 0 0 HR) as (out2 & HR2 & L3); [lia|lia|].
        eexists _, _. split; [reflexivity|]. split; [apply Run_map_any; exact HR2|]. rewrite zlen_map. unfold zlen in *. rewrite L3. auto.
  Qed.

  (** C48 *)
  Lemma complex_dispatch : 0 <= d_total d <= 8 * zlen (d_bitmap d) ->
    if descriptors p t + values_start p <=? zlen (d_sect7 d)
    then exists it out, dispatch c m d = Ret (Ok it) /\
      (values_bits p q <= 8 * (zlen q - values_start p) -> Run it out End) /\
      (8 * (zlen q - values_start p) < values_bits p q ->
       values_count p q <= Z.of_nat (ones (firstn (Z.to_nat (d_total d)) (bits_of_bytes (d_bitmap d)))) -> Run it out Crash)
    else dispatch c m d = Panic.
  Proof.
    intros Hl. pose proof complex_values as V. unfold dispatch. destruct (descriptors p t + values_start p <=? zlen (d_sect7 d)).
    - destruct V as (vals & vs & E & HR & L1 & L2). rewrite E. cbn [bind].
      destruct (bitmap_iter_run _ f32_nan (d_bitmap d) vals vs _ (d_total d) Hl HR) as (it & Ei & HI). rewrite Ei.
      set (bits := if d_total d <? 8 then _ else _) in *. eexists it, _. split; [reflexivity|]. unfold ending_of in *. split.
      + intros Hv. replace (values_bits p q <=? 8 * (zlen q - values_start p)) with true in HI by lia.
        destruct (ones bits <=? length vs)%nat; exact HI.
      + intros Hv Ho. replace (values_bits p q <=? 8 * (zlen q - values_start p)) with false in * by lia. specialize (L2 eq_refl).
        assert (Ob : (ones (firstn (Z.to_nat (d_total d)) (bits_of_bytes (d_bitmap d))) <= ones bits)%nat).
        { unfold bits. destruct (d_total d <? 8); [lia|]. apply DecodeP.ones_firstn. }
        replace (ones bits <=? length vs)%nat with false in HI; [exact HI|]. unfold zlen in L2. lia.
    - rewrite V. reflexivity.
  Qed.
End Decoder.
