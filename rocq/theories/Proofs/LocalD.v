(** What submessages depend on. *)
From Coq Require Import Lia ZifyBool ZifyNat.
From Verif Require Import Model.Base Model.Helpers Model.Errors Model.F32 Model.Sections Model.Reader Model.Parser Model.Context Model.Product Model.Grid Model.Decoder.
From Verif Require Import Spec.ReaderS Spec.ParserS Spec.FieldsS Spec.SessionS Spec.LocalS.
From Verif Require Import Proofs.BaseLemmas Proofs.ReaderP Proofs.SectionStreamP Proofs.TableP Proofs.ContextX Proofs.ViewX Proofs.FileP Proofs.LocalP Proofs.LocalX.
From Verif Require Import Proofs.SessionX.
Ltac Zify.zify_post_hook ::= Z.div_mod_to_equations.

Definition twins {A} (d d' : list byte) (f g : src -> outcome (A * src)) : Prop :=
  exists o, forall p sc p' sc', match o with
    | Ret r => exists s1 s2, f (MkSrc d p sc) = Ret (r, s1) /\ data s1 = d /\ g (MkSrc d' p' sc') = Ret (r, s2) /\ data s2 = d'
    | Panic => f (MkSrc d p sc) = Panic /\ g (MkSrc d' p' sc') = Panic
    | Diverge => f (MkSrc d p sc) = Diverge /\ g (MkSrc d' p' sc') = Diverge
    end.
Lemma twins_ret A d d' (a : A) : twins d d' (fun s => Ret (a, s)) (fun s => Ret (a, s)).
Proof. exists (Ret a). intros. do 2 eexists. repeat split. Qed.
Lemma twins_pure A B d d' (e : outcome A) (k k' : A -> src -> outcome (B * src)) : (forall a, twins d d' (k a) (k' a)) -> twins d d' (fun s => let! a := e in k a s) (fun s => let! a := e in k' a s).
Proof. intros H. destruct e as [a| |]; [destruct (H a) as (o & O); exists o; exact O|exists Panic; auto|exists Diverge; auto]. Qed.
Lemma twins_bind A B d d' (e e' : src -> outcome (A * src)) (k k' : A -> src -> outcome (B * src)) : twins d d' e e' -> (forall a, twins d d' (k a) (k' a)) ->
  twins d d' (fun s => bind (e s) (fun r => k (fst r) (snd r))) (fun s => bind (e' s) (fun r => k' (fst r) (snd r))).
Proof.
  intros (o & O) H. destruct o as [r| |].
  - destruct (H r) as (o2 & O2). exists o2. intros p sc p' sc'. destruct (O p sc p' sc') as ([d1 p1 c1] & [d2 p2 c2] & -> & E1 & -> & E2). cbn [data] in E1, E2. subst d1 d2. cbn [bind fst snd]. apply O2.
  - exists Panic. intros p sc p' sc'. destruct (O p sc p' sc') as (-> & ->). auto.
  - exists Diverge. intros p sc p' sc'. destruct (O p sc p' sc') as (-> & ->). auto.
Qed.
Lemma twins_ext A d d' (f g f' g' : src -> outcome (A * src)) : (forall s, f s = f' s) -> (forall s, g s = g' s) -> twins d d' f g -> twins d d' f' g'.
Proof. intros F G (o & O). exists o. intros p sc p' sc'. specialize (O p sc p' sc'). rewrite F, G in O. exact O. Qed.
Lemma twins_try A B E d d' (e e' : src -> outcome (result A E * src)) (k k' : A -> src -> outcome (result B E * src)) : twins d d' e e' -> (forall a, twins d d' (k a) (k' a)) ->
  twins d d' (fun s => try_src (e s) k) (fun s => try_src (e' s) k').
Proof.
  intros H K. eapply twins_ext; [| |apply (twins_bind _ _ d d' e e' (fun r s => match r with Ok a => k a s | Err x => Ret (Err x, s) end) (fun r s => match r with Ok a => k' a s | Err x => Ret (Err x, s) end) H)].
  - intros s. unfold try_src. destruct (e s) as [[r s1]| |]; reflexivity.
  - intros s. unfold try_src. destruct (e' s) as [[r s1]| |]; reflexivity.
  - intros [a|x]; [apply K|apply twins_ret].
Qed.

Lemma payload_octets d x d' x' : same_section d x d' x' -> 5 <= s_size x -> 0 <= s_offset x -> 0 <= s_offset x' ->
  forall a n, 0 <= a -> 0 <= n -> a + n <= s_size x -> octets d' (s_offset x' + a) n = octets d (s_offset x + a) n.
Proof.
  intros (E & O) H5 H0 H0' a n Ha Hn H. rewrite E in O. rewrite <- (ReaderP.octets_octets d (s_offset x) (s_size x)), <- (ReaderP.octets_octets d' (s_offset x') (s_size x)) by lia. rewrite O. reflexivity.
Qed.
Lemma inside_octets d p n : 0 <= p -> 0 < n -> (p + n <=? zlen d) = (zlen (octets d p n) =? n).
Proof.
  intros Hp Hn. unfold octets, zlen in *. rewrite firstn_length, skipn_length. lia.
Qed.
Lemma reread_twins m d x d' x' : same_section d x d' x' -> 0 <= s_offset x < 2 ^ 63 -> 0 <= s_offset x' < 2 ^ 63 -> s_size x < 2 ^ 32 -> 0 <= s_size x -> twins d d' (fun s => reread m s x) (fun s => reread m s x').
Proof.
  intros Q B B' L L0. pose proof Q as (E & O). unfold reread, read_sect_payload_as_slice, rbind, rpure, seek_to, read_slice, vec_alloc, rret.
  rewrite (arith_U64_ok m (s_offset x + 5)), (arith_U64_ok m (s_offset x' + 5)) by lia. cbn [bind]. replace ((0 <=? s_offset x + 5) && (s_offset x + 5 <? 2 ^ 64)) with true by lia. replace ((0 <=? s_offset x' + 5) && (s_offset x' + 5 <? 2 ^ 64)) with true by lia.
  rewrite E. destruct (arith m Usize (s_size x - 5)) as [n| |] eqn:En; cbn [bind]; [|exists Panic; auto|exists Diverge; auto].
  pose proof (arith_usize_range _ _ _ En) as Hn. destruct (Z.le_gt_cases 5 (s_size x)) as [S5|S5].
  - rewrite arith_U64_ok in En by lia. injection En as <-. replace (s_size x - 5 <=? 2 ^ 63 - 1) with true by lia.
    exists (Ret (if (s_size x - 5 =? 0) || (s_offset x + 5 + (s_size x - 5) <=? zlen d) then Ok (octets d (s_offset x + 5) (s_size x - 5)) else Err ReadErrorEof)).
    intros p sc p' sc'. cbn [data sched bind].
    destruct (read_exact_spec (s_size x - 5) (MkSrc d (s_offset x + 5) sc) ltac:(lia) ltac:(cbn [pos]; lia)) as (sc1 & _ & E1). cbn [data pos] in E1.
    destruct (read_exact_spec (s_size x - 5) (MkSrc d' (s_offset x' + 5) sc') ltac:(lia) ltac:(cbn [pos]; lia)) as (sc2 & _ & E2). cbn [data pos] in E2.
    unfold rbind. cbn [bind data sched]. rewrite E1, E2. rewrite (payload_octets d x d' x' Q S5 ltac:(lia) ltac:(lia) 5 (s_size x - 5)) by lia.
    replace ((s_size x - 5 =? 0) || (s_offset x' + 5 + (s_size x - 5) <=? zlen d')) with ((s_size x - 5 =? 0) || (s_offset x + 5 + (s_size x - 5) <=? zlen d)).
    + destruct ((s_size x - 5 =? 0) || (s_offset x + 5 + (s_size x - 5) <=? zlen d)); do 2 eexists; repeat split.
    + destruct (Z.eqb_spec (s_size x - 5) 0); [reflexivity|]. cbn [orb]. rewrite !inside_octets by lia.
      rewrite (payload_octets d x d' x' Q S5 ltac:(lia) ltac:(lia) 5 (s_size x - 5)) by lia. reflexivity.
  - destruct m.
    + exfalso. unfold arith in En. destruct (in_range Usize (s_size x - 5)) eqn:ER; [|discriminate]. unfold in_range in ER. change (min_of Usize) with 0 in ER. lia.
    + unfold arith in En. destruct (in_range Usize (s_size x - 5)) eqn:ER; [unfold in_range in ER; change (min_of Usize) with 0 in ER; lia|]. injection En as <-. rewrite wrap_unsigned by reflexivity. cbn [bits_of].
      replace ((s_size x - 5) mod 2 ^ 64 <=? 2 ^ 63 - 1) with false by lia. exists Panic. auto.
Qed.
Lemma reread_grib_twins m d x d' x' : same_section d x d' x' -> 0 <= s_offset x < 2 ^ 63 -> 0 <= s_offset x' < 2 ^ 63 -> s_size x < 2 ^ 32 -> 0 <= s_size x -> twins d d' (fun s => reread_grib m s x) (fun s => reread_grib m s x').
Proof.
  intros Q B B' L L0. unfold reread_grib. eapply twins_ext; [| |apply (twins_bind _ _ d d' _ _ (fun r s => Ret (match r with Ok l => Ok l | Err e => Err (EParse e) end, s)) (fun r s => Ret (match r with Ok l => Ok l | Err e => Err (EParse e) end, s)) (reread_twins m d x d' x' Q B B' L L0))].
  - intros s. cbv beta. destruct (reread m s x) as [[r s1]| |]; reflexivity.
  - intros s. cbv beta. destruct (reread m s x') as [[r s1]| |]; reflexivity.
  - intros r. apply twins_ret.
Qed.

Lemma table_bounds P d : forall l e c e' c', 0 <= c -> tiles P d e c l e' c' -> Forall (fun x => 0 <= s_offset x /\ s_offset x + 4 <= zlen d /\ 0 <= s_size x < 2 ^ 32) l.
Proof.
  induction l as [|x l IH]; intros e c e' c' Hc T; [constructor|]. apply tiles_inv in T. destruct T as (e1 & c1 & T1 & T2).
  pose proof (tile_cur _ _ _ _ _ _ _ Hc T1) as (E & F & _ & _ & Z0 & _). assert (H1 : 0 <= c1) by lia. constructor; [|exact (IH _ _ _ _ H1 T2)].
  inversion T1; subst; cbn [s_offset s_size] in *; try lia.
  - match goal with Q : first_magic _ _ _ |- _ => destruct Q as (F1 & (F2 & F3 & _) & _) end. lia.
  - pose proof (octets_be_range d c 4 ltac:(lia)). lia.
Qed.
Lemma file_table_of m fuel d p sc g : grib2_read m fuel (MkSrc d p sc) = Ret (Ok g) -> zlen d < 2 ^ 63 -> 0 <= p <= zlen d -> exists e c, tiles (m = Checked) d p p (g_sections g) e c.
Proof.
  intros E Hl Hp. destruct (grib2_read_inv m fuel _ g E Hl ltac:(cbn [pos]; lia)) as (HR & _).
  rewrite <- (app_nil_r (map Ok _)) in HR. apply Run_split in HR. destruct HR as (it' & HS & _). destruct (steps_tiles m d _ _ it' p p (Inv_start m d p sc Hl Hp) HS) as (s' & e & c & T & _). eauto.
Qed.
Lemma file_bounds m fuel s g : grib2_read m fuel s = Ret (Ok g) -> zlen (data s) < 2 ^ 63 -> 0 <= pos s <= zlen (data s) ->
  forall x, In x (g_sections g) -> 0 <= s_offset x < 2 ^ 63 /\ 0 <= s_size x < 2 ^ 32.
Proof.
  destruct s as [d p sc]. cbn [data pos]. intros E Hl Hp x Hx. destruct (file_table_of m fuel d p sc g E Hl Hp) as (e & c & T).
  pose proof (table_bounds _ _ _ _ _ _ _ (proj1 Hp) T) as F. rewrite Forall_forall in F. specialize (F x Hx). lia.
Qed.

(** Sections of the same number with the same octets have the same bodies. *)
Lemma same_body d x d' x' : header_at d x -> header_at d' x' -> s_num x' = s_num x -> same_section d x d' x' -> s_num x <> 0 -> s_body x' = s_body x.
Proof.
  intros H H' N Q N0. pose proof (body_by_num d x H) as (_ & A1 & A3 & A4 & A5 & A6 & A7). pose proof (body_by_num d' x' H') as (_ & B1 & B3 & B4 & B5 & B6 & B7).
  pose proof H as (O0 & H2). pose proof H' as (O0' & H2'). rewrite N in *. cbv zeta in *. rewrite (proj1 Q) in *.
  destruct (Z.eqb_spec (s_num x) 0) as [|_]; [contradiction|]. destruct (Z.eqb_spec (s_num x) 8) as [E8|_].
  - destruct H2 as (_ & -> & _). destruct H2' as (_ & -> & _). reflexivity.
  - destruct H2 as (R1 & _ & _ & b & Eb & HB). 
    assert (X : s_num x = 1 \/ s_num x = 2 \/ s_num x = 3 \/ s_num x = 4 \/ s_num x = 5 \/ s_num x = 6 \/ s_num x = 7) by lia.
    pose proof (fun H5 a n => payload_octets d x d' x' Q H5 O0 O0' a n) as PO.
    destruct X as [X|[X|[X|[X|[X|[X|X]]]]]].
    + destruct (A1 X) as (-> & S). destruct (B1 X) as (-> & _). rewrite PO by lia. reflexivity.
    + destruct H2' as (_ & _ & _ & b' & Eb' & HB'). rewrite Eb, Eb'. destruct HB as (_ & HB). destruct HB' as (_ & HB'). cbv zeta in *. rewrite X in *. rewrite ?(proj1 Q) in *.
      destruct HB as [(?&?&?)|[(_ & -> & S)|[(?&?&?)|[(?&?&?)|[(?&?&?)|[(?&?&?)|(?&?)]]]]]]; try lia. destruct HB' as [(?&?&?)|[(_ & -> & _)|[(?&?&?)|[(?&?&?)|[(?&?&?)|[(?&?&?)|(?&?)]]]]]]; try lia.
      rewrite PO by lia. reflexivity.
    + destruct (A3 X) as (-> & S). destruct (B3 X) as (-> & _). rewrite PO by lia. reflexivity.
    + destruct (A4 X) as (-> & S). destruct (B4 X) as (-> & _). rewrite PO by lia. reflexivity.
    + destruct (A5 X) as (-> & S). destruct (B5 X) as (-> & _). rewrite PO by lia. reflexivity.
    + rewrite (A6 X), (B6 X). unfold file_field. destruct HB as (_ & HB). cbv zeta in HB. rewrite X in HB.
      destruct HB as [(?&?&?)|[(?&?&?)|[(?&?&?)|[(?&?&?)|[(?&?&?)|[(_ & _ & S)|(?&?)]]]]]]; try lia. do 3 f_equal.
      pose proof (PO ltac:(lia) 5 1 ltac:(lia) ltac:(lia) ltac:(lia)) as P5. replace (s_offset x' + 6 - 1) with (s_offset x' + 5) by lia. replace (s_offset x + 6 - 1) with (s_offset x + 5) by lia. exact P5.
    + rewrite (A7 X), (B7 X). reflexivity.
Qed.

(** ** A decoder *)
Lemma decoder_twins m d v d' v' :
  s_body (snd (u_3 v')) = s_body (snd (u_3 v)) -> s_body (snd (u_5 v')) = s_body (snd (u_5 v)) -> s_body (snd (u_6 v')) = s_body (snd (u_6 v)) ->
  twins d d' (fun s => reread_grib m s (snd (u_5 v))) (fun s => reread_grib m s (snd (u_5 v'))) ->
  twins d d' (fun s => reread_grib m s (snd (u_6 v))) (fun s => reread_grib m s (snd (u_6 v'))) ->
  twins d d' (fun s => reread_grib m s (snd (u_7 v))) (fun s => reread_grib m s (snd (u_7 v'))) ->
  twins d d' (fun s => decoder_from m s v) (fun s => decoder_from m s v').
Proof.
  intros E3 E5 E6 T5 T6 T7. unfold decoder_from. rewrite E3, E5, E6. destruct (s_body (snd (u_3 v))) as [[| | |p3| | | |]|]; try apply twins_ret.
  destruct (s_body (snd (u_5 v))) as [[| | | | |p5| |]|]; try apply twins_ret.
  destruct (s_body (snd (u_6 v))) as [[| | | | | |i|]|]; try apply twins_ret.
  apply twins_pure. intros total.
  apply (twins_try _ _ _ d d' (fun s => decoder_bitmap m s (snd (u_6 v)) i total) (fun s => decoder_bitmap m s (snd (u_6 v')) i total)).
  - unfold decoder_bitmap. destruct (i =? 0); [|destruct (i =? 255); apply twins_ret].
    apply (twins_try _ _ _ d d' _ _ (fun l s' => let! b := slice_from l 1 in Ret (Ok b, s')) (fun l s' => let! b := slice_from l 1 in Ret (Ok b, s')) T6).
    intros l. apply twins_pure. intros. apply twins_ret.
  - intros bm. apply twins_pure. intros enc. apply twins_pure. intros tm.
    apply (twins_try _ _ _ d d' _ _ _ _ T5). intros s5.
    apply (twins_try _ _ _ d d' _ _ _ _ T7). intros s7. apply twins_ret.
Qed.
Lemma decode_twins : forall m1 m2 f1 f2 s s' g g', 
  grib2_read m1 f1 s = Ret (Ok g) -> zlen (data s) < 2 ^ 63 -> 0 <= pos s <= zlen (data s) ->
  grib2_read m2 f2 s' = Ret (Ok g') -> zlen (data s') < 2 ^ 63 -> 0 <= pos s' <= zlen (data s') ->
  forall w v w' v', In w (g_subs g) -> make_view g w = Some v -> In w' (g_subs g') -> make_view g' w' = Some v' ->
  let same (k : forall {A}, submessage A -> A) := same_section (data s) (snd (k v)) (data s') (snd (k v')) in
  same (@u_3) -> same (@u_5) -> same (@u_6) -> same (@u_7) ->
  forall m, decoded_alone m (data s') v' = decoded_alone m (data s) v.
Proof.
  intros m1 m2 f1 f2 s s' g g' R L P R' L' P' w v w' v' W V W' V' same Q3 Q5 Q6 Q7 m. unfold same in *.
  pose proof (file_views m1 f1 s g R L P w v W V) as (_ & _ & (I3 & H3 & N3) & _ & (I5 & H5 & N5) & (I6 & H6 & N6) & (I7 & H7 & N7)).
  pose proof (file_views m2 f2 s' g' R' L' P' w' v' W' V') as (_ & _ & (J3 & K3 & M3) & _ & (J5 & K5 & M5) & (J6 & K6 & M6) & (J7 & K7 & M7)).
  pose proof (file_bounds m1 f1 s g R L P) as B. pose proof (file_bounds m2 f2 s' g' R' L' P') as B'.
  destruct (decoder_twins m (data s) v (data s') v') as (o & O).
  - apply (same_body (data s) _ (data s')); auto; congruence.
  - apply (same_body (data s) _ (data s')); auto; congruence.
  - apply (same_body (data s) _ (data s')); auto; congruence.
  - apply reread_grib_twins; [exact Q5|apply B; exact I5|apply B'; exact J5|apply B; exact I5|apply B; exact I5].
  - apply reread_grib_twins; [exact Q6|apply B; exact I6|apply B'; exact J6|apply B; exact I6|apply B; exact I6].
  - apply reread_grib_twins; [exact Q7|apply B; exact I7|apply B'; exact J7|apply B; exact I7|apply B; exact I7].
  - unfold decoded_alone, cursor. specialize (O 0 [] 0 []). destruct o as [r| |]; [destruct O as (s1 & s2 & -> & _ & -> & _)|destruct O as (-> & ->)|destruct O as (-> & ->)]; reflexivity.
Qed.
Lemma accessor_twins : forall m1 m2 f1 f2 s s' g g', 
  grib2_read m1 f1 s = Ret (Ok g) -> zlen (data s) < 2 ^ 63 -> 0 <= pos s <= zlen (data s) ->
  grib2_read m2 f2 s' = Ret (Ok g') -> zlen (data s') < 2 ^ 63 -> 0 <= pos s' <= zlen (data s') ->
  forall w v w' v', In w (g_subs g) -> make_view g w = Some v -> In w' (g_subs g') -> make_view g' w' = Some v' ->
  let same (k : forall {A}, submessage A -> A) := same_section (data s) (snd (k v)) (data s') (snd (k v')) in
  (same (@u_0) -> v_indicator v' = v_indicator v) /\ (same (@u_1) -> v_identification v' = v_identification v) /\
  (same (@u_3) -> v_grid_def v' = v_grid_def v) /\ (same (@u_4) -> v_prod_def v' = v_prod_def v) /\ (same (@u_5) -> v_repr_def v' = v_repr_def v) /\
  (same (@u_0) -> same (@u_1) -> same (@u_4) -> v_parameter v' = v_parameter v).
Proof.
  intros m1 m2 f1 f2 s s' g g' R L P R' L' P' w v w' v' W V W' V' same. unfold same.
  pose proof (file_views m1 f1 s g R L P w v W V) as ((I0 & H0 & N0) & (I1 & H1 & N1) & (I3 & H3 & N3) & (I4 & H4 & N4) & (I5 & H5 & N5) & _).
  pose proof (file_views m2 f2 s' g' R' L' P' w' v' W' V') as ((J0 & K0 & M0) & (J1 & K1 & M1) & (J3 & K3 & M3) & (J4 & K4 & M4) & (J5 & K5 & M5) & _).
  assert (X0 : same_section (data s) (snd (u_0 v)) (data s') (snd (u_0 v')) -> v_indicator v' = v_indicator v).
  { intros Q. destruct (file_bodies m1 f1 s g R L P w v W V) as (-> & _). destruct (file_bodies m2 f2 s' g' R' L' P' w' v' W' V') as (-> & _). unfold file_field. do 2 f_equal.
    assert (S16 : s_size (snd (u_0 v)) = 16). { destruct H0 as (_ & H0). rewrite N0 in H0. apply H0. }
    destruct H0 as (O0 & _). destruct K0 as (O0' & _).
    pose proof (payload_octets _ _ _ _ Q ltac:(lia) O0 O0' 6 1 ltac:(lia) ltac:(lia) ltac:(lia)) as E.
    replace (s_offset (snd (u_0 v')) + 7 - 1) with (s_offset (snd (u_0 v')) + 6) by lia. replace (s_offset (snd (u_0 v)) + 7 - 1) with (s_offset (snd (u_0 v)) + 6) by lia. exact E. }
  assert (SB : forall x x', header_at (data s) x -> header_at (data s') x' -> s_num x' = s_num x -> s_num x <> 0 -> same_section (data s) x (data s') x' -> s_body x' = s_body x).
  { intros x x' A B C D Q. apply (same_body (data s) x (data s') x'); assumption. }
  split; [exact X0|]. split; [|split; [|split; [|split]]].
  - intros Q. unfold v_identification. rewrite (SB _ _ H1 K1 (eq_trans M1 (eq_sym N1)) ltac:(lia) Q). reflexivity.
  - intros Q. unfold v_grid_def. rewrite (SB _ _ H3 K3 (eq_trans M3 (eq_sym N3)) ltac:(lia) Q). reflexivity.
  - intros Q. unfold v_prod_def. rewrite (SB _ _ H4 K4 (eq_trans M4 (eq_sym N4)) ltac:(lia) Q). reflexivity.
  - intros Q. unfold v_repr_def. rewrite (SB _ _ H5 K5 (eq_trans M5 (eq_sym N5)) ltac:(lia) Q). reflexivity.
  - intros Q0 Q1 Q4. unfold v_parameter. rewrite (X0 Q0). unfold v_identification, v_prod_def.
    rewrite (SB _ _ H1 K1 (eq_trans M1 (eq_sym N1)) ltac:(lia) Q1), (SB _ _ H4 K4 (eq_trans M4 (eq_sym N4)) ltac:(lia) Q4). reflexivity.
Qed.

(** ** Other packed data *)
Lemma table_same P d d' p : 0 <= p -> repacked P d d' p -> forall l e c, tiles P d p p l e c -> forall x, In x l -> s_num x <> 7 ->
  same_section d x d' x.
Proof.
  intros Hp R l e c T x Hx N. split; [reflexivity|]. apply in_split in Hx. destruct Hx as (a & b & ->). apply tiles_app_inv in T. destruct T as (e1 & c1 & Ta & T).
  apply tiles_inv in T. destruct T as (e2 & c2 & T1 & _). pose proof (tiles_nonneg _ _ _ _ _ _ _ Hp Ta) as H1. pose proof (tile_cur _ _ _ _ _ _ _ H1 T1) as (E & F & _ & _ & Z0 & _).
  apply (octets_ext d d' c1 c2 H1 (fun i Hi => other_same P d d' p Hp R a e1 c1 Ta x e2 c2 i T1 N Hi)); lia.
Qed.
Lemma decode_repacked : forall m fuel d d' p, zlen d < 2 ^ 63 -> 0 <= p <= zlen d -> zlen d < Z.of_nat fuel -> repacked (m = Checked) d d' p ->
  forall g, grib2_read m fuel (MkSrc d p []) = Ret (Ok g) -> forall w v, In w (g_subs g) -> make_view g w = Some v ->
  same_section d (snd (u_7 v)) d' (snd (u_7 v)) -> forall m', decoded_alone m' d' v = decoded_alone m' d v.
Proof.
  intros m fuel d d' p L Hp Hf R g E w v W V Q7 m'.
  destruct (read_ok m d d' p L Hp R fuel g E) as (g' & E' & ES & EU).
  assert (V' : make_view g' w = Some v). { rewrite <- V. unfold make_view, view_section. rewrite ES. reflexivity. }
  assert (W' : In w (g_subs g')) by (rewrite EU; exact W).
  destruct (file_table_of m fuel d p [] g E L Hp) as (e & c & T).
  pose proof (file_views m fuel _ g E L Hp w v W V) as (_ & _ & (I3 & H3 & N3) & _ & (I5 & H5 & N5) & (I6 & H6 & N6) & _).
  assert (L' : zlen d' < 2 ^ 63) by (rewrite (proj1 R); exact L). assert (P' : 0 <= p <= zlen d') by (rewrite (proj1 R); exact Hp).
  apply (decode_twins m m fuel fuel (MkSrc d p []) (MkSrc d' p []) g g' E L Hp E' L' P' w v w v W V W' V'); cbn [data];
    [apply (table_same (m = Checked) d d' p (proj1 Hp) R _ _ _ T); [assumption|congruence] ..|exact Q7].
Qed.

(** Replacing octets in the middle. *)
Lemma patched (a b b' c : list byte) i : length b' = length b -> 0 <= i -> octets (a ++ b' ++ c) i 1 <> octets (a ++ b ++ c) i 1 -> zlen a <= i < zlen a + zlen b.
Proof.
  intros L Hi N. destruct (Z.lt_ge_cases i (zlen a)) as [H|H].
  - exfalso. apply N. unfold octets, zlen in *. rewrite !skipn_app, !firstn_app, !skipn_length. replace (Z.to_nat 1 - (length a - Z.to_nat i))%nat with 0%nat by lia. reflexivity.
  - split; [exact H|]. destruct (Z.lt_ge_cases i (zlen a + zlen b)) as [B|B]; [exact B|]. exfalso. apply N. unfold octets, zlen in *.
    rewrite !skipn_app, L. rewrite (skipn_all2 a), (skipn_all2 b), (skipn_all2 b') by lia. reflexivity.
Qed.
Lemma repacked_patch m fuel (a b b' c : list byte) p g x : grib2_read m fuel (MkSrc (a ++ b ++ c) p []) = Ret (Ok g) -> zlen (a ++ b ++ c) < 2 ^ 63 -> 0 <= p <= zlen (a ++ b ++ c) ->
  length b' = length b -> In x (g_sections g) -> s_num x = 7 -> s_offset x + 5 <= zlen a -> zlen a + zlen b <= s_offset x + s_size x ->
  repacked (m = Checked) (a ++ b ++ c) (a ++ b' ++ c) p.
Proof.
  intros E L Hp Q Hx N7 A B. split.
  - unfold zlen. rewrite !app_length, Q. reflexivity.
  - intros i Hi N. destruct (file_table_of m fuel _ p [] g E L Hp) as (e & cu & T). exists (g_sections g), e, cu, x.
    pose proof (patched a b b' c i Q Hi N). split; [exact T|]. split; [exact Hx|]. split; [exact N7|]. lia.
Qed.
