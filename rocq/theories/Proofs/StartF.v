(** Reading from a position on: the statements. *)
From Coq Require Import Lia ZifyBool ZifyNat.
From Verif Require Import Model.Base Model.Helpers Model.Errors Model.Sections Model.Reader Model.Parser Model.Context Model.Decoder.
From Verif Require Import Spec.ReaderS Spec.ParserS Spec.ReadS Spec.SessionS Spec.LocalS Spec.CutS Spec.JoinS.
From Verif Require Import Proofs.BaseLemmas Proofs.ReaderP Proofs.SectionStreamP Proofs.TableP Proofs.ExactP Proofs.ReaderX Proofs.LocalP Proofs.CutP Proofs.CutM Proofs.CutX Proofs.JoinX Proofs.JoinY Proofs.JoinR Proofs.JoinQ Proofs.SplitX Proofs.SplitF.
From Verif Require Proofs.ReadX Proofs.FileP Proofs.WordX Proofs.CutF Proofs.ContextX Proofs.LocalD Proofs.ViewX.
Ltac Zify.zify_post_hook ::= Z.div_mod_to_equations.

Lemma renumbered_0 w : renumbered 0 0 w = w.
Proof.
  destruct w as [w0 w1 w2 w3 w4 w5 w6 w7 w8 w9 w10]. unfold renumbered. cbn [Parser.u_mi Parser.u_si Parser.u_0 Parser.u_1 Parser.u_2 Parser.u_3 Parser.u_4 Parser.u_5 Parser.u_6 Parser.u_7 Parser.u_8].
  rewrite !Z.add_0_r. f_equal; [destruct w4; cbn [option_map]; rewrite ?Z.add_0_r; reflexivity|]. destruct (Z.eqb_spec w10 0); congruence.
Qed.
Lemma facts_at (d : list byte) p f g : zlen d < 2 ^ 63 -> 0 <= p <= zlen d -> grib2_read Checked f (MkSrc d p []) = Ret (Ok g) ->
  exists ms c, Forall wf_message ms /\ g_sections g = flat_map message_sections ms /\
    tiles (Checked = Checked) d p p (g_sections g) c c /\ (forall j, c <= j -> ~ magic_at d j) /\ p <= c <= zlen d.
Proof.
  intros Hl Hp R. destruct (FileP.grib2_read_inv Checked f _ g R Hl ltac:(cbn [pos]; lia)) as (H & ms & us & W & E & U & X).
  apply (end_iff Checked d p Hl Hp) in H. destruct H as (e & c & T & N). pose proof T as T'. rewrite E in T'.
  destruct (after_messages _ _ _ _ _ _ Hp W T') as (-> & Hc & _). exists ms, c. repeat (split; [assumption|]). split; [|exact Hc].
  inversion N; [assumption|congruence].
Qed.
Lemma readable_at d p ms c : zlen d < 2 ^ 63 -> 0 <= p <= zlen d -> Forall wf_message ms -> tiles (Checked = Checked) d p p (flat_map message_sections ms) c c -> (forall j, c <= j -> ~ magic_at d j) ->
  forall m fuel, zlen d < Z.of_nat fuel -> exists g, grib2_read m fuel (MkSrc d p []) = Ret (Ok g) /\ g_sections g = flat_map message_sections ms.
Proof.
  intros HL Hp W T N m fuel Hf.
  apply (FileP.grib2_read_complete m fuel (MkSrc d p []) ms); cbn [data pos]; try assumption; [lia|].
  apply (end_iff m d p HL Hp). exists c, c. split; [apply (tiles_weaken (Checked = Checked)); [reflexivity|exact T]|apply ends_between; [reflexivity|exact N]].
Qed.

Section Start.
  Variables (d : list byte) (p : Z).
  Hypothesis HL : zlen d < 2 ^ 63.
  Hypothesis Hp : 0 <= p <= zlen d.
  Let a := cut p d.
  Let t := skipn (Z.to_nat p) d.
  Lemma whole : d = a ++ t. Proof. apply CutF.cut_app. Qed.
  Lemma front_len : zlen a = p. Proof. apply CutF.cut_len. exact Hp. Qed.
  Lemma rest_len : zlen t = zlen d - p. Proof. pose proof (zlen_both a t) as Q. rewrite <- whole, front_len in Q. lia. Qed.

  Lemma forth f' g' : grib2_read Checked f' (MkSrc t 0 []) = Ret (Ok g') -> forall m fuel, zlen d < Z.of_nat fuel ->
    exists g, grib2_read m fuel (MkSrc d p []) = Ret (Ok g) /\ g_sections g = map (moved p) (g_sections g').
  Proof.
    intros R m fuel Hf. pose proof rest_len as RL. assert (HLt : zlen t < 2 ^ 63) by lia. assert (Hpt : 0 <= 0 <= zlen t) by lia.
    destruct (facts_at t 0 f' g' HLt Hpt R) as (ms & c & W & E & T & N & Hc). rewrite E in T.
    assert (HL' : zlen (a ++ t) < 2 ^ 63) by (rewrite <- whole; exact HL).
    pose proof (tiles_moved a t _ _ _ _ _ _ (Z.le_refl 0) (messages_small _ a t ms _ _ HL' W T) T) as TM. rewrite <- whole, front_len, Z.add_0_l, <- moved_sections in TM.
    destruct (readable_at d p _ (c + p) HL Hp (messages_moved p ms W) TM) with (m := m) (fuel := fuel) as (g & Eg & Es); [|exact Hf|].
    - intros j Hj M. apply (N (j - p)); [lia|]. apply (magic_moved a t); [lia|]. rewrite <- whole, front_len. replace (j - p + p) with j by lia. exact M.
    - exists g. split; [exact Eg|]. rewrite Es, moved_sections, E. reflexivity.
  Qed.
  Lemma back_again f g : grib2_read Checked f (MkSrc d p []) = Ret (Ok g) -> forall m fuel, zlen t < Z.of_nat fuel ->
    exists g', grib2_read m fuel (MkSrc t 0 []) = Ret (Ok g') /\ g_sections g = map (moved p) (g_sections g').
  Proof.
    intros R m fuel Hf. pose proof rest_len as RL. pose proof front_len as FL. assert (HLt : zlen t < 2 ^ 63) by lia. assert (Hpt : 0 <= 0 <= zlen t) by lia.
    destruct (facts_at d p f g HL Hp R) as (ms & c & W & E & T & N & Hc).
    assert (TB : tiles (Checked = Checked) t 0 0 (map (back a) (g_sections g)) (c - p) (c - p)).
    { apply (tiles_back a t); [lia|]. rewrite <- whole, FL. replace (0 + p) with p by lia. replace (c - p + p) with c by lia. exact T. }
    assert (Eb : map (back a) (g_sections g) = flat_map message_sections (map (moved_message (- p)) ms)).
    { rewrite moved_sections, E. apply map_ext. intros s. unfold back, moved. rewrite FL. reflexivity. }
    rewrite Eb in TB. destruct (readable_at t 0 _ (c - p) HLt Hpt (messages_moved _ ms W) TB) with (m := m) (fuel := fuel) as (g' & Eg & Es); [|exact Hf|].
    - intros j Hj M. apply (N (j + p)); [lia|]. rewrite whole, <- FL. apply magic_moved; [lia|exact M].
    - exists g'. split; [exact Eg|]. rewrite Es, <- Eb, map_map. symmetry. rewrite <- (map_id (g_sections g)) at 2. apply map_ext. intros s. rewrite <- (moved_back a s) at 2. rewrite FL. reflexivity.
  Qed.

  Lemma same_subs f' g' m fuel g : grib2_read Checked f' (MkSrc t 0 []) = Ret (Ok g') -> grib2_read m fuel (MkSrc d p []) = Ret (Ok g) -> g_sections g = map (moved p) (g_sections g') ->
    g_subs g = g_subs g'.
  Proof.
    intros R' R Es. pose proof rest_len as RL. assert (HLt : zlen t < 2 ^ 63) by lia. assert (Hpt : 0 <= 0 <= zlen t) by lia.
    destruct (facts t f' g' HLt R') as (ms & us & c & W & E & U & X & T & N & Hc).
    destruct (FileP.grib2_read_inv m fuel _ g R HL ltac:(cbn [pos]; lia)) as (_ & ms2 & us2 & W2 & E2 & U2 & X2).
    assert (Ems : ms2 = map (moved_message p) ms) by (apply messages_same; [exact W2|apply messages_moved; exact W|rewrite moved_sections, <- E, <- Es; congruence]).
    assert (Eus : us2 = map (moved_sub 0 p) us).
    { apply (sub_all_det 0 ms2 us2 U2). rewrite Ems. apply (moved_all 0 p ms 0); [|exact U].
      rewrite Forall_forall. intros x Hx. rewrite Forall_forall in W. destruct (W x Hx) as (_ & _ & N8 & _).
      assert (I : In (ms8 x) (g_sections g')).
      { rewrite E. apply in_flat_map. exists x. split; [exact Hx|]. unfold message_sections. right. right. apply in_or_app. right. left. reflexivity. }
      pose proof (positive_offset _ _ _ _ _ T _ I ltac:(lia)). lia. }
    assert (HL' : zlen (a ++ t) < 2 ^ 63) by (rewrite <- whole; exact HL).
    assert (TM : tiles (Checked = Checked) d p p (g_sections g) (c + p) (c + p)).
    { rewrite E in T. pose proof (tiles_moved a t _ _ _ _ _ _ (Z.le_refl 0) (messages_small _ a t ms _ _ HL' W T) T) as TM. rewrite <- whole, front_len, Z.add_0_l, <- E, <- Es in TM. exact TM. }
    assert (ND : NoDup (g_sections g ++ [])) by (rewrite app_nil_r; exact (tiles_nodup _ _ eq_refl _ _ _ _ _ (proj1 Hp) TM)).
    assert (NE : ~ In no_end_section (g_sections g ++ [])) by (rewrite app_nil_r; exact (tiles_no_end _ _ _ _ _ _ (proj1 Hp) TM)).
    apply (forall2_det _ _ (indexes (g_sections g))) with (l := us2).
    - intros u w w' H H'. apply (indexes_det (g_sections g) [] u); try assumption. rewrite app_nil_r. exact H'.
    - exact X2.
    - rewrite Eus, Es. pose proof (sub_end_num 0 ms us W U) as N8. clear - X N8 T. induction X as [|u w us ws H F IH]; [constructor|]. cbn [map]. constructor; [|apply IH; intros x Hx; apply N8; right; exact Hx].
      rewrite <- (renumbered_0 w). apply (indexes_moved [] (g_sections g') 0 p u w (first_num _ _ _ _ _ T) (positive_offset _ _ _ _ _ T)); [apply N8; left; reflexivity|exact H].
  Qed.
End Start.

Section Statements.
  Variables (d : list byte) (p : Z).
  Hypothesis HL : zlen d < 2 ^ 63.
  Hypothesis Hp : 0 <= p <= zlen d.
  Let t := skipn (Z.to_nat p) d.
  Lemma read_there : forall f' g', grib2_read Checked f' (MkSrc t 0 []) = Ret (Ok g') -> forall m fuel, zlen d < Z.of_nat fuel ->
    exists g, grib2_read m fuel (MkSrc d p []) = Ret (Ok g) /\ g_sections g = map (moved p) (g_sections g') /\ g_subs g = g_subs g'.
  Proof.
    intros f' g' R' m fuel Hf. destruct (forth d p HL Hp f' g' R' m fuel Hf) as (g & R & Es). exists g. split; [exact R|]. split; [exact Es|].
    exact (same_subs d p HL Hp f' g' m fuel g R' R Es).
  Qed.
  Lemma read_rest : forall f g, grib2_read Checked f (MkSrc d p []) = Ret (Ok g) -> forall m fuel, zlen t < Z.of_nat fuel ->
    exists g', grib2_read m fuel (MkSrc t 0 []) = Ret (Ok g') /\ g_sections g = map (moved p) (g_sections g') /\ g_subs g = g_subs g'.
  Proof.
    intros f g R m fuel Hf. destruct (back_again d p HL Hp f g R Checked fuel Hf) as (g' & R' & Es). exists g'. split; [apply any_mode; exact R'|]. split; [exact Es|].
    exact (same_subs d p HL Hp fuel g' Checked f g R' R Es).
  Qed.
  Lemma there_section g g' i x : g_sections g = map (moved p) (g_sections g') -> view_section g' i = Some x -> view_section g i = Some (fst x, moved p (snd x)).
  Proof.
    intros Es. unfold view_section, get. rewrite Es. destruct (0 <=? i); [|discriminate]. rewrite nth_error_map.
    destruct (nth_error (g_sections g') (Z.to_nat i)) as [s|]; [|discriminate]. intros Q. injection Q as <-. reflexivity.
  Qed.
  Lemma there_view g g' w v : g_sections g = map (moved p) (g_sections g') -> make_view g' w = Some v -> make_view g w = Some (moved_view 0 0 p (fst (u_8 v), moved p (snd (u_8 v))) v).
  Proof.
    intros Es V. unfold make_view in V. pose proof (fun i x => there_section g g' i x Es) as TS.
    destruct (view_section g' (u_0 w)) as [x0|] eqn:E0; [|discriminate]. destruct (view_section g' (u_1 w)) as [x1|] eqn:E1; [|discriminate].
    destruct (view_section g' (u_3 w)) as [x3|] eqn:E3; [|discriminate]. destruct (view_section g' (u_4 w)) as [x4|] eqn:E4; [|discriminate].
    destruct (view_section g' (u_5 w)) as [x5|] eqn:E5; [|discriminate]. destruct (view_section g' (u_6 w)) as [x6|] eqn:E6; [|discriminate].
    destruct (view_section g' (u_7 w)) as [x7|] eqn:E7; [|discriminate]. destruct (view_section g' (u_8 w)) as [x8|] eqn:E8; [|discriminate].
    injection V as <-. unfold make_view, moved_view.
    cbn [Parser.u_mi Parser.u_si Parser.u_0 Parser.u_1 Parser.u_2 Parser.u_3 Parser.u_4 Parser.u_5 Parser.u_6 Parser.u_7 Parser.u_8].
    rewrite (TS _ _ E0), (TS _ _ E1), (TS _ _ E3), (TS _ _ E4), (TS _ _ E5), (TS _ _ E6), (TS _ _ E7), (TS _ _ E8). rewrite !Z.add_0_r.
    do 2 f_equal. destruct (u_2 w) as [i|]; [|reflexivity]. destruct (view_section g' i) as [x|] eqn:X2.
    - rewrite (TS _ _ X2). cbn [option_map]. rewrite Z.add_0_r. reflexivity.
    - cbn [option_map]. revert X2. unfold view_section, get. rewrite Es. destruct (0 <=? i); [|reflexivity]. rewrite nth_error_map. destruct (nth_error (g_sections g') (Z.to_nat i)); [discriminate|reflexivity].
  Qed.
  Lemma values_there : forall m fuel g m' fuel' g', grib2_read m fuel (MkSrc d p []) = Ret (Ok g) -> grib2_read m' fuel' (MkSrc t 0 []) = Ret (Ok g') ->
    g_sections g = map (moved p) (g_sections g') -> g_subs g = g_subs g' -> forall w v, In w (g_subs g') -> make_view g' w = Some v ->
    let v' := moved_view 0 0 p (fst (u_8 v), moved p (snd (u_8 v))) v in
    make_view g w = Some v' /\ forall mm, decoded_alone mm d v' = decoded_alone mm t v.
  Proof.
    intros m fuel g m' fuel' g' R R' Es Eu w v W V v'. pose proof (there_view g g' w v Es V) as V'. fold v' in V'. split; [exact V'|]. intros mm.
    pose proof (rest_len d p Hp) as RL. fold t in RL. assert (HLt : zlen t < 2 ^ 63) by lia. assert (Hpt : 0 <= 0 <= zlen t) by lia.
    assert (W' : In w (g_subs g)) by (rewrite Eu; exact W).
    assert (Q : forall x, In x (g_sections g') -> same_section t x d (moved p x)).
    { intros x Hx. split; [reflexivity|]. destruct (LocalD.file_bounds m' fuel' _ g' R' HLt Hpt x Hx) as (B & _). cbn [moved s_offset s_size].
      rewrite (whole d p). fold t. rewrite <- (front_len d p Hp) at 2. apply octets_moved. lia. }
    pose proof (ViewX.file_views m' fuel' _ g' R' HLt Hpt w v W V) as (_ & _ & (I3 & _) & _ & (I5 & _) & (I6 & _) & (I7 & _)).
    apply (LocalD.decode_twins m' m fuel' fuel (MkSrc t 0 []) (MkSrc d p []) g' g R' HLt Hpt R HL Hp w v w v' W V W' V');
      unfold v'; cbn [data moved_view Parser.u_3 Parser.u_5 Parser.u_6 Parser.u_7 snd]; apply Q; assumption.
  Qed.
  Lemma values_from_there : forall f' g', grib2_read Checked f' (MkSrc t 0 []) = Ret (Ok g') -> forall m fuel g, zlen d < Z.of_nat fuel -> grib2_read m fuel (MkSrc d p []) = Ret (Ok g) ->
    forall w v, In w (g_subs g') -> make_view g' w = Some v ->
    let v' := moved_view 0 0 p (fst (u_8 v), moved p (snd (u_8 v))) v in
    make_view g w = Some v' /\ forall mm, decoded_alone mm d v' = decoded_alone mm t v.
  Proof.
    intros f' g' R' m fuel g Hf R. destruct (read_there f' g' R' m fuel Hf) as (g0 & R0 & Es & Eu). assert (g0 = g) by congruence. subst g0.
    exact (values_there m fuel g Checked f' g' R R' Es Eu).
  Qed.
End Statements.
