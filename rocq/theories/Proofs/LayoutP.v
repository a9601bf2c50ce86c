(** The section table of a laid-out file. *)
From Coq Require Import Lia ZifyBool ZifyNat.
From Verif Require Import Model.Base Model.Helpers Model.Errors Model.Sections Model.Reader Spec.Bits Spec.Layout.
From Verif Require Import Spec.ReaderS Proofs.BaseLemmas Proofs.HelpersP Proofs.ReaderP Proofs.SectionStreamP Proofs.TableP.

Lemma octets_mid : forall a b c, octets (a ++ b ++ c) (zlen a) (zlen b) = b.
Proof.
  intros a b c. unfold octets, zlen. rewrite !Nat2Z.id. rewrite skipn_app, skipn_all, Nat.sub_diag. cbn [app skipn].
  rewrite firstn_app, firstn_all, Nat.sub_diag. cbn [firstn]. apply app_nil_r.
Qed.

Lemma octets_at : forall d a b c p n, d = a ++ b ++ c -> p = zlen a -> n = zlen b -> octets d p n = b.
Proof. intros; subst. apply octets_mid. Qed.

Lemma zlen_section : forall r, zlen (section_bytes r) = zlen (r_payload r) + 5.
Proof. intros r. unfold section_bytes. rewrite zlen_app, zlen_cons. unfold zlen. rewrite be_bytes_length. lia. Qed.

Lemma zlen_be_bytes : forall n v, zlen (be_bytes n v) = Z.of_nat n.
Proof. intros. unfold zlen. now rewrite be_bytes_length. Qed.

Lemma zlen_message : forall m, length (m_reserved m) = 2%nat -> zlen (message_bytes m) = total_length m.
Proof.
  intros m H. unfold message_bytes, total_length. rewrite !zlen_app, zlen_be_bytes.
  replace (zlen (m_reserved m)) with 2 by (unfold zlen; lia). change (zlen [x47; x52; x49; x42]) with 4.
  change (zlen [zb (m_discipline m); x02]) with 2. change (zlen [x37; x37; x37; x37]) with 4. lia.
Qed.

Lemma body_at_raw : forall d a r c, d = a ++ section_bytes r ++ c -> raw_ok r ->
  body_at d (zlen a) (zlen (r_payload r) + 5) (r_num r) (raw_body r).
Proof.
  intros d a [num p] c Hd (Hn & Hm & Hl). cbn [r_num r_payload] in *. unfold body_at, raw_body. cbn [r_num r_payload].
  assert (E : d = (a ++ be_bytes 4 (zlen p + 5) ++ [zb num]) ++ p ++ c).
  { rewrite Hd. unfold section_bytes. cbn [r_num r_payload]. rewrite <- !app_assoc. reflexivity. }
  assert (Hz : zlen (a ++ be_bytes 4 (zlen p + 5) ++ [zb num]) = zlen a + 5).
  { rewrite !zlen_app, zlen_be_bytes. change (zlen [zb num]) with 1. lia. }
  assert (Hp : octets d (zlen a + 5) (zlen p) = p) by (eapply octets_at; [exact E|lia|reflexivity]).
  replace (zlen p + 5 - 5) with (zlen p) by lia. rewrite Hp.
  split. { intros _. rewrite E, zlen_app, Hz, zlen_app. pose proof (zlen_nonneg _ c). lia. }
  assert (C : num = 1 \/ num = 2 \/ num = 3 \/ num = 4 \/ num = 5 \/ num = 6 \/ num = 7) by lia.
  destruct C as [->|[->|[->|[->|[->|[->| ->]]]]]]; cbn [min_payload] in Hm; intuition (auto; try lia).
  do 5 right. left. split; [reflexivity|]. split; [|lia]. f_equal. f_equal.
  destruct p as [|x p]; [rewrite zlen_nil in Hm; lia|]. cbn [firstn]. symmetry.
  eapply octets_at with (c := p ++ c); [rewrite E; reflexivity|lia|reflexivity].
Qed.

Lemma sections_tiles : forall P d rs a c endp, d = a ++ flat_map section_bytes rs ++ c -> Forall raw_ok rs ->
  endp = zlen a + zlen (flat_map section_bytes rs) + 4 ->
  forall l e' c', tiles P d endp (zlen a + zlen (flat_map section_bytes rs)) l e' c' ->
  tiles P d endp (zlen a) (sections_table (zlen a) rs ++ l) e' c'.
Proof.
  induction rs as [|r rs IH]; intros a c endp Hd Hok He l e' c' HT.
  - cbn [flat_map sections_table app] in *. rewrite zlen_nil, Z.add_0_r in HT. exact HT.
  - inversion Hok as [|? ? Hr Hrs]; subst. cbn [flat_map] in *.
    set (D := a ++ (section_bytes r ++ flat_map section_bytes rs) ++ c) in *.
    assert (ED : D = a ++ section_bytes r ++ (flat_map section_bytes rs ++ c)) by (unfold D; now rewrite <- !app_assoc).
    assert (ED2 : D = (a ++ section_bytes r) ++ flat_map section_bytes rs ++ c) by (unfold D; now rewrite <- !app_assoc).
    pose proof (zlen_section r) as Hz. rewrite !zlen_app, Hz in *.
    pose proof (zlen_nonneg _ (r_payload r)) as N1. pose proof (zlen_nonneg _ (flat_map section_bytes rs)) as N2.
    cbn [sections_table app].
    assert (S4 : octets D (zlen a) 4 = be_bytes 4 (zlen (r_payload r) + 5)).
    { eapply octets_at; [|reflexivity|now rewrite zlen_be_bytes]. rewrite ED. unfold section_bytes. rewrite <- app_assoc. reflexivity. }
    assert (S1 : octets D (zlen a + 4) 1 = [zb (r_num r)]).
    { eapply octets_at with (a := a ++ be_bytes 4 (zlen (r_payload r) + 5)); [|rewrite zlen_app, zlen_be_bytes; reflexivity|reflexivity].
      rewrite ED. unfold section_bytes. rewrite <- !app_assoc. reflexivity. }
    destruct Hr as (Hn & Hm & Hl).
    apply tiles_n.
    + lia.
    + lia.
    + rewrite ED, !zlen_app, Hz. pose proof (zlen_nonneg _ c). lia.
    + rewrite S4, be_be_bytes; lia.
    + rewrite S1. rewrite be_cons, be_nil, zlen_nil, bz_zb_small by lia. lia.
    + eapply body_at_raw; [exact ED|]. repeat split; try lia.
    + lia.
    + replace (zlen a + (zlen (r_payload r) + 5)) with (zlen (a ++ section_bytes r)) by (rewrite zlen_app, Hz; lia).
      eapply IH; [exact ED2|exact Hrs|rewrite zlen_app, Hz; lia|].
      rewrite zlen_app, Hz. replace (zlen a + (zlen (r_payload r) + 5) + zlen (flat_map section_bytes rs)) with
        (zlen a + (zlen (r_payload r) + 5 + zlen (flat_map section_bytes rs))) by lia. exact HT.
Qed.

(** *** the magic *)
Lemma octets_take : forall d p n q c, octets d p n = q ++ c -> octets d p (zlen q) = q.
Proof.
  intros d p n q c H. unfold octets, zlen in *. rewrite Nat2Z.id.
  assert (L : (length q <= Z.to_nat n)%nat).
  { pose proof (firstn_le_length (Z.to_nat n) (skipn (Z.to_nat p) d)). rewrite H, app_length in H0. lia. }
  rewrite <- (Nat.min_l (length q) (Z.to_nat n) L). rewrite <- firstn_firstn, H, firstn_app, firstn_all, Nat.sub_diag.
  cbn [firstn]. apply app_nil_r.
Qed.

Lemma octets_split_at : forall d p n l, octets d p n = l -> zlen l = n -> 0 <= p -> 0 <= n ->
  exists a c, d = a ++ l ++ c /\ (l <> [] -> zlen a = p).
Proof.
  intros d p n l H Hl Hp Hn. exists (firstn (Z.to_nat p) d), (skipn (Z.to_nat n) (skipn (Z.to_nat p) d)).
  split. { rewrite <- H. unfold octets. now rewrite !firstn_skipn. }
  intros Hne. unfold zlen in *. rewrite firstn_length. destruct (Nat.le_gt_cases (Z.to_nat p) (length d)); [lia|].
  exfalso. apply Hne. rewrite <- H. unfold octets. rewrite skipn_all2 by lia. now destruct (Z.to_nat n).
Qed.

(** Two decompositions of the same list at ordered places. *)
Lemma app_cut : forall (a b a' b' : list byte), a ++ b = a' ++ b' -> zlen a <= zlen a' -> exists t, a' = a ++ t /\ b = t ++ b'.
Proof.
  induction a as [|x a IH]; intros b a' b' H L.
  - exists a'. auto.
  - destruct a' as [|y a']; [rewrite zlen_cons, zlen_nil in L; pose proof (zlen_nonneg _ a); lia|].
    cbn [app] in H. injection H as -> H. rewrite !zlen_cons in L. destruct (IH _ _ _ H ltac:(lia)) as (t & -> & ->).
    exists t. auto.
Qed.

Lemma first_magic_junk : forall d a j rest, d = a ++ j ++ [x47; x52; x49; x42] ++ rest -> 12 <= zlen rest -> no_magic j ->
  first_magic d (zlen a) (zlen a + zlen j).
Proof.
  intros d a j rest Hd Hr Hj. pose proof (zlen_nonneg _ a). pose proof (zlen_nonneg _ j).
  split; [lia|]. split.
  - split; [lia|]. split.
    + rewrite Hd, !zlen_app. change (zlen [x47; x52; x49; x42]) with 4. lia.
    + eapply octets_at with (a := a ++ j); [rewrite <- app_assoc; exact Hd|rewrite zlen_app; lia|reflexivity].
  - intros p Hp (M1 & M2 & M3).
    destruct (octets_split_at d p 4 _ M3 eq_refl M1 ltac:(lia)) as (u & v & E & Hu). specialize (Hu ltac:(discriminate)).
    rewrite Hd in E. destruct (app_cut a _ u _ E ltac:(lia)) as (t & -> & E2). rewrite zlen_app in Hu.
    assert (Lt : zlen t < zlen j) by lia.
    symmetry in E2. destruct (app_cut t _ j _ E2 ltac:(lia)) as (w & -> & E3). rewrite zlen_app in Lt.
    destruct w as [|w1 w]; [rewrite zlen_nil in Lt; lia|].
    destruct w as [|w2 w]; [cbn [app] in E3; congruence|].
    destruct w as [|w3 w]; [cbn [app] in E3; congruence|].
    destruct w as [|w4 w]; [cbn [app] in E3; congruence|].
    cbn [app] in E3. injection E3 as <- <- <- <- _. apply (Hj t w). reflexivity.
Qed.

Lemma no_magic_tail : forall a t j, no_magic t -> zlen a <= j -> ~ magic_at (a ++ t) j.
Proof.
  intros a t j Ht Hj (M1 & M2 & M3).
  destruct (octets_split_at _ j 4 _ M3 eq_refl M1 ltac:(lia)) as (u & v & E & Hu). specialize (Hu ltac:(discriminate)).
  destruct (app_cut a _ u _ E ltac:(lia)) as (w & -> & E2). exact (Ht w v E2).
Qed.

Lemma message_tiles : forall P d a j m c, d = a ++ j ++ message_bytes m ++ c -> message_ok m -> no_magic j -> zlen d < 2 ^ 63 ->
  forall l e' c', tiles P d (zlen a + zlen j + total_length m) (zlen a + zlen j + total_length m) l e' c' ->
  tiles P d (zlen a) (zlen a) (message_table (zlen a + zlen j) m ++ l) e' c'.
Proof.
  intros P d a j m c Hd (Hres & Hdis & Hok) Hj Hlen l e' c' HT.
  pose proof (zlen_message m Hres) as Hm. unfold total_length in Hm.
  pose proof (zlen_nonneg _ a) as Na. pose proof (zlen_nonneg _ j) as Nj. pose proof (zlen_nonneg _ (flat_map section_bytes (m_sections m))) as Ns.
  pose proof (zlen_nonneg _ c) as Nc.
  assert (Hd1 : zlen d = zlen a + zlen j + total_length m + zlen c) by (rewrite Hd, !zlen_app, (zlen_message m Hres); lia).
  unfold message_table. cbn [app].
  assert (Zr : zlen (m_reserved m) = 2) by (unfold zlen; lia).
  set (SS := flat_map section_bytes (m_sections m)) in *.
  set (M4 := [x47; x52; x49; x42]) in *. set (E4 := [x37; x37; x37; x37]).
  assert (Z4 : zlen M4 = 4) by reflexivity.
  assert (Ed : d = (a ++ j) ++ M4 ++ m_reserved m ++ [zb (m_discipline m)] ++ [x02] ++ be_bytes 8 (total_length m) ++ SS ++ E4 ++ c).
  { rewrite Hd. unfold message_bytes. fold SS M4 E4. rewrite <- !app_assoc. reflexivity. }
  assert (O7 : octets d (zlen a + zlen j + 7) 1 = [x02]).
  { eapply octets_at with (a := (a ++ j) ++ M4 ++ m_reserved m ++ [zb (m_discipline m)]); [rewrite Ed, <- !app_assoc; reflexivity| |reflexivity].
    rewrite !zlen_app, Zr, Z4. change (zlen [zb (m_discipline m)]) with 1. lia. }
  assert (O6 : octets d (zlen a + zlen j + 6) 1 = [zb (m_discipline m)]).
  { eapply octets_at with (a := (a ++ j) ++ M4 ++ m_reserved m); [rewrite Ed, <- !app_assoc; reflexivity| |reflexivity].
    rewrite !zlen_app, Zr, Z4. lia. }
  assert (O8 : octets d (zlen a + zlen j + 8) 8 = be_bytes 8 (total_length m)).
  { eapply octets_at with (a := (a ++ j) ++ M4 ++ m_reserved m ++ [zb (m_discipline m)] ++ [x02]); [rewrite Ed, <- !app_assoc; reflexivity| |now rewrite zlen_be_bytes].
    rewrite !zlen_app, Zr, Z4. change (zlen [zb (m_discipline m)]) with 1. change (zlen [x02]) with 1. lia. }
  unfold total_length in Hd1. fold SS in Hd1, Hm.
  apply tiles_0.
  - eapply first_magic_junk with (rest := m_reserved m ++ [zb (m_discipline m)] ++ [x02] ++ be_bytes 8 (total_length m) ++ SS ++ E4 ++ c); [rewrite Ed, <- !app_assoc; reflexivity| |exact Hj].
    rewrite !zlen_app, Zr, zlen_be_bytes. change (zlen [zb (m_discipline m)]) with 1. change (zlen [x02]) with 1. pose proof (zlen_nonneg _ E4). lia.
  - rewrite O7. reflexivity.
  - rewrite O6. rewrite be_cons, be_nil, zlen_nil, bz_zb_small by lia. lia.
  - rewrite O8, be_be_bytes; [reflexivity|]. unfold total_length. fold SS. lia.
  - unfold total_length. fold SS. lia.
  - set (A := (a ++ j) ++ M4 ++ m_reserved m ++ [zb (m_discipline m)] ++ [x02] ++ be_bytes 8 (total_length m)).
    assert (ZA : zlen A = zlen a + zlen j + 16).
    { unfold A. rewrite !zlen_app, Zr, Z4, zlen_be_bytes. change (zlen [zb (m_discipline m)]) with 1. change (zlen [x02]) with 1. lia. }
    rewrite <- ZA. rewrite <- app_assoc.
    eapply sections_tiles with (c := E4 ++ c); [rewrite Ed; unfold A; rewrite <- !app_assoc; reflexivity|exact Hok| |].
    + rewrite ZA. unfold total_length. fold SS. lia.
    + fold SS. cbn [app].
      replace (zlen a + zlen j + total_length m) with (zlen A + zlen SS + 4) in * by (rewrite ZA; unfold total_length; fold SS; lia).
      replace (zlen A + zlen SS + 4 - 4) with (zlen A + zlen SS) by lia.
      apply tiles_8; [lia| |exact HT].
      eapply octets_at with (a := A ++ SS); [rewrite Ed; unfold A; rewrite <- !app_assoc; reflexivity|rewrite zlen_app; lia|reflexivity].
Qed.

Lemma file_tiles : forall P f tail d a, d = a ++ file_bytes f tail -> Forall (fun p => no_magic (fst p) /\ message_ok (snd p)) f ->
  zlen d < 2 ^ 63 -> forall e, e = zlen d - zlen tail -> tiles P d (zlen a) (zlen a) (file_table (zlen a) f) e e.
Proof.
  induction f as [|[j m] f IH]; intros tail d a Hd Hok Hlen e He.
  - unfold file_bytes in Hd. cbn [flat_map app] in Hd. cbn [file_table]. subst d. rewrite zlen_app in He.
    replace e with (zlen a) by lia. constructor.
  - inversion Hok as [|? ? [Hj Hm] Hf]; subst. cbn [fst snd] in *. cbn [file_table].
    set (D := a ++ file_bytes ((j, m) :: f) tail) in *.
    assert (ED : D = a ++ j ++ message_bytes m ++ file_bytes f tail).
    { unfold D, file_bytes. cbn [flat_map fst snd]. rewrite <- !app_assoc. reflexivity. }
    assert (ED2 : D = (a ++ j ++ message_bytes m) ++ file_bytes f tail) by (rewrite ED, <- !app_assoc; reflexivity).
    eapply message_tiles; [exact ED|exact Hm|exact Hj|exact Hlen|].
    assert (Hz : zlen (a ++ j ++ message_bytes m) = zlen a + zlen j + total_length m).
    { rewrite !zlen_app, zlen_message by apply Hm. lia. }
    rewrite <- Hz. eapply IH; [exact ED2|exact Hf|exact Hlen|reflexivity].
Qed.

Lemma file_full_table : forall P f tail, Forall (fun p => no_magic (fst p) /\ message_ok (snd p)) f -> no_magic tail ->
  zlen (file_bytes f tail) < 2 ^ 63 -> full_table P (file_bytes f tail) 0 (file_table 0 f).
Proof.
  intros P f tail Hf Ht Hlen. exists (zlen (file_bytes f tail) - zlen tail). split.
  - exact (file_tiles P f tail (file_bytes f tail) [] eq_refl Hf Hlen _ eq_refl).
  - intros j Hj. unfold file_bytes in *. apply no_magic_tail; [exact Ht|]. rewrite zlen_app in Hj. lia.
Qed.

Lemma no_magic_short : forall l, (length l < 4)%nat -> no_magic l.
Proof. intros l H a b E. rewrite E, !app_length in H. cbn [length] in H. lia. Qed.
