(** C83: decoding where [usize] has 32 bits. *)
From Coq Require Import Lia ZifyBool ZifyNat.
From Verif Require Import Model.Base Model.Helpers Model.Errors Model.F32 Model.Stream Model.Diff Model.Complex Model.Simple Model.RunLength Model.Bitmap Model.Decoder Model.WordDecode.
From Verif Require Import Spec.Bits Spec.ReaderS Spec.RunLengthS Spec.WordS Proofs.BaseLemmas Proofs.BitsP Proofs.NearP Proofs.WordX Proofs.ReaderP Proofs.DiffP Proofs.RunLengthP.
Ltac Zify.zify_post_hook ::= Z.div_mod_to_equations.

(** ** Fields of bits *)
Definition nb_ok (s : nbit_state) : Prop := zlen (nb_data s) < 2 ^ 28 /\ 0 <= nb_size s < 2 ^ 32 - 8 /\ 0 <= nb_pos s <= zlen (nb_data s) /\ 0 <= nb_offset s < 8.
Lemma nbit_same m s : nb_ok s -> wnbit_next U32 m s = nbit_next m s.
Proof.
  destruct s as [d size p o]. intros (A & B & C & D). cbn [nb_data nb_size nb_pos nb_offset] in *. cbn [wnbit_next nbit_next].
  rewrite arith32 by lia. cbn [bind]. rewrite arith32 by lia. cbn [bind].
  destruct ((zlen d <=? p) || _ || _); [reflexivity|]. destruct (index d p) as [b| |]; cbn [bind]; [|reflexivity|reflexivity].
  destruct (shl m U8 (bz b) o) as [v| |]; cbn [bind]; [|reflexivity|reflexivity]. destruct (shr m U8 v o) as [v'| |]; cbn [bind]; [|reflexivity|reflexivity].
  f_equal. destruct (_ =? p); [rewrite arith32 by lia; reflexivity|]. rewrite arith32 by lia. cbn [bind].
  destruct (nbit_accumulate _ _ _ _ _) as [w| |]; cbn [bind]; [|reflexivity|reflexivity]. destruct (0 <? _); [|reflexivity].
  destruct (index d _) as [lb| |]; cbn [bind]; [|reflexivity|reflexivity]. rewrite arith32 by lia. reflexivity.
Qed.
Lemma nbit_keeps m s o s' : nb_ok s -> nbit_next m s = Ret (o, s') -> nb_ok s'.
Proof.
  destruct s as [d size p of]. intros (A & B & C & D) H. cbn [nb_data nb_size nb_pos nb_offset] in *. cbn [nbit_next] in H.
  destruct ((zlen d <=? p) || (zlen d <? p + (of + size) / 8) || _) eqn:Eg; [injection H as <- <-; repeat split; cbn [nb_data nb_size nb_pos nb_offset]; lia|].
  destruct (index d p) as [b| |]; cbn [bind] in H; try discriminate. destruct (shl m U8 (bz b) of) as [v| |]; cbn [bind] in H; try discriminate.
  destruct (shr m U8 v of) as [v'| |]; cbn [bind] in H; try discriminate. destruct (if _ =? p then _ else _) as [w| |]; cbn [bind] in H; try discriminate.
  injection H as <- <-. repeat split; cbn [nb_data nb_size nb_pos nb_offset]; lia.
Qed.
Lemma near_nbit ok m s : nb_ok s -> near ok (fun _ => True) (nbit_iter m s) (wnbit_iter U32 m s).
Proof.
  intros H. exists nbit_state, nb_ok, s, (nbit_next m), (wnbit_next U32 m). split; [reflexivity|]. split; [reflexivity|]. split; [exact H|].
  intros x Hx. rewrite nbit_same by exact Hx. destruct (nbit_next m x) as [[o x']| |] eqn:E; auto. split; [reflexivity|]. split; [eapply nbit_keeps; eassumption|auto].
Qed.
Lemma new_ok d n off : zlen d < 2 ^ 28 -> 0 <= n < 2 ^ 32 - 8 -> 0 <= off < 8 -> nb_ok (nbit_with_offset (nbit_new d n) off).
Proof. intros A B C. pose proof (zlen_nonneg _ d). repeat split; cbn; lia. Qed.
Lemma near_stream ok m d n k : zlen d < 2 ^ 28 -> 0 <= n < 256 -> near ok (fun _ => True) (bit_stream m d n k) (wbit_stream U32 m d n k).
Proof.
  intros A B. unfold bit_stream, wbit_stream. destruct (n =? 0); [apply near_refl|]. apply near_nbit. exact (new_ok d n 0 A ltac:(lia) ltac:(lia)).
Qed.

(** ** Groups *)
Lemma packed_same m mvm zmin data pos off ref width n : zlen data < 2 ^ 28 -> 0 <= pos <= zlen data -> 0 <= off < 8 -> 0 < width < 2 ^ 32 -> 0 <= n < 2 ^ 32 ->
  match group_packed m mvm zmin data pos off ref width n with
  | Ret (l, p, o) => wgroup_packed U32 m mvm zmin data pos off ref width n = Ret (l, p, o) /\ pos <= p <= zlen data /\ 0 <= o < 8
  | x => m = Checked -> wgroup_packed U32 m mvm zmin data pos off ref width n = x
  end.
Proof.
  intros HZ Hp Ho Hw Hn. unfold group_packed, wgroup_packed. destruct (max_of I32 <? ref); [auto|]. cbv zeta.
  assert (P : 0 <= width * n) by nia.
  destruct (Z.ltb_spec (off + width * n) (2 ^ 32)) as [Lt|Ge].
  - rewrite arith32 by lia. cbn [bind]. rewrite arith32 by lia. cbn [bind]. set (w := width * n) in *. rewrite arith32 by lia. cbn [bind].
    destruct (shl m U32 1 width) as [one| |]; cbn [bind]; auto. destruct (arith m U32 (one - 1)) as [m1| |]; cbn [bind]; auto. destruct (arith m U32 (m1 - 1)) as [m2| |]; cbn [bind]; auto.
    rewrite arith32 by (destruct (0 <? (off + w) mod 8); lia). cbn [bind].
    destruct (slice data pos _) as [d| |] eqn:Es; cbn [bind]; auto. apply slice_inv in Es. destruct Es as (A & B & Zd & _).
    assert (NE : near (m = Checked) (fun _ => True)
                   (imap (group_value m mvm zmin ref m1 m2) (itake n (nbit_iter m (nbit_with_offset (nbit_new d width) off))))
                   (imap (group_value m mvm zmin ref m1 m2) (itake n (wnbit_iter U32 m (nbit_with_offset (nbit_new d width) off))))).
    { apply near_imap with (P := fun _ => True); [|auto]. destruct (Z.eqb_spec n 0) as [->|Nz].
      - unfold itake. cbn [istep icur ist]. exists (Z * nbit_state)%type, (fun x => fst x = 0), (0, nbit_with_offset (nbit_new d width) off). eexists _, _.
        split; [reflexivity|]. split; [reflexivity|]. split; [reflexivity|]. intros [k x] Hk. cbn [fst] in Hk. subst k. cbn. auto.
      - apply near_itake, near_nbit, new_ok; [destruct (0 <? (off + w) mod 8); lia| |lia]. assert (width <= w) by nia. destruct (0 <? (off + w) mod 8); lia. }
    apply (near_collect _ _ _ (S (Z.to_nat n))) in NE. destruct (collect _ _) as [vs| |]; cbn [bind].
    + rewrite NE. cbn [bind]. split; [reflexivity|]. destruct (0 <? (off + w) mod 8); lia.
    + intros K. rewrite (NE K). reflexivity.
    + intros K. rewrite (NE K). reflexivity.
  - assert (SP : forall d, slice data pos (pos + (off + width * n) / 8 + d) = Panic \/ d < 0).
    { intros d. destruct (Z.ltb_spec d 0); [auto|]. left. apply slice_panic. set (w := width * n) in *. lia. }
    assert (F : match (let! one := shl m U32 1 width in let! missing1 := arith m U32 (one - 1) in let! missing2 := arith m U32 (missing1 - 1) in
                let! d := slice data pos (pos + (off + width * n) / 8 + (if 0 <? (off + width * n) mod 8 then 1 else 0)) in
                let! vals := collect (S (Z.to_nat n)) (imap (group_value m mvm zmin ref missing1 missing2) (itake n (nbit_iter m (nbit_with_offset (nbit_new d width) off)))) in
                Ret (vals, pos + (off + width * n) / 8, (off + width * n) mod 8)) with Panic => True | _ => False end).
    { destruct (shl m U32 1 width) as [one| |] eqn:E1; cbn [bind]; [|exact I|unfold shl, shift_amount in E1; destruct (_ && _) in E1; [discriminate|destruct m; discriminate]].
      destruct (arith m U32 (one - 1)) as [m1| |] eqn:E2; cbn [bind]; [|exact I|unfold arith in E2; destruct (in_range _ _) in E2; [discriminate|destruct m; discriminate]].
      destruct (arith m U32 (m1 - 1)) as [m2| |] eqn:E3; cbn [bind]; [|exact I|unfold arith in E3; destruct (in_range _ _) in E3; [discriminate|destruct m; discriminate]].
      destruct (SP (if 0 <? (off + width * n) mod 8 then 1 else 0)) as [->|Neg]; [exact I|destruct (0 <? _); lia]. }
    destruct (let! one := _ in _) as [[[l p] o]| |]; [contradiction| |contradiction]. intros ->.
    unfold arith at 1. destruct (in_range U32 (width * n)) eqn:Er; [|reflexivity]. cbn [bind]. unfold arith at 1. 
    replace (in_range U32 (off + width * n)) with false; [reflexivity|]. unfold in_range. change (max_of U32) with (2 ^ 32 - 1). change (min_of U32) with 0. lia.
Qed.

Definition u32 (z : Z) : Prop := 0 <= z < 2 ^ 32.
Lemma arith_u32 m z r : arith m U32 z = Ret r -> u32 r.
Proof.
  unfold arith, u32. destruct (in_range U32 z) eqn:E.
  - intros [= <-]. unfold in_range in E. change (max_of U32) with (2 ^ 32 - 1) in E. change (min_of U32) with 0 in E. lia.
  - destruct m; [discriminate|]. intros [= <-]. unfold wrap. cbn [is_signed andb]. change (bits_of U32) with 32. lia.
Qed.
Section Flat.
  Variables R W L : Type.
  Variables (rn rn' : R -> outcome (option Z * R)) (wn wn' : W -> outcome (option Z * W)) (ln ln' : L -> outcome (option Z * L)).
  Variables (m : mode) (mvm nbit zmin : Z) (data : list byte).
  Variables (Ir : R -> Prop) (Iw : W -> Prop) (Il : L -> Prop).
  Hypothesis Hr : close (m = Checked) (fun _ => True) Ir rn rn'.
  Hypothesis Hw : close (m = Checked) u32 Iw wn wn'.
  Hypothesis Hl : close (m = Checked) u32 Il ln ln'.
  Hypothesis HZ : zlen data < 2 ^ 28.
  Definition gs_ok (s : groups_state R W L) : Prop :=
    Ir (gs_ref _ _ _ s) /\ Iw (gs_width _ _ _ s) /\ Il (gs_len _ _ _ s) /\ 0 <= gs_pos _ _ _ s <= zlen data /\ 0 <= gs_off _ _ _ s < 8.
  Lemma groups_same s : gs_ok s ->
    match groups_next R W L rn wn ln m mvm nbit zmin data s with
    | Ret (o, s') => wgroups_next R W L rn' wn' ln' U32 m mvm nbit zmin data s = Ret (o, s') /\ gs_ok s'
    | x => m = Checked -> wgroups_next R W L rn' wn' ln' U32 m mvm nbit zmin data s = x
    end.
  Proof.
    destruct s as [r w l p o]. intros (A & B & C & D & E). cbn [gs_ref gs_width gs_len gs_pos gs_off] in *. unfold groups_next, wgroups_next.
    specialize (Hr r A). specialize (Hw w B). specialize (Hl l C).
    destruct (rn r) as [[oref r']| |]; cbn [bind]; [|intros K; rewrite (Hr K); reflexivity|intros K; rewrite (Hr K); reflexivity]. destruct Hr as (-> & Ar & _). cbn [bind].
    destruct (wn w) as [[ow w']| |]; cbn [bind]; [|intros K; rewrite (Hw K); reflexivity|intros K; rewrite (Hw K); reflexivity]. destruct Hw as (-> & Aw & Pw). cbn [bind].
    destruct (ln l) as [[ol l']| |]; cbn [bind]; [|intros K; rewrite (Hl K); reflexivity|intros K; rewrite (Hl K); reflexivity]. destruct Hl as (-> & Al & Pl). cbn [bind].
    assert (N : forall q, gs_ok (GS r' w' l' p o) /\ q = q :> nat) by (intros; repeat split; cbn [gs_ref gs_width gs_len gs_pos gs_off]; auto; lia). specialize (N O). destruct N as (N & _).
    destruct oref as [ref|]; [|auto]. destruct ow as [width|]; [|auto]. destruct ol as [n|]; [|auto].
    specialize (Pw _ eq_refl). specialize (Pl _ eq_refl). unfold u32 in Pw, Pl. destruct (Z.eqb_spec width 0) as [->|Nz].
    - destruct (group_constant _ _ _ _ _ _) as [vs| |]; cbn [bind]; auto.
    - pose proof (packed_same m mvm zmin data p o ref width n HZ D E ltac:(lia) Pl) as X. destruct (group_packed _ _ _ _ _ _ _ _ _) as [[[vs p'] o']| |]; cbn [bind].
      + destruct X as (-> & X1 & X2). cbn [bind]. split; [reflexivity|]. repeat split; cbn [gs_ref gs_width gs_len gs_pos gs_off]; auto; lia.
      + intros K. rewrite (X K). reflexivity.
      + intros K. rewrite (X K). reflexivity.
  Qed.
  Definition fs_ok (s : flat_state R W L) : Prop := match snd s with Some g => gs_ok g | None => True end.
  Lemma flat_same : forall fuel, close (m = Checked) (fun _ => True) fs_ok (flat_next R W L rn wn ln m mvm nbit zmin data fuel) (wflat_next R W L rn' wn' ln' U32 m mvm nbit zmin data fuel).
  Proof.
    induction fuel as [|fuel IH]; intros [[|v front] outer] Hs.
    - destruct outer as [g|]; cbn; auto.
    - cbn. auto.
    - destruct outer as [g|]; [|cbn; auto]. cbn [flat_next wflat_next]. pose proof (groups_same g Hs) as X.
      destruct (groups_next _ _ _ _ _ _ _ _ _ _ _ g) as [[o g']| |]; cbn [bind]; [|intros K; rewrite (X K); reflexivity|intros K; rewrite (X K); reflexivity].
      destruct X as (-> & Hg). cbn [bind]. destruct o as [vs|]; [|cbn; repeat split; auto; discriminate]. exact (IH (vs, Some g') Hg).
    - cbn. auto.
  Qed.
End Flat.

Lemma octet_length m nbit n l : get_octet_length m nbit n = Ret l -> 0 <= l < 2 ^ 29.
Proof.
  unfold get_octet_length. destruct (arith m U32 (n * nbit)) as [a| |] eqn:Ea; cbn [bind]; try discriminate. destruct (arith m U32 (a + 7)) as [b| |] eqn:Eb; cbn [bind]; try discriminate.
  apply arith_u32 in Eb. unfold u32 in Eb. unfold shr, shift_amount. change ((0 <=? 3) && (3 <? bits_of U32)) with true. cbn [bind]. intros [= <-]. rewrite Z.shiftr_div_pow2 by lia. change (2 ^ 3) with 8. lia.
Qed.
Lemma complex_same m p sect7 off nbit zmin : zlen sect7 < 2 ^ 28 -> 0 <= off <= zlen sect7 -> 0 <= nbit < 256 -> 0 <= cp_width_nbit p < 256 -> 0 <= cp_len_nbit p < 256 -> u32 (cp_len_last p) ->
  match decode_complex_packing m p sect7 off nbit zmin with
  | Ret it => exists it', wdecode_complex_packing U32 m p sect7 off nbit zmin = Ret it' /\ near (m = Checked) (fun _ => True) it it'
  | x => wdecode_complex_packing U32 m p sect7 off nbit zmin = x
  end.
Proof.
  intros HZ Ho Hn Hw Hl Hlast. unfold decode_complex_packing, wdecode_complex_packing.
  destruct (get_octet_length m nbit _) as [l1| |] eqn:E1; cbn [bind]; auto. apply octet_length in E1. rewrite (arith32 m (off + l1)) by lia. cbn [bind].
  destruct (get_octet_length m (cp_width_nbit p) _) as [l2| |] eqn:E2; cbn [bind]; auto. apply octet_length in E2. rewrite (arith32 m (off + l1 + l2)) by lia. cbn [bind].
  destruct (get_octet_length m (cp_len_nbit p) _) as [l3| |] eqn:E3; cbn [bind]; auto. apply octet_length in E3. rewrite (arith32 m (off + l1 + l2 + l3)) by lia. cbn [bind].
  destruct (slice sect7 off _) as [d1| |] eqn:S1; cbn [bind]; auto. apply slice_inv in S1.
  destruct (slice sect7 (off + l1) _) as [d2| |] eqn:S2; cbn [bind]; auto. apply slice_inv in S2.
  destruct (slice sect7 (off + l1 + l2) _) as [d3| |] eqn:S3; cbn [bind]; auto. apply slice_inv in S3.
  destruct (arith m U32 (cp_ngroup p - 1)) as [n1| |]; cbn [bind]; auto.
  destruct (slice_from sect7 _) as [d| |] eqn:S4; cbn [bind]; auto. unfold slice_from in S4. apply slice_inv in S4.
  set (refs := itake (cp_ngroup p) (bit_stream m d1 nbit (cp_ngroup p))). set (refs' := itake (cp_ngroup p) (wbit_stream U32 m d1 nbit (cp_ngroup p))).
  set (wf := fun v : Z => arith m U32 (cp_width_ref p + v)). set (lf := fun v : Z => let! t := arith m U32 (cp_len_inc p * v) in arith m U32 (cp_len_ref p + t)).
  set (ws := imap wf (itake (cp_ngroup p) (bit_stream m d2 (cp_width_nbit p) (cp_ngroup p)))). set (ws' := imap wf (itake (cp_ngroup p) (wbit_stream U32 m d2 (cp_width_nbit p) (cp_ngroup p)))).
  set (ls := ichain_once (imap lf (itake n1 (bit_stream m d3 (cp_len_nbit p) n1))) (cp_len_last p)). set (ls' := ichain_once (imap lf (itake n1 (wbit_stream U32 m d3 (cp_len_nbit p) n1))) (cp_len_last p)).
  assert (Nr : near (m = Checked) (fun _ => True) refs refs') by (apply near_itake, near_stream; lia).
  assert (Nw : near (m = Checked) u32 ws ws') by (apply near_imap with (P := fun _ => True); [apply near_itake, near_stream; lia|intros a b _ E; exact (arith_u32 _ _ _ E)]).
  assert (Nl : near (m = Checked) u32 ls ls').
  { apply near_chain; [|exact Hlast]. apply near_imap with (P := fun _ => True); [apply near_itake, near_stream; lia|]. intros a b _ E. unfold lf in E. destruct (arith m U32 (cp_len_inc p * a)) as [t| |]; cbn [bind] in E; try discriminate. exact (arith_u32 _ _ _ E). }
  clearbody refs refs' ws ws' ls ls'. eexists. split; [reflexivity|].
  destruct Nr as (Sr & Ir & sr & fr & gr & -> & -> & Isr & Cr). destruct Nw as (Sw & Iw & sw & fw & gw & -> & -> & Isw & Cw). destruct Nl as (Sl & Il & sl & fl & gl & -> & -> & Isl & Cl). cbn [ist icur istep].
  exists (flat_state Sr Sw Sl), (fs_ok Sr Sw Sl d Ir Iw Il), ([], Some (GS sr sw sl 0 0)). eexists _, _. split; [reflexivity|]. split; [reflexivity|]. split.
  - pose proof (zlen_nonneg _ d). repeat split; cbn [snd gs_ref gs_width gs_len gs_pos gs_off]; auto; lia.
  - apply flat_same; auto. lia.
Qed.

(** ** Run lengths *)
Fixpoint wrle_list (m : mode) (rlbase lngu : Z) (codes : list Z) (s : rle_state) : outcome (result rle_state rle_error) :=
  match codes with
  | [] => Ret (Ok s)
  | c :: cs => try! s' := wrle_body U32 m rlbase lngu c s in wrle_list m rlbase lngu cs s'
  end.
Lemma wloop_list m rlbase lngu : forall codes fuel it s, nb_ok it -> Run (nbit_iter m it) codes End -> (length codes < fuel)%nat ->
  wrle_loop fuel U32 m rlbase lngu it s = wrle_list m rlbase lngu codes s.
Proof.
  induction codes as [|c cs IH]; intros fuel it s Hi HR Hf; (destruct fuel as [|fuel]; [lia|]); cbn [wrle_loop wrle_list]; rewrite nbit_same by exact Hi.
  - apply Run_mk_nil in HR. destruct HR as (s' & E). rewrite E. reflexivity.
  - apply Run_mk_inv in HR. destruct HR as (it' & E & HR). rewrite E. cbn [bind].
    destruct (wrle_body U32 m rlbase lngu c s) as [[s'|e]| |]; cbn [bind]; try reflexivity.
    apply IH; [eapply nbit_keeps; eassumption|exact HR|]. cbn [length] in Hf. lia.
Qed.
Lemma list_same m maxv L : 0 <= maxv -> 1 <= L -> forall codes s, 1 <= rle_exp s -> Forall (fun c => 0 <= c < maxv + 1 + L /\ c < 2 ^ 16) codes ->
  (rle_cached s = None \/ rle_exp s * L ^ zlen (fst (split_runs maxv codes)) < 2 ^ 32) -> Forall (fun r => L ^ zlen (snd r) < 2 ^ 32) (snd (split_runs maxv codes)) ->
  wrle_list m (maxv + 1) L codes s = rle_list m (maxv + 1) L codes s.
Proof.
  intros Hm HL. induction codes as [|c cs IH]; intros s He HF HO HR; [reflexivity|].
  apply Forall_cons_iff in HF. destruct HF as [[Hc Hc'] HF]. cbn [wrle_list rle_list]. cbn [split_runs] in HO, HR. destruct (split_runs maxv cs) as [ds rs] eqn:ES. cbn [fst snd] in *.
  unfold wrle_body, rle_body. cbv zeta. assert (Wc : wrap U16 c = c) by (unfold wrap; cbn [is_signed andb]; change (bits_of U16) with 16; apply Z.mod_small; lia). rewrite Wc.
  destruct (c <=? maxv) eqn:E; cbn [fst snd] in *.
  - replace (c <? maxv + 1) with true by lia. cbn [bind]. apply Forall_cons_iff in HR. destruct HR as [H1 HR]. cbn [snd] in H1.
    apply IH; cbn [rle_exp rle_cached]; auto; [lia|]. right. lia.
  - replace (c <? maxv + 1) with false by lia. destruct (rle_cached s) as [pv|] eqn:Ec; [|reflexivity]. destruct HO as [HO|HO]; [discriminate|].
    pose proof (zlen_nonneg _ ds) as Hz. rewrite zlen_cons, Z.pow_add_r, Z.pow_1_r in HO by lia.
    assert (HP : 1 <= L ^ zlen ds) by (change 1 with (L ^ 0); apply Z.pow_le_mono_r; lia).
    assert (HEL : rle_exp s * L < 2 ^ 32) by nia. assert (HDL : 0 <= (c - (maxv + 1)) * rle_exp s < 2 ^ 32) by nia. change (2 ^ 32) with 4294967296 in *.
    rewrite (arith32 m ((c - (maxv + 1)) * rle_exp s)) by (change (2 ^ 32) with 4294967296; lia). rewrite (arith_U64_ok m ((c - (maxv + 1)) * rle_exp s)) by (change (2 ^ 64) with 18446744073709551616; lia). cbn [bind].
    rewrite (arith32 m (rle_exp s * L)) by (change (2 ^ 32) with 4294967296; nia). rewrite (arith_U64_ok m (rle_exp s * L)) by (change (2 ^ 64) with 18446744073709551616; nia). cbn [bind].
    apply IH; cbn [rle_exp rle_cached]; auto; [nia|]. right. change (2 ^ 32) with 4294967296. nia.
Qed.
Lemma rle_same m input n maxv len : zlen input < 2 ^ 28 -> 1 <= n <= 15 -> 0 <= maxv -> maxv + 1 < 2 ^ n ->
  Forall (fun r => base n maxv ^ zlen (snd r) < 2 ^ 32) (snd (split_runs maxv (codes_of input n))) ->
  wrleunpack U32 m input n maxv len = rleunpack m input n maxv len.
Proof.
  intros HZ Hn Hm HM HR. assert (P : 2 ^ n <= 2 ^ 15) by (apply Z.pow_le_mono_r; lia). change (2 ^ 15) with 32768 in P.
  unfold wrleunpack, rleunpack, rleunpack_fuel.
  assert (A16 : forall z, 0 <= z < 65536 -> arith m U16 z = Ret z) by (intros z Hz; unfold arith, in_range; change (min_of U16) with 0; change (max_of U16) with 65535; replace ((0 <=? z) && (z <=? 65535)) with true by lia; reflexivity).
  rewrite A16 by lia. cbn [bind].
  assert (S1 : shl m U16 1 n = Ret (2 ^ n)).
  { unfold shl, shift_amount. change (bits_of U16) with 16. replace ((0 <=? n) && (n <? 16)) with true by lia. cbn [bind]. rewrite Z.shiftl_mul_pow2, Z.mul_1_l by lia. f_equal. unfold wrap. cbn [is_signed andb]. change (bits_of U16) with 16. apply Z.mod_small. lia. }
  rewrite S1. cbn [bind]. rewrite A16 by lia. cbn [bind]. replace (2 ^ n - (maxv + 1)) with (base n maxv) by (unfold base; lia).
  rewrite (rle_loop_list m _ _ (codes_of input n)); [|apply codes_run; lia|apply codes_count; lia].
  rewrite (wloop_list m _ _ (codes_of input n)); [|exact (new_ok input n 0 HZ ltac:(lia) ltac:(lia))|apply codes_run; lia|apply codes_count; lia].
  rewrite (list_same m maxv (base n maxv)); [reflexivity|exact Hm|unfold base; lia|cbn; lia| |left; reflexivity|exact HR].
  eapply Forall_impl; [|apply codes_range; lia]. intros c Hc. cbn beta in Hc. unfold base. change (2 ^ 16) with 65536. lia.
Qed.
Lemma read_value k p o v : read_be k p o = Ret v -> v = be (octets p o k).
Proof.
  unfold read_be. destruct (slice p o (o + k)) as [l| |] eqn:E; cbn [bind]; try discriminate. intros [= <-]. unfold slice in E. destruct (_ && _) in E; [|discriminate].
  injection E as <-. unfold octets. replace (o + k - o) with k by lia. reflexivity.
Qed.
Lemma read_range k p o v : 0 <= k -> read_be k p o = Ret v -> 0 <= v < 256 ^ k.
Proof. intros Hk H. apply read_value in H. subst v. apply octets_be_range. exact Hk. Qed.
Lemma rle_decode_same m d : zlen (d_sect7 d) < 2 ^ 28 -> digits_fit d ->
  wrle_decode U32 m (d_sect5 d) (d_sect7 d) (d_encoded d) = rle_decode m (d_sect5 d) (d_sect7 d) (d_encoded d).
Proof.
  intros HZ HD. unfold digits_fit in HD. cbv zeta in HD. unfold wrle_decode, rle_decode.
  destruct (read_u8 (d_sect5 d) 6) as [n| |] eqn:En; cbn [bind]; [|reflexivity|reflexivity]. destruct (read_u16 (d_sect5 d) 7) as [mx| |] eqn:Em; cbn [bind]; [|reflexivity|reflexivity].
  pose proof (read_range 2 _ _ _ ltac:(lia) Em) as Rm. apply read_value in En. apply read_value in Em. rewrite <- En, <- Em in HD. destruct HD as (A & B & C).
  destruct (read_u16 (d_sect5 d) 9) as [ml| |]; cbn [bind]; [|reflexivity|reflexivity]. destruct (read_u8 (d_sect5 d) 11) as [nd| |]; cbn [bind]; [|reflexivity|reflexivity].
  destruct (level_values _ _ _ _) as [lv| |]; cbn [bind]; [|reflexivity|reflexivity]. rewrite rle_same; auto. lia.
Qed.

(** ** All of it *)
Definition alike (m : mode) (x y : outcome (result (iter f32) grib_error)) : Prop :=
  match x with
  | Ret (Ok it) => exists it', y = Ret (Ok it') /\ near (m = Checked) (fun _ => True) it it'
  | _ => y = x
  end.
Lemma alike_refl m x : alike m x x.
Proof. destruct x as [[it|e]| |]; cbn; auto. exists it. split; [reflexivity|apply near_refl]. Qed.
Lemma simple_param_range m b p : simple_param_from_buf m b = Ret (Ok p) -> 0 <= sp_nbit p < 256.
Proof.
  unfold simple_param_from_buf. destruct (read_u32 b 0) as [r| |]; cbn [bind]; try discriminate. destruct (read_i16 m b 4) as [e| |]; cbn [bind]; try discriminate.
  destruct (read_i16 m b 6) as [d| |]; cbn [bind]; try discriminate. destruct (read_u8 b 8) as [n| |] eqn:En; cbn [bind]; try discriminate.
  destruct (read_u8 b 9) as [o| |]; cbn [bind]; try discriminate. destruct (negb (o =? 0)); [discriminate|]. intros [= <-]. cbn [sp_nbit]. exact (read_range 1 _ _ _ ltac:(lia) En).
Qed.
Lemma complex_param_range b p : complex_param_from_buf b = Ret p -> 0 <= cp_width_nbit p < 256 /\ 0 <= cp_len_nbit p < 256 /\ u32 (cp_len_last p).
Proof.
  unfold complex_param_from_buf. destruct (read_u8 b 0) as [a1| |]; cbn [bind]; try discriminate. destruct (read_u8 b 1) as [a2| |]; cbn [bind]; try discriminate.
  destruct (read_u32 b 10) as [a3| |]; cbn [bind]; try discriminate. destruct (read_u8 b 14) as [a4| |]; cbn [bind]; try discriminate. destruct (read_u8 b 15) as [a5| |] eqn:E5; cbn [bind]; try discriminate.
  destruct (read_u32 b 16) as [a6| |]; cbn [bind]; try discriminate. destruct (read_u8 b 20) as [a7| |]; cbn [bind]; try discriminate. destruct (read_u32 b 21) as [a8| |] eqn:E8; cbn [bind]; try discriminate.
  destruct (read_u8 b 25) as [a9| |] eqn:E9; cbn [bind]; try discriminate. intros [= <-]. cbn [cp_width_nbit cp_len_nbit cp_len_last].
  split; [exact (read_range 1 _ _ _ ltac:(lia) E5)|]. split; [exact (read_range 1 _ _ _ ltac:(lia) E9)|exact (read_range 4 _ _ _ ltac:(lia) E8)].
Qed.
Lemma near_simple ok N P (f : N -> f32) p (a b : iter N) : near ok P a b -> near ok (fun _ => True) (simple_iter f p a) (simple_iter f p b).
Proof. intros H. apply near_imap with (P := P); auto. Qed.
Lemma simple_same m sect5 sect7 n : zlen sect7 < 2 ^ 28 -> alike m (simple_decode m sect5 sect7 n) (wsimple_decode U32 m sect5 sect7 n).
Proof.
  intros HZ. unfold simple_decode, wsimple_decode. destruct (slice sect5 6 16) as [b| |]; cbn [bind]; [|reflexivity|reflexivity].
  destruct (simple_param_from_buf m b) as [[p|e]| |] eqn:Ep; cbn [bind]; [|reflexivity|reflexivity|reflexivity]. apply simple_param_range in Ep.
  destruct (sp_nbit p =? 0); [apply alike_refl|]. cbn [alike]. eexists. split; [reflexivity|]. eapply near_simple, near_nbit. exact (new_ok sect7 (sp_nbit p) 0 HZ ltac:(lia) ltac:(lia)).
Qed.
Lemma png_same c m sect5 sect7 n : (forall b, png_buffer c sect7 = Some b -> zlen b < 2 ^ 28) -> alike m (png_decode c m sect5 sect7 n) (wpng_decode U32 c m sect5 sect7 n).
Proof.
  intros HZ. unfold png_decode, wpng_decode. destruct (slice sect5 6 16) as [b| |]; cbn [bind]; [|reflexivity|reflexivity].
  destruct (simple_param_from_buf m b) as [[p|e]| |] eqn:Ep; cbn [bind]; [|reflexivity|reflexivity|reflexivity]. apply simple_param_range in Ep.
  destruct (png_buffer c sect7) as [buf|]; [|reflexivity]. specialize (HZ _ eq_refl).
  destruct (sp_nbit p =? 0); [apply alike_refl|]. cbn [alike]. eexists. split; [reflexivity|]. eapply near_simple, near_nbit. exact (new_ok buf (sp_nbit p) 0 HZ ltac:(lia) ltac:(lia)).
Qed.
Lemma same_7_2 m sect5 sect7 : zlen sect7 < 2 ^ 28 -> alike m (decode_7_2 m sect5 sect7) (wdecode_7_2 U32 m sect5 sect7).
Proof.
  intros HZ. unfold decode_7_2, decode_7_2_ints, wdecode_7_2. destruct (slice sect5 6 16) as [b| |]; cbn [bind]; [|reflexivity|reflexivity].
  destruct (simple_param_from_buf m b) as [[p|e]| |] eqn:Ep; cbn [bind]; [|reflexivity|reflexivity|reflexivity]. apply simple_param_range in Ep.
  destruct (slice sect5 16 42) as [b2| |]; cbn [bind]; [|reflexivity|reflexivity]. destruct (complex_param_from_buf b2) as [cp| |] eqn:Ec; cbn [bind]; [|reflexivity|reflexivity].
  apply complex_param_range in Ec. destruct Ec as (A & B & C). destruct (complex_unsupported cp); [reflexivity|]. pose proof (zlen_nonneg _ sect7).
  pose proof (complex_same m cp sect7 0 (sp_nbit p) 0 HZ ltac:(lia) Ep A B C) as X. destruct (decode_complex_packing m cp sect7 0 _ 0) as [it| |]; cbn [bind].
  - destruct X as (it' & -> & N). cbn [bind alike]. eexists. split; [reflexivity|]. exact (near_simple _ _ _ _ _ _ _ N).
  - rewrite X. reflexivity.
  - rewrite X. reflexivity.
Qed.
Lemma same_7_3 m sect5 sect7 : zlen sect7 < 2 ^ 28 -> alike m (decode_7_3 m sect5 sect7) (wdecode_7_3 U32 m sect5 sect7).
Proof.
  intros HZ. unfold decode_7_3, decode_7_3_ints, wdecode_7_3. destruct (slice sect5 6 16) as [b| |]; cbn [bind]; [|reflexivity|reflexivity].
  destruct (simple_param_from_buf m b) as [[p|e]| |] eqn:Ep; cbn [bind]; [|reflexivity|reflexivity|reflexivity]. apply simple_param_range in Ep.
  destruct (slice sect5 16 42) as [b2| |]; cbn [bind]; [|reflexivity|reflexivity]. destruct (complex_param_from_buf b2) as [cp| |] eqn:Ec; cbn [bind]; [|reflexivity|reflexivity].
  apply complex_param_range in Ec. destruct Ec as (A & B & C).
  destruct (read_u8 sect5 42) as [o| |]; cbn [bind]; [|reflexivity|reflexivity]. destruct (table5_6_of o) as [order|]; [|reflexivity].
  destruct (read_u8 sect5 43) as [oc| |]; cbn [bind]; [|reflexivity|reflexivity]. destruct (complex_unsupported cp || _); [reflexivity|].
  destruct (spdiff_new m sect7 (table5_6_code order) oc) as [[d|e]| |] eqn:Ed; cbn [bind]; [|reflexivity|reflexivity|reflexivity].
  assert (Ld : 0 <= spdiff_len d <= zlen sect7).
  { unfold spdiff_new in Ed. destruct (_ || _) in Ed; [discriminate|]. destruct (arith m U8 _) as [o1| |] in Ed; cbn [bind] in Ed; try discriminate.
    destruct (slice sect7 0 (o1 * oc)) as [s| |] eqn:Es; cbn [bind] in Ed; try discriminate. injection Ed as <-. unfold spdiff_len. cbn [sp_slice]. apply slice_inv in Es. lia. }
  destruct (spdiff_minimum m d) as [z| |]; cbn [bind]; [|reflexivity|reflexivity].
  pose proof (complex_same m cp sect7 (spdiff_len d) (sp_nbit p) z HZ Ld Ep A B C) as X. destruct (decode_complex_packing m cp sect7 (spdiff_len d) _ z) as [it| |]; cbn [bind].
  - destruct X as (it' & -> & N). cbn [bind]. destruct (collect_first_values m d) as [fv| |]; cbn [bind]; [|reflexivity|reflexivity].
    destruct order; cbn [bind alike]; try reflexivity; (eexists; split; [reflexivity|]); eapply near_simple; first [eapply near_diff1; exact N|eapply near_diff2; exact N].
  - rewrite X. reflexivity.
  - rewrite X. reflexivity.
Qed.
Lemma template_same c m d : small_data c d -> (d_template d = 200 -> digits_fit d) -> alike m (template_values c m d) (wtemplate_values U32 false c m d).
Proof.
  intros (A & B & C) D. unfold template_values, wtemplate_values. destruct (Z.eq_dec (d_template d) 200) as [E|E].
  - rewrite E. rewrite rle_decode_same by auto. apply alike_refl.
  - destruct (Z.eq_dec (d_template d) 0) as [E0|E0]; [rewrite E0; apply simple_same; exact A|].
    destruct (Z.eq_dec (d_template d) 2) as [E2|E2]; [rewrite E2; apply same_7_2; exact A|].
    destruct (Z.eq_dec (d_template d) 3) as [E3|E3]; [rewrite E3; apply same_7_3; exact A|].
    destruct (Z.eq_dec (d_template d) 40) as [E4|E4]; [rewrite E4; apply alike_refl|].
    destruct (Z.eq_dec (d_template d) 41) as [E5|E5]; [rewrite E5; apply png_same; exact C|].
    clear -E E0 E2 E3 E4 E5. repeat match goal with |- context [match ?x with _ => _ end] => destruct x; try (exfalso; congruence); try reflexivity end.
Qed.
Lemma bitmap_alike m d x y : zlen (d_bitmap d) < 2 ^ 29 -> alike m x y ->
  alike m (try! values := x in match bitmap_iter f32_nan (d_bitmap d) values (d_total d) with Some it => Ret (Ok it) | None => Ret (Err (EDecode LengthMismatch)) end)
    (try! values := y in let! bits := arith m U32 (zlen (d_bitmap d) * 8) in
     if bits <? d_total d then Ret (Err (EDecode LengthMismatch))
     else Ret (Ok (MkIter (bitmap_state (ist values)) (BM (d_bitmap d) (icur values) (d_total d) 0) (bitmap_next f32_nan (ist values) (istep values))))).
Proof.
  intros HB HA. pose proof (zlen_nonneg _ (d_bitmap d)) as Hz. destruct x as [[it|e]| |]; cbn [alike] in HA; cbn [bind].
  - destruct HA as (it' & -> & N). cbn [bind]. rewrite (arith32 m (zlen (d_bitmap d) * 8)) by lia. cbn [bind]. unfold bitmap_iter, bitmap_new.
    destruct (_ <? d_total d); [reflexivity|]. cbn [alike]. eexists. split; [reflexivity|]. exact (near_bitmap _ _ _ _ _ _ _ _ N).
  - rewrite HA. reflexivity.
  - rewrite HA. reflexivity.
  - rewrite HA. reflexivity.
Qed.
Lemma dispatch_alike c m d : small_data c d -> (d_template d = 200 -> digits_fit d) -> alike m (dispatch c m d) (wdispatch U32 false c m d).
Proof. intros A B. apply bitmap_alike; [exact (proj1 (proj2 A))|]. apply template_same; assumption. Qed.
Theorem dispatch_ok c m d it : small_data c d -> (d_template d = 200 -> digits_fit d) -> dispatch c m d = Ret (Ok it) ->
  exists it', wdispatch U32 false c m d = Ret (Ok it') /\ forall l e, Run it l e -> m = Checked \/ e = End -> Run it' l e.
Proof.
  intros A B E. pose proof (dispatch_alike c m d A B) as X. rewrite E in X. destruct X as (it' & X & N). exists it'. split; [exact X|]. intros l e R K. exact (near_run _ _ _ _ _ _ R _ N K).
Qed.
Theorem dispatch_not_ok c m d : small_data c d -> (d_template d = 200 -> digits_fit d) -> (forall it, dispatch c m d <> Ret (Ok it)) -> wdispatch U32 false c m d = dispatch c m d.
Proof. intros A B E. pose proof (dispatch_alike c m d A B) as X. destruct (dispatch c m d) as [[it|e]| |]; [exfalso; eapply E; reflexivity|exact X|exact X|exact X]. Qed.
Theorem wasm_other u c m d : d_template d <> 40 -> wdispatch u true c m d = wdispatch u false c m d.
Proof.
  intros E. unfold wdispatch. f_equal. unfold wtemplate_values. destruct (Z.eq_dec (d_template d) 40) as [E'|_]; [contradiction|].
  destruct (d_template d) as [|p|p]; try reflexivity. do 6 (destruct p as [p|p|]; try reflexivity). contradiction.
Qed.
Theorem wasm_jpeg u c m d : d_template d = 40 -> wdispatch u true c m d = Ret (Err (EDecode TemplateNumberUnsupported)).
Proof. intros E. unfold wdispatch, wtemplate_values. rewrite E. reflexivity. Qed.

(** ** Too many digits *)
Lemma list_panics maxv L : 0 <= maxv -> 1 <= L -> forall codes s pv, 1 <= rle_exp s < 2 ^ 32 -> rle_cached s = Some pv -> Forall (fun c => 0 <= c < 2 ^ 16) codes ->
  2 ^ 32 <= rle_exp s * L ^ zlen (fst (split_runs maxv codes)) \/ ~ Forall (fun r => L ^ zlen (snd r) < 2 ^ 32) (snd (split_runs maxv codes)) ->
  wrle_list Checked (maxv + 1) L codes s = Panic.
Proof.
  intros Hm HL. induction codes as [|c cs IH]; intros s pv He Hc HF HO.
  - cbn in HO. destruct HO as [HO|HO]; [lia|]. exfalso. apply HO. constructor.
  - apply Forall_cons_iff in HF. destruct HF as [Hr HF]. cbn [wrle_list]. cbn [split_runs] in HO. destruct (split_runs maxv cs) as [ds rs] eqn:ES.
    unfold wrle_body. cbv zeta. assert (Wc : wrap U16 c = c) by (unfold wrap; cbn [is_signed andb]; change (bits_of U16) with 16; apply Z.mod_small; lia). rewrite Wc.
    destruct (c <=? maxv) eqn:E; cbn [fst snd] in *.
    + replace (c <? maxv + 1) with true by lia. cbn [bind]. apply (IH _ c); cbn [rle_exp rle_cached]; [lia|reflexivity|exact HF|].
      destruct HO as [HO|HO]; [cbn in HO; lia|]. destruct (Z.ltb_spec (L ^ zlen ds) (2 ^ 32)) as [Lt|Ge]; [right|left; lia].
      intros HR. apply HO. constructor; [exact Lt|exact HR].
    + replace (c <? maxv + 1) with false by lia. rewrite Hc. pose proof (zlen_nonneg _ ds) as Hz. rewrite zlen_cons, Z.pow_add_r, Z.pow_1_r in HO by lia.
      destruct (arith Checked U32 ((c - (maxv + 1)) * rle_exp s)) as [len| |] eqn:E1; cbn [bind]; [|reflexivity|unfold arith in E1; destruct (in_range _ _) in E1; discriminate].
      destruct (arith Checked U32 (rle_exp s * L)) as [x| |] eqn:E2; cbn [bind]; [|reflexivity|unfold arith in E2; destruct (in_range _ _) in E2; discriminate].
      assert (x = rle_exp s * L /\ x < 2 ^ 32) as [-> Hx].
      { unfold arith in E2. destruct (in_range U32 _) eqn:R; [|discriminate]. injection E2 as <-. unfold in_range in R. change (max_of U32) with (2 ^ 32 - 1) in R. split; [reflexivity|lia]. }
      apply (IH _ pv); cbn [rle_exp rle_cached]; [nia|reflexivity|exact HF|]. destruct HO as [HO|HO]; [left; lia|right; exact HO].
Qed.
Theorem digits_panic wasm c d it : let n := be (octets (d_sect5 d) 6 1) in let maxv := be (octets (d_sect5 d) 7 2) in
  zlen (d_sect7 d) < 2 ^ 28 -> d_template d = 200 -> 1 <= n <= 15 -> maxv + 1 < 2 ^ n -> dispatch c Checked d = Ret (Ok it) -> ~ digits_fit d ->
  wdispatch U32 wasm c Checked d = Panic.
Proof.
  cbv zeta. intros HZ Ht Hn HM Hd HX. unfold dispatch, template_values in Hd. unfold wdispatch, wtemplate_values. rewrite Ht in *. unfold digits_fit in HX. cbv zeta in HX.
  unfold rle_decode in Hd. unfold wrle_decode.
  destruct (read_u8 (d_sect5 d) 6) as [n| |] eqn:En; cbn [bind] in Hd |- *; try discriminate. destruct (read_u16 (d_sect5 d) 7) as [mx| |] eqn:Em; cbn [bind] in Hd |- *; try discriminate.
  pose proof (read_range 2 _ _ _ ltac:(lia) Em) as Rm. apply read_value in En. apply read_value in Em. rewrite <- En in HX, Hn, HM. rewrite <- Em in HX, HM. clear En Em.
  destruct (read_u16 (d_sect5 d) 9) as [ml| |]; cbn [bind] in Hd |- *; try discriminate. destruct (read_u8 (d_sect5 d) 11) as [nd| |]; cbn [bind] in Hd |- *; try discriminate.
  destruct (level_values _ _ _ _) as [lv| |]; cbn [bind] in Hd |- *; try discriminate.
  assert (P : 2 ^ n <= 2 ^ 15) by (apply Z.pow_le_mono_r; lia). change (2 ^ 15) with 32768 in P.
  unfold rleunpack, rleunpack_fuel in Hd. unfold wrleunpack.
  assert (A16 : forall z, 0 <= z < 65536 -> arith Checked U16 z = Ret z) by (intros z Hz; unfold arith, in_range; change (min_of U16) with 0; change (max_of U16) with 65535; replace ((0 <=? z) && (z <=? 65535)) with true by lia; reflexivity).
  rewrite A16 in Hd |- * by lia. cbn [bind] in Hd |- *.
  assert (S1 : shl Checked U16 1 n = Ret (2 ^ n)).
  { unfold shl, shift_amount. change (bits_of U16) with 16. replace ((0 <=? n) && (n <? 16)) with true by lia. cbn [bind]. rewrite Z.shiftl_mul_pow2, Z.mul_1_l by lia. f_equal. unfold wrap. cbn [is_signed andb]. change (bits_of U16) with 16. apply Z.mod_small. lia. }
  rewrite S1 in Hd |- *. cbn [bind] in Hd |- *. rewrite A16 in Hd |- * by lia. cbn [bind] in Hd |- *. replace (2 ^ n - (mx + 1)) with (base n mx) in Hd |- * by (unfold base; lia).
  rewrite (rle_loop_list Checked _ _ (codes_of (d_sect7 d) n)) in Hd; [|apply codes_run; lia|apply codes_count; lia].
  rewrite (wloop_list Checked _ _ (codes_of (d_sect7 d) n)); [|exact (new_ok (d_sect7 d) n 0 HZ ltac:(lia) ltac:(lia))|apply codes_run; lia|apply codes_count; lia].
  pose proof (codes_range (d_sect7 d) n ltac:(lia)) as CR. assert (NF : ~ Forall (fun r => base n mx ^ zlen (snd r) < 2 ^ 32) (snd (split_runs mx (codes_of (d_sect7 d) n)))) by (intros F; apply HX; repeat split; auto; lia).
  clear HX. pose proof (split_runs_first mx (codes_of (d_sect7 d) n)) as SF. destruct (codes_of (d_sect7 d) n) as [|cd cs]; [rewrite SF in NF; exfalso; apply NF; constructor|].
  apply Forall_cons_iff in CR. destruct CR as [C1 CR]. cbn beta in C1. cbn [rle_list] in Hd. cbn [wrle_list]. unfold rle_body in Hd. unfold wrle_body. cbv zeta in *. cbn [split_runs] in NF. destruct (split_runs mx cs) as [ds rs] eqn:ES.
  assert (Wc : wrap U16 cd = cd) by (unfold wrap; cbn [is_signed andb]; change (bits_of U16) with 16; apply Z.mod_small; lia). rewrite Wc in *.
  destruct (cd <=? mx) eqn:E; cbn [fst snd] in NF.
  - replace (cd <? mx + 1) with true by lia. cbn [bind rle_out app].
    rewrite (list_panics mx (base n mx)) with (pv := cd); [reflexivity|lia|unfold base; lia|cbn; lia|reflexivity| |].
    + eapply Forall_impl; [|exact CR]. intros z Hz. cbn beta in Hz. change (2 ^ 16) with 65536. lia.
    + rewrite ES. cbn [fst snd rle_exp]. destruct (Z.ltb_spec (base n mx ^ zlen ds) (2 ^ 32)) as [Lt|Ge]; [right|left; lia]. intros HR. apply NF. constructor; [exact Lt|exact HR].
  - replace (cd <? mx + 1) with false in Hd by lia. cbn [rle_cached bind] in Hd. discriminate.
Qed.
