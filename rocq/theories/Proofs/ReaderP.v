(** Lemmas about the reader and the section stream. *)
From Coq Require Import Lia ZifyBool ZifyNat.
From Verif Require Import Model.Base Model.Helpers Model.Errors Model.Sections Model.Reader.
From Verif Require Import Spec.ReaderS Proofs.BaseLemmas.
Ltac Zify.zify_post_hook ::= Z.div_mod_to_equations.

(** ** octets *)
Lemma zlen_octets : forall d p n, 0 <= p -> 0 <= n -> p + n <= zlen d -> zlen (octets d p n) = n.
Proof.
  intros d p n Hp Hn H. unfold octets, zlen in *. rewrite firstn_length, skipn_length. lia.
Qed.

Lemma skipn_skipn' : forall A (l : list A) a b, skipn a (skipn b l) = skipn (b + a) l.
Proof.
  intros A l a b. revert l. induction b as [|b IH]; intros l; [reflexivity|].
  destruct l as [|x l]; [now rewrite !skipn_nil|]. cbn [skipn Nat.add]. apply IH.
Qed.

Lemma octets_octets : forall d p n a b, 0 <= p -> 0 <= a -> 0 <= b -> a + b <= n ->
  octets (octets d p n) a b = octets d (p + a) b.
Proof.
  intros d p n a b Hp Ha Hb H. unfold octets.
  rewrite skipn_firstn_comm, firstn_firstn, skipn_skipn'.
  f_equal; [lia|]. f_equal. lia.
Qed.

Lemma slice_octets : forall d a b, 0 <= a -> a <= b -> b <= zlen d ->
  slice d a b = Ret (octets d a (b - a)).
Proof. intros. apply slice_ok; assumption. Qed.

Lemma octets_0 : forall d p, octets d p 0 = [].
Proof. reflexivity. Qed.

Lemma octets_app : forall d p a b, 0 <= p -> 0 <= a -> 0 <= b ->
  octets d p a ++ octets d (p + a) b = octets d p (a + b).
Proof.
  intros d p a b Hp Ha Hb. unfold octets.
  replace (Z.to_nat (p + a)) with (Z.to_nat p + Z.to_nat a)%nat by lia.
  replace (Z.to_nat (a + b)) with (Z.to_nat a + Z.to_nat b)%nat by lia.
  rewrite <- skipn_skipn'. generalize (skipn (Z.to_nat p) d) as l. clear.
  generalize (Z.to_nat a) as x. generalize (Z.to_nat b) as y. clear.
  intros y x. induction x as [|x IH]; intros l; [reflexivity|].
  destruct l as [|h l]; cbn [firstn skipn app Nat.add]; [now rewrite firstn_nil|].
  f_equal. apply IH.
Qed.

Lemma index_octets : forall d i, 0 <= i < zlen d ->
  exists x, index d i = Ret x /\ octets d i 1 = [x] /\ bz x = be (octets d i 1).
Proof.
  intros d i H. destruct (list_split_elem _ d i H) as (l1 & x & l2 & -> & L).
  exists x. split; [now apply index_ok|].
  assert (E : octets (l1 ++ x :: l2) i 1 = [x]).
  { unfold octets. change (Z.to_nat 1) with 1%nat.
    rewrite skipn_app, skipn_all2 by (unfold zlen in L; lia).
    replace (Z.to_nat i - length l1)%nat with 0%nat by (unfold zlen in L; lia). reflexivity. }
  split; [exact E|]. rewrite E. unfold be. cbn [fold_left]. lia.
Qed.

(** ** the source *)
Definition same_data (s s' : src) : Prop := data s' = data s.

Lemma read_spec : forall n s l s', 0 <= n -> 0 <= pos s -> read n s = (l, s') ->
  data s' = data s /\ pos s' = pos s + zlen l /\ l = octets (data s) (pos s) (zlen l) /\
  zlen l <= n /\ (l = [] \/ pos s + zlen l <= zlen (data s)) /\
  (l = [] -> n = 0 \/ zlen (data s) <= pos s) /\
  (sched s = [] -> sched s' = [] /\ zlen l = Z.max 0 (Z.min n (zlen (data s) - pos s))).
Proof.
  intros n [d p sc] l s' Hn Hp H. unfold read in H. cbn [data pos sched] in *.
  set (avail := Z.max 0 (Z.min n (zlen d - p))) in *.
  set (k := match sc with [] => avail | c :: _ => Z.min avail (Z.max 1 c) end).
  assert (Hk : 0 <= k <= avail) by (subst k; destruct sc; lia).
  assert (H0 : k = 0 -> avail = 0) by (subst k; destruct sc; lia).
  assert (E : (l, s') = (octets d p k, MkSrc d (p + k) (tl sc))).
  { subst k. destruct sc; inversion H; reflexivity. }
  injection E as -> ->.
  assert (L : zlen (octets d p k) = k).
  { destruct (Z_le_gt_dec avail 0) as [Ha|Ha].
    - assert (k = 0) by lia. subst avail. rewrite H1. reflexivity.
    - apply zlen_octets; subst avail; lia. }
  cbn [data pos sched]. rewrite L. repeat split; try reflexivity.
  - subst avail; lia.
  - destruct (Z.eq_dec k 0) as [->|Hk0]; [left; reflexivity|right; subst avail; lia].
  - intros Hl. assert (k = 0) by (rewrite <- L, Hl; reflexivity). subst avail. lia.
  - now subst sc.
  - subst k. now rewrite H1.
Qed.

(** Octets obtained by [read_exact]: independent of the schedule. *)
Lemma read_exact_loop_spec : forall fuel n s, 0 <= n -> 0 <= pos s ->
  Z.max 0 (zlen (data s) - pos s) + 2 <= Z.of_nat fuel ->
  exists sc, (sched s = [] -> sc = []) /\
    read_exact_loop fuel n s =
      if (n =? 0) || (pos s + n <=? zlen (data s))
      then Ret (Ok (octets (data s) (pos s) n), MkSrc (data s) (pos s + n) sc)
      else Ret (Err ReadErrorEof, MkSrc (data s) (Z.max (pos s) (zlen (data s))) sc).
Proof.
  induction fuel as [|fuel IH]; intros n s Hn Hp Hf; [lia|].
  cbn [read_exact_loop].
  destruct (Z.leb_spec n 0) as [H0|H0].
  { assert (n = 0) by lia. subst n. exists (sched s). split; [auto|].
    replace ((0 =? 0) || (pos s + 0 <=? zlen (data s))) with true by lia.
    rewrite octets_0. unfold rret. do 2 f_equal. destruct s as [d0 p0 sc0]; cbn [data pos sched]. f_equal. lia. }
  unfold rbind at 1, rread. destruct (read n s) as [l s'] eqn:Er. cbn [bind].
  pose proof (read_spec n s l s' Hn Hp Er) as (Hd & Hps & Hl & Hln & Hin & Hnil & Hfull).
  destruct l as [|b l0].
  - cbv [rfail]. exists (sched s'). split; [intros E'; now apply Hfull|].
    specialize (Hnil eq_refl).
    replace ((n =? 0) || (pos s + n <=? zlen (data s))) with false by lia.
    do 2 f_equal. destruct s' as [d0 p0 sc0]; cbn [data pos sched] in *. rewrite zlen_nil in Hps. subst.
    f_equal. lia.
  - set (l := b :: l0) in *.
    assert (Hpos : 0 < zlen l) by (unfold l; rewrite zlen_cons; pose proof (zlen_nonneg _ l0); lia).
    destruct Hin as [Hin|Hin]; [discriminate|].
    destruct (IH (n - zlen l) s') as (sc & Hsc & E).
    { lia. } { lia. } { rewrite Hd, Hps. lia. }
    exists sc. split; [intros E'; apply Hsc; now apply Hfull|]. unfold rbind. rewrite E, Hd, Hps.
    destruct (Z.eq_dec (n - zlen l) 0) as [E0|E0].
    + replace ((n - zlen l =? 0) || (pos s + zlen l + (n - zlen l) <=? zlen (data s))) with true by lia.
      replace ((n =? 0) || (pos s + n <=? zlen (data s))) with true by lia.
      cbn [bind]. unfold rret. rewrite E0, octets_0, app_nil_r.
      do 3 f_equal; [|lia]. rewrite Hl. f_equal. lia.
    + destruct (Z.leb_spec (pos s + n) (zlen (data s))) as [Hfit|Hfit].
      * replace ((n - zlen l =? 0) || (pos s + zlen l + (n - zlen l) <=? zlen (data s))) with true by lia.
        replace ((n =? 0) || true) with true by lia.
        cbn [bind]. unfold rret. do 3 f_equal; [|lia].
        rewrite Hl at 1. rewrite octets_app by lia. f_equal. lia.
      * replace ((n - zlen l =? 0) || (pos s + zlen l + (n - zlen l) <=? zlen (data s))) with false by lia.
        replace ((n =? 0) || false) with false by lia.
        cbn [bind]. do 3 f_equal. lia.
Qed.

Lemma read_exact_spec : forall n s, 0 <= n -> 0 <= pos s ->
  exists sc, (sched s = [] -> sc = []) /\
    read_exact n s =
      if (n =? 0) || (pos s + n <=? zlen (data s))
      then Ret (Ok (octets (data s) (pos s) n), MkSrc (data s) (pos s + n) sc)
      else Ret (Err ReadErrorEof, MkSrc (data s) (Z.max (pos s) (zlen (data s))) sc).
Proof.
  intros n s Hn Hp. unfold read_exact. apply read_exact_loop_spec; auto. unfold zlen. lia.
Qed.

(** ** read_sect0 *)
Lemma bytes_eqb_spec : forall a b, bytes_eqb a b = true <-> a = b.
Proof.
  intros a b. unfold bytes_eqb. destruct (list_eq_dec Byte.byte_eq_dec a b); split; congruence.
Qed.
Lemma bytes_eqb_false : forall a b, bytes_eqb a b = false <-> a <> b.
Proof.
  intros a b. unfold bytes_eqb. destruct (list_eq_dec Byte.byte_eq_dec a b); split; congruence.
Qed.

Lemma find_magic_spec : forall n buf from, 0 <= from -> from + Z.of_nat n + 3 <= zlen buf ->
  match find_magic buf from n with
  | Ret (Some p) => from <= p < from + Z.of_nat n /\ octets buf p 4 = grib_magic /\
                    forall j, from <= j < p -> octets buf j 4 <> grib_magic
  | Ret None => forall j, from <= j < from + Z.of_nat n -> octets buf j 4 <> grib_magic
  | _ => False
  end.
Proof.
  induction n as [|n IH]; intros buf from Hf Hl; cbn [find_magic].
  - intros j Hj. lia.
  - rewrite slice_octets by lia. cbn [bind]. replace (from + 4 - from) with 4 by lia.
    destruct (bytes_eqb (octets buf from 4) grib_magic) eqn:E.
    + apply bytes_eqb_spec in E. repeat split; auto; try lia.
    + apply bytes_eqb_false in E.
      specialize (IH buf (from + 1)). destruct (find_magic buf (from + 1) n) as [[p|]| |].
      * destruct IH as (H1 & H2 & H3); try lia. repeat split; auto; try lia.
        intros j Hj. destruct (Z.eq_dec j from) as [->|]; [exact E|]. apply H3. lia.
      * intros j Hj. destruct (Z.eq_dec j from) as [->|]; [exact E|]. apply IH; lia.
      * apply IH; lia.
      * apply IH; lia.
Qed.

Lemma indicator_spec : forall w, zlen w = 16 ->
  indicator_from_slice w = Ret (
    if be (octets w 7 1) =? 2 then Ok (B0 (be (octets w 6 1)) (be (octets w 8 8)))
    else Err (GRIBVersionMismatch (be (octets w 7 1)))).
Proof.
  intros w L. unfold indicator_from_slice.
  destruct (index_octets w 6) as (x & -> & _ & <-); [lia|].
  destruct (index_octets w 7) as (y & -> & _ & <-); [lia|]. cbn [bind].
  destruct (bz y =? 2); [|reflexivity].
  unfold read_u64, read_be. rewrite slice_octets by lia. cbn [bind]. reflexivity.
Qed.

Lemma magic_at_octets : forall d p n j, 0 <= p -> 0 <= j -> p + n <= zlen d -> j + 16 <= n ->
  (magic_at d (p + j) <-> octets (octets d p n) j 4 = grib_magic).
Proof.
  intros d p n j Hp Hj Hn H. rewrite octets_octets by lia. unfold magic_at, grib_magic. intuition lia.
Qed.

Definition read_sect0_post (d : list byte) (p : Z) (full : Prop)
  (r : result (option (Z * body)) parse_error) (p' : Z) : Prop :=
  match r with
  | Ok None => p <= p' /\ (full -> forall j, p <= j -> ~ magic_at d j)
  | Ok (Some (off, b)) =>
      first_magic d p (p + off) /\ be (octets d (p + off + 7) 1) = 2 /\
      b = B0 (be (octets d (p + off + 6) 1)) (be (octets d (p + off + 8) 8)) /\
      p' = p + off + 16
  | Err (GRIBVersionMismatch v) =>
      exists k, first_magic d p k /\ be (octets d (k + 7) 1) = v /\ v <> 2 /\ p' = k + 16
  | Err _ => False
  end.

Lemma first_magic_extend : forall d p p' k, (forall j, p <= j < p' -> ~ magic_at d j) -> p <= p' ->
  first_magic d p' k -> first_magic d p k.
Proof.
  intros d p p' k H Hp (H1 & H2 & H3). split; [lia|]. split; [exact H2|].
  intros j Hj. destruct (Z_lt_ge_dec j p'); [apply H|apply H3]; lia.
Qed.

Lemma read_sect0_loop_spec : forall fuel off s, 0 <= pos s -> zlen (data s) < 2 ^ 63 ->
  Z.max 0 (zlen (data s) - pos s) + 1 <= Z.of_nat fuel ->
  exists r s', read_sect0_loop fuel off s = Ret (r, s') /\ data s' = data s /\
    (sched s = [] -> sched s' = []) /\
    read_sect0_post (data s) (pos s) (sched s = [])
      (match r with Ok (Some (o, b)) => Ok (Some (o - off, b)) | x => x end) (pos s').
Proof.
  induction fuel as [|fuel IH]; intros off s Hp Hlen Hf; [lia|].
  cbn [read_sect0_loop]. unfold rbind at 1, rread.
  destruct (read 4096 s) as [buf s1] eqn:Er. cbn [bind].
  assert (H4 : 0 <= 4096) by lia.
  pose proof (read_spec 4096 s buf s1 H4 Hp Er) as (Hd & Hps & Hl & Hln & Hin & Hnil & Hfull). clear H4.
  destruct (Z.ltb_spec (zlen buf) 16) as [Hs|Hs].
  { exists (Ok None), s1. split; [reflexivity|]. split; [exact Hd|].
    split. { intros E. now apply Hfull. }
    split; [pose proof (zlen_nonneg _ buf); lia|].
    intros E j Hj. destruct (Hfull E) as [_ HL]. intros (J1 & J2 & J3). lia. }
  destruct Hin as [Hin|Hin]; [subst buf; rewrite zlen_nil in Hs; lia|].
  set (N := zlen buf) in *.
  pose proof (find_magic_spec (Z.to_nat (N - 16 + 1)) buf 0) as Hfm.
  cbn zeta. unfold rbind at 1, rpure at 1.
  destruct (find_magic buf 0 (Z.to_nat (N - 16 + 1))) as [[p|]| |];
    cbn [bind]; [| |exfalso; apply Hfm; lia|exfalso; apply Hfm; lia].
  - destruct Hfm as (Hp1 & Hp2 & Hp3); [lia|lia|].
    unfold rbind at 1, seek_current, seek_to. cbn [bind].
    replace ((0 <=? pos s1 + (p + 16 - N)) && (pos s1 + (p + 16 - N) <? 2 ^ 64)) with true by lia.
    cbn [bind]. unfold rbind at 1, rpure at 1.
    rewrite slice_octets by lia. replace (p + 16 - p) with 16 by lia. cbn [bind].
    unfold rbind, rres. rewrite indicator_spec by (apply zlen_octets; lia). cbn [bind].
    rewrite !octets_octets by lia. rewrite Hl. fold N. rewrite !octets_octets by lia.
    assert (FM : first_magic (data s) (pos s) (pos s + p)).
    { split; [lia|]. split.
      - apply magic_at_octets with (n := N); try lia. rewrite <- Hl. exact Hp2.
      - intros j Hj HM. apply (Hp3 (j - pos s)); [lia|].
        replace j with (pos s + (j - pos s)) in HM by lia.
        apply magic_at_octets with (n := N) in HM; try lia. rewrite <- Hl in HM. exact HM. }
    destruct (be (octets (data s) (pos s + (p + 7)) 1) =? 2) eqn:Ev.
    + eexists _, _. split; [reflexivity|]. cbn [data pos sched]. split; [exact Hd|].
      split. { intros E. now apply Hfull. }
      unfold read_sect0_post. replace (off + p - off) with p by lia.
      replace (pos s + p + 7) with (pos s + (p + 7)) by lia.
      replace (pos s + p + 6) with (pos s + (p + 6)) by lia.
      replace (pos s + p + 8) with (pos s + (p + 8)) by lia.
      repeat split; try apply FM; try lia.
    + eexists _, _. split; [reflexivity|]. cbn [data pos sched]. split; [exact Hd|].
      split. { intros E. now apply Hfull. }
      exists (pos s + p). replace (pos s + p + 7) with (pos s + (p + 7)) by lia.
      repeat split; try apply FM; try lia.
  - assert (NM : forall j, pos s <= j < pos s + (N - 15) -> ~ magic_at (data s) j).
    { intros j Hj HM. apply (Hfm ltac:(lia) ltac:(lia) (j - pos s)); [lia|].
      replace j with (pos s + (j - pos s)) in HM by lia.
      apply magic_at_octets with (n := N) in HM; try lia. rewrite <- Hl in HM. exact HM. }
    unfold rbind at 1, seek_current, seek_to. cbn [bind].
    replace ((0 <=? pos s1 + (N - 16 + 1 - N)) && (pos s1 + (N - 16 + 1 - N) <? 2 ^ 64)) with true by lia.
    cbn [bind].
    set (s2 := MkSrc (data s1) (pos s1 + (N - 16 + 1 - N)) (sched s1)).
    destruct (IH (off + (N - 16 + 1)) s2) as (r & s' & E & Hd' & Hsc & HP);
      unfold s2 in *; cbn [data pos sched] in *; try lia.
    { now rewrite Hd. } { rewrite Hd. lia. }
    exists r, s'. rewrite E. split; [reflexivity|]. split; [congruence|].
    split. { intros E'. apply Hsc. now apply Hfull. }
    rewrite Hd in HP. replace (pos s1 + (N - 16 + 1 - N)) with (pos s + (N - 15)) in HP by lia.
    destruct r as [[[o b]|]|[]]; cbn [read_sect0_post] in *; try exact HP.
    + destruct HP as (F1 & F2 & F3 & F4).
      replace (pos s + (N - 15) + (o - (off + (N - 16 + 1)))) with (pos s + (o - off)) in * by lia.
      split; [eapply first_magic_extend; [exact NM|lia|exact F1]|]. auto.
    + destruct HP as (F1 & F2). split; [lia|].
      intros E' j Hj. destruct (Z_lt_ge_dec j (pos s + (N - 15))); [apply NM; lia|].
      apply F2; [|lia]. now apply Hfull.
    + destruct HP as (k & F1 & F2 & F3). exists k. split; [|tauto].
      eapply first_magic_extend; [exact NM|lia|exact F1].
Qed.

Lemma read_sect0_spec : forall s, 0 <= pos s -> zlen (data s) < 2 ^ 63 ->
  exists r s', read_sect0 s = Ret (r, s') /\ data s' = data s /\
    (sched s = [] -> sched s' = []) /\
    read_sect0_post (data s) (pos s) (sched s = []) r (pos s').
Proof.
  intros s Hp Hl. unfold read_sect0.
  destruct (read_sect0_loop_spec (S (length (data s))) 0 s Hp Hl) as (r & s' & E & Hd & Hs & HP).
  { unfold zlen. lia. }
  exists r, s'. repeat split; auto.
  destruct r as [[[o b]|]|]; try exact HP. now rewrite Z.sub_0_r in HP.
Qed.

(** ** headers and payloads *)
Lemma read_checked_spec : forall n s, 0 < n -> 0 <= pos s ->
  exists r s', read_checked n s = Ret (r, s') /\ data s' = data s /\ (sched s = [] -> sched s' = []) /\
  match r with
  | Ok None => pos s' = pos s /\ zlen (data s) <= pos s
  | Ok (Some buf) => buf = octets (data s) (pos s) n /\ pos s + n <= zlen (data s) /\ pos s' = pos s + n
  | Err e => e = ReadErrorEof /\ pos s < pos s' <= zlen (data s) /\ (sched s = [] -> zlen (data s) < pos s + n)
  end.
Proof.
  intros n s Hn Hp. unfold read_checked, rbind, rread.
  destruct (read n s) as [buf s1] eqn:Er. cbn [bind].
  assert (H0 : 0 <= n) by lia.
  pose proof (read_spec n s buf s1 H0 Hp Er) as (Hd & Hps & Hl & Hln & Hin & Hnil & Hfull).
  pose proof (zlen_nonneg _ buf).
  destruct (Z.eqb_spec (zlen buf) 0) as [E|E].
  { exists (Ok None), s1. repeat split; auto; try (intros; now apply Hfull); try lia.
    assert (buf = []) by (destruct buf; [reflexivity|rewrite zlen_cons in E; pose proof (zlen_nonneg _ buf); lia]).
    specialize (Hnil H1). lia. }
  destruct Hin as [Hin|Hin]; [subst buf; rewrite zlen_nil in E; lia|].
  destruct (Z.eqb_spec (zlen buf) n) as [E'|E'].
  { exists (Ok (Some buf)), s1. rewrite E' in *. repeat split; auto; try (intros; now apply Hfull); try lia. }
  exists (Err ReadErrorEof), s1. repeat split; auto; try (intros; now apply Hfull); try lia.
Qed.

Lemma read_sect8_spec : forall s, 0 <= pos s ->
  exists r s', read_sect8 s = Ret (r, s') /\ data s' = data s /\ (sched s = [] -> sched s' = []) /\
  match r with
  | Ok None => pos s' = pos s /\ zlen (data s) <= pos s
  | Ok (Some _) => octets (data s) (pos s) 4 = end_magic /\ pos s + 4 <= zlen (data s) /\ pos s' = pos s + 4
  | Err e => pos s < pos s' <= zlen (data s) /\
      (sched s = [] -> pos s + 4 <= zlen (data s) -> octets (data s) (pos s) 4 <> end_magic) /\
      (sched s = [] -> e = if pos s + 4 <=? zlen (data s) then EndSectionMismatch else ReadErrorEof) /\
      (e = ReadErrorEof \/
       e = EndSectionMismatch /\ pos s + 4 <= zlen (data s) /\ octets (data s) (pos s) 4 <> end_magic)
  end.
Proof.
  intros s Hp. unfold read_sect8, rbind.
  destruct (read_checked_spec 4 s) as (r & s1 & -> & Hd & Hs & HP); [lia|lia|]. cbn [bind].
  destruct r as [[buf|]|e].
  - destruct HP as (H1 & H2 & H3). subst buf. destruct (bytes_eqb _ _) eqn:E.
    + apply bytes_eqb_spec in E. eexists _, _. split; [reflexivity|]. tauto.
    + apply bytes_eqb_false in E. eexists _, _. split; [reflexivity|].
      replace (pos s + 4 <=? zlen (data s)) with true by lia. repeat split; auto; lia.
  - eexists _, _. split; [reflexivity|]. tauto.
  - eexists _, _. split; [reflexivity|]. destruct HP as (H1 & H2 & H3). repeat split; auto; try lia.
    intros E. specialize (H3 E). replace (pos s + 4 <=? zlen (data s)) with false by lia. exact H1.
Qed.

Lemma read_sect_header_spec : forall s, 0 <= pos s ->
  exists r s', read_sect_header s = Ret (r, s') /\ data s' = data s /\ (sched s = [] -> sched s' = []) /\
  match r with
  | Ok None => pos s' = pos s /\ zlen (data s) <= pos s
  | Ok (Some h) => h = (be (octets (data s) (pos s) 4), be (octets (data s) (pos s + 4) 1)) /\
      pos s + 5 <= zlen (data s) /\ pos s' = pos s + 5
  | Err e => pos s < pos s' <= zlen (data s) /\ (sched s = [] -> zlen (data s) < pos s + 5) /\ e = ReadErrorEof
  end.
Proof.
  intros s Hp. unfold read_sect_header, rbind.
  destruct (read_checked_spec 5 s) as (r & s1 & -> & Hd & Hs & HP); [lia|lia|]. cbn [bind].
  destruct r as [[buf|]|e].
  - destruct HP as (H1 & H2 & H3).
    assert (L : zlen buf = 5) by (rewrite H1; apply zlen_octets; lia).
    unfold rpure, read_u32, read_be. rewrite slice_octets by lia. cbn [bind].
    destruct (index_octets buf 4) as (x & -> & _ & E); [lia|]. cbn [bind].
    eexists _, _. split; [reflexivity|]. rewrite E, H1. change (0 + 4 - 0) with 4.
    rewrite !octets_octets by lia. rewrite Z.add_0_r. tauto.
  - eexists _, _. split; [reflexivity|]. tauto.
  - eexists _, _. split; [reflexivity|]. tauto.
Qed.

Lemma octet_range : forall d p, 0 <= be (octets d p 1) < 256.
Proof.
  intros d p. pose proof (be_range (octets d p 1)) as H.
  assert (L : zlen (octets d p 1) <= 1).
  { unfold octets, zlen. rewrite firstn_length. lia. }
  pose proof (zlen_nonneg _ (octets d p 1)).
  assert (256 ^ zlen (octets d p 1) <= 256 ^ 1) by (apply Z.pow_le_mono_r; lia). lia.
Qed.

Lemma octets_be_range : forall d p n, 0 <= n -> 0 <= be (octets d p n) < 256 ^ n.
Proof.
  intros d p n Hn. pose proof (be_range (octets d p n)) as H.
  assert (L : zlen (octets d p n) <= n).
  { unfold octets, zlen. rewrite firstn_length. lia. }
  pose proof (zlen_nonneg _ (octets d p n)).
  assert (256 ^ zlen (octets d p n) <= 256 ^ n) by (apply Z.pow_le_mono_r; lia). lia.
Qed.

Lemma arith_U64_inv : forall m z r, arith m U64 z = Ret r ->
  r = z mod 2 ^ 64 /\ (m = Checked -> r = z /\ 0 <= z < 2 ^ 64).
Proof.
  intros m z r H. unfold arith in H. destruct (in_range U64 z) eqn:E.
  - injection H as <-. apply in_range_spec in E. autorewrite with mm in E. split; [|intros; split; auto; lia].
    rewrite Z.mod_small; lia.
  - destruct m; [discriminate|]. injection H as <-. split; [reflexivity|discriminate].
Qed.
Lemma arith_U64_W : forall z, arith Wrapping U64 z = Ret (z mod 2 ^ 64).
Proof.
  intros z. unfold arith. destruct (in_range U64 z) eqn:E; [|reflexivity].
  apply in_range_spec in E. autorewrite with mm in E. rewrite Z.mod_small; [reflexivity|lia].
Qed.
Lemma arith_U64_C : forall z, arith Checked U64 z = if (0 <=? z) && (z <? 2 ^ 64) then Ret z else Panic.
Proof.
  intros z. unfold arith, in_range. autorewrite with mm.
  replace ((0 <=? z) && (z <=? 18446744073709551615)) with ((0 <=? z) && (z <? 2 ^ 64)) by lia. reflexivity.
Qed.
Lemma arith_U64_ok : forall m z, 0 <= z < 2 ^ 64 -> arith m U64 z = Ret z.
Proof. intros. apply arith_ok. mlia. Qed.

Lemma read_slice_spec : forall n s, 0 <= n -> 0 <= pos s -> zlen (data s) < 2 ^ 63 ->
  exists sc, (sched s = [] -> sc = []) /\ read_slice n s =
    if n <=? 2 ^ 63 - 1 then
      if (n =? 0) || (pos s + n <=? zlen (data s))
      then Ret (Ok (octets (data s) (pos s) n), MkSrc (data s) (pos s + n) sc)
      else Ret (Err ReadErrorEof, MkSrc (data s) (Z.max (pos s) (zlen (data s))) sc)
    else Panic.
Proof.
  intros n s Hn Hp Hl. unfold read_slice, vec_alloc, rbind.
  destruct (n <=? 2 ^ 63 - 1); [|exists []; auto].
  unfold rret. cbn [bind]. apply read_exact_spec; lia.
Qed.

Lemma from_payload_spec : forall d off size num, 0 <= off -> 5 <= size -> off + size <= zlen d -> 1 <= num <= 5 ->
  match from_payload num (octets d (off + 5) (size - 5)) with
  | Ok b => body_at d off size num b
  | Err e => (forall b, ~ body_at d off size num b) /\ e = ReadErrorTooSmall (size - 5) /\ size - 5 < least num
  end.
Proof.
  intros d off size num Ho Hs Hf Hn. unfold from_payload, body_at.
  rewrite zlen_octets by lia. set (pl := octets d (off + 5) (size - 5)).
  assert (C : num = 1 \/ num = 2 \/ num = 3 \/ num = 4 \/ num = 5) by lia.
  destruct C as [->|[->|[->|[->| ->]]]]; try (destruct (Z.ltb_spec (size - 5) 16)); try (destruct (Z.ltb_spec (size - 5) 9));
    try (destruct (Z.ltb_spec (size - 5) 4)); try (destruct (Z.ltb_spec (size - 5) 6)); try lia;
    try (split; [lia|]; intuition lia);
    (split; [intros b (_ & Hb); intuition lia|]; split; [reflexivity|]; cbn [least]; lia).
Qed.

Definition payload_err (checked : Prop) (d : list byte) (off size num : Z) (e : parse_error) : Prop :=
  ((num = 0 \/ 7 < num) /\ (checked -> 5 <= size) /\ e = UnknownSectionNumber num) \/
  (1 <= num <= 5 /\ 5 <= size /\ zlen d < off + size /\ e = ReadErrorEof) \/
  (1 <= num <= 5 /\ 5 <= size /\ off + size <= zlen d /\ size - 5 < least num /\ e = ReadErrorTooSmall (size - 5)) \/
  (num = 6 /\ (zlen d < off + 6 /\ (checked -> 5 <= size) \/ 5 < size /\ zlen d < off + size) /\ e = ReadErrorEof).

(** [read_sect_payload] after a header at [off]. *)
Lemma read_sect_payload_spec : forall m size num s off,
  0 <= off -> pos s = off + 5 -> off + 5 <= zlen (data s) -> zlen (data s) < 2 ^ 63 ->
  0 <= size < 2 ^ 32 -> 0 <= num < 256 ->
  match read_sect_payload m (size, num) s with
  | Panic => (size < 5 /\ (m = Checked \/ 1 <= num <= 5 \/ num = 6 /\ off + 6 <= zlen (data s))) \/
             (size = 5 /\ num = 6 /\ off + 6 <= zlen (data s))
  | Diverge => False
  | Ret (Ok b, s') => data s' = data s /\ (sched s = [] -> sched s' = []) /\ body_at (data s) off size num b /\ pos s' = off + size /\
                      (m = Checked -> 5 <= size)
  | Ret (Err e, s') => data s' = data s /\ pos s <= pos s' /\ (forall b, ~ body_at (data s) off size num b) /\
      payload_err (m = Checked) (data s) off size num e
  end.
Proof.
  intros m size num s off Ho Hps Hfit Hlen Hsize Hnum.
  unfold read_sect_payload. unfold rbind at 1, rpure at 1.
  destruct (Z_lt_ge_dec size 5) as [Hsm|Hbig].
  - (* short sections *)
    destruct m; [rewrite arith_U64_C; replace ((0 <=? size - 5) && (size - 5 <? 2 ^ 64)) with false by lia; left; split; [exact Hsm|]; first [left; reflexivity|right; lia]|].
    rewrite arith_U64_W. cbn [bind].
    replace ((size - 5) mod 2 ^ 64) with (2 ^ 64 + (size - 5)) by lia.
    destruct ((1 <=? num) && (num <=? 5)) eqn:E15.
    { unfold rbind.
      destruct (read_slice_spec (2 ^ 64 + (size - 5)) s) as (sc & Hsc & ->); [lia|lia|lia|].
      replace (2 ^ 64 + (size - 5) <=? 2 ^ 63 - 1) with false by lia. left; split; [exact Hsm|]; first [left; reflexivity|right; lia]. }
    destruct (Z.eqb_spec num 6) as [->|N6].
    { unfold read_sect6_payload, rbind at 1.
      destruct (read_exact_spec 1 s) as (sc & Hsc & ->); [lia|lia|].
      destruct (Z.leb_spec (pos s + 1) (zlen (data s))).
      - replace ((1 =? 0) || true) with true by lia. cbn [bind]. unfold rbind at 1, rpure.
        rewrite arith_U64_W. cbn [bind].
        replace ((2 ^ 64 + (size - 5) - 1) mod 2 ^ 64) with (2 ^ 64 + (size - 6)) by lia.
        replace (0 <? 2 ^ 64 + (size - 6)) with true by lia.
        unfold rbind at 1. unfold rbind at 1.
        match goal with |- context [read_slice ?n ?s0] =>
          destruct (read_slice_spec n s0) as (sc' & Hsc' & ->); [lia|cbn [pos]; lia|cbn [data]; lia|] end.
        replace (2 ^ 64 + (size - 6) <=? 2 ^ 63 - 1) with false by lia. left; split; [exact Hsm|]; first [left; reflexivity|right; lia].
      - replace ((1 =? 0) || false) with false by lia. cbn [bind data pos].
        repeat split; auto; [lia| |].
        { intros b (Hb & Hb2). intuition lia. }
        do 3 right. split; [reflexivity|]. split; [|reflexivity]. left. split; [lia|]. discriminate. }
    destruct (Z.eqb_spec num 7) as [->|N7].
    { unfold skip_sect7_payload, rbind, seek_current, seek_to.
      replace (wrap I64 (2 ^ 64 + (size - 5))) with (size - 5).
      2:{ unfold wrap. change (is_signed I64) with true. change (bits_of I64) with 64. change (64 - 1) with 63.
          cbn zeta. cbn [andb]. destruct (Z.leb_spec (2 ^ 63) ((2 ^ 64 + (size - 5)) mod 2 ^ 64)); lia. }
      replace ((0 <=? pos s + (size - 5)) && (pos s + (size - 5) <? 2 ^ 64)) with true by lia.
      cbn [bind]. unfold rret. cbn [data pos sched]. repeat split; auto; try lia; [|discriminate].
      unfold body_at. repeat right. auto. }
    unfold rfail. repeat split; auto; [lia| |].
    { intros b (_ & Hb). intuition lia. }
    left. split; [lia|]. split; [discriminate|reflexivity].
  - rewrite arith_U64_ok by lia. cbn [bind].
    destruct ((1 <=? num) && (num <=? 5)) eqn:E15.
    { unfold rbind. destruct (read_slice_spec (size - 5) s) as (sc & Hsc & ->); [lia|lia|lia|].
      replace (size - 5 <=? 2 ^ 63 - 1) with true by lia.
      rewrite Hps.
      destruct (Z.leb_spec (off + size) (zlen (data s))).
      - replace ((size - 5 =? 0) || (off + 5 + (size - 5) <=? zlen (data s))) with true by lia.
        cbn [bind]. unfold rres. cbn [bind].
        pose proof (from_payload_spec (data s) off size num) as FP.
        destruct (from_payload num _) as [b|e]; cbn [data pos].
        { repeat split; auto; try lia; apply FP; lia. }
        destruct FP as (FP1 & FP2 & FP3); [lia..|]. repeat split; auto; [lia|].
        right. right. left. repeat split; auto; lia.
      - replace ((size - 5 =? 0) || (off + 5 + (size - 5) <=? zlen (data s))) with false by lia.
        cbn [bind data pos]. repeat split; auto; [lia| |].
        { intros b (Hb & _). lia. }
        right. left. repeat split; auto; lia. }
    destruct (Z.eqb_spec num 6) as [->|N6].
    { unfold read_sect6_payload, rbind at 1.
      destruct (read_exact_spec 1 s) as (sc & Hsc & ->); [lia|lia|].
      destruct (Z.leb_spec (pos s + 1) (zlen (data s))).
      2:{ replace ((1 =? 0) || false) with false by lia. cbn [bind data pos].
          repeat split; auto; [lia| |].
          { intros b (Hb1 & Hb2). intuition lia. }
          do 3 right. split; [reflexivity|]. split; [|reflexivity]. left. split; lia. }
      replace ((1 =? 0) || true) with true by lia. cbn [bind]. unfold rbind at 1, rpure at 1.
      destruct (Z.eq_dec size 5) as [->|H5].
      { destruct m.
        - rewrite arith_U64_C. replace ((0 <=? 5 - 5 - 1) && (5 - 5 - 1 <? 2 ^ 64)) with false by lia. right; repeat split; lia.
        - rewrite arith_U64_W. cbn [bind]. change ((5 - 5 - 1) mod 2 ^ 64) with (2 ^ 64 - 1).
          change (0 <? 2 ^ 64 - 1) with true. cbv iota.
          unfold rbind at 1. unfold rbind at 1.
          match goal with |- context [read_slice ?n ?s0] =>
            destruct (read_slice_spec n s0) as (sc' & Hsc' & ->); [lia|cbn [pos]; lia|cbn [data]; lia|] end.
          change (2 ^ 64 - 1 <=? 2 ^ 63 - 1) with false. right; repeat split; lia. }
      rewrite arith_U64_ok by lia. cbn [bind].
      set (s1 := MkSrc (data s) (pos s + 1) sc).
      assert (X : exists sc', (sched s = [] -> sc' = []) /\
        (if 0 <? size - 5 - 1 then do! _ := read_slice (size - 5 - 1) in rret tt else rret tt) s1 =
        if off + size <=? zlen (data s) then Ret (Ok tt, MkSrc (data s) (off + size) sc')
        else Ret (Err ReadErrorEof, MkSrc (data s) (Z.max (off + 6) (zlen (data s))) sc')).
      { destruct (Z.ltb_spec 0 (size - 5 - 1)) as [Hx|Hx].
        - unfold rbind. destruct (read_slice_spec (size - 5 - 1) s1) as (sc' & Hsc' & ->);
            [lia|unfold s1; cbn [pos]; lia|unfold s1; cbn [data]; lia|].
          exists sc'. split; [auto|]. replace (size - 5 - 1 <=? 2 ^ 63 - 1) with true by lia.
          unfold s1; cbn [data pos].
          destruct (Z.leb_spec (off + size) (zlen (data s))).
          + replace ((size - 5 - 1 =? 0) || (pos s + 1 + (size - 5 - 1) <=? zlen (data s))) with true by lia.
            cbn [bind]. unfold rret. do 3 f_equal. lia.
          + replace ((size - 5 - 1 =? 0) || (pos s + 1 + (size - 5 - 1) <=? zlen (data s))) with false by lia.
            cbn [bind]. do 3 f_equal. lia.
        - exists sc. split; [auto|]. replace (off + size <=? zlen (data s)) with true by lia.
          unfold rret, s1. do 3 f_equal. lia. }
      destruct X as (sc' & Hsc' & X).
      unfold rbind at 1. rewrite X.
      destruct (Z.leb_spec (off + size) (zlen (data s))) as [Hf|Hf]; cbn [bind].
      - unfold rbind at 1, rpure. rewrite Hps.
        assert (L1 : zlen (octets (data s) (off + 5) 1) = 1) by (apply zlen_octets; lia).
        destruct (index_octets (octets (data s) (off + 5) 1) 0) as (x & -> & _ & E); [lia|].
        cbn [bind]. unfold rret. cbn [data pos].
        rewrite octets_octets in E by lia. rewrite Z.add_0_r in E.
        repeat split; auto; try lia. do 5 right. left. rewrite E. repeat split. lia.
      - cbn [data pos]. repeat split; auto; [lia| |].
        { intros b (Hb & _). lia. }
        do 3 right. split; [reflexivity|]. split; [|reflexivity]. right. split; lia. }
    destruct (Z.eqb_spec num 7) as [->|N7].
    { unfold skip_sect7_payload, rbind, seek_current, seek_to.
      rewrite wrap_id by mlia.
      replace ((0 <=? pos s + (size - 5)) && (pos s + (size - 5) <? 2 ^ 64)) with true by lia.
      cbn [bind]. unfold rret. cbn [data pos sched]. repeat split; auto; try lia.
      unfold body_at. repeat right. auto. }
    unfold rfail. repeat split; auto; [lia| |].
    { intros b (_ & Hb). intuition lia. }
    left. split; [lia|]. split; [lia|reflexivity].
Qed.
