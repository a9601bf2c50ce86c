(** The section stream reports exactly the section table ([tiles]). *)
From Coq Require Import Lia ZifyBool ZifyNat.
From Verif Require Import Model.Base Model.Helpers Model.Errors Model.Sections Model.Reader.
From Verif Require Import Spec.ReaderS Proofs.BaseLemmas Proofs.ReaderP.
Ltac Zify.zify_post_hook ::= Z.div_mod_to_equations.

(** One entry of the table. *)
Inductive tile (strict : Prop) (d : list byte) : Z -> Z -> section -> Z -> Z -> Prop :=
| tile_0 : forall cur k discipline total,
    first_magic d cur k -> be (octets d (k + 7) 1) = 2 ->
    discipline = be (octets d (k + 6) 1) -> total = be (octets d (k + 8) 8) ->
    (strict -> 16 <= total /\ k + total < 2 ^ 64) ->
    tile strict d cur cur (MkSection 0 k 16 (Some (B0 discipline total))) (k + total) (k + 16)
| tile_8 : forall cur,
    cur + 4 <= zlen d -> octets d cur 4 = [x37; x37; x37; x37] ->
    tile strict d (cur + 4) cur (MkSection 8 cur 4 None) (cur + 4) (cur + 4)
| tile_n : forall endp cur size num b,
    endp <> cur -> endp <> cur + 4 -> cur + 5 <= zlen d ->
    size = be (octets d cur 4) -> num = be (octets d (cur + 4) 1) ->
    body_at d cur size num b -> (strict -> 5 <= size <= endp - cur) ->
    tile strict d endp cur (MkSection num cur size (Some b)) endp (cur + size).

Lemma tiles_cons : forall P d endp cur x l endp' cur' endp2 cur2,
  tile P d endp cur x endp' cur' -> tiles P d endp' cur' l endp2 cur2 -> tiles P d endp cur (x :: l) endp2 cur2.
Proof. intros P d endp cur x l endp' cur' endp2 cur2 H T. inversion H; subst; econstructor; eauto. Qed.

Lemma tiles_inv : forall P d endp cur x l endp2 cur2, tiles P d endp cur (x :: l) endp2 cur2 ->
  exists endp' cur', tile P d endp cur x endp' cur' /\ tiles P d endp' cur' l endp2 cur2.
Proof.
  intros P d endp cur x l endp2 cur2 H. inversion H; subst; eexists _, _; (split; [|eassumption]).
  - now constructor.
  - now constructor.
  - now constructor.
Qed.

Record Inv (m : mode) (d : list byte) (endp cur : Z) (s : sstate) : Prop := {
  I_data : data (st_src s) = d;
  I_len : zlen d < 2 ^ 63;
  I_pos : pos (st_src s) = cur;
  I_cur : 0 <= cur <= zlen d + 2 ^ 32;
  I_endp : 0 <= endp /\ endp - cur < 2 ^ 64;
  I_rest : rest s = (endp - cur) mod 2 ^ 64;
  I_whole : whole s = endp mod 2 ^ 64 \/ (whole s = 0 /\ rest s = 0);
  I_checked : m = Checked -> cur <= endp < 2 ^ 64
}.

(** What a call of [next] can do. *)
Lemma next_section_spec : forall m d endp cur s, Inv m d endp cur s ->
  match next_section m s with
  | Panic => crashes (m = Checked) d endp cur
  | Diverge => False
  | Ret (None, s') => data (st_src s') = d /\ cur <= pos (st_src s') /\ (sched (st_src s) = [] -> ends d endp cur)
  | Ret (Some (Err e), s') => data (st_src s') = d /\ cur < pos (st_src s') /\ cur < zlen d /\
      (sched (st_src s) = [] \/ e <> ReadErrorEof -> fails (m = Checked) d endp cur e)
  | Ret (Some (Ok x), s') =>
      exists endp' cur', Inv m d endp' cur' s' /\ tile (m = Checked) d endp cur x endp' cur' /\
        (sched (st_src s) = [] -> sched (st_src s') = [])
  end.
Proof.
  intros m d endp cur s [Hd Hlen Hp Hcur Hend Hrest Hwhole Hck].
  unfold next_section.
  destruct (Z.eqb_spec (rest s) 0) as [R0|R0].
  { (* section 0 *)
    assert (endp = cur) by lia. subst endp.
    unfold next_sect0.
    replace (if whole s =? 0 then pos (st_src s) else whole s) with cur
      by (destruct (Z.eqb_spec (whole s) 0); lia).
    destruct (read_sect0_spec (st_src s)) as (r & s' & -> & Hd' & Hsc & HP); [lia|rewrite Hd; lia|].
    cbn [bind]. rewrite Hd in *. rewrite Hp in HP.
    destruct r as [[[off b]|]|e]; cbn [read_sect0_post] in HP.
    - destruct HP as (FM & V & Hb & Hp').
      set (k := cur + off) in *. subst b.
      set (total := be (octets d (k + 8) 8)) in *.
      assert (Ht : 0 <= total < 2 ^ 64) by (apply (octets_be_range d (k + 8) 8); lia).
      destruct FM as (F1 & (M1 & M2 & M3) & F3).
      rewrite (arith_U64_ok m k) by lia. cbn [bind].
      destruct m.
      + rewrite !arith_U64_C.
        destruct ((0 <=? k + total) && (k + total <? 2 ^ 64)) eqn:E1; cbn [bind].
        2:{ apply (crash_total _ d cur cur k total); unfold first_magic, magic_at; auto. lia. }
        destruct ((0 <=? total - 16) && (total - 16 <? 2 ^ 64)) eqn:E2; cbn [bind].
        2:{ apply (crash_total _ d cur cur k total); unfold first_magic, magic_at; auto. lia. }
        exists (k + total), (k + 16). split; [|split; [|exact Hsc]].
        * constructor; cbn [st_src rest whole]; auto; try lia.
        * apply tile_0; unfold first_magic, magic_at; auto. lia.
      + rewrite !arith_U64_W. cbn [bind].
        exists (k + total), (k + 16). split; [|split; [|exact Hsc]].
        * constructor; cbn [st_src rest whole]; auto; try lia; try discriminate.
        * apply tile_0; unfold first_magic, magic_at; auto. discriminate.
    - cbn [st_src]. split; [exact Hd'|]. split; [lia|]. intros E. apply ends_between; [reflexivity|]. now apply HP.
    - cbn [st_src]. destruct e as [| | | |v| | | | | |]; try contradiction. destruct HP as (k & FM & V1 & V2 & Hp').
      pose proof FM as (F1 & (F2 & F3 & _) & _).
      split; [exact Hd'|]. split; [lia|]. split; [lia|]. intros _. eapply fails_version; eauto. }
  destruct (Z.eqb_spec (rest s) 4) as [R4|R4].
  { (* section 8 *)
    assert (endp = cur + 4) by lia. subst endp.
    unfold next_sect8.
    destruct (read_sect8_spec (st_src s)) as (r & s' & -> & Hd' & Hsc & HP); [lia|].
    cbn [bind]. rewrite Hd, ?Hp in *.
    destruct r as [[u|]|e].
    - destruct HP as (M & F & Hp').
      destruct Hwhole as [Hwhole|[_ ?]]; [|lia].
      rewrite (arith_U64_ok m (whole s - rest s)) by lia. cbn [bind].
      rewrite (arith_U64_ok m (rest s - 4)) by lia. cbn [bind].
      replace (whole s - rest s) with cur by lia.
      exists (cur + 4), (cur + 4). split; [|split; [|exact Hsc]].
      + constructor; cbn [st_src rest whole]; auto; try lia.
      + apply tile_8; auto.
    - cbn [st_src]. split; [exact Hd'|]. split; [lia|]. intros _. apply ends_inside; lia.
    - cbn [st_src]. split; [exact Hd'|]. split; [lia|]. split; [lia|]. intros [E|E]; destruct HP as (P1 & P2 & P3 & P4).
      2:{ destruct P4 as [?|(-> & P5 & P6)]; [congruence|]. apply fails_end; auto. }
      specialize (P2 E). specialize (P3 E). destruct (Z.leb_spec (cur + 4) (zlen d)); subst e;
        [apply fails_end|apply fails_end_cut]; auto; lia. }
  (* sections 1-7 *)
  assert (N0 : endp <> cur) by (intros ->; rewrite Z.sub_diag in Hrest; apply R0; exact Hrest).
  assert (N4 : endp <> cur + 4).
  { intros ->. apply R4. rewrite Hrest. replace (cur + 4 - cur) with 4 by lia. reflexivity. }
  unfold next_sect.
  destruct (read_sect_header_spec (st_src s)) as (r & s1 & -> & Hd1 & Hsc1 & HP); [lia|].
  cbn [bind]. rewrite Hd, ?Hp in *.
  destruct r as [[h|]|e]; cbn [st_src].
  2:{ split; [exact Hd1|]. split; [lia|]. intros _. apply ends_inside; lia. }
  2:{ split; [exact Hd1|]. split; [lia|]. split; [lia|]. intros E. destruct HP as (P1 & P2 & ->).
      destruct E as [E|E]; [|congruence]. apply fails_header_cut; auto. specialize (P2 E). lia. }
  destruct HP as (-> & F5 & Hp1).
  set (size := be (octets d cur 4)) in *. set (num := be (octets d (cur + 4) 1)) in *.
  destruct Hwhole as [Hwhole|[_ ?]]; [|lia].
  assert (Eo : arith m U64 (whole s - rest s) = Ret cur).
  { destruct m.
    - specialize (Hck eq_refl). rewrite arith_U64_ok by lia. f_equal. lia.
    - rewrite arith_U64_W. f_equal. rewrite Hwhole, Hrest.
      rewrite <- Zminus_mod. rewrite Z.mod_small; lia. }
  rewrite Eo. cbn [bind].
  assert (Hs : 0 <= size < 2 ^ 32) by (apply (octets_be_range d cur 4); lia).
  assert (Hn : 0 <= num < 256) by apply octet_range.
  pose proof (read_sect_payload_spec m size num s1 cur) as PS.
  rewrite Hd1 in PS. specialize (PS ltac:(lia) ltac:(lia) ltac:(lia) ltac:(lia) Hs Hn).
  destruct (read_sect_payload m (size, num) s1) as [[[b|e] s2]| |]; cbn [bind].
  - destruct PS as (Hd2 & Hsc2 & Hb & Hp2 & H5).
    destruct m.
    + rewrite arith_U64_C. specialize (H5 eq_refl). specialize (Hck eq_refl).
      destruct ((0 <=? rest s - size) && (rest s - size <? 2 ^ 64)) eqn:E; cbn [bind].
      2:{ eapply (crash_overrun _ d endp cur size num b); auto; lia. }
      exists endp, (cur + size). split; [|split].
      * constructor; cbn [st_src rest whole]; auto; lia.
      * apply tile_n; auto. lia.
      * cbn [st_src]. auto.
    + rewrite arith_U64_W. cbn [bind]. exists endp, (cur + size). split; [|split].
      * constructor; cbn [st_src rest whole]; auto; try lia; discriminate.
      * apply tile_n; auto. discriminate.
      * cbn [st_src]. auto.
  - cbn [st_src]. destruct PS as (Hd2 & Hp2 & _ & PE). split; [exact Hd2|]. split; [lia|]. split; [lia|]. intros _.
    destruct PE as [(Q1 & Q2 & ->)|[(Q1 & Q2 & Q3 & ->)|[(Q1 & Q2 & Q3 & Q4 & ->)|(Q1 & Q2 & ->)]]].
    + eapply (fails_number _ d endp cur size num); auto.
    + eapply (fails_cut _ d endp cur size num); auto.
    + eapply (fails_short _ d endp cur size num); auto.
    + eapply (fails_bitmap_cut _ d endp cur size num); auto.
  - destruct PS as [(Q1 & Q2)|(Q1 & Q2 & Q3)].
    + eapply (crash_size _ d endp cur size num); auto.
    + eapply (crash_bitmap _ d endp cur size num); auto.
  - exact PS.
Qed.

(** Conversely, a source that fills its buffers reports the next table entry. *)
Lemma next_section_complete : forall m d endp cur s x endp' cur', Inv m d endp cur s ->
  sched (st_src s) = [] -> tile (m = Checked) d endp cur x endp' cur' ->
  exists s', next_section m s = Ret (Some (Ok x), s') /\ Inv m d endp' cur' s' /\ sched (st_src s') = [].
Proof.
  intros m d endp cur s x endp' cur' HI Hsched HT.
  pose proof (next_section_spec m d endp cur s HI) as HS.
  destruct HI as [Hd Hlen Hp Hcur Hend Hrest Hwhole Hck].
  inversion HT; subst x.
  - subst endp endp' cur' cur0. rename discipline into dis.
    assert (R0 : rest s = 0) by (rewrite Hrest, Z.sub_diag; reflexivity).
    destruct H as (F1 & (M1 & M2 & M3) & F3).
    unfold next_section in *. rewrite R0 in *. cbv iota in *. change (0 =? 0) with true in *. cbv iota in *.
    unfold next_sect0 in *.
    replace (if whole s =? 0 then pos (st_src s) else whole s) with cur in *
      by (destruct (Z.eqb_spec (whole s) 0); lia).
    destruct (read_sect0_spec (st_src s)) as (r & s' & Er & Hd' & Hsc & HP); [lia|rewrite Hd; lia|].
    rewrite Er in *. cbn [bind] in *. rewrite Hd in *. rewrite Hp in HP.
    assert (UNIQ : forall k', first_magic d cur k' -> k' = k).
    { intros k' (G1 & G2 & G3).
      destruct (Z.lt_trichotomy k k') as [L|[L|L]]; [|lia|].
      - exfalso. apply (G3 k); [lia|]. unfold magic_at; auto.
      - exfalso. apply (F3 k'); [lia|]. exact G2. }
    destruct r as [[[off b]|]|e]; cbn [read_sect0_post] in HP.
    + destruct HP as (FM & V & Hb & Hp'). apply UNIQ in FM. rewrite FM in *. subst b.
      rewrite <- H1, <- H2 in *.
      assert (Ht : 0 <= total < 2 ^ 64) by (subst total; apply (octets_be_range d (k + 8) 8); lia).
      assert (A1 : arith m U64 (k + total) = Ret ((k + total) mod 2 ^ 64)).
      { destruct m; [|apply arith_U64_W]. rewrite arith_U64_ok by lia. f_equal. lia. }
      assert (A2 : arith m U64 (total - 16) = Ret ((total - 16) mod 2 ^ 64)).
      { destruct m; [|apply arith_U64_W]. rewrite arith_U64_ok by lia. f_equal. lia. }
      rewrite (arith_U64_ok m k) by lia. cbn [bind]. rewrite A1. cbn [bind]. rewrite A2. cbn [bind].
      eexists. split; [reflexivity|]. split; [|cbn [st_src]; auto].
      constructor; cbn [st_src rest whole]; auto; try lia.
    + exfalso. destruct HP as [_ HP]. apply (HP Hsched k); [lia|]. unfold magic_at; auto.
    + exfalso. destruct e; try contradiction. destruct HP as (k' & FM & V & Hv & _).
      apply UNIQ in FM. subst k'. lia.
  - subst endp endp' cur' cur0.
    assert (R4 : rest s = 4) by (rewrite Hrest; replace (cur + 4 - cur) with 4 by lia; reflexivity).
    unfold next_section. rewrite R4. change (4 =? 0) with false. change (4 =? 4) with true. cbv iota.
    unfold next_sect8.
    destruct (read_sect8_spec (st_src s)) as (r & s' & -> & Hd' & Hsc & HP); [lia|].
    cbn [bind]. rewrite Hd, ?Hp in *.
    destruct r as [[u|]|e].
    + destruct HP as (M & F & Hp').
      destruct Hwhole as [Hwhole|[_ ?]]; [|lia].
      rewrite (arith_U64_ok m (whole s - rest s)) by lia. cbn [bind].
      rewrite (arith_U64_ok m (rest s - 4)) by lia. cbn [bind].
      replace (whole s - rest s) with cur by lia.
      eexists. split; [reflexivity|]. split; [|cbn [st_src]; auto].
      constructor; cbn [st_src rest whole]; auto; try lia.
    + lia.
    + exfalso. destruct HP as (_ & HP & _). now apply HP.
  - subst endp0 endp' cur' cur0.
    assert (R0 : rest s <> 0) by lia. assert (R4 : rest s <> 4) by lia.
    unfold next_section.
    replace (rest s =? 0) with false by lia. replace (rest s =? 4) with false by lia. cbv iota.
    unfold next_sect.
    destruct (read_sect_header_spec (st_src s)) as (r & s1 & -> & Hd1 & Hsc1 & HP); [lia|].
    cbn [bind]. rewrite Hd, ?Hp in *.
    destruct r as [[h|]|e]; [|lia|specialize (proj1 (proj2 HP) Hsched); lia].
    destruct HP as (-> & F5 & Hp1). rewrite <- H2, <- H3.
    destruct Hwhole as [Hwhole|[_ ?]]; [|lia].
    assert (Eo : arith m U64 (whole s - rest s) = Ret cur).
    { destruct m.
      - specialize (Hck eq_refl). rewrite arith_U64_ok by lia. f_equal. lia.
      - rewrite arith_U64_W. f_equal. rewrite Hwhole, Hrest.
        rewrite <- Zminus_mod. rewrite Z.mod_small; lia. }
    rewrite Eo. cbn [bind].
    assert (Hs : 0 <= size < 2 ^ 32) by (subst size; apply (octets_be_range d cur 4); lia).
    assert (Hn : 0 <= num < 256) by (subst num; apply octet_range).
    pose proof (read_sect_payload_spec m size num s1 cur) as PS.
    rewrite Hd1 in PS. specialize (PS ltac:(lia) ltac:(lia) ltac:(lia) ltac:(lia) Hs Hn).
    destruct (read_sect_payload m (size, num) s1) as [[[b'|e] s2]| |]; cbn [bind].
    + destruct PS as (Hd2 & Hsc2 & Hb & Hp2 & H7).
      assert (b' = b).
      { destruct Hb as [_ Hb]. destruct H4 as [_ H4].
        intuition (subst; try lia; congruence). }
      subst b'.
      assert (A : arith m U64 (rest s - size) = Ret ((rest s - size) mod 2 ^ 64)).
      { destruct m; [|apply arith_U64_W]. specialize (H5 eq_refl). specialize (Hck eq_refl).
        rewrite arith_U64_ok by lia. f_equal. lia. }
      rewrite A. cbn [bind]. eexists. split; [reflexivity|]. split; [|cbn [st_src]; auto].
      constructor; cbn [st_src rest whole]; auto; try lia.
    + exfalso. destruct PS as (_ & _ & PS & _). now apply (PS b).
    + exfalso. destruct H4 as [_ H4]. destruct m; [specialize (H5 eq_refl)|]; intuition (try lia; discriminate).
    + contradiction.
Qed.

(** ** whole runs *)
Lemma Inv_start : forall m d p sc, zlen d < 2 ^ 63 -> 0 <= p <= zlen d ->
  Inv m d p p (MkSstate (MkSrc d p sc) 0 0).
Proof.
  intros m d p sc Hl Hp. constructor; cbn [st_src rest whole data pos]; auto; try lia.
Qed.

Lemma steps_tiles : forall m d l s it' endp cur, Inv m d endp cur s ->
  Steps (MkIter sstate s (next_section m)) (map Ok l) it' ->
  exists s' endp' cur', tiles (m = Checked) d endp cur l endp' cur' /\
    it' = MkIter sstate s' (next_section m) /\ Inv m d endp' cur' s' /\
    (sched (st_src s) = [] -> sched (st_src s') = []).
Proof.
  intros m d. induction l as [|x l IH]; intros s it' endp cur HI HS; cbn [map] in HS.
  - inversion HS; subst. exists s, endp, cur. split; [constructor|]. auto.
  - inversion HS as [|? it1 ? ? ? Hn HS']; subst.
    rewrite next_mk in Hn.
    pose proof (next_section_spec m d endp cur s HI) as SP.
    destruct (next_section m s) as [[[r|] s1]| |]; cbn [bind] in Hn; try discriminate.
    injection Hn as -> <-. destruct SP as (endp' & cur' & HI' & HT & Hsc).
    destruct (IH s1 it' endp' cur' HI' HS') as (s' & e2 & c2 & T & E & HI2 & Hsc2).
    exists s', e2, c2. split; [eapply tiles_cons; eauto|]. auto.
Qed.

Lemma tiles_steps : forall m d l s endp cur endp' cur', Inv m d endp cur s -> sched (st_src s) = [] ->
  tiles (m = Checked) d endp cur l endp' cur' ->
  exists s', Steps (MkIter sstate s (next_section m)) (map Ok l) (MkIter sstate s' (next_section m)) /\
    Inv m d endp' cur' s' /\ sched (st_src s') = [].
Proof.
  intros m d. induction l as [|x l IH]; intros s endp cur endp' cur' HI Hs HT; cbn [map].
  - inversion HT; subst. exists s. split; [constructor|]. auto.
  - apply tiles_inv in HT. destruct HT as (e1 & c1 & T1 & T2).
    destruct (next_section_complete m d endp cur s x e1 c1 HI Hs T1) as (s1 & E & HI1 & Hs1).
    destruct (IH s1 e1 c1 endp' cur' HI1 Hs1 T2) as (s' & HS & HR).
    exists s'. split; [|exact HR]. econstructor; [|exact HS]. rewrite next_mk, E. reflexivity.
Qed.

Lemma Run_prefix : forall A l l' (it : iter A) e, Run it (l ++ l') e ->
  exists it', Steps it l it' /\ Run it' l' e.
Proof. intros. now apply Run_split. Qed.

Lemma steps_crash : forall m d l s endp cur, Inv m d endp cur s ->
  Run (MkIter sstate s (next_section m)) (map Ok l) Crash ->
  exists endp' cur', tiles (m = Checked) d endp cur l endp' cur' /\ crashes (m = Checked) d endp' cur'.
Proof.
  intros m d l s endp cur HI HR.
  rewrite <- (app_nil_r (map Ok l)) in HR. apply Run_prefix in HR. destruct HR as (it' & HS & HR).
  destruct (steps_tiles m d l s it' endp cur HI HS) as (s' & e2 & c2 & T & -> & HI2 & _).
  exists e2, c2. split; [exact T|].
  inversion HR; subst. rewrite next_mk in H.
  pose proof (next_section_spec m d e2 c2 s' HI2) as SP.
  destruct (next_section m s') as [[[r|] s1]| |]; cbn [bind] in H; try discriminate. exact SP.
Qed.

(** ** schedules only truncate *)
Lemma steps_any_schedule : forall m d p sc l it', zlen d < 2 ^ 63 -> 0 <= p <= zlen d ->
  Steps (section_stream m (MkSrc d p sc)) (map Ok l) it' ->
  exists it2, Steps (section_stream m (MkSrc d p [])) (map Ok l) it2.
Proof.
  intros m d p sc l it' Hl Hp HS.
  destruct (steps_tiles m d l _ it' p p (Inv_start m d p sc Hl Hp) HS) as (s' & e2 & c2 & T & _).
  destruct (tiles_steps m d l _ p p e2 c2 (Inv_start m d p [] Hl Hp) eq_refl T) as (s2 & HS2 & _).
  eauto.
Qed.
